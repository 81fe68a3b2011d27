(* The spherical and ellipsoidal helpers of nmeahelpers.py in binary64, as
   CPython computes them: every + - * / and sqrt is the correctly rounded IEEE
   operation of PyFloat.v, in the order of the source.  The C library's sin,
   cos, asin, acos, atan2 and pow are an argument (record libm); what is
   assumed of them is stated in the theorems (FGeoSpec.v), nothing here.

   SIMPLIFICATION (whole file): the arguments are floats.  A Python int
   argument below 2^53 in absolute value is converted to the float of the same
   value by the first operation that meets it. *)
From Verif Require Import PyFloat.
Local Open Scope Z_scope.

(* the functions of the C library used through Python's math module and ** *)
Record libm := mklibm {
  l_sin : fl -> fl;
  l_cos : fl -> fl;
  l_asin : fl -> fl;
  l_acos : fl -> fl;
  l_atan2 : fl -> fl -> fl;      (* atan2(y, x) *)
  l_pow : fl -> fl -> fl         (* pow(x, y) *)
}.

(* the math module as used at nmeahelpers.py:82-123, 332-406, 466-493, 600-631, 670-698 *)
Definition is_nan (x : fl) : bool := match x with S754_nan => true | _ => false end.
(* the math module as used at nmeahelpers.py:82-123, 332-406, 466-493, 600-631, 670-698 *)
Definition is_inf (x : fl) : bool := match x with S754_infinity _ => true | _ => false end.

(* CPython mathmodule.c math_1 (can_overflow = 0): a nan made from a non-nan is
   a domain error, an infinity made from a finite argument too *)
Definition math1 (f : fl -> fl) (x : fl) : result fl :=
  let r := f x in
  if is_nan r && negb (is_nan x) then Raise ValueError
  else if is_inf r && is_fin x then Raise ValueError
  else Ok r.
(* C sqrt is the IEEE operation *)
(* math.sqrt as used at nmeahelpers.py:367-393, 626, 696 *)
Definition math_sqrt : fl -> result fl := math1 (SFsqrt fprec femax).
(* x ** 2, pow(x, 2): CPython floatobject.c float_pow for a finite positive
   exponent: OverflowError if the result overflows *)
Definition square (L : libm) (x : fl) : result fl :=
  let r := l_pow L x (f_norm 2 0) in
  if is_inf r && is_fin x then Raise OverflowError else Ok r.
(* x / y *)
(* Python / as used at nmeahelpers.py:102, 355-393, 620-629 *)
Definition fdivide (x y : fl) : result fl :=
  if is_zero y then Raise ZeroDivisionError else Ok (fdiv x y).
(* x % y for y <> 0: CPython floatobject.c float_rem *)
Definition frem (x y : fl) : fl := snd (fdivmod x y).

(* math.pi *)
(* nmeahelpers.py:101-102, 117-121, 405, 488, 619, 693 *)
Definition py_pi : fl := S754_finite false 7074237752028440 (-51).
(* nmeahelpers.py:101-102, 117-121, 405, 488, 619, 693 *)
Definition f180 : fl := f_norm 180 0.
(* nmeahelpers.py:101-102, 117-121, 405, 488, 619, 693 *)
Definition f360 : fl := f_norm 360 0.
(* nmeahelpers.py:101-102, 117-121, 405, 488, 619, 693 *)
Definition ftwo : fl := f_norm 2 0.
(* c * pi / 180 *)
(* nmeahelpers.py:101-102, 117-121, 405, 488, 619, 693 *)
Definition deg2rad (c : fl) : fl := fdiv (fmul c py_pi) f180.
(* c * 180 / pi *)
(* nmeahelpers.py:121, 405 *)
Definition rad2deg (c : fl) : fl := fdiv (fmul c f180) py_pi.

(* nmeatypes_core.py:82-84 *)
Definition f_SMAJ_AXIS : fl := f_norm 6378137 0.
(* nmeatypes_core.py:82-84 *)
Definition f_FLATTENING : fl := f_of_dec false 298257223563 (-9).
(* WGS84_SMAJ_AXIS / 1000, the default radius of area and haversine *)
(* nmeahelpers.py:87, 471 *)
Definition f_radius_km : fl := fdiv f_SMAJ_AXIS (f_norm 1000 0).

(* nmeahelpers.py:82-102 area *)
Definition farea (L : libm) (lat1 lon1 lat2 lon2 radius : fl) : result fl :=
  let phi1 := deg2rad lat1 in
  let phi2 := deg2rad lat2 in
  let! r2 := square L radius in
  let! s1 := math1 (l_sin L) phi1 in
  let! s2 := math1 (l_sin L) phi2 in
  Ok (fdiv (fmul (fmul (fmul r2 py_pi) (fabs (fsub s1 s2))) (fabs (fsub lon1 lon2))) f180).

(* nmeahelpers.py:105-123 bearing *)
Definition fbearing (L : libm) (lat1 lon1 lat2 lon2 : fl) : result fl :=
  let phi1 := deg2rad lat1 in
  let lambda1 := deg2rad lon1 in
  let phi2 := deg2rad lat2 in
  let lambda2 := deg2rad lon2 in
  let! sl := math1 (l_sin L) (fsub lambda2 lambda1) in
  let! c2 := math1 (l_cos L) phi2 in
  let y := fmul sl c2 in
  let! c1 := math1 (l_cos L) phi1 in
  let! s2 := math1 (l_sin L) phi2 in
  let! s1 := math1 (l_sin L) phi1 in
  let! cl := math1 (l_cos L) (fsub lambda2 lambda1) in
  let x := fsub (fmul c1 s2) (fmul (fmul s1 c2) cl) in
  let theta := l_atan2 L y x in
  Ok (frem (fadd (rad2deg theta) f360) f360).

(* nmeahelpers.py:466-493 haversine: the argument of acos ... *)
Definition fhav_cosine (L : libm) (lat1 lon1 lat2 lon2 : fl) : result fl :=
  let phi1 := deg2rad lat1 in
  let lambda1 := deg2rad lon1 in
  let phi2 := deg2rad lat2 in
  let lambda2 := deg2rad lon2 in
  let! cd := math1 (l_cos L) (fsub phi2 phi1) in
  let! c1 := math1 (l_cos L) phi1 in
  let! c2 := math1 (l_cos L) phi2 in
  let! cl := math1 (l_cos L) (fsub lambda2 lambda1) in
  Ok (fsub cd (fmul (fmul c1 c2) (fsub fone cl))).
(* ... and the function *)
(* nmeahelpers.py:466-493 *)
Definition fhaversine (L : libm) (lat1 lon1 lat2 lon2 radius : fl) : result fl :=
  let! c := fhav_cosine L lat1 lon1 lat2 lon2 in
  let! d := math1 (l_acos L) c in
  Ok (fmul radius d).

(* nmeahelpers.py:670-698 planar *)
Definition fplanar (L : libm) (lat1 lon1 lat2 lon2 radius : fl) : result fl :=
  let phi1 := deg2rad lat1 in
  let lambda1 := deg2rad lon1 in
  let phi2 := deg2rad lat2 in
  let lambda2 := deg2rad lon2 in
  let! c1 := math1 (l_cos L) phi1 in
  let dlambda := fmul (fsub lambda2 lambda1) c1 in
  let dphi := fsub phi2 phi1 in
  let! d := math_sqrt (fadd (fmul dlambda dlambda) (fmul dphi dphi)) in
  Ok (fmul radius d).

(* nmeahelpers.py:600-631 llh2ecef *)
Definition fllh2ecef (L : libm) (lat lon height a f : fl) : result (fl * fl * fl) :=
  let lat := deg2rad lat in
  let lon := deg2rad lon in
  let! f := fdivide fone f in
  let e2 := fmul f (fsub ftwo f) in
  let! a2 := square L a in
  let b2 := fmul a2 (fsub fone e2) in
  let! s := math1 (l_sin L) lat in
  let! ss := square L s in
  let! q := math_sqrt (fsub fone (fmul e2 ss)) in
  let! N := fdivide a q in
  let! cx := math1 (l_cos L) lat in
  let! co := math1 (l_cos L) lon in
  let x := fmul (fmul (fadd N height) cx) co in
  let! so := math1 (l_sin L) lon in
  let y := fmul (fmul (fadd N height) cx) so in
  let! ba := fdivide b2 a2 in
  let z := fmul (fadd (fmul ba N) height) s in
  Ok (x, y, z).

(* nmeahelpers.py:332-406 ecef2llh; fecef_tail is lines 389-406, the code after
   the two branches *)
Definition fecef_tail (L : libm) (a e2 a6 w zp z lat lon s c ss : fl) : result (fl * fl * fl) :=
  let g := fsub fone (fmul e2 ss) in
  let! sg := math_sqrt g in
  let! rg := fdivide a sg in
  let rf := fmul a6 rg in
  let u := fsub w (fmul rg c) in
  let v := fsub zp (fmul rf s) in
  let f := fadd (fmul c u) (fmul s v) in
  let m := fsub (fmul c v) (fmul s u) in
  let! rfg := fdivide rf g in
  let! p := fdivide m (fadd rfg f) in
  let lat := fadd lat p in
  let height := fadd f (fdiv (fmul m p) ftwo) in
  let lat := if fltb z fzero then fopp lat else lat in
  Ok (rad2deg lat, rad2deg lon, height).

(* nmeahelpers.py:332-406 *)
Definition fecef2llh (L : libm) (x y z a f : fl) : result (fl * fl * fl) :=
  let! f := fdivide fone f in
  let e2 := fmul f (fsub ftwo f) in
  let a1 := fmul a e2 in
  let a2 := fmul a1 a1 in
  let a3 := fdiv (fmul a1 e2) ftwo in
  let a4 := fmul (f_norm 5 (-1)) a2 in
  let a5 := fadd a1 a3 in
  let a6 := fsub fone e2 in
  let zp := fabs z in
  let w2 := fadd (fmul x x) (fmul y y) in
  let! w := math_sqrt w2 in
  let z2 := fmul z z in
  let r2 := fadd w2 z2 in
  let! r := math_sqrt r2 in
  if fltb r (f_norm 100000 0) then Ok (fzero, fzero, f_norm (-10000000) 0)
  else
    let lon := l_atan2 L y x in
    let! s2 := fdivide z2 r2 in
    let! c2 := fdivide w2 r2 in
    let! u := fdivide a2 r in
    let! a4r := fdivide a4 r in
    let v := fsub a3 a4r in
    if fltb (f_of_dec false 3 (-1)) c2 then
      let! zr := fdivide zp r in
      let! k := fdivide (fmul c2 (fadd (fadd a1 u) (fmul s2 v))) r in
      let s := fmul zr (fadd fone k) in
      let! lat := math1 (l_asin L) s in
      let ss := fmul s s in
      let! c := math_sqrt (fsub fone ss) in
      fecef_tail L a e2 a6 w zp z lat lon s c ss
    else
      let! wr := fdivide w r in
      let! k := fdivide (fmul s2 (fsub (fsub a5 u) (fmul c2 v))) r in
      let c := fmul wr (fsub fone k) in
      let! lat := math1 (l_acos L) c in
      let ss := fsub fone (fmul c c) in
      let! s := math_sqrt ss in
      fecef_tail L a e2 a6 w zp z lat lon s c ss.
