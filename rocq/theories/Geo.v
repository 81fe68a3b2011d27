(* The spherical and ellipsoidal helpers of nmeahelpers.py over the real
   numbers.

   SIMPLIFICATION (whole file): Python computes these functions in binary64
   with the platform's libm; libm is outside any model of this repository, so
   here every arithmetic operation is the exact real one and sin, cos, atan,
   sqrt... are the exact functions.  Rounding, overflow, infinities, nan and
   signed zeros are not modelled.  What IS kept: the domain errors of math.sqrt,
   math.acos and math.asin (ValueError), ZeroDivisionError of "/", the branch
   structure, and the order of evaluation. *)
From Coq Require Import Reals.
From Flocq Require Import Core.Raux.
From Verif Require Import PyBase.
Open Scope R_scope.

(* math.sqrt: ValueError below 0 *)
(* the math module as used at nmeahelpers.py:367-393, 489, 626, 696 *)
Definition m_sqrt (x : R) : result R :=
  if Rlt_dec x 0 then Raise ValueError else Ok (sqrt x).

(* math.acos / math.asin: ValueError outside [-1, 1] *)
(* the math module as used at nmeahelpers.py:367-393, 489, 626, 696 *)
Definition m_acos (x : R) : result R :=
  if Rle_dec (-1) x then if Rle_dec x 1 then Ok (acos x) else Raise ValueError
  else Raise ValueError.
(* the math module as used at nmeahelpers.py:367-393, 489, 626, 696 *)
Definition m_asin (x : R) : result R :=
  if Rle_dec (-1) x then if Rle_dec x 1 then Ok (asin x) else Raise ValueError
  else Raise ValueError.

(* x / y : ZeroDivisionError for y = 0 *)
(* Python / as used at nmeahelpers.py:355-393, 620-629 *)
Definition m_div (x y : R) : result R :=
  if Req_EM_T y 0 then Raise ZeroDivisionError else Ok (x / y).

(* math.atan2(y, x), by the quadrants of the C standard.  SIMPLIFICATION: there
   is one zero, so atan2(0, x<0) is pi and atan2(0, 0) is 0. *)
(* math.atan2 as used at nmeahelpers.py:120, 377 *)
Definition m_atan2 (y x : R) : R :=
  if Rlt_dec 0 x then atan (y / x)
  else if Rlt_dec x 0 then
    if Rle_dec 0 y then atan (y / x) + PI else atan (y / x) - PI
  else if Rlt_dec 0 y then PI / 2
  else if Rlt_dec y 0 then - (PI / 2)
  else 0.

(* r % 360 (floored, as Python's %) *)
Definition m_mod360 (r : R) : R := r - 360 * IZR (Zfloor (r / 360)).

(* c * pi / 180 *)
(* nmeahelpers.py:101, 117, 488, 619, 693 *)
Definition to_rad (c : R) : R := c * PI / 180.

(* nmeatypes_core.py:82-84 *)
Definition WGS84_SMAJ_AXIS : R := 6378137.
(* nmeatypes_core.py:82-84 *)
Definition WGS84_FLATTENING : R := 298257223563 / 1000000000.

(* nmeahelpers.py:82-102 area; the default radius WGS84_SMAJ_AXIS / 1000 is an
   argument here *)
Definition area (lat1 lon1 lat2 lon2 radius : R) : R :=
  let phi1 := to_rad lat1 in
  let phi2 := to_rad lat2 in
  pow radius 2 * PI * Rabs (sin phi1 - sin phi2) * Rabs (lon1 - lon2) / 180.

(* nmeahelpers.py:105-123 bearing *)
Definition bearing (lat1 lon1 lat2 lon2 : R) : R :=
  let phi1 := to_rad lat1 in
  let lambda1 := to_rad lon1 in
  let phi2 := to_rad lat2 in
  let lambda2 := to_rad lon2 in
  let y := sin (lambda2 - lambda1) * cos phi2 in
  let x := cos phi1 * sin phi2 - sin phi1 * cos phi2 * cos (lambda2 - lambda1) in
  let theta := m_atan2 y x in
  m_mod360 (theta * 180 / PI + 360).

(* nmeahelpers.py:466-493 haversine *)
Definition haversine (lat1 lon1 lat2 lon2 radius : R) : result R :=
  let phi1 := to_rad lat1 in
  let lambda1 := to_rad lon1 in
  let phi2 := to_rad lat2 in
  let lambda2 := to_rad lon2 in
  let! d := m_acos (cos (phi2 - phi1)
                    - cos phi1 * cos phi2 * (1 - cos (lambda2 - lambda1))) in
  Ok (radius * d).

(* nmeahelpers.py:670-698 planar *)
Definition planar (lat1 lon1 lat2 lon2 radius : R) : result R :=
  let phi1 := to_rad lat1 in
  let lambda1 := to_rad lon1 in
  let phi2 := to_rad lat2 in
  let lambda2 := to_rad lon2 in
  let dlambda := (lambda2 - lambda1) * cos phi1 in
  let dphi := phi2 - phi1 in
  let! d := m_sqrt (dlambda * dlambda + dphi * dphi) in
  Ok (radius * d).

(* nmeahelpers.py:600-631 llh2ecef *)
Definition llh2ecef (lat lon height a f : R) : result (R * R * R) :=
  let lat := to_rad lat in
  let lon := to_rad lon in
  let! f := m_div 1 f in
  let e2 := f * (2 - f) in
  let a2 := a ^ 2 in
  let b2 := a2 * (1 - e2) in
  let! q := m_sqrt (1 - e2 * sin lat ^ 2) in
  let! N := m_div a q in
  let x := (N + height) * cos lat * cos lon in
  let y := (N + height) * cos lat * sin lon in
  let! ba := m_div b2 a2 in
  let z := (ba * N + height) * sin lat in
  Ok (x, y, z).

(* nmeahelpers.py:332-406 ecef2llh.  The tail after the latitude guess
   (lines 389-400) is ecef_tail: it is the same code for both branches. *)
Definition ecef_tail (a e2 a6 w zp z lat lon s c ss : R) : result (R * R * R) :=
  let g := 1 - e2 * ss in
  let! sg := m_sqrt g in
  let! rg := m_div a sg in
  let rf := a6 * rg in
  let u := w - rg * c in
  let v := zp - rf * s in
  let f := c * u + s * v in
  let m := c * v - s * u in
  let! rfg := m_div rf g in
  let! p := m_div m (rfg + f) in
  let lat := lat + p in
  let height := f + m * p / 2 in
  let lat := if Rlt_dec z 0 then - lat else lat in
  Ok (lat * 180 / PI, lon * 180 / PI, height).

(* nmeahelpers.py:332-406 *)
Definition ecef2llh (x y z a f : R) : result (R * R * R) :=
  let! f := m_div 1 f in
  let e2 := f * (2 - f) in
  let a1 := a * e2 in
  let a2 := a1 * a1 in
  let a3 := a1 * e2 / 2 in
  let a4 := 5 / 2 * a2 in
  let a5 := a1 + a3 in
  let a6 := 1 - e2 in
  let zp := Rabs z in
  let w2 := x * x + y * y in
  let! w := m_sqrt w2 in
  let z2 := z * z in
  let r2 := w2 + z2 in
  let! r := m_sqrt r2 in
  if Rlt_dec r 100000 then Ok (0, 0, -10000000)
  else
    let lon := m_atan2 y x in
    let! s2 := m_div z2 r2 in
    let! c2 := m_div w2 r2 in
    let! u := m_div a2 r in
    let! a4r := m_div a4 r in
    let v := a3 - a4r in
    if Rlt_dec (3 / 10) c2 then
      let! zr := m_div zp r in
      let! k := m_div (c2 * (a1 + u + s2 * v)) r in
      let s := zr * (1 + k) in
      let! lat := m_asin s in
      let ss := s * s in
      let! c := m_sqrt (1 - ss) in
      ecef_tail a e2 a6 w zp z lat lon s c ss
    else
      let! wr := m_div w r in
      let! k := m_div (s2 * (a5 - u - c2 * v)) r in
      let c := wr * (1 - k) in
      let! lat := m_acos c in
      let ss := 1 - c * c in
      let! s := m_sqrt ss in
      ecef_tail a e2 a6 w zp z lat lon s c ss.
