(* CPython floats: IEEE 754 binary64 with round-half-even, on the standard
   library's executable SpecFloat.  Conversions from and to text are correctly
   rounded, as CPython's dtoa.c is. *)
From Coq Require Export SpecFloat.
From Verif Require Export PyNum.
Local Open Scope Z_scope.

(* Python float arithmetic as used at nmeahelpers.py:203-329, 523 *)
Definition fprec := 53%Z.
(* Python float arithmetic as used at nmeahelpers.py:203-329, 523 *)
Definition femax := 1024%Z.
(* Python float arithmetic as used at nmeahelpers.py:203-329, 523 *)
Definition fl := spec_float.

(* Python float arithmetic as used at nmeahelpers.py:203-329, 523 *)
Definition fadd := SFadd fprec femax.
(* Python float arithmetic as used at nmeahelpers.py:203-329, 523 *)
Definition fsub := SFsub fprec femax.
(* Python float arithmetic as used at nmeahelpers.py:203-329, 523 *)
Definition fmul := SFmul fprec femax.
(* Python float arithmetic as used at nmeahelpers.py:203-329, 523 *)
Definition fdiv := SFdiv fprec femax.
(* Python float arithmetic as used at nmeahelpers.py:203-329, 523 *)
Definition fabs (x : fl) : fl := SFabs x.
(* Python float arithmetic as used at nmeahelpers.py:203-329, 523 *)
Definition fopp (x : fl) : fl := SFopp x.
(* Python float arithmetic as used at nmeahelpers.py:203-329, 523 *)
Definition fltb := SFltb.
(* Python float arithmetic as used at nmeahelpers.py:203-329, 523 *)
Definition feqb := SFeqb.

(* Python float arithmetic as used at nmeahelpers.py:203-329, 523 *)
Definition fzero : fl := S754_zero false.
(* Python float arithmetic as used at nmeahelpers.py:203-329, 523 *)
Definition is_zero (x : fl) : bool := match x with S754_zero _ => true | _ => false end.
(* Python float arithmetic as used at nmeahelpers.py:203-329, 523 *)
Definition is_fin (x : fl) : bool :=
  match x with S754_zero _ | S754_finite _ _ _ => true | _ => false end.
(* Python float arithmetic as used at nmeahelpers.py:203-329, 523 *)
Definition sign_of (x : fl) : bool :=
  match x with
  | S754_zero s | S754_infinity s | S754_finite s _ _ => s
  | S754_nan => false
  end.

(* the float nearest to z * 2^e (infinite on overflow) *)
(* Python float arithmetic as used at nmeahelpers.py:203-329, 523 *)
Definition f_norm (z e : Z) : fl := binary_normalize fprec femax z e false.

(* int -> float conversion (PyLong_AsDouble): OverflowError if too large *)
(* int/float mixing as used at nmeahelpers.py:205, 523 *)
Definition f_of_Z (z : Z) : result fl :=
  match f_norm z 0 with
  | S754_infinity _ => Raise OverflowError
  | x => Ok x
  end.

(* the float nearest to (-1)^neg * m * 10^e *)
(* float literals and float() of a text *)
(* float literals and float(), nmeamessage.py:732 *)
Definition f_of_dec (neg : bool) (m : N) (e : Z) : fl :=
  match m with
  | N0 => S754_zero neg
  | Npos p =>
      if 0 <=? e then
        let z := Z.pos p * 10 ^ e in
        f_norm (if neg then - z else z) 0
      else
        let '(mz, ez, lz) := SFdiv_core_binary fprec femax (Z.pos p) 0 (10 ^ (- e)) 0 in
        binary_round_aux fprec femax neg mz ez lz
  end.

(* -------------------------------------------------------------------- *)
(* float(s) *)

(* float() as used at nmeamessage.py:732, nmeahelpers.py:287-288, 328 *)
Definition lower_ascii (c : N) : N := if ((65 <=? c) && (c <=? 90))%N then (c + 32)%N else c.

(* digits [. digits] with at least one digit; returns integer part digits,
   fraction digits and the rest *)
(* float() as used at nmeamessage.py:732, nmeahelpers.py:287-288, 328 *)
Fixpoint take_digits (s : pystr) : list N * pystr :=
  match s with
  | [] => ([], [])
  | c :: r => match dec_digit c with
              | Some d => let '(l, r') := take_digits r in (d :: l, r')
              | None => ([], s)
              end
  end.

(* underscores are legal only between two digits (_Py_string_to_number_with_underscores) *)
(* float() as used at nmeamessage.py:732, nmeahelpers.py:287-288, 328 *)
Definition is_dig (c : N) : bool := match dec_digit c with Some _ => true | None => false end.
(* float() as used at nmeamessage.py:732, nmeahelpers.py:287-288, 328 *)
Fixpoint us_ok (prev_digit : bool) (s : pystr) : bool :=
  match s with
  | [] => true
  | c :: r =>
      if (c =? 95)%N then
        prev_digit && match r with d :: _ => is_dig d | [] => false end && us_ok false r
      else us_ok (is_dig c) r
  end.

(* float() as used at nmeamessage.py:732, nmeahelpers.py:287-288, 328 *)
Definition parse_exp (s : pystr) : option Z :=
  match s with
  | [] => Some 0
  | c :: r =>
      if ((c =? 101) || (c =? 69))%N then
        let '(neg, r1) := split_sign r in
        match take_digits r1 with
        | ((_ :: _) as l, []) => Some (signed neg (digits_val 10 l))
        | _ => None
        end
      else None
  end.

(* float() as used at nmeamessage.py:732, nmeahelpers.py:287-288, 328 *)
Definition parse_unsigned (neg : bool) (s : pystr) : option fl :=
  let low := map lower_ascii s in
  if str_eqb low (u "inf") || str_eqb low (u "infinity") then Some (S754_infinity neg)
  else if str_eqb low (u "nan") then Some S754_nan
  else
    let '(ip, r) := take_digits s in
    let '(fp, r2) := match r with
                     | c :: r' => if (c =? 46)%N then take_digits r' else ([], r)
                     | [] => ([], [])
                     end in
    match ip ++ fp with
    | [] => None
    | ds => match parse_exp r2 with
            | Some e => Some (f_of_dec neg (digits_val 10 ds) (e - Z.of_nat (length fp)))
            | None => None
            end
    end.

(* float() as used at nmeamessage.py:732, nmeahelpers.py:287-288, 328 *)
Definition float_of_str (s : pystr) : result fl :=
  let t := strip_if c_isspace (to_ascii s) in
  if us_ok false t then
    let '(neg, r) := split_sign (remove_char 95 t) in
    match parse_unsigned neg r with
    | Some x => Ok x
    | None => Raise ValueError
    end
  else Raise ValueError.

(* -------------------------------------------------------------------- *)
(* exact decimal rounding of |x| * 10^k to an integer *)

(* round half even of n / d (d > 0) *)
(* round() and :.nf as used at nmeahelpers.py:209-216, 242, 268, 289, 329 *)
Definition div_half_even (n d : Z) : Z :=
  let q := n / d in
  let r := n mod d in
  match (2 * r) ?= d with
  | Lt => q
  | Gt => q + 1
  | Eq => if Z.even q then q else q + 1
  end.

(* m * 2^e * 10^k as a fraction *)
(* round() and :.nf as used at nmeahelpers.py:209-216, 242, 268, 289, 329 *)
Definition scaled_frac (m : positive) (e k : Z) : Z * Z :=
  let num := Z.pos m * (if 0 <=? e then 2 ^ e else 1) * (if 0 <=? k then 10 ^ k else 1) in
  let den := (if 0 <=? e then 1 else 2 ^ (- e)) * (if 0 <=? k then 1 else 10 ^ (- k)) in
  (num, den).

(* round() and :.nf as used at nmeahelpers.py:209-216, 242, 268, 289, 329 *)
Definition scaled_round (m : positive) (e k : Z) : Z :=
  let '(n, d) := scaled_frac m e k in div_half_even n d.

(* n / 10^k in decimal notation with exactly k > 0 decimals *)
(* round() and :.nf as used at nmeahelpers.py:209-216, 242, 268, 289, 329 *)
Definition fixed_text (n : N) (k : nat) : pystr :=
  let d := zfill (S k) (dec_of_N n) in
  firstn (length d - k) d ++ [46%N] ++ skipn (length d - k) d.

(* f"{x:.kf}" *)
(* round() and :.nf as used at nmeahelpers.py:209-216, 242, 268, 289, 329 *)
Definition fmt_fixed (k : nat) (x : fl) : pystr :=
  let body :=
    match x with
    | S754_zero _ => fixed_text 0 k
    | S754_finite _ m e => fixed_text (Z.to_N (scaled_round m e (Z.of_nat k))) k
    | S754_infinity _ => u "inf"
    | S754_nan => u "nan"
    end in
  if sign_of x then 45%N :: body else body.

(* round(x, k) for k >= 0 *)
(* round() and :.nf as used at nmeahelpers.py:209-216, 242, 268, 289, 329 *)
Definition fround (k : nat) (x : fl) : fl :=
  match x with
  | S754_finite s m e => f_of_dec s (Z.to_N (scaled_round m e (Z.of_nat k))) (- Z.of_nat k)
  | _ => x
  end.

(* -------------------------------------------------------------------- *)
(* str(x) = repr(x): the shortest decimal that reads back as x, the closest to
   x among those *)

(* number of decimal digits of n >= 1 *)
(* str(float) as used at nmeamessage.py:766, nmeahelpers.py:242, 268, 649 *)
Definition ndigits (n : N) : Z := Z.of_nat (length (N_digits 10 n)).

(* decimal exponent p with 10^(p-1) <= m*2^e < 10^p *)
(* str(float) as used at nmeamessage.py:766, nmeahelpers.py:242, 268, 649 *)
Definition dec_point (m : positive) (e : Z) : Z :=
  let '(n, d) := scaled_frac m e 0 in
  if d <=? n then ndigits (Z.to_N (n / d))
  else (* value < 1: p = - (number of zeros after the point), found from ceil (d/n) *)
    let z := ndigits (Z.to_N ((d - 1) / n)) in  (* digits of ceil(d/n) - 1 *)
    1 - z.

(* str(float) as used at nmeamessage.py:766, nmeahelpers.py:242, 268, 649 *)
Definition same (x y : fl) : bool :=
  match x, y with
  | S754_zero s, S754_zero s' => Bool.eqb s s'
  | S754_infinity s, S754_infinity s' => Bool.eqb s s'
  | S754_finite s m e, S754_finite s' m' e' => Bool.eqb s s' && Pos.eqb m m' && (e =? e')
  | _, _ => false
  end.

(* candidates with n significant digits: the decimal below and above *)
(* str(float) as used at nmeamessage.py:766, nmeahelpers.py:242, 268, 649 *)
Definition cand (m : positive) (e p : Z) (n : Z) : option (N * Z) :=
  let k := n - p in
  let '(a, d) := scaled_frac m e k in
  let lo := Z.to_N (a / d) in
  let r := a mod d in
  let hi := if r =? 0 then lo else N.succ lo in
  let x := S754_finite false m e in
  let okl := same (f_of_dec false lo (- k)) x in
  let okh := same (f_of_dec false hi (- k)) x in
  if okl && okh then
    (match (2 * r) ?= d with
     | Lt => Some (lo, - k)
     | Gt => Some (hi, - k)
     | Eq => if N.even lo then Some (lo, - k) else Some (hi, - k)
     end)
  else if okl then Some (lo, - k)
  else if okh then Some (hi, - k)
  else None.

(* str(float) as used at nmeamessage.py:766, nmeahelpers.py:242, 268, 649 *)
Fixpoint shortest (fuel : nat) (m : positive) (e p n : Z) : option (N * Z) :=
  match fuel with
  | O => None
  | S f => match cand m e p n with
           | Some c => Some c
           | None => shortest f m e p (n + 1)
           end
  end.

(* drop trailing zeros of a digit list *)
(* str(float) as used at nmeamessage.py:766, nmeahelpers.py:242, 268, 649 *)
Definition strip_zeros (l : list N) : list N := rev (lstrip_if (N.eqb 0) (rev l)).

(* text of digits ds with decimal point position pt (value 0.ds * 10^pt):
   float_repr_style short, format code 'r' *)
(* str(float) as used at nmeamessage.py:766, nmeahelpers.py:242, 268, 649 *)
Definition repr_text (ds : list N) (pt : Z) : pystr :=
  let c := map dec_char ds in
  let n := Z.of_nat (length ds) in
  if (pt <=? -4) || (16 <? pt) then
    (* exponent notation *)
    let ex := pt - 1 in
    let mant := match c with
                | [] => []
                | d :: [] => [d]
                | d :: r => d :: 46%N :: r
                end in
    mant ++ [101%N; (if ex <? 0 then 45%N else 43%N)] ++ zfill 2 (dec_of_N (Z.abs_N ex))
  else if pt <=? 0 then u "0." ++ repeat 48%N (Z.to_nat (- pt)) ++ c
  else if n <=? pt then c ++ repeat 48%N (Z.to_nat (pt - n)) ++ u ".0"
  else firstn (Z.to_nat pt) c ++ [46%N] ++ skipn (Z.to_nat pt) c.

(* str(float) as used at nmeamessage.py:766, nmeahelpers.py:242, 268, 649 *)
Definition str_of_float (x : fl) : pystr :=
  match x with
  | S754_nan => u "nan"
  | S754_infinity s => if s then u "-inf" else u "inf"
  | S754_zero s => if s then u "-0.0" else u "0.0"
  | S754_finite s m e =>
      let p := dec_point m e in
      let body :=
        match shortest 17 m e p 1 with
        | Some (d, ex) =>
            let ds := N_digits 10 d in
            repr_text (strip_zeros ds) (ex + Z.of_nat (length ds))
        | None => u "?"                  (* unreachable: 17 digits always suffice *)
        end in
      if s then 45%N :: body else body
  end.

(* -------------------------------------------------------------------- *)
(* int(x): truncation *)
(* used at nmeahelpers.py:206, 242, 268, 779 *)
Definition int_of_float (x : fl) : result Z :=
  match x with
  | S754_nan => Raise ValueError
  | S754_infinity _ => Raise OverflowError
  | S754_zero _ => Ok 0
  | S754_finite s m e =>
      let a := if 0 <=? e then Z.pos m * 2 ^ e else Z.pos m / 2 ^ (- e) in
      Ok (if s then - a else a)
  end.

(* math.floor as a float *)
(* divmod() and % as used at nmeahelpers.py:205, 237, 262-263 *)
Definition ffloor (x : fl) : fl :=
  match x with
  | S754_finite s m e =>
      if 0 <=? e then x
      else let z := (if s then - Z.pos m else Z.pos m) / 2 ^ (- e) in
           binary_normalize fprec femax z 0 s
  | _ => x
  end.

(* C fmod(x, y) for finite y <> 0 *)
(* divmod() and % as used at nmeahelpers.py:205, 237, 262-263 *)
Definition ffmod (x y : fl) : fl :=
  match x, y with
  | S754_zero s, S754_finite _ _ _ => S754_zero s
  | S754_finite s m e, S754_finite _ m' e' =>
      let ee := Z.min e e' in
      let a := Z.pos m * 2 ^ (e - ee) in
      let b := Z.pos m' * 2 ^ (e' - ee) in
      let r := a mod b in
      binary_normalize fprec femax (if s then - r else r) ee s
  | _, _ => S754_nan
  end.

(* divmod() and % as used at nmeahelpers.py:205, 237, 262-263 *)
Definition fone : fl := f_norm 1 0.
(* divmod() and % as used at nmeahelpers.py:205, 237, 262-263 *)
Definition fhalf : fl := f_norm 1 (-1).
(* divmod() as used at nmeahelpers.py:205, 237, 262-263 *)
Definition copysign0 (x : fl) : fl := S754_zero (sign_of x).

(* divmod(x, y) for floats, y <> 0 (CPython floatobject.c _float_div_mod) *)
Definition fdivmod (x y : fl) : fl * fl :=
  let md := ffmod x y in
  let dv := fdiv (fsub x md) y in
  let '(md, dv) :=
    if is_zero md then (copysign0 y, dv)
    else if Bool.eqb (fltb y fzero) (fltb md fzero) then (md, dv)
    else (fadd md y, fsub dv fone) in
  if is_zero dv then (copysign0 (fdiv x y), md)
  else
    let fd := ffloor dv in
    ((if fltb fhalf (fsub dv fd) then fadd fd fone else fd), md).
