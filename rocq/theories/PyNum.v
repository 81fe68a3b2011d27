(* int(str), int(bytes, 16), str(int) and the integer format specs used by pynmeagps. *)
From Verif Require Export PyText.
Local Open Scope N_scope.

(* digits of n in base b, most significant first *)
(* used by str(), int() and f-strings, e.g. nmeahelpers.py:138, nmeamessage.py:737, 768 *)
Fixpoint digits_aux (fuel : nat) (b n : N) (acc : list N) : list N :=
  match fuel with
  | O => n :: acc                         (* unreachable with the fuel of N_digits *)
  | S f => if n <? b then n :: acc else digits_aux f b (n / b) (n mod b :: acc)
  end.
(* used by str(), int() and f-strings, e.g. nmeahelpers.py:138, nmeamessage.py:737, 768 *)
Definition N_digits (b n : N) : list N := digits_aux (S (N.size_nat n)) b n [].

(* value of a digit list *)
(* used by str(), int() and f-strings, e.g. nmeahelpers.py:138, nmeamessage.py:737, 768 *)
Definition digits_val (b : N) (l : list N) : N := fold_left (fun a d => a * b + d) l 0.

(* used by str(), int() and f-strings, e.g. nmeahelpers.py:138, nmeamessage.py:737, 768 *)
Definition dec_char (d : N) : N := 48 + d.
(* used by str(), int() and f-strings, e.g. nmeahelpers.py:138, nmeamessage.py:737, 768 *)
Definition hex_char (d : N) : N := if d <? 10 then 48 + d else 55 + d.      (* upper case *)
(* used by str(), int() and f-strings, e.g. nmeahelpers.py:138, nmeamessage.py:737, 768 *)
Definition hex_char_lower (d : N) : N := if d <? 10 then 48 + d else 87 + d.

(* f"{n:d}", f"{n:X}", f"{n:x}" for n >= 0 *)
(* used by str(), int() and f-strings, e.g. nmeahelpers.py:138, nmeamessage.py:737, 768 *)
Definition dec_of_N (n : N) : pystr := map dec_char (N_digits 10 n).
(* used by str(), int() and f-strings, e.g. nmeahelpers.py:138, nmeamessage.py:737, 768 *)
Definition hex_of_N (n : N) : pystr := map hex_char (N_digits 16 n).
(* used at nmeahelpers.py:508 *)
Definition hex_of_N_lower (n : N) : pystr := map hex_char_lower (N_digits 16 n).

(* sys.get_int_max_str_digits() of CPython 3.11 *)
Definition int_max_str_digits : N := 4300.

(* used by str(), int() and f-strings, e.g. nmeahelpers.py:138, nmeamessage.py:737, 768 *)
Definition lenN {A} (l : list A) : N := N.of_nat (length l).

(* str(z), f"{z}": ValueError beyond 4300 digits *)
(* used at nmeamessage.py:762-768 *)
Definition str_of_Z (z : Z) : result pystr :=
  let d := dec_of_N (Z.abs_N z) in
  if int_max_str_digits <? lenN d then Raise ValueError
  else Ok (if (z <? 0)%Z then 45 :: d else d).

(* f"{i:02d}" for i >= 0 *)
(* used at nmeamessage.py:217-283, 285-293 *)
Definition fmt_02d (i : N) : pystr := zfill 2 (dec_of_N i).
(* f"{n:02X}" for n >= 0 *)
(* used at nmeahelpers.py:138 *)
Definition fmt_02X (n : N) : pystr := zfill 2 (hex_of_N n).

(* -------------------------------------------------------------------- *)
(* the white space skipped by int() and float() after the translation below *)
(* int() and float() of a text as used at nmeamessage.py:732-737, socketwrapper.py:165 *)
Definition c_isspace (c : N) : bool := ((9 <=? c) && (c <=? 13)) || (c =? 32).

(* _PyUnicode_TransformDecimalAndSpaceToASCII: Unicode white space becomes " ",
   Unicode decimal digits become ASCII digits; "?" marks anything else *)
(* int() and float() of a text as used at nmeamessage.py:732-737, socketwrapper.py:165 *)
Definition to_ascii_char (c : N) : N :=
  if c <? 127 then c
  else if chr_isspace c then 32
  else match decimal_val c with Some d => 48 + d | None => 63 end.
(* int() and float() of a text as used at nmeamessage.py:732-737, socketwrapper.py:165 *)
Definition to_ascii (s : pystr) : pystr := map to_ascii_char s.

(* int() and float() of a text as used at nmeamessage.py:732-737, socketwrapper.py:165 *)
Definition dec_digit (c : N) : option N :=
  if (48 <=? c) && (c <=? 57) then Some (c - 48) else None.
(* int() and float() of a text as used at nmeamessage.py:732-737, socketwrapper.py:165 *)
Definition hex_digit (c : N) : option N :=
  if (48 <=? c) && (c <=? 57) then Some (c - 48)
  else if (65 <=? c) && (c <=? 70) then Some (c - 55)
  else if (97 <=? c) && (c <=? 102) then Some (c - 87)
  else None.

(* digits separated by single underscores; [need] = a digit must come next *)
(* int() and float() of a text as used at nmeamessage.py:732-737, socketwrapper.py:165 *)
Fixpoint us_digits (dig : N -> option N) (need : bool) (s : pystr) : option (list N) :=
  match s with
  | [] => if need then None else Some []
  | c :: r =>
      if c =? 95 then (if need then None else us_digits dig true r)
      else match dig c with
           | Some d => match us_digits dig false r with
                       | Some l => Some (d :: l)
                       | None => None
                       end
           | None => None
           end
  end.

(* int() and float() of a text as used at nmeamessage.py:732-737, socketwrapper.py:165 *)
Definition split_sign (s : pystr) : bool * pystr :=
  match s with
  | c :: r => if c =? 45 then (true, r) else if c =? 43 then (false, r) else (false, s)
  | [] => (false, [])
  end.

(* int() and float() of a text as used at nmeamessage.py:732-737, socketwrapper.py:165 *)
Definition signed (neg : bool) (n : N) : Z := if neg then (- Z.of_N n)%Z else Z.of_N n.

(* int(s) for a str s *)
(* used at nmeamessage.py:737, nmeahelpers.py:462 *)
Definition int_of_str (s : pystr) : result Z :=
  let '(neg, r) := split_sign (strip_if c_isspace (to_ascii s)) in
  match us_digits dec_digit true r with
  | Some l => if int_max_str_digits <? lenN l then Raise ValueError
              else Ok (signed neg (digits_val 10 l))
  | None => Raise ValueError
  end.

(* int(b.strip(), 16) for bytes b (socketwrapper.py:165): optional sign, optional
   0x/0X prefix which may be followed by one underscore *)
Definition int16_of_bytes (b : bytes) : result Z :=
  let '(neg, r) := split_sign (strip_if c_isspace b) in
  let r1 := match r with
            | z :: x :: r' =>
                if (z =? 48) && ((x =? 120) || (x =? 88))
                then match r' with
                     | y :: r'' => if y =? 95 then r'' else r'
                     | [] => r'
                     end
                else r
            | _ => r
            end in
  match us_digits hex_digit true r1 with
  | Some l => Ok (signed neg (digits_val 16 l))
  | None => Raise ValueError
  end.
