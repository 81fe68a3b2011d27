(* Specification of how a field text looks after it has been read and written again. *)
From Coq Require Import Reals.
From Verif Require Import PyBase PyFloat PyTime Spec TimeSpec CoordSpec FloatProofs ValueSpec.
Local Open Scope Z_scope.

(* decimal notation without superfluous zeros: digits on both sides of the point, at
   most 15 in all, and either zero or at least 0.0001 *)
Definition plain_decimal (ip fp : pystr) : Prop :=
  digit_text ip /\ digit_text fp /\ ip <> [] /\ fp <> [] /\ (length (ip ++ fp) <= 15)%nat
  /\ (hd 0%N ip = 48%N -> ip = u "0")
  /\ (last fp 0%N = 48%N -> fp = u "0")
  /\ (ip = u "0" -> firstn 4 fp <> u "0000").
(* the number such a text writes *)
Definition decimal_value (neg : bool) (ip fp : pystr) : R :=
  with_minusR neg (IZR (number (ip ++ fp)) / IZR (10 ^ Z.of_nat (length fp))).
Definition minus_sign (neg : bool) : pystr := if neg then u "-" else [].

(* hp: positions are written with 7 instead of 5 decimals of minutes *)
Inductive rewritten (hp : bool) : pystr -> pystr -> pystr -> Prop :=
| rw_empty ty : In ty field_types -> rewritten hp ty [] []
| rw_text ty f : In ty text_types -> rewritten hp ty f f
| rw_integer sg neg ds g :
    sign_mark sg neg -> digit_text ds -> (1 <= length ds <= 4300)%nat -> integer_text (with_minus neg (number ds)) g ->
    rewritten hp (u "IN") (sg ++ ds) g
| rw_whole sg neg ds ip fp :
    sign_mark sg neg -> digit_text ds -> ds <> [] -> plain_decimal ip fp ->
    with_minusR neg (IZR (number ds)) = decimal_value neg ip fp ->
    rewritten hp (u "DE") (sg ++ ds) (minus_sign neg ++ ip ++ u "." ++ fp)
| rw_decimal sg neg ip0 fp0 ip fp :
    sign_mark sg neg -> digit_text ip0 -> digit_text fp0 -> ip0 ++ fp0 <> [] -> plain_decimal ip fp ->
    decimal_value neg ip0 fp0 = decimal_value neg ip fp ->
    rewritten hp (u "DE") (sg ++ ip0 ++ u "." ++ fp0) (minus_sign neg ++ ip ++ u "." ++ fp)
| rw_time h m s :
    0 <= h < 24 -> 0 <= m < 60 -> 0 <= s < 60 ->
    rewritten hp (u "TM") (clock_text h m s) (clock_text h m s ++ u ".00")
| rw_time_decimals h m s w f :         (* cut to two decimals, or filled up with zeros *)
    0 <= h < 24 -> 0 <= m < 60 -> 0 <= s < 60 -> (1 <= w <= 6)%nat -> 0 <= f < 10 ^ Z.of_nat w ->
    rewritten hp (u "TM") (clock_text h m s ++ u "." ++ numeral_text w f)
      (clock_text h m s ++ u "." ++ firstn 2 (numeral_text w f ++ u "0"))
| rw_date ty d s : calendar_date d -> 1969 <= d_year d <= 2068 ->
    In (ty, s) [(u "DT", day_month_year d); (u "DM", month_day_year d)] -> rewritten hp ty s s
| rw_position ty w j z d m :           (* filled up with zeros *)
    In (ty, w) position_digits -> 0 <= d < 10 ^ Z.of_nat w -> 0 <= m < 60 * 10 ^ Z.of_nat j ->
    (j + z = if hp then 7 else 5)%nat ->
    rewritten hp ty (degrees_text w j d m) (degrees_text w j d m ++ repeat 48%N z).

(* field by field *)
Inductive all_rewritten (hp : bool) : list slot -> list pystr -> list pystr -> Prop :=
| ar_nil : all_rewritten hp [] [] []
| ar_cons k ty f g sl fields gs :
    rewritten hp ty f g -> all_rewritten hp sl fields gs ->
    all_rewritten hp ((k, ty) :: sl) (f :: fields) (g :: gs).
