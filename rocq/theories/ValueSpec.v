(* Specification of the text of a field and the value it stands for, by attribute
   type.  Nothing of the model's conversion functions is used; [nearest] is rounding to
   the nearest binary64 number (FloatProofs.v, in Flocq's terms). *)
From Coq Require Import Reals.
From Verif Require Import PyBase PyFloat PyTime Spec TimeSpec CoordSpec FloatProofs.
Local Open Scope Z_scope.

(* an optional sign *)
Inductive sign_mark : pystr -> bool -> Prop :=
| sign_none : sign_mark [] false
| sign_plus : sign_mark (u "+") false
| sign_minus : sign_mark (u "-") true.
Definition with_minus (neg : bool) (z : Z) : Z := if neg then - z else z.
Definition with_minusR (neg : bool) (r : R) : R := if neg then Ropp r else r.

(* "hhmmss" *)
Definition clock_text (h m s : Z) : pystr := numeral_text 2 h ++ numeral_text 2 m ++ numeral_text 2 s.
(* "ddmmyy", "mmddyy" *)
Definition day_month_year (d : date) : pystr :=
  numeral_text 2 (d_day d) ++ numeral_text 2 (d_month d) ++ numeral_text 2 (d_year d mod 100).
Definition month_day_year (d : date) : pystr :=
  numeral_text 2 (d_month d) ++ numeral_text 2 (d_day d) ++ numeral_text 2 (d_year d mod 100).
Definition day_month_long_year (d : date) : pystr :=
  numeral_text 2 (d_day d) ++ numeral_text 2 (d_month d) ++ numeral_text 4 (d_year d).

(* types a field can be read as (every type but DTL) *)
Definition field_types : list pystr :=
  [u "CH"; u "ST"; u "LAD"; u "LND"; u "QS"; u "HX"; u "IN"; u "DE"; u "TM"; u "DT"; u "DM"; u "LA"; u "LN"].

(* the text [f] of a field of type [ty] stands for the value [v] *)
Inductive stands_for : pystr -> pystr -> pyval -> Prop :=
| sf_empty ty : In ty field_types -> stands_for ty [] (VStr [])
| sf_text ty f : In ty text_types -> stands_for ty f (VStr f)
| sf_integer sg neg ds :
    sign_mark sg neg -> digit_text ds -> (1 <= length ds <= 4300)%nat ->
    stands_for (u "IN") (sg ++ ds) (VInt (with_minus neg (number ds)))
| sf_whole sg neg ds x :
    sign_mark sg neg -> digit_text ds -> ds <> [] ->
    nearest neg (with_minusR neg (IZR (number ds))) x ->
    stands_for (u "DE") (sg ++ ds) (VFloat x)
| sf_decimal sg neg ip fp x :
    sign_mark sg neg -> digit_text ip -> digit_text fp -> ip ++ fp <> [] ->
    nearest neg (with_minusR neg (IZR (number (ip ++ fp)) / IZR (10 ^ Z.of_nat (length fp)))) x ->
    stands_for (u "DE") (sg ++ ip ++ u "." ++ fp) (VFloat x)
| sf_time h m s :
    0 <= h < 24 -> 0 <= m < 60 -> 0 <= s < 60 ->
    stands_for (u "TM") (clock_text h m s) (VTime (mktime h m s 0))
| sf_time_decimals h m s w f :
    0 <= h < 24 -> 0 <= m < 60 -> 0 <= s < 60 -> (1 <= w <= 6)%nat -> 0 <= f < 10 ^ Z.of_nat w ->
    stands_for (u "TM") (clock_text h m s ++ u "." ++ numeral_text w f)
      (VTime (mktime h m s (f * 10 ^ (6 - Z.of_nat w))))
| sf_date d : calendar_date d -> 1969 <= d_year d <= 2068 -> stands_for (u "DT") (day_month_year d) (VDate d)
| sf_date_month d : calendar_date d -> 1969 <= d_year d <= 2068 -> stands_for (u "DM") (month_day_year d) (VDate d)
| sf_position ty dd mm ff y :
    In ty [u "LA"; u "LN"] -> digit_text dd -> digit_text mm -> digit_text ff ->
    (2 <= length dd)%nat -> length mm = 2%nat -> number dd <= 100000 ->
    fdata y -> (0 <= rval y)%R ->
    (Rabs (rval y - (IZR (number dd) + IZR (number (mm ++ ff)) / (60 * IZR (10 ^ Z.of_nat (length ff))))) <= / 10000000000)%R ->
    stands_for ty (dd ++ mm ++ u "." ++ ff) (VFloat y).

(* -------------------------------------------------------------- writing *)
(* the decimal numeral of an integer: no leading zero unless it is 0 *)
Definition integer_text (z : Z) (s : pystr) : Prop :=
  exists ds, digit_text ds /\ ds <> [] /\ number ds = Z.abs z /\ (hd 0%N ds = 48%N -> ds = [48%N])
    /\ s = (if z <? 0 then u "-" else []) ++ ds.

(* degrees as w digits, minutes as 2 digits and k decimals *)
Definition degrees_text (w k : nat) (degrees minutes : Z) : pystr :=
  numeral_text w degrees ++ numeral_text 2 (minutes / 10 ^ Z.of_nat k) ++ u "." ++ numeral_text k minutes.
Definition degrees_value (k : nat) (degrees minutes : Z) : R :=
  (IZR degrees + IZR minutes / (60 * IZR (10 ^ Z.of_nat k)))%R.
(* position type, digits of degrees *)
Definition position_digits : list (pystr * nat) := [(u "LA", 2%nat); (u "LN", 3%nat)].

(* "yyyy-mm-dd" as str() and isoformat() give it, and "yyyymmdd" *)
Definition iso_date (sep : pystr) (d : date) : pystr :=
  numeral_text 4 (d_year d) ++ sep ++ numeral_text 2 (d_month d) ++ sep ++ numeral_text 2 (d_day d).

(* the value [v] of a field of type [ty] is written as [s]; hp = 7 instead of 5 decimals
   of minutes *)
Inductive written_as (hp : bool) : pystr -> pyval -> pystr -> Prop :=
| wa_text ty s : In ty (u "DE" :: u "IN" :: text_types) -> written_as hp ty (VStr s) s
| wa_integer ty z s :
    In ty (u "DE" :: u "IN" :: text_types) -> Z.abs z < 10 ^ 4300 -> integer_text z s -> written_as hp ty (VInt z) s
| wa_time t : time_of_day t ->
    written_as hp (u "TM") (VTime t)
      (clock_text (t_hour t) (t_min t) (t_sec t) ++ u "." ++ numeral_text 2 (t_us t / 10000))
| wa_time_text hh mm r : ~ In 58%N (hh ++ mm ++ r) ->
    written_as hp (u "TM") (VStr (hh ++ u ":" ++ mm ++ u ":" ++ r)) (hh ++ mm ++ r)
| wa_date ty d s : calendar_date d ->
    In (ty, s) [(u "DT", day_month_year d); (u "DM", month_day_year d)] -> written_as hp ty (VDate d) s
| wa_long_date d : calendar_date d -> 1000 <= d_year d ->
    written_as hp (u "DTL") (VDate d) (day_month_long_year d)
| wa_date_text ty d sep s : calendar_date d -> In sep [[]; u "-"] ->
    In (ty, s) [(u "DT", day_month_year d); (u "DM", month_day_year d); (u "DTL", day_month_long_year d)] ->
    written_as hp ty (VStr (iso_date sep d)) s
| wa_no_date ty : In ty [u "DT"; u "DM"; u "DTL"; u "TM"] -> written_as hp ty (VStr []) []
| wa_position ty w x d m : In (ty, w) position_digits ->
    fdata x -> (Rabs (rval x) < IZR (10 ^ Z.of_nat w))%R ->
    0 <= d < 10 ^ Z.of_nat w -> 0 <= m <= 60 * 10 ^ (if hp then 7 else 5) ->
    (Rabs (degrees_value (if hp then 7%nat else 5%nat) d m - Rabs (rval x))
       <= / 2 / (60 * IZR (10 ^ (if hp then 7 else 5))) + / 1000000000000)%R ->
    written_as hp ty (VFloat x) (degrees_text w (if hp then 7%nat else 5%nat) d m)
| wa_whole_degrees ty w z : In (ty, w) position_digits -> Z.abs z < 10 ^ Z.of_nat w ->
    written_as hp ty (VInt z) (degrees_text w (if hp then 7%nat else 5%nat) (Z.abs z) 0)
| wa_no_position ty s : In ty [u "LA"; u "LN"] -> written_as hp ty (VStr s) [].

(* the Python type of an attribute value by field type; a field that says nothing is "" *)
Definition typed (ty : pystr) (v : pyval) : Prop :=
  v = VStr []
  \/ (In ty text_types /\ exists s, v = VStr s)
  \/ (ty = u "IN" /\ exists z, v = VInt z)
  \/ (In ty [u "DE"; u "LA"; u "LN"] /\ exists x, v = VFloat x)
  \/ (ty = u "TM" /\ exists t, v = VTime t /\ time_of_day t)
  \/ (In ty [u "DT"; u "DM"] /\ exists d, v = VDate d /\ calendar_date d).
(* printable ASCII characters that no integer, and no decimal, contains *)
Definition not_in_integers (c : N) : Prop := (33 <= c <= 126)%N /\ ~ In c (u "0123456789+-_").
Definition not_in_decimals (c : N) : Prop := (33 <= c <= 126)%N /\ ~ In c (u "0123456789+-_.eEinfINFtyTYaA").

(* keyword values for integer and decimal fields that can be read back *)
Definition number_value (ty : pystr) (v : pyval) : Prop :=
  (ty = u "IN" -> (exists z, v = VInt z) \/ exists s w, v = VStr s /\ stands_for ty s w)
  /\ (ty = u "DE" -> (exists z, v = VInt z) \/ (exists x, v = VFloat x /\ binary64 x) \/ exists s w, v = VStr s /\ stands_for ty s w).
