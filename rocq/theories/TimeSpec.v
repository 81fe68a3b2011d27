(* Specification vocabulary for times, dates and GNSS time. *)
From Verif Require Import Helpers.
Local Open Scope Z_scope.

(* z written with exactly w decimal digits *)
Fixpoint numeral_text (w : nat) (z : Z) : pystr :=
  match w with
  | O => []
  | S w' => numeral_text w' (z / 10) ++ [Z.to_N (48 + z mod 10)]
  end.

(* a time of day *)
Definition time_of_day (t : time) : Prop :=
  0 <= t_hour t < 24 /\ 0 <= t_min t < 60 /\ 0 <= t_sec t < 60 /\ 0 <= t_us t < 1000000.

(* the Gregorian calendar, years 1 to 9999 *)
Definition leap_year (y : Z) : Prop := (y mod 4 = 0 /\ y mod 100 <> 0) \/ y mod 400 = 0.
Definition month_length (y m : Z) (n : Z) : Prop :=
  (In m [1; 3; 5; 7; 8; 10; 12] /\ n = 31) \/ (In m [4; 6; 9; 11] /\ n = 30)
  \/ (m = 2 /\ ((leap_year y /\ n = 29) \/ (~ leap_year y /\ n = 28))).
Definition calendar_date (d : date) : Prop :=
  1 <= d_year d <= 9999 /\ exists n, month_length (d_year d) (d_month d) n /\ 1 <= d_day d <= n.
