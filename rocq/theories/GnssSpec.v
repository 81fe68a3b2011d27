(* Specification vocabulary for GNSS time.  An instant is a number of
   microseconds since 0001-01-01T00:00:00Z. *)
From Verif Require Import Helpers TimeSpec.
Local Open Scope Z_scope.

Definition instant := Z.
(* the first and last instants a datetime can hold *)
Definition representable (t : instant) : Prop := 0 <= t <= dt_max.

(* the day after d *)
Definition next_day (d d' : date) : Prop :=
  exists n, month_length (d_year d) (d_month d) n /\
  ((d_day d < n /\ d' = mkdate (d_year d) (d_month d) (d_day d + 1))
   \/ (d_day d = n /\ d_month d < 12 /\ d' = mkdate (d_year d) (d_month d + 1) 1)
   \/ (d_day d = n /\ d_month d = 12 /\ d' = mkdate (d_year d + 1) 1 1)).

(* midnight UTC *)
Definition midnight (y m d : Z) : instant := dt_of (mkdate y m d).

(* TAI-UTC in seconds, from the IERS bulletins: in force from the given day *)
Definition tai_table : list (Z * Z * Z * Z) :=
  [ (1972, 1, 1, 10); (1972, 7, 1, 11); (1973, 1, 1, 12); (1974, 1, 1, 13); (1975, 1, 1, 14);
    (1976, 1, 1, 15); (1977, 1, 1, 16); (1978, 1, 1, 17); (1979, 1, 1, 18); (1980, 1, 1, 19);
    (1981, 7, 1, 20); (1982, 7, 1, 21); (1983, 7, 1, 22); (1985, 7, 1, 23); (1988, 1, 1, 24);
    (1990, 1, 1, 25); (1991, 1, 1, 26); (1992, 7, 1, 27); (1993, 7, 1, 28); (1994, 7, 1, 29);
    (1996, 1, 1, 30); (1997, 7, 1, 31); (1999, 1, 1, 32); (2006, 1, 1, 33); (2009, 1, 1, 34);
    (2012, 7, 1, 35); (2015, 7, 1, 36); (2017, 1, 1, 37) ].
(* the offset in force at t is that of the last day in the table not after t *)
Definition tai_utc (t : instant) (n : Z) : Prop :=
  exists y m d, In (y, m, d, n) tai_table /\ midnight y m d <= t /\
  forall y' m' d' n', In (y', m', d', n') tai_table -> midnight y' m' d' <= t -> midnight y' m' d' <= midnight y m d.

(* the time systems *)
Definition epoch (g : pystr) : instant :=
  if str_eqb g (u "C") then midnight 2006 1 1
  else if str_eqb g (u "E") || str_eqb g (u "I") then midnight 1999 8 22
  else midnight 1980 1 6.
Definition week_rollover (g : pystr) : Z :=
  if str_eqb g (u "C") then 8192 else if str_eqb g (u "E") then 4096 else 1024.
Definition week_us : Z := 604800000000.
(* leap seconds of a system at an instant from its epoch on; GLONASS follows UTC *)
Definition system_leap (g : pystr) (t : instant) (n : Z) : Prop :=
  if str_eqb g (u "R") then n = 0
  else exists a, tai_utc t a /\ n = a - (if str_eqb g (u "C") then 33 else 19).
