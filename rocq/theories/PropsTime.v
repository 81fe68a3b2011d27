(* Theorems about date and time text: C40-C42. *)
From Verif Require Import Helpers BaseLemmas NumLemmas TimeSpec TimeProofs.
Local Open Scope Z_scope.

(* ------------------------------------------------------------------ C40 *)
(* "hhmmss" *)
Definition hms (h m s : Z) : pystr := numeral_text 2 h ++ numeral_text 2 m ++ numeral_text 2 s.

Theorem C40_whole_seconds h m s :
  0 <= h < 24 -> 0 <= m < 60 -> 0 <= s < 60 -> time2utc (hms h m s) = VTime (mktime h m s 0).
Proof.
  intros Hh Hm Hs. unfold time2utc, hms. rewrite !app_length, !numeral_text_length. cbn [Nat.add Nat.eqb].
  pose proof (strptime_time_ok h m s 2 0 Hh Hm Hs ltac:(lia) ltac:(cbn; lia)) as H.
  change (u ".00") with ([46%N] ++ numeral_text 2 0). rewrite <- !app_assoc. rewrite H. reflexivity.
Qed.

(* "hhmmss.s" up to "hhmmss.ssssss": w decimals, standing for f / 10^w seconds *)
Theorem C40_decimals h m s w f :
  0 <= h < 24 -> 0 <= m < 60 -> 0 <= s < 60 -> (1 <= w <= 6)%nat -> 0 <= f < 10 ^ Z.of_nat w ->
  time2utc (hms h m s ++ u "." ++ numeral_text w f) = VTime (mktime h m s (f * 10 ^ (6 - Z.of_nat w))).
Proof.
  intros Hh Hm Hs Hw Hf. unfold time2utc, hms. rewrite !app_length, !numeral_text_length.
  replace (2 + (2 + 2) + (length (u ".") + w) =? 6)%nat with false
    by (symmetry; apply Nat.eqb_neq; change (length (u ".")) with 1%nat; lia).
  pose proof (strptime_time_ok h m s w f Hh Hm Hs Hw Hf) as H. change (u ".") with [46%N].
  rewrite <- !app_assoc. rewrite H. reflexivity.
Qed.

(* what time2str writes: the time to the hundredth, digits beyond dropped *)
Theorem C40_time2str t : time_of_day t ->
  time2str (VTime t) = hms (t_hour t) (t_min t) (t_sec t) ++ u "." ++ numeral_text 2 (t_us t / 10000).
Proof.
  intros (A & B & C & D). unfold time2str, strftime_time, hms.
  rewrite !(pad_numeral 2), (pad_numeral 6) by (cbn; lia).
  rewrite (numeral2 (t_hour t)), (numeral2 (t_min t)), (numeral2 (t_sec t)) by lia.
  change (u ".") with [46%N]. cbn [app firstn]. repeat f_equal.
  exact (firstn_numeral 2 4 (t_us t) (proj1 D)).
Qed.

(* a datetime is written by its time of day, a date as midnight, other values as "" *)
Theorem C40_other_values :
  (forall d t, time_of_day t ->
     time2str (VDateTime d t) = hms (t_hour t) (t_min t) (t_sec t) ++ u "." ++ numeral_text 2 (t_us t / 10000))
  /\ (forall d, time2str (VDate d) = u "000000.00")
  /\ (forall s, time2str (VStr s) = []) /\ (forall n, time2str (VInt n) = []) /\ (forall f, time2str (VFloat f) = [])
  /\ (forall b, time2str (VBool b) = []) /\ time2str VNone = [].
Proof. split; [intros d t H; exact (C40_time2str t H)|]. repeat split; reflexivity. Qed.
Theorem C40_round_trip t : time_of_day t ->
  time2utc (time2str (VTime t)) = VTime (mktime (t_hour t) (t_min t) (t_sec t) (t_us t / 10000 * 10000)).
Proof.
  intros H. rewrite C40_time2str by exact H. destruct H as (A & B & C & D).
  rewrite C40_decimals; try assumption; [reflexivity|lia|].
  change (10 ^ Z.of_nat 2) with 100. split; [apply Z.div_pos; lia|apply Z.div_lt_upper_bound; lia].
Qed.
(* the result is the nearest earlier hundredth of a second *)
Corollary C40_truncates t r : time_of_day t -> time2utc (time2str (VTime t)) = VTime r ->
  (t_hour r, t_min r, t_sec r) = (t_hour t, t_min t, t_sec t)
  /\ (exists c, t_us r = c * 10000) /\ 0 <= t_us t - t_us r < 10000.
Proof.
  intros H E. rewrite C40_round_trip in E by exact H. injection E as <-. cbn [t_hour t_min t_sec t_us].
  split; [reflexivity|]. split; [eexists; reflexivity|].
  pose proof (Z.div_mod (t_us t) 10000 ltac:(lia)). pose proof (Z.mod_pos_bound (t_us t) 10000 ltac:(lia)). lia.
Qed.
Example C40_example : time_of_day (mktime 23 59 59 999999)
  /\ time2utc (time2str (VTime (mktime 23 59 59 999999))) = VTime (mktime 23 59 59 990000)
  /\ time2utc (u "235959.999999") = VTime (mktime 23 59 59 999999) /\ hms 1 2 3 = u "010203".
Proof. split; [unfold time_of_day; cbn; lia|]. repeat split; vm_compute; reflexivity. Qed.

(* ------------------------------------------------------------------ C41 *)
Theorem C41_round_trip d : calendar_date d -> 1969 <= d_year d <= 2068 ->
  date2utc (date2str (VDate d) (u "DT")) (u "DT") = VDate d
  /\ date2utc (date2str (VDate d) (u "DM")) (u "DM") = VDate d.
Proof.
  intros C Y. unfold date2utc, date2str. change (dform_of (u "DT")) with FDT. change (dform_of (u "DM")) with FDM.
  rewrite !strptime_date_ok by (exact C || exact Y). split; reflexivity.
Qed.
Theorem C41_long d : calendar_date d -> 1000 <= d_year d ->
  date2utc (date2str (VDate d) (u "DTL")) (u "DTL") = VDate d.
Proof.
  intros C Y. unfold date2utc, date2str. change (dform_of (u "DTL")) with FDTL.
  rewrite strptime_date_ok; [reflexivity|exact C|]. cbn [years_of]. destruct C as [C _]. lia.
Qed.
(* the layout of the text *)
Theorem C41_text d : calendar_date d ->
  date2str (VDate d) (u "DT") = numeral_text 2 (d_day d) ++ numeral_text 2 (d_month d) ++ numeral_text 2 (d_year d mod 100)
  /\ date2str (VDate d) (u "DM") = numeral_text 2 (d_month d) ++ numeral_text 2 (d_day d) ++ numeral_text 2 (d_year d mod 100)
  /\ (1000 <= d_year d ->
      date2str (VDate d) (u "DTL") = numeral_text 2 (d_day d) ++ numeral_text 2 (d_month d) ++ numeral_text 4 (d_year d)).
Proof.
  intros C. destruct (calendar_ranges d C) as [Hm Hd]. unfold date2str, strftime_date.
  change (dform_of (u "DT")) with FDT. change (dform_of (u "DM")) with FDM. change (dform_of (u "DTL")) with FDTL.
  assert (0 <= d_year d mod 100 < 100) by (apply Z.mod_pos_bound; lia).
  rewrite !(pad_numeral 2) by (cbn; lia). repeat split. intros Y. rewrite dec_year; [reflexivity|]. destruct C as [C _]. lia.
Qed.
(* a datetime is written by its date, a time as 1 January 1900, other values as "" *)
Theorem C41_other_values form :
  (forall d t, date2str (VDateTime d t) form = date2str (VDate d) form)
  /\ (forall t, date2str (VTime t) form = date2str (VDate (mkdate 1900 1 1)) form)
  /\ (forall s, date2str (VStr s) form = []) /\ (forall n, date2str (VInt n) form = []) /\ (forall f, date2str (VFloat f) form = [])
  /\ (forall b, date2str (VBool b) form = []) /\ date2str VNone form = [].
Proof. repeat split; reflexivity. Qed.
(* outside these years the two digit forms give another date, and so can a year before 1000 *)
Theorem C41_other_years_refuted :
  date2utc (date2str (VDate (mkdate 1968 2 29)) (u "DT")) (u "DT") = VDate (mkdate 2068 2 29)
  /\ date2utc (date2str (VDate (mkdate 999 12 31)) (u "DTL")) (u "DTL") = VDate (mkdate 2999 1 31).
Proof. split; vm_compute; reflexivity. Qed.
Example C41_example : calendar_date (mkdate 2024 2 29) /\ calendar_date (mkdate 1969 1 1) /\ calendar_date (mkdate 2068 12 31)
  /\ date2str (VDate (mkdate 2024 2 29)) (u "DM") = u "022924".
Proof. split; [|split; [|split]]; try (apply valid_date_iff; reflexivity). vm_compute. reflexivity. Qed.

(* ------------------------------------------------------------------ C42 *)
Theorem C42_time s : (exists t, time2utc s = VTime t /\ time_of_day t) \/ time2utc s = VStr [].
Proof.
  unfold time2utc, strptime_time.
  destruct (re_match _ _) as [[|h [|m [|sec [|x [|f [|]]]]]]|]; try (right; reflexivity).
  destruct (valid_time _) eqn:V; [|right; reflexivity]. left. eexists. split; [reflexivity|]. apply valid_time_iff, V.
Qed.
Theorem C42_date s form : (exists d, date2utc s form = VDate d /\ calendar_date d) \/ date2utc s form = VStr [].
Proof.
  unfold date2utc, strptime_date.
  destruct (dform_of form); destruct (re_match _ _) as [[|a [|b [|c [|]]]]|]; try (right; reflexivity);
    (destruct (valid_date _) eqn:V; [|right; reflexivity]; left; eexists; (split; [reflexivity|]); apply valid_date_iff, V).
Qed.
Example C42_example : time2utc (u "246060") = VStr [] /\ time2utc (u "235960.5") = VStr []
  /\ date2utc (u "300224") (u "DT") = VStr [] /\ date2utc (u "290224") (u "DT") = VDate (mkdate 2024 2 29)
  /\ date2utc (u "290223") (u "DT") = VStr [].
Proof. repeat split; vm_compute; reflexivity. Qed.
