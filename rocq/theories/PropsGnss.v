(* Theorems about leap seconds and GNSS week numbers: C43 - C46. *)
From Coq Require Import Reals Lia Lra.
From Flocq Require Import Core.
From Verif Require Import Helpers BaseLemmas TimeSpec TimeProofs GnssSpec FloatProofs GnssProofs.
Local Open Scope Z_scope.

(* ------------------------------------------------------------------ C43 *)
(* days are counted by the Gregorian calendar *)
Lemma month_length_fun y m n : month_length y m n -> days_before_month y (m + 1) - days_before_month y m = n \/ m = 12.
Proof.
  intros [[H ->]|[[H ->]|[-> [[L ->]|[L ->]]]]].
  - cbn [In] in H. decompose [or] H; try contradiction; subst m; unfold days_before_month; destruct (is_leap y); vm_compute; auto.
  - cbn [In] in H. decompose [or] H; try contradiction; subst m; unfold days_before_month; destruct (is_leap y); vm_compute; auto.
  - apply is_leap_iff in L. unfold days_before_month. rewrite L. left. reflexivity.
  - assert (is_leap y = false) as E by (destruct (is_leap y) eqn:E; [apply is_leap_iff in E; contradiction|reflexivity]).
    unfold days_before_month. rewrite E. left. reflexivity.
Qed.
Lemma leap_cases y : is_leap y = (((y / 4) * 4 =? y) && (negb ((y / 100) * 100 =? y) || ((y / 400) * 400 =? y))).
Proof.
  unfold is_leap. pose proof (Z.div_mod y 4 ltac:(lia)). pose proof (Z.div_mod y 100 ltac:(lia)). pose proof (Z.div_mod y 400 ltac:(lia)).
  pose proof (Z.mod_pos_bound y 4 ltac:(lia)). pose proof (Z.mod_pos_bound y 100 ltac:(lia)). pose proof (Z.mod_pos_bound y 400 ltac:(lia)).
  destruct (Z.eqb_spec (y mod 4) 0), (Z.eqb_spec (y mod 100) 0), (Z.eqb_spec (y mod 400) 0),
    (Z.eqb_spec (y / 4 * 4) y), (Z.eqb_spec (y / 100 * 100) y), (Z.eqb_spec (y / 400 * 400) y); cbn; try reflexivity; lia.
Qed.
Lemma year_days y : let f y := y * 365 + y / 4 - y / 100 + y / 400 in f y - f (y - 1) = 365 + (if is_leap y then 1 else 0).
Proof.
  cbn zeta. rewrite leap_cases.
  pose proof (Z.div_mod y 4 ltac:(lia)). pose proof (Z.mod_pos_bound y 4 ltac:(lia)).
  pose proof (Z.div_mod y 100 ltac:(lia)). pose proof (Z.mod_pos_bound y 100 ltac:(lia)).
  pose proof (Z.div_mod y 400 ltac:(lia)). pose proof (Z.mod_pos_bound y 400 ltac:(lia)).
  pose proof (Z.div_mod (y - 1) 4 ltac:(lia)). pose proof (Z.mod_pos_bound (y - 1) 4 ltac:(lia)).
  pose proof (Z.div_mod (y - 1) 100 ltac:(lia)). pose proof (Z.mod_pos_bound (y - 1) 100 ltac:(lia)).
  pose proof (Z.div_mod (y - 1) 400 ltac:(lia)). pose proof (Z.mod_pos_bound (y - 1) 400 ltac:(lia)).
  destruct (Z.eqb_spec (y / 4 * 4) y), (Z.eqb_spec (y / 100 * 100) y), (Z.eqb_spec (y / 400 * 400) y); cbn [andb orb negb]; lia.
Qed.
Theorem C43_calendar : toordinal (mkdate 1 1 1) = 1 /\
  forall d d', calendar_date d -> next_day d d' -> toordinal d' = toordinal d + 1.
Proof.
  split; [reflexivity|]. intros [y m d] d' (Y & n0 & M0 & _) (n & M & H). cbn [d_year d_month d_day] in *.
  destruct H as [[H ->]|[(H & Hm & ->)|(H & Hm & ->)]]; unfold toordinal; cbn [d_year d_month d_day].
  - lia.
  - destruct (month_length_fun y m n M) as [E|E]; [|lia].
    lia.
  - subst m d. pose proof (year_days y) as D. cbv beta zeta in D.
    assert (n = 31) as ->.
    { destruct M as [[_ ->]|[[H _]|[H _]]]; [reflexivity| |discriminate]. cbn [In] in H. decompose [or] H; try discriminate; contradiction. }
    replace (y + 1 - 1) with y by lia.
    replace (days_before_month (y + 1) 1) with 0 by (unfold days_before_month; reflexivity).
    assert (days_before_month y 12 = 334 + (if is_leap y then 1 else 0)) as -> by (unfold days_before_month; destruct (is_leap y); reflexivity).
    lia.
Qed.

Theorem C43_before t g : representable t -> t < midnight 1972 1 1 -> leapsecond t g = Ok 0.
Proof. intros R B. destruct (leapsecond_spec t g R) as [[_ H]|[H _]]; [exact H|lia]. Qed.
(* TAI-UTC at t minus TAI-UTC at the epoch of the system (33 s for BeiDou, 19 s for the others) *)
Theorem C43_value t g n n0 : representable t -> midnight 1972 1 1 <= t -> tai_utc t n ->
  tai_utc (if str_eqb g (u "C") then midnight 2006 1 1 else midnight 1980 1 6) n0 ->
  leapsecond t g = Ok (n - n0).
Proof.
  intros R B T T0. destruct (leapsecond_spec t g R) as [[H _]|(_ & n' & T' & ->)]; [lia|].
  rewrite (tai_unique _ _ _ T T'). do 2 f_equal. refine (tai_unique _ _ _ _ T0). clear.
  destruct (str_eqb g (u "C")).
  - destruct (leap_at_spec (midnight 2006 1 1)) as (n & E & T); [split; apply Z.leb_le; reflexivity|apply Z.leb_le; reflexivity|].
    assert (n = 33) as ->; [|exact T]. vm_compute in E. congruence.
  - destruct (leap_at_spec (midnight 1980 1 6)) as (n & E & T); [split; apply Z.leb_le; reflexivity|apply Z.leb_le; reflexivity|].
    assert (n = 19) as ->; [|exact T]. vm_compute in E. congruence.
Qed.
Theorem C43_defined t : representable t -> midnight 1972 1 1 <= t -> exists n, tai_utc t n.
Proof. intros R B. destruct (leap_at_spec t R B) as (n & _ & T). exists n. exact T. Qed.
Theorem C43_monotone t t' g a b : representable t -> representable t' -> midnight 1972 1 1 <= t <= t' ->
  leapsecond t g = Ok a -> leapsecond t' g = Ok b -> a <= b.
Proof.
  intros R R' B A A'. destruct (leapsecond_spec t g R) as [[H _]|(_ & n & T & E)]; [lia|].
  destruct (leapsecond_spec t' g R') as [[H _]|(_ & n' & T' & E')]; [lia|].
  assert (n <= n').
  { apply tai_utc_rows in T as (s & I & L & _). apply tai_utc_rows in T' as (s' & I' & L' & M'). apply (M' s n I). lia. }
  assert (a = n - (if str_eqb g (u "C") then 33 else 19)) by congruence.
  assert (b = n' - (if str_eqb g (u "C") then 33 else 19)) by congruence. lia.
Qed.
Theorem C43_beidou t a : representable t -> midnight 1972 1 1 <= t -> leapsecond t (u "G") = Ok a -> leapsecond t (u "C") = Ok (a - 14).
Proof.
  intros R B A. destruct (C43_defined t R B) as (n & T). destruct (leapsecond_spec t (u "G") R) as [[H _]|(_ & n1 & T1 & E1)]; [lia|].
  destruct (leapsecond_spec t (u "C") R) as [[H _]|(_ & n2 & T2 & E2)]; [lia|].
  rewrite E2. pose proof (tai_unique _ _ _ T1 T2). change (str_eqb (u "C") (u "C")) with true in *. change (str_eqb (u "G") (u "C")) with false in *.
  cbn match in *. f_equal. assert (a = n1 - 19) by congruence. lia.
Qed.
Example C43_example : leapsecond (midnight 2017 1 1) (u "G") = Ok 18 /\ leapsecond (midnight 2017 1 1 - 1) (u "G") = Ok 17
  /\ leapsecond (midnight 2017 1 1) (u "C") = Ok 4 /\ tai_utc (midnight 2017 1 1 - 1) 36.
Proof.
  split; [vm_compute; reflexivity|]. split; [vm_compute; reflexivity|]. split; [vm_compute; reflexivity|].
  exists 2015, 7, 1. split; [cbn [tai_table In]; tauto|]. split; [apply Z.leb_le; reflexivity|].
  intros y m d n H L. assert (forallb (fun r => let '(y, m, d, n) := r in (midnight 2017 1 1 <=? midnight y m d) || (midnight y m d <=? midnight 2015 7 1)) tai_table = true) as C by (vm_compute; reflexivity).
  rewrite forallb_forall in C. specialize (C _ H). cbn beta iota in C. lia.
Qed.

(* ------------------------------------------------------------------ C44 *)
Lemma mod_mod_mul a b c : 0 < b -> 0 < c -> (a mod (b * c)) mod b = a mod b.
Proof.
  intros B C. rewrite (Z.div_mod a (b * c)) at 2 by nia. replace (b * c * (a / (b * c)) + a mod (b * c)) with (a mod (b * c) + c * (a / (b * c)) * b) by ring.
  rewrite Z.mod_add by lia. reflexivity.
Qed.
Lemma mod_week a : (a mod week_us) mod 1000 = a mod 1000.
Proof. exact (mod_mod_mul a 1000 604800000 eq_refl eq_refl). Qed.
(* the exact time of week of the system, in microseconds and not reduced modulo the week *)
Definition week_time (g : pystr) (t : instant) (ls : Z) : Z := (t - epoch g) mod week_us + 1000000 * ls.

Lemma week_time_R g t ls : (IZR ((t - epoch g) mod week_us) / 1000 + 1000 * IZR ls = IZR (week_time g t ls) / 1000)%R.
Proof. unfold week_time. rewrite plus_IZR, mult_IZR. lra. Qed.
Lemma epoch_nonneg g : 0 <= epoch g.
Proof. destruct (epoch_vals g) as [[-> _]|[_ [-> | ->]]]; lia. Qed.

Theorem C44_week t g modwno : epoch g <= t -> representable t ->
  exists tow ls, utc2wnotow t g modwno =
      Ok (if modwno then ((t - epoch g) / week_us) mod week_rollover g else (t - epoch g) / week_us, tow, ls)
    /\ system_leap g t ls
    /\ 0 <= tow <= 604800000 + 1000 * ls
    /\ 1000 * tow - 100 <= week_time g t ls < 1000 * tow + 1100.
Proof.
  intros E R. pose proof (epoch_nonneg g) as E0. pose proof R as R'. unfold representable in R'. rewrite dt_max_val in R'.
  destruct (utc2wnotow_spec t g modwno 39 E R ltac:(lia) ltac:(lia)) as (n & d & S & Bn & U & D0 & D1 & _).
  exists (Zfloor d), n. split; [exact U|]. split; [exact S|].
  rewrite week_time_R in D1. change (bpow radix2 (39 - 53)) with (/ 16384)%R in D1. change (bpow radix2 (39 - 44)) with (/ 32)%R in D1.
  change (bpow radix2 (-24)) with (/ 16777216)%R in D1. apply Rabs_le_inv in D1.
  pose proof (Zfloor_lb d) as F1. pose proof (Zfloor_ub d) as F2. set (tow := Zfloor d) in *.
  assert (0 <= tow) as T0 by (apply (Zfloor_lub 0 d); exact D0).
  assert (week_time g t n < 604800000000 + 1000000 * n) as WB.
  { unfold week_time. pose proof (Z.mod_pos_bound (t - epoch g) week_us ltac:(unfold week_us; lia)). unfold week_us in *. lia. }
  assert (1000 * tow - 100 <= week_time g t n < 1000 * tow + 1100) as B.
  { split; [apply le_IZR|apply lt_IZR]; rewrite ?minus_IZR, ?plus_IZR, mult_IZR; lra. }
  split; [|exact B]. split; [exact T0|]. lia.
Qed.
Corollary C44_modular_week t g w tow ls : epoch g <= t -> representable t -> utc2wnotow t g true = Ok (w, tow, ls) -> 0 <= w < week_rollover g.
Proof.
  intros E R U. destruct (C44_week t g true E R) as (tow' & ls' & U' & _). cbn match in U'. rewrite U' in U.
  assert (w = ((t - epoch g) / week_us) mod week_rollover g) as -> by congruence. apply Z.mod_pos_bound.
  unfold week_rollover. destruct (str_eqb g (u "C")), (str_eqb g (u "E")); lia.
Qed.
(* in the first 136 years of a system the time of week is the whole milliseconds, or one less on an exact millisecond *)
Theorem C44_milliseconds t g modwno : epoch g <= t -> representable t -> t - epoch g <= 4293966000000000 ->
  exists w tow ls, utc2wnotow t g modwno = Ok (w, tow, ls)
    /\ (tow = week_time g t ls / 1000 \/ week_time g t ls = 1000 * (tow + 1)).
Proof.
  intros E R B. destruct (utc2wnotow_spec t g modwno 32 E R ltac:(lia) ltac:(lia)) as (n & d & S & Bn & U & D0 & D1 & _).
  eexists _, (Zfloor d), n. split; [exact U|].
  rewrite week_time_R in D1. change (bpow radix2 (32 - 53)) with (/ 2097152)%R in D1. change (bpow radix2 (32 - 44)) with (/ 4096)%R in D1.
  change (bpow radix2 (-24)) with (/ 16777216)%R in D1. apply Rabs_le_inv in D1.
  pose proof (Zfloor_lb d) as F1. pose proof (Zfloor_ub d) as F2. set (tow := Zfloor d) in *.
  assert (1000 * tow - 1 < week_time g t n < 1000 * tow + 1001) as X.
  { split; apply lt_IZR; rewrite ?minus_IZR, ?plus_IZR, mult_IZR; lra. }
  destruct (Z.eq_dec (week_time g t n) (1000 * tow + 1000)) as [Q|Q]; [right; lia|left]. apply Z.div_unique with (week_time g t n - 1000 * tow); lia.
Qed.
(* exact for whole seconds, and for whole milliseconds between 1099511628 and 2147482000 s after the epoch
   (for GPS: November 2014 to January 2048) *)
Definition exact_instant (g : pystr) (t : instant) : Prop :=
  (t - epoch g) mod 1000000 = 0 \/ ((t - epoch g) mod 1000 = 0 /\ 1099511628000000 <= t - epoch g <= 2147482000000000).
Theorem C44_exact t g modwno : epoch g <= t -> representable t -> exact_instant g t ->
  exists w tow ls, utc2wnotow t g modwno = Ok (w, tow, ls) /\ 1000 * tow = week_time g t ls.
Proof.
  intros E R X. pose proof (epoch_nonneg g) as E0. pose proof R as R'. unfold representable in R'. rewrite dt_max_val in R'.
  destruct (utc2wnotow_spec t g modwno 39 E R ltac:(lia) ltac:(lia)) as (n & d & S & Bn & U & D0 & _ & D2).
  assert ((t - epoch g) mod 1000 = 0) as M.
  { destruct X as [X|[X _]]; [|exact X]. rewrite <- (mod_mod_mul _ 1000 1000) by lia. change (1000 * 1000) with 1000000. rewrite X. reflexivity. }
  assert (milliseconds (t - epoch g) n = (IZR (t - epoch g) / 1000 + 1000 * IZR n)%R) as Q.
  { destruct X as [X|[_ X]]; [apply ms_exact_seconds; lia|apply ms_exact_recent; lia]. }
  specialize (D2 M Q). rewrite week_time_R in D2. eexists _, (Zfloor d), n. split; [exact U|].
  assert (week_time g t n mod 1000 = 0) as M2.
  { unfold week_time. rewrite Z.add_mod by lia. rewrite mod_week. rewrite M.
    replace (1000000 * n) with ((1000 * n) * 1000) by ring. rewrite Z.mod_mul by lia. reflexivity. }
  pose proof (Z.div_mod (week_time g t n) 1000 ltac:(lia)) as DM. rewrite M2 in DM.
  assert (d = IZR (week_time g t n / 1000)) as ->.
  { rewrite D2. rewrite DM at 1. rewrite plus_IZR, mult_IZR. lra. }
  rewrite Zfloor_IZR. lia.
Qed.
(* the time of week is not below a week in the last leap seconds of the week, and an exact millisecond can be lost *)
Theorem C44_range_refuted :
  utc2wnotow (midnight 2023 6 18 - 1000000) (u "G") true = Ok (2266 mod 1024, 604817000, 18)
  /\ utc2wnotow (midnight 2014 10 14 + 43200001000) (u "G") false = Ok (1814, 216016000, 16)
  /\ week_time (u "G") (midnight 2014 10 14 + 43200001000) 16 = 216016001000.
Proof. split; [vm_compute; reflexivity|]. split; [vm_compute; reflexivity|vm_compute; reflexivity]. Qed.
Example C44_example : epoch (u "G") <= midnight 2023 6 14 + 43200123000 /\ representable (midnight 2023 6 14 + 43200123000)
  /\ exact_instant (u "G") (midnight 2023 6 14 + 43200123000)
  /\ utc2wnotow (midnight 2023 6 14 + 43200123000) (u "G") true = Ok (218, 302418123, 18).
Proof.
  split; [apply Z.leb_le; reflexivity|]. split; [split; apply Z.leb_le; reflexivity|]. split; [|vm_compute; reflexivity].
  right. split; [reflexivity|]. split; apply Z.leb_le; reflexivity.
Qed.

(* ------------------------------------------------------------------ C45 *)
(* the way back, without rollover: epoch + weeks + time of week - leap seconds *)
Lemma wno_back w tow ls g now : representable (epoch g + w * week_us + (tow mod 604800000) * 1000) ->
  representable (epoch g + w * week_us + (tow mod 604800000) * 1000 - ls * 1000000) -> (str_eqb g (u "R") = true -> ls = 0) ->
  wnotow2utc w tow (Some ls) g false false now = Some (Ok (epoch g + w * week_us + (tow mod 604800000) * 1000 - ls * 1000000)).
Proof.
  intros R1 R2 G. unfold wnotow2utc. assert (exists f, wt_fuel g = S f) as (f & ->).
  { unfold wt_fuel. exists (Z.to_nat (dt_max / (gnss_rollover g * us_per_week) + 1)).
    pose proof (rollover_pos g). assert (0 <= dt_max / (gnss_rollover g * us_per_week)) by (apply Z.div_pos; [rewrite dt_max_val|]; lia). lia. }
  cbn [wt_loop negb]. unfold wt_candidate. cbn zeta. rewrite gnss_ep0_epoch. rewrite Z.mul_0_l, Z.add_0_r. change us_per_week with week_us.
  unfold dt_check at 1. unfold representable in R1.
  replace ((0 <=? _) && (_ <=? dt_max)) with true by (symmetry; apply andb_true_iff; split; apply Z.leb_le; apply R1). cbn [bind].
  change g_GLO with (u "R"). destruct (str_eqb g (u "R")) eqn:Eg.
  - rewrite (G eq_refl), Z.mul_0_l, Z.sub_0_r. reflexivity.
  - cbn [bind]. unfold dt_check. unfold representable in R2.
    replace ((0 <=? _) && (_ <=? dt_max)) with true by (symmetry; apply andb_true_iff; split; apply Z.leb_le; apply R2). reflexivity.
Qed.
(* a UTC time with millisecond resolution comes back, or comes back one millisecond early, outside the last
   leap seconds of a week; in those it comes back a week early *)
Theorem C45_round_trip t g now w tow ls : epoch g <= t -> t mod 1000 = 0 -> representable t -> representable (t + 1000000 * ls) ->
  utc2wnotow t g false = Ok (w, tow, ls) ->
  exists t', wnotow2utc w tow (Some ls) g false false now = Some (Ok t') /\
    (if tow <? 604800000 then t' = t \/ t' = t - 1000 else t' = t - week_us \/ t' = t - week_us - 1000).
Proof.
  intros E M R RL U. destruct (C44_week t g false E R) as (tow' & ls' & U' & S & T & B). cbn match in U'.
  assert (tow' = tow) as -> by congruence. assert (ls' = ls) as -> by congruence.
  assert (w = (t - epoch g) / week_us) as -> by congruence. clear U U'.
  pose proof (system_leap_range g t ls E S) as Bl. pose proof (epoch_nonneg g) as E0.
  assert (epoch g mod 1000 = 0) as ME by (destruct (epoch_vals g) as [[-> _]|[_ [-> | ->]]]; reflexivity).
  pose proof (Z.div_mod (t - epoch g) week_us ltac:(unfold week_us; lia)) as DM.
  pose proof (Z.mod_pos_bound (t - epoch g) week_us ltac:(unfold week_us; lia)) as MB.
  unfold week_time in *. set (q := (t - epoch g) / week_us) in *. set (r := (t - epoch g) mod week_us) in *.
  assert (0 <= q) as Q0 by (apply Z.div_pos; [lia|unfold week_us; lia]).
  assert (exists m, r + 1000000 * ls = 1000 * m) as (m & Em).
  { assert (r mod 1000 = 0) as Mr.
    { unfold r. rewrite mod_week. rewrite Zminus_mod, M, ME. reflexivity. }
    exists (r / 1000 + 1000 * ls). pose proof (Z.div_mod r 1000 ltac:(lia)). lia. }
  assert (tow = m \/ tow = m - 1) as TM by lia.
  assert (str_eqb g (u "R") = true -> ls = 0) as G.
  { intros Hg. unfold system_leap in S. rewrite Hg in S. exact S. }
  unfold representable in R, RL. unfold week_us in *.
  assert (62451561600000000 <= epoch g) as E2 by (destruct (epoch_vals g) as [[-> _]|[_ [-> | ->]]]; lia).
  destruct (Z.ltb_spec tow 604800000) as [L|L].
  - rewrite (wno_back q tow ls g now); unfold representable, week_us; rewrite ?(Z.mod_small tow) by lia; try lia; try exact G.
    eexists. split; [reflexivity|]. lia.
  - assert (tow mod 604800000 = tow - 604800000) as MT by (symmetry; apply Z.mod_unique with 1; lia).
    rewrite (wno_back q tow ls g now); unfold representable, week_us; rewrite ?MT; try lia; try exact G.
    eexists. split; [reflexivity|]. lia.
Qed.
(* exactly the same time for whole seconds, and for whole milliseconds in the years of C44_exact *)
Theorem C45_exact t g now w tow ls : epoch g <= t -> exact_instant g t -> representable t -> representable (t + 1000000 * ls) ->
  utc2wnotow t g false = Ok (w, tow, ls) -> tow < 604800000 ->
  wnotow2utc w tow (Some ls) g false false now = Some (Ok t).
Proof.
  intros E X R RL U L. destruct (C44_week t g false E R) as (tow' & ls' & U' & S & T & _). cbn match in U'.
  destruct (C44_exact t g false E R X) as (w2 & tow2 & ls2 & U2 & B).
  assert (tow2 = tow) as -> by congruence. assert (ls2 = ls) as -> by congruence.
  assert (tow' = tow) as -> by congruence. assert (ls' = ls) as -> by congruence.
  assert (w = (t - epoch g) / week_us) as -> by congruence. clear U U' U2.
  pose proof (system_leap_range g t ls E S) as Bl. pose proof (epoch_nonneg g) as E0.
  assert (str_eqb g (u "R") = true -> ls = 0) as G.
  { intros Hg. unfold system_leap in S. rewrite Hg in S. exact S. }
  pose proof (Z.div_mod (t - epoch g) week_us ltac:(unfold week_us; lia)) as DM. unfold week_time in B.
  pose proof (Z.mod_pos_bound (t - epoch g) week_us ltac:(unfold week_us; lia)) as MB.
  set (q := (t - epoch g) / week_us) in *. set (r := (t - epoch g) mod week_us) in *.
  assert (0 <= q) as Q0 by (apply Z.div_pos; [lia|unfold week_us; lia]).
  unfold representable, week_us in *.
  assert (62451561600000000 <= epoch g) as E2 by (destruct (epoch_vals g) as [[-> _]|[_ [-> | ->]]]; lia).
  rewrite (wno_back q tow ls g now); unfold representable, week_us; rewrite ?(Z.mod_small tow) by lia; try lia; try exact G.
  do 2 f_equal. lia.
Qed.
(* without an explicit offset the table is consulted at the system's time; the same result
   unless a leap second falls between the two *)
Theorem C45_default_leap t g now w tow ls : epoch g <= t -> exact_instant g t -> representable t -> representable (t + 1000000 * ls) ->
  utc2wnotow t g false = Ok (w, tow, ls) -> tow < 604800000 -> system_leap g (t + 1000000 * ls) ls ->
  wnotow2utc w tow None g false false now = Some (Ok t).
Proof.
  intros E X R RL U L SL. pose proof (C45_exact t g now w tow ls E X R RL U L) as W.
  unfold wnotow2utc in *. destruct (wt_fuel g) as [|f]; [discriminate|]. cbn [wt_loop negb] in *.
  destruct (C44_week t g false E R) as (tow' & ls' & U' & S & _). assert (ls' = ls) as -> by congruence.
  pose proof (system_leap_range g t ls E S) as Bl.
  unfold wt_candidate in *. cbn zeta in *. set (t0 := gnss_ep0 g + _ + _) in *. revert W. unfold dt_check at 1 3.
  destruct ((0 <=? t0) && (t0 <=? dt_max)) eqn:Bt; cbn [bind]; [|discriminate].
  assert (representable t0) as R0 by (unfold representable; lia).
  change g_GLO with (u "R"). unfold system_leap in SL. destruct (str_eqb g (u "R")) eqn:Eg; [tauto|]. cbn [bind].
  intros W. unfold dt_check in W. match type of W with context [if ?b then _ else _] => destruct b eqn:B2 end; [|discriminate W].
  assert (t0 = t + 1000000 * ls) as T0 by (assert (t0 - ls * 1000000 = t) by congruence; lia).
  destruct SL as (a & TA & EA). destruct (leapsecond_spec t0 g R0) as [[B _]|(_ & n & TN & ->)].
  { pose proof (epoch_1972 g). lia. }
  cbn [bind]. rewrite T0 in TN. rewrite (tai_unique _ _ _ TN TA), <- EA. unfold dt_check. rewrite B2. cbn beta iota. exact W.
Qed.
Theorem C45_exact_refuted now :
  (utc2wnotow (midnight 2014 10 14 + 43200001000) (u "G") false = Ok (1814, 216016000, 16)
   /\ wnotow2utc 1814 216016000 (Some 16) (u "G") false false now = Some (Ok (midnight 2014 10 14 + 43200000000)))
  /\ (utc2wnotow (midnight 2023 6 18 - 1000000) (u "G") false = Ok (2266, 604817000, 18)
   /\ wnotow2utc 2266 604817000 (Some 18) (u "G") false false now = Some (Ok (midnight 2023 6 11 - 1000000))).
Proof.
  split; (split; [vm_compute; reflexivity|]); rewrite wno_back; try (split; apply Z.leb_le; vm_compute; reflexivity); try discriminate; vm_compute; reflexivity.
Qed.
Example C45_example now : epoch (u "E") <= midnight 2023 6 14 + 43200123000 /\ exact_instant (u "E") (midnight 2023 6 14 + 43200000000)
  /\ utc2wnotow (midnight 2023 6 14 + 43200000000) (u "E") false = Ok (1242, 302418000, 18)
  /\ wnotow2utc 1242 302418000 (Some 18) (u "E") false false now = Some (Ok (midnight 2023 6 14 + 43200000000)).
Proof.
  split; [apply Z.leb_le; reflexivity|]. split; [left; reflexivity|]. split; [vm_compute; reflexivity|].
  rewrite wno_back; try (split; apply Z.leb_le; vm_compute; reflexivity); try discriminate; vm_compute; reflexivity.
Qed.

(* ------------------------------------------------------------------ C46 *)
(* leap seconds applied by default at an instant *)
Definition table_leap (g : pystr) (t : instant) (n : Z) : Prop :=
  if str_eqb g (u "R") then n = 0
  else (t < midnight 1972 1 1 /\ n = 0)
    \/ (midnight 1972 1 1 <= t /\ exists a, tai_utc t a /\ n = a - (if str_eqb g (u "C") then 33 else 19)).
(* the UTC instant of a week and time of week (ms) in a system; [ls] = explicit leap seconds *)
Definition week_instant (g : pystr) (ls : option Z) (w tow : Z) (t : instant) : Prop :=
  exists n, t = epoch g + w * week_us + 1000 * (tow mod 604800000) - 1000000 * n /\
  match ls with
  | Some l => n = if str_eqb g (u "R") then 0 else l
  | None => table_leap g (epoch g + w * week_us + 1000 * (tow mod 604800000)) n
  end.
Definition period (g : pystr) : Z := week_rollover g * week_us.

Lemma dt_check_ok x t : dt_check x = Ok t -> t = x /\ representable x.
Proof. unfold dt_check, representable. destruct ((0 <=? x) && (x <=? dt_max)) eqn:B; [|discriminate]. intros H. split; [congruence|lia]. Qed.
Lemma candidate_instant g ls w tow i t : wt_candidate g ls w (tow mod 604800000) i = Ok t ->
  week_instant g ls (w + i * week_rollover g) tow t /\ representable t.
Proof.
  unfold wt_candidate. cbn zeta. rewrite gnss_ep0_epoch, gnss_rollover_weeks. change us_per_week with week_us.
  set (t0 := epoch g + _ + _). destruct (dt_check t0) as [t1|] eqn:D; cbn [bind]; [|discriminate].
  apply dt_check_ok in D as [-> R0].
  assert (t0 = epoch g + (w + i * week_rollover g) * week_us + 1000 * (tow mod 604800000)) as ET by (unfold t0; ring).
  change g_GLO with (u "R"). unfold week_instant, table_leap. rewrite <- ET. clearbody t0. destruct (str_eqb g (u "R")) eqn:Eg.
  - intros H. assert (t = t0) as -> by congruence. split; [|exact R0]. exists 0. split; [lia|]. destruct ls; reflexivity.
  - destruct ls as [l|]; cbn [bind].
    + intros H. apply dt_check_ok in H as [-> R]. split; [|exact R]. exists l. split; [lia|reflexivity].
    + destruct (leapsecond_spec t0 g R0) as [[L ->]|(L & n & T & ->)]; cbn [bind]; intros H; apply dt_check_ok in H as [-> R]; (split; [|exact R]).
      * exists 0. split; [lia|left; split; [exact L|reflexivity]].
      * eexists. split; [|right; split; [exact L|exists n; split; [exact T|reflexivity]]]. lia.
Qed.
(* it always terminates, and only OverflowError can escape *)
Theorem C46_terminates wno tow ls g autoroll modwno now : exists r, wnotow2utc wno tow ls g autoroll modwno now = Some r
  /\ forall e, r = Raise e -> e = OverflowError.
Proof.
  destruct (wnotow2utc wno tow ls g autoroll modwno now) as [r|] eqn:E; [|exfalso; exact (wnotow2utc_some _ _ _ _ _ _ _ E)].
  exists r. split; [reflexivity|]. intros e ->. exact (wt_loop_raise _ _ _ _ _ _ _ _ _ E).
Qed.
(* without autoroll *)
Theorem C46_unrolled wno tow ls g modwno now t : wnotow2utc wno tow ls g false modwno now = Some (Ok t) ->
  week_instant g ls (if modwno then wno mod week_rollover g else wno) tow t.
Proof.
  unfold wnotow2utc. rewrite gnss_rollover_weeks. destruct (wt_fuel g) as [|f]; [discriminate|]. cbn [wt_loop negb].
  destruct (wt_candidate _ _ _ _ _) as [t'|] eqn:C; [|discriminate]. intros H. assert (t' = t) as -> by congruence.
  apply candidate_instant in C as [C _]. rewrite Z.mul_0_l, Z.add_0_r in C. exact C.
Qed.
(* with autoroll: the first of the instants one rollover period apart that is within one period of now or later *)
Theorem C46_rolled wno tow ls g modwno now t : wnotow2utc wno tow ls g true modwno now = Some (Ok t) ->
  let w := if modwno then wno mod week_rollover g else wno in
  exists i, 0 <= i /\ week_instant g ls (w + i * week_rollover g) tow t /\ now < t + period g
    /\ forall j, 0 <= j < i -> exists s, week_instant g ls (w + j * week_rollover g) tow s /\ s + period g <= now.
Proof.
  unfold wnotow2utc. rewrite gnss_rollover_weeks. cbn zeta. set (w := if modwno then _ else _). intros H. apply wt_loop_spec in H.
  destruct H as (i & I & C & N & P). rewrite gnss_rollover_weeks in N, P. change us_per_week with week_us in N, P.
  exists i. split; [exact I|]. split; [apply candidate_instant in C; apply C|]. split; [exact N|].
  intros j Hj. destruct (P j Hj) as (s & Cs & Ns). exists s. split; [apply candidate_instant in Cs; apply Cs|exact Ns].
Qed.
(* and it is not in the future if the first of them is not *)
Lemma table_leap_mono g t t' n n' : midnight 1972 1 1 <= t <= t' -> table_leap g t n -> table_leap g t' n' -> n <= n'.
Proof.
  intros B. unfold table_leap. destruct (str_eqb g (u "R")); [lia|].
  intros [[H _]|(_ & a & T & ->)]; [lia|]. intros [[H _]|(_ & a' & T' & ->)]; [lia|].
  apply tai_utc_rows in T as (s & I & L & _). apply tai_utc_rows in T' as (s' & I' & L' & M'). specialize (M' s a I ltac:(lia)). lia.
Qed.
Lemma week_instant_unique g ls w tow t t' : week_instant g ls w tow t -> week_instant g ls w tow t' -> t = t'.
Proof.
  intros (n & -> & N) (n' & -> & N'). assert (n = n') as ->; [|reflexivity]. destruct ls as [l|]; [congruence|].
  unfold table_leap in *. destruct (str_eqb g (u "R")); [congruence|]. set (t0 := _ + _ + _) in *.
  destruct N as [[L ->]|(L & a & T & ->)], N' as [[L' ->]|(L' & a' & T' & ->)]; try lia. rewrite (tai_unique _ _ _ T T'). reflexivity.
Qed.
Theorem C46_not_future wno tow ls g (modwno : bool) now t t0 :
  let w := if modwno then wno mod week_rollover g else wno in 0 <= w ->
  week_instant g ls w tow t0 -> t0 <= now ->
  wnotow2utc wno tow ls g true modwno now = Some (Ok t) -> t <= now.
Proof.
  cbn zeta. set (w := if modwno then _ else _). intros W T0 N H. apply C46_rolled in H. cbn zeta in H. fold w in H.
  destruct H as (i & I & C & _ & P). destruct (Z.eq_dec i 0) as [->|Hi].
  - rewrite Z.mul_0_l, Z.add_0_r in C. rewrite (week_instant_unique _ _ _ _ _ _ C T0). exact N.
  - destruct (P (i - 1) ltac:(lia)) as (s & (n & Es & Ns) & Ls). destruct C as (n' & Et & Nt).
    assert (0 <= week_rollover g) as RP by (unfold week_rollover; destruct (str_eqb g (u "C")), (str_eqb g (u "E")); lia).
    pose proof (Z.mod_pos_bound tow 604800000 ltac:(lia)) as TB.
    assert (n <= n') as NN.
    { destruct ls as [l|]; [lia|]. eapply table_leap_mono; [|exact Ns|exact Nt]. pose proof (epoch_1972 g). unfold week_us. nia. }
    unfold period in Ls. replace ((w + i * week_rollover g) * week_us) with ((w + (i - 1) * week_rollover g) * week_us + week_rollover g * week_us) in Et by ring.
    lia.
Qed.
Example C46_example :
  wnotow2utc 366 381600000 None (u "G") true true (midnight 2026 4 17) = Some (Ok (midnight 2026 4 16 + 35982000000))
  /\ wnotow2utc 366 381600000 None (u "G") false true (midnight 2026 4 17) = Some (Ok (midnight 1987 1 15 + 35996000000))
  /\ wnotow2utc 366 381600000 None (u "G") true true dt_max = Some (Raise OverflowError).
Proof. split; [vm_compute; reflexivity|]. split; [vm_compute; reflexivity|vm_compute; reflexivity]. Qed.
