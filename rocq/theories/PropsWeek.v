(* Theorems about week numbers reduced modulo the rollover: C84. *)
From Verif Require Import Helpers BaseLemmas TimeSpec GnssSpec GnssProofs PropsGnss.
Local Open Scope Z_scope.

Lemma reach g ls now w tow t : forall n fuel i,
  (forall j, i <= j < i + Z.of_nat n -> exists s, wt_candidate g ls w tow j = Ok s
     /\ representable (s + period g) /\ s + period g <= now) ->
  wt_candidate g ls w tow (i + Z.of_nat n) = Ok t -> representable (t + period g) -> now < t + period g ->
  wt_loop fuel g ls true now w tow i = Some (Ok t) \/ wt_loop fuel g ls true now w tow i = None.
Proof.
  induction n as [|n IH]; intros fuel i P C R N; (destruct fuel as [|fuel]; [right; reflexivity|]); cbn [wt_loop negb].
  - rewrite Z.add_0_r in C. rewrite C. unfold dt_check. rewrite gnss_rollover_weeks. change us_per_week with week_us.
    fold (period g). unfold representable in R.
    replace ((0 <=? t + period g) && (t + period g <=? dt_max)) with true by lia.
    replace (now <? t + period g) with true by lia. left. reflexivity.
  - destruct (P i ltac:(lia)) as (s & Cs & Rs & Ns). rewrite Cs. unfold dt_check. rewrite gnss_rollover_weeks. change us_per_week with week_us.
    fold (period g). unfold representable in Rs.
    replace ((0 <=? s + period g) && (s + period g <=? dt_max)) with true by lia.
    replace (now <? s + period g) with false by lia. apply IH; try assumption.
    + intros j Hj. apply P. lia.
    + rewrite <- C. f_equal. lia.
Qed.
Lemma resolved g ls now w tow (i : Z) t : 0 <= i ->
  (forall j, 0 <= j < i -> exists s, wt_candidate g ls (w mod week_rollover g) (tow mod 604800000) j = Ok s
     /\ representable (s + period g) /\ s + period g <= now) ->
  wt_candidate g ls (w mod week_rollover g) (tow mod 604800000) i = Ok t -> representable (t + period g) -> now < t + period g ->
  wnotow2utc w tow ls g true true now = Some (Ok t).
Proof.
  intros I P C R N. pose proof (wnotow2utc_some w tow ls g true true now) as NN. unfold wnotow2utc in *. rewrite gnss_rollover_weeks in *.
  destruct (reach g ls now (w mod week_rollover g) (tow mod 604800000) t (Z.to_nat i) (wt_fuel g) 0) as [H|H].
  - rewrite Z2Nat.id by exact I. exact P.
  - rewrite Z2Nat.id by exact I. exact C.
  - exact R.
  - exact N.
  - exact H.
  - contradiction.
Qed.

(* week, time of week and leap seconds of an instant, and the instant the candidates start from *)
Lemma week_parts t g w tow ls : epoch g <= t -> exact_instant g t -> representable t ->
  utc2wnotow t g true = Ok (w, tow, ls) -> tow < 604800000 ->
  system_leap g t ls /\ 0 <= ls <= 30 /\ 0 <= tow
  /\ exists i, 0 <= i /\ forall j, epoch g + (w mod week_rollover g + j * week_rollover g) * week_us + tow mod 604800000 * 1000
       = t + 1000000 * ls - (i - j) * period g.
Proof.
  intros E X R U L. destruct (C44_week t g true E R) as (tow' & ls' & U' & S & T & _). cbn match in U'.
  destruct (C44_exact t g true E R X) as (w2 & tow2 & ls2 & U2 & B).
  assert (tow2 = tow) as -> by congruence. assert (ls2 = ls) as -> by congruence.
  assert (tow' = tow) as -> by congruence. assert (ls' = ls) as -> by congruence.
  assert (w = (t - epoch g) / week_us mod week_rollover g) as -> by congruence. clear U U' U2.
  pose proof (system_leap_range g t ls E S) as Bl.
  assert (0 < week_rollover g) as RP by (unfold week_rollover; destruct (str_eqb g (u "C")), (str_eqb g (u "E")); lia).
  pose proof (Z.div_mod (t - epoch g) week_us ltac:(unfold week_us; lia)) as DM. unfold week_time in B.
  set (q := (t - epoch g) / week_us) in *. set (r := (t - epoch g) mod week_us) in *.
  assert (0 <= q) as Q0 by (apply Z.div_pos; [lia|unfold week_us; lia]).
  split; [exact S|]. split; [lia|]. split; [lia|]. exists (q / week_rollover g). split; [apply Z.div_pos; lia|].
  intros j. rewrite Z.mod_mod by lia. rewrite (Z.mod_small tow) by lia. unfold period.
  pose proof (Z.div_mod q (week_rollover g) ltac:(lia)) as Dq.
  replace ((q mod week_rollover g + j * week_rollover g) * week_us)
    with ((week_rollover g * (q / week_rollover g) + q mod week_rollover g) * week_us - (q / week_rollover g - j) * (week_rollover g * week_us)) by ring.
  rewrite <- Dq. lia.
Qed.
Lemma candidate_value g ls w tow j t0 n : epoch g + (w + j * week_rollover g) * week_us + tow * 1000 = t0 ->
  representable t0 -> representable (t0 - 1000000 * n) ->
  (if str_eqb g (u "R") then n = 0 else match ls with Some l => n = l | None => leapsecond t0 g = Ok n end) ->
  wt_candidate g ls w tow j = Ok (t0 - 1000000 * n).
Proof.
  intros E R0 R N. unfold wt_candidate. cbn zeta. rewrite gnss_ep0_epoch, gnss_rollover_weeks. change us_per_week with week_us.
  rewrite E. unfold dt_check at 1. unfold representable in R0. replace ((0 <=? t0) && (t0 <=? dt_max)) with true by lia. cbn [bind].
  change g_GLO with (u "R"). destruct (str_eqb g (u "R")); [subst n; f_equal; lia|].
  assert (match ls with Some l => Ok l | None => leapsecond t0 g end = Ok n) as -> by (destruct ls; congruence).
  cbn [bind]. unfold dt_check. unfold representable in R. replace (n * 1000000) with (1000000 * n) by ring.
  replace ((0 <=? t0 - 1000000 * n) && (t0 - 1000000 * n <=? dt_max)) with true by lia. reflexivity.
Qed.

(* ------------------------------------------------------------------ C84 *)
(* the modular week number of a past instant less than a rollover period ago is resolved to that instant *)
Theorem C84_resolved t g now w tow ls : epoch g <= t -> exact_instant g t -> representable (t + 1000000 * ls) ->
  utc2wnotow t g true = Ok (w, tow, ls) -> tow < 604800000 ->
  t <= now < t + period g -> representable (t + period g) ->
  wnotow2utc w tow (Some ls) g true true now = Some (Ok t).
Proof.
  intros E X RL U L N RP.
  assert (0 <= epoch g) as E0 by (pose proof (epoch_nonneg g); lia).
  assert (0 < period g) as PP by (unfold period, week_rollover, week_us; destruct (str_eqb g (u "C")), (str_eqb g (u "E")); lia).
  assert (representable t) as R by (unfold representable in *; lia).
  destruct (week_parts t g w tow ls E X R U L) as (S & Bl & Bt & i & I & Q).
  assert (62451561600000000 <= epoch g) as E2 by (destruct (epoch_vals g) as [[-> _]|[_ [-> | ->]]]; lia).
  assert (if str_eqb g (u "R") then ls = 0 else ls = ls) as Lg.
  { unfold system_leap in S. destruct (str_eqb g (u "R")); [exact S|reflexivity]. }
  assert (0 <= w mod week_rollover g) as W0.
  { apply Z.mod_pos_bound. unfold week_rollover. destruct (str_eqb g (u "C")), (str_eqb g (u "E")); lia. }
  assert (0 <= week_rollover g) as RO by (unfold week_rollover; destruct (str_eqb g (u "C")), (str_eqb g (u "E")); lia).
  assert (forall j, 0 <= j <= i -> wt_candidate g (Some ls) (w mod week_rollover g) (tow mod 604800000) j = Ok (t - (i - j) * period g)
            /\ 0 <= t - (i - j) * period g) as C.
  { intros j Hj.
    assert (epoch g <= t + 1000000 * ls - (i - j) * period g) as Lo.
    { rewrite <- Q. pose proof (Z.mod_pos_bound tow 604800000 ltac:(lia)).
      assert (0 <= (w mod week_rollover g + j * week_rollover g) * week_us) by (apply Z.mul_nonneg_nonneg; [nia|unfold week_us; lia]). lia. }
    assert (0 <= (i - j) * period g) by (apply Z.mul_nonneg_nonneg; lia).
    rewrite (candidate_value g (Some ls) _ _ j _ ls (Q j)); unfold representable in *; [split; [f_equal; lia|lia]|lia|lia|exact Lg]. }
  apply (resolved g (Some ls) now w tow i t I).
  - intros j Hj. destruct (C j ltac:(lia)) as [Cj Bj]. eexists. split; [exact Cj|].
    assert (period g <= (i - j) * period g) by nia. unfold representable in *. lia.
  - destruct (C i ltac:(lia)) as [Ci _]. rewrite Ci. f_equal. lia.
  - exact RP.
  - apply N.
Qed.
(* also with the leap seconds taken from the table, once now is later than the instant by them
   (and no leap second falls between the instant and the system's time) *)
Theorem C84_default t g now w tow ls : epoch g <= t -> exact_instant g t -> representable (t + 1000000 * ls) ->
  utc2wnotow t g true = Ok (w, tow, ls) -> tow < 604800000 -> system_leap g (t + 1000000 * ls) ls ->
  t + 1000000 * ls <= now < t + period g -> representable (t + period g) ->
  wnotow2utc w tow None g true true now = Some (Ok t).
Proof.
  intros E X RL U L SL N RP.
  assert (0 <= epoch g) as E0 by (pose proof (epoch_nonneg g); lia).
  assert (0 < period g) as PP by (unfold period, week_rollover, week_us; destruct (str_eqb g (u "C")), (str_eqb g (u "E")); lia).
  assert (representable t) as R by (unfold representable in *; lia).
  destruct (week_parts t g w tow ls E X R U L) as (S & Bl & Bt & i & I & Q).
  assert (62451561600000000 <= epoch g) as E2 by (destruct (epoch_vals g) as [[-> _]|[_ [-> | ->]]]; lia).
  assert (0 <= w mod week_rollover g) as W0.
  { apply Z.mod_pos_bound. unfold week_rollover. destruct (str_eqb g (u "C")), (str_eqb g (u "E")); lia. }
  assert (0 <= week_rollover g) as RO by (unfold week_rollover; destruct (str_eqb g (u "C")), (str_eqb g (u "E")); lia).
  assert (forall j, 0 <= j <= i -> exists n, system_leap g (t + 1000000 * ls - (i - j) * period g) n /\ 0 <= n <= 18
            /\ wt_candidate g None (w mod week_rollover g) (tow mod 604800000) j = Ok (t + 1000000 * ls - (i - j) * period g - 1000000 * n)
            /\ 0 <= t + 1000000 * ls - (i - j) * period g - 1000000 * n) as C.
  { intros j Hj. set (t0 := t + 1000000 * ls - (i - j) * period g) in *.
    assert (0 <= (i - j) * period g) as Pj by (apply Z.mul_nonneg_nonneg; lia).
    assert (epoch g <= t0) as Lo.
    { unfold t0. rewrite <- Q. pose proof (Z.mod_pos_bound tow 604800000 ltac:(lia)).
      assert (0 <= (w mod week_rollover g + j * week_rollover g) * week_us) by (apply Z.mul_nonneg_nonneg; [nia|unfold week_us; lia]). lia. }
    assert (representable t0) as R0 by (unfold representable, t0 in *; lia).
    destruct (leapsecond_spec t0 g R0) as [[B _]|(_ & a & TA & LS)]; [pose proof (epoch_1972 g); lia|].
    assert (exists n, system_leap g t0 n /\ (if str_eqb g (u "R") then n = 0 else leapsecond t0 g = Ok n)) as (n & Sn & Cn).
    { unfold system_leap. destruct (str_eqb g (u "R")); [exists 0; split; reflexivity|].
      exists (a - (if str_eqb g (u "C") then 33 else 19)). split; [exists a; split; [exact TA|reflexivity]|exact LS]. }
    pose proof (system_leap_range g t0 n Lo Sn) as Bn. exists n. split; [exact Sn|]. split; [exact Bn|].
    assert (0 <= t0 - 1000000 * n) as Pn by lia. split; [|exact Pn].
    apply (candidate_value g None _ _ j _ n (Q j)); [exact R0|unfold representable in *; lia|exact Cn]. }
  apply (resolved g None now w tow i t I).
  - intros j Hj. destruct (C j ltac:(lia)) as (n & _ & Bn & Cj & Bj). eexists. split; [exact Cj|].
    assert (period g <= (i - j) * period g) by nia. unfold representable in *. lia.
  - destruct (C i ltac:(lia)) as (n & Sn & _ & Ci & _). rewrite Ci. f_equal.
    replace (t + 1000000 * ls - (i - i) * period g) with (t + 1000000 * ls) in * by ring.
    assert (n = ls) as ->; [|lia]. unfold system_leap in *. destruct (str_eqb g (u "R")); [congruence|].
    destruct Sn as (a & TA & ->), SL as (a' & TA' & ->). rewrite (tai_unique _ _ _ TA TA'). reflexivity.
  - exact RP.
  - apply N.
Qed.
(* the result for a week number and time of week is, up to whole rollover periods, always the same instant,
   and the latest such instant that is not after now (if the first of them is not) *)
Theorem C84_latest t g now w tow ls r : epoch g <= t -> exact_instant g t -> representable t ->
  utc2wnotow t g true = Ok (w, tow, ls) -> tow < 604800000 ->
  wnotow2utc w tow (Some ls) g true true now = Some (Ok r) ->
  (exists k, r = t + k * period g) /\ now < r + period g /\ (epoch g + period g <= now -> r <= now).
Proof.
  intros E X R U L H. destruct (week_parts t g w tow ls E X R U L) as (S & Bl & Bt & i & I & Q).
  assert (forall j r', week_instant g (Some ls) (w mod week_rollover g + j * week_rollover g) tow r' -> r' = t - (i - j) * period g) as WI.
  { intros j r' (n & -> & Hn). assert (n = ls) as ->.
    { unfold system_leap in S. destruct (str_eqb g (u "R")); congruence. }
    specialize (Q j). lia. }
  destruct (C46_rolled _ _ _ _ _ _ _ H) as (j & J & C & N & P). apply WI in C. split; [exists (j - i); rewrite C; ring|]. split; [exact N|].
  intros B. destruct (Z.eq_dec j 0) as [->|Hj].
  - assert (week_instant g (Some ls) (w mod week_rollover g + 0 * week_rollover g) tow r) as C0.
    { exists ls. split; [rewrite C; specialize (Q 0); lia|]. unfold system_leap in S. destruct (str_eqb g (u "R")); [exact S|reflexivity]. }
    destruct C0 as (n & Er & Hn). rewrite Z.mul_0_l, Z.add_0_r in Er.
    assert (0 < week_rollover g) as RO by (unfold week_rollover; destruct (str_eqb g (u "C")), (str_eqb g (u "E")); lia).
    pose proof (Z.mod_pos_bound w (week_rollover g) RO) as Wb. pose proof (Z.mod_pos_bound tow 604800000 ltac:(lia)) as Tb.
    assert (n = ls) as -> by (unfold system_leap in S; destruct (str_eqb g (u "R")); congruence).
    assert (w mod week_rollover g * week_us <= (week_rollover g - 1) * week_us) as Wm by (apply Z.mul_le_mono_nonneg_r; [unfold week_us|]; lia).
    replace ((week_rollover g - 1) * week_us) with (period g - week_us) in Wm by (unfold period; ring). unfold week_us in *. lia.
  - destruct (P (j - 1) ltac:(lia)) as (s & Cs & Ns). apply WI in Cs. lia.
Qed.

(* with leap seconds from the table and now within a few seconds of the instant - a message just received -
   the result is almost 20 years early: the candidate one period earlier has fewer leap seconds and is taken *)
Theorem C84_live_refuted : let t := midnight 2026 4 16 + 35982000000 in
  utc2wnotow t (u "G") true = Ok (366, 381600000, 18)
  /\ wnotow2utc 366 381600000 None (u "G") true true (t + 1000000) = Some (Ok (t - period (u "G") + 4000000))
  /\ wnotow2utc 366 381600000 (Some 18) (u "G") true true (t + 1000000) = Some (Ok t)
  /\ wnotow2utc 366 381600000 None (u "G") true true (t + 4000000) = Some (Ok t).
Proof. cbv zeta. repeat split; vm_compute; reflexivity. Qed.
Example C84_example : let t := midnight 2026 4 16 + 35982000000 in let now := midnight 2026 4 17 in
  epoch (u "G") <= t /\ exact_instant (u "G") t /\ representable (t + 1000000 * 18) /\ representable (t + period (u "G"))
  /\ utc2wnotow t (u "G") true = Ok (366, 381600000, 18) /\ system_leap (u "G") (t + 1000000 * 18) 18
  /\ t + 1000000 * 18 <= now < t + period (u "G")
  /\ wnotow2utc 366 381600000 None (u "G") true true now = Some (Ok t).
Proof.
  cbv zeta. split; [apply Z.leb_le; reflexivity|]. split; [left; reflexivity|].
  split; [split; apply Z.leb_le; reflexivity|]. split; [split; apply Z.leb_le; reflexivity|]. split; [vm_compute; reflexivity|].
  split. { exists 37. split; [|reflexivity]. exists 2017, 1, 1. split; [cbn [tai_table In]; tauto|]. split; [apply Z.leb_le; reflexivity|].
           intros y m d n H _. assert (forallb (fun r => let '(y, m, d, n) := r in midnight y m d <=? midnight 2017 1 1) tai_table = true) as C by (vm_compute; reflexivity).
           rewrite forallb_forall in C. specialize (C _ H). cbn beta iota in C. lia. }
  split; [split; [apply Z.leb_le; reflexivity|apply Z.ltb_lt; reflexivity]|]. vm_compute. reflexivity.
Qed.
