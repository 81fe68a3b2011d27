(* Leap seconds and week numbers: the float computations are exact enough. *)
From Coq Require Import Reals Lia Lra.
From Flocq Require Import Core.
From Verif Require Import Helpers BaseLemmas TimeSpec GnssSpec FloatProofs.
Local Open Scope Z_scope.

Lemma dt_max_val : dt_max = 315537897599999999.
Proof. vm_compute. reflexivity. Qed.

(* seconds as a float *)
Lemma div_bound us : Z.abs us <= 315537897599999999 -> (Rabs (IZR us / IZR 1000000) <= IZR 315537897600)%R.
Proof.
  intros H. unfold Rdiv. rewrite Rabs_mult, <- abs_IZR, (Rabs_pos_eq (/ _)) by (apply Rlt_le, Rinv_0_lt_compat; lra).
  apply Rmult_le_reg_r with 1000000%R; [lra|]. rewrite Rmult_assoc, Rinv_l, Rmult_1_r by lra. rewrite <- mult_IZR. apply IZR_le. lia.
Qed.
Lemma seconds_correct us : Z.abs us <= 315537897599999999 ->
  fdata (total_seconds us) /\ rval (total_seconds us) = rnd (IZR us / 1000000) /\ sign_of (total_seconds us) = (us <? 0).
Proof.
  intros H. apply nearest_fdata; [apply f_ratio_correct; lia|]. eapply rnd_lt_huge; [apply div_bound, H|lia].
Qed.
(* a whole number of seconds below 2^32 is reached by the float exactly when it is reached *)
Lemma seconds_le k us : 0 < k < 2 ^ 32 -> Z.abs us <= 315537897599999999 ->
  SFleb (f_norm k 0) (total_seconds us) = (k * 1000000 <=? us).
Proof.
  intros K H. destruct (f_int k) as (Dk & Vk & _); [lia|]. destruct (seconds_correct us H) as (Ds & Vs & _).
  rewrite fleb_correct, Vk, Vs by assumption. destruct (Z.leb_spec (k * 1000000) us) as [L|L].
  - apply Rle_bool_true. rewrite <- (rnd_format (IZR k)) by (apply int_format; lia). apply rnd_le.
    apply Rmult_le_reg_r with 1000000%R; [lra|]. unfold Rdiv. rewrite Rmult_assoc, Rinv_l, Rmult_1_r by lra.
    rewrite <- mult_IZR. apply IZR_le. exact L.
  - apply Rle_bool_false. apply Rle_lt_trans with (rnd (IZR k - / 1000000)).
    + apply rnd_le. apply Rmult_le_reg_r with 1000000%R; [lra|]. unfold Rdiv. rewrite Rmult_assoc, Rinv_l, Rmult_1_r by lra.
      rewrite Rmult_minus_distr_r, Rinv_l by lra. rewrite <- mult_IZR, <- minus_IZR. apply IZR_le. lia.
    + assert (1 <= IZR k)%R as B1 by (apply IZR_le; lia). assert (IZR k <= IZR (2 ^ 32))%R as B2 by (apply IZR_le; lia).
      assert (Rabs (IZR k - / 1000000) < bpow radix2 32)%R as B.
      { rewrite Rabs_pos_eq by lra. rewrite bpow_IZR by lia. lra. }
      pose proof (rnd_err 32 _ ltac:(lia) B) as E. apply Rabs_le_inv in E as [_ E].
      assert (bpow radix2 (32 - 54) < / 1000000)%R as P.
      { replace (32 - 54) with (- (22)) by lia. rewrite bpow_opp, bpow_IZR by lia. apply Rinv_lt_contravar; [apply Rmult_lt_0_compat; lra|]. apply IZR_lt. reflexivity. }
      lra.
Qed.
Lemma fltb_leb x y : fdata x -> fdata y -> fltb x y = negb (SFleb y x).
Proof.
  intros X Y. rewrite fltb_correct, fleb_correct by assumption. rewrite <- negb_Rle_bool, negb_involutive. reflexivity.
Qed.

(* the table of the code, by date *)
Lemma leap_table_dates :
  map (fun r => (LEAPS0 + fst r * 1000000, snd r)) LEAPSECONDS = map (fun r => let '(y, m, d, n) := r in (midnight y m d, n)) tai_table.
Proof. vm_compute. reflexivity. Qed.
Lemma leap_keys_small : forallb (fun r => (0 <? fst r) && (fst r <? 2 ^ 32)) LEAPSECONDS = true.
Proof. vm_compute. reflexivity. Qed.
Lemma LEAPS0_val : LEAPS0 = 59926608000000000.
Proof. vm_compute. reflexivity. Qed.

Definition tai_rows : list (Z * Z) := map (fun r => let '(y, m, d, n) := r in (midnight y m d, n)) tai_table.
Lemma tai_rows_ordered : forallb (fun a => forallb (fun b => negb (snd a <=? snd b) || (fst a <=? fst b)) tai_rows) tai_rows = true.
Proof. vm_compute. reflexivity. Qed.
Lemma tai_rows_ordered' : forallb (fun a => forallb (fun b => negb (fst a <=? fst b) || (snd a <=? snd b)) tai_rows) tai_rows = true.
Proof. vm_compute. reflexivity. Qed.
Lemma tai_row t n : In (t, n) tai_rows <-> exists y m d, In (y, m, d, n) tai_table /\ midnight y m d = t.
Proof.
  unfold tai_rows. rewrite in_map_iff. split.
  - intros ([[[y m] d] n'] & E & H). exists y, m, d. assert (n' = n) as -> by congruence. split; [exact H|congruence].
  - intros (y & m & d & H & <-). exists (y, m, d, n). split; [reflexivity|exact H].
Qed.
Lemma tai_utc_rows t n : tai_utc t n <-> exists s, In (s, n) tai_rows /\ s <= t /\ forall s' n', In (s', n') tai_rows -> s' <= t -> n' <= n.
Proof.
  pose proof tai_rows_ordered as O. pose proof tai_rows_ordered' as O'. rewrite forallb_forall in O, O'. split.
  - intros (y & m & d & H & L & M). assert (In (midnight y m d, n) tai_rows) as I by (apply tai_row; exists y, m, d; split; [exact H|reflexivity]).
    exists (midnight y m d). split; [exact I|]. split; [exact L|]. intros s' n' H' L'.
    pose proof H' as H''. apply tai_row in H' as (y' & m' & d' & T & <-). specialize (M _ _ _ _ T L').
    specialize (O' _ H''). rewrite forallb_forall in O'. specialize (O' _ I). cbn [fst snd] in O'. lia.
  - intros (s & I & L & M). pose proof I as I'. apply tai_row in I as (y & m & d & T & E). exists y, m, d. split; [exact T|]. split; [lia|].
    intros y' m' d' n' T' L'. assert (In (midnight y' m' d', n') tai_rows) as J by (apply tai_row; exists y', m', d'; split; [exact T'|reflexivity]).
    specialize (M _ _ J L'). specialize (O _ J). rewrite forallb_forall in O. specialize (O _ I'). cbn [fst snd] in O. lia.
Qed.
Lemma tai_unique t n n' : tai_utc t n -> tai_utc t n' -> n = n'.
Proof.
  rewrite !tai_utc_rows. intros (s & I & L & M) (s' & I' & L' & M'). specialize (M _ _ I' L'). specialize (M' _ _ I L). lia.
Qed.

Lemma fold_max_spec l a : In (fold_left Z.max l a) (a :: l) /\ forall x, In x (a :: l) -> x <= fold_left Z.max l a.
Proof.
  revert a. induction l as [|b l IH]; intros a; cbn [fold_left].
  - split; [left; reflexivity|]. intros x [->|[]]; lia.
  - destruct (IH (Z.max a b)) as [I M]. split.
    + destruct I as [I|I]; [rewrite <- I; destruct (Z.max_spec a b) as [[_ ->]|[_ ->]]; [right; left|left]; reflexivity|right; right; exact I].
    + intros x H. specialize (M (Z.max a b) (or_introl eq_refl)) as M0. destruct H as [->|[->|H]]; [lia|lia|]. apply M. right. exact H.
Qed.

Lemma filter_leaps t : representable t ->
  map (fun r => (LEAPS0 + fst r * 1000000, snd r)) (filter (fun kv => SFleb (f_norm (fst kv) 0) (total_seconds (t - LEAPS0))) LEAPSECONDS)
  = filter (fun r => fst r <=? t) tai_rows.
Proof.
  intros R. unfold tai_rows. rewrite <- leap_table_dates. pose proof leap_keys_small as S. revert S. generalize LEAPSECONDS as l.
  induction l as [|[k n] l IH]; intros S; [reflexivity|]. cbn [forallb fst] in S. apply andb_true_iff in S as [S1 S2].
  cbn [filter map fst snd]. unfold representable in R. rewrite dt_max_val in R.
  rewrite seconds_le by (rewrite ?LEAPS0_val; lia).
  replace (k * 1000000 <=? t - LEAPS0) with (LEAPS0 + k * 1000000 <=? t) by lia.
  destruct (LEAPS0 + k * 1000000 <=? t); cbn [map fst snd]; rewrite IH by exact S2; reflexivity.
Qed.
Lemma leap_at_spec t : representable t -> midnight 1972 1 1 <= t -> exists n, leap_at t = Ok n /\ tai_utc t n.
Proof.
  intros R B. unfold leap_at. pose proof (filter_leaps t R) as F.
  destruct (filter _ LEAPSECONDS) as [|kv l].
  - exfalso. assert (In (midnight 1972 1 1, 10) (filter (fun r => fst r <=? t) tai_rows)) as I.
    { apply filter_In. split; [left; reflexivity|]. apply Z.leb_le. exact B. }
    rewrite <- F in I. destruct I.
  - exists (fold_left Z.max (map snd l) (snd kv)). split; [reflexivity|].
    destruct (fold_max_spec (map snd l) (snd kv)) as [I M].
    assert (map snd (filter (fun r => fst r <=? t) tai_rows) = snd kv :: map snd l) as E.
    { rewrite <- F. rewrite map_map. reflexivity. }
    rewrite <- E in I, M. apply tai_utc_rows. apply in_map_iff in I as ([s n] & En & I). cbn [snd] in En. apply filter_In in I as [I1 I2].
    exists s. rewrite <- En. split; [exact I1|]. split; [apply Z.leb_le, I2|]. intros s' n' I' L'. rewrite En.
    apply M. apply in_map_iff. exists (s', n'). split; [reflexivity|]. apply filter_In. split; [exact I'|]. apply Z.leb_le. exact L'.
Qed.
Lemma leap_before t : representable t -> fltb (total_seconds (t - LEAPS0)) (f_norm 2272060800 0) = (t <? midnight 1972 1 1).
Proof.
  intros R. unfold representable in R. rewrite dt_max_val in R.
  rewrite fltb_leb.
  - rewrite seconds_le by (rewrite ?LEAPS0_val; lia). replace (midnight 1972 1 1) with (LEAPS0 + 2272060800 * 1000000) by (vm_compute; reflexivity). lia.
  - apply seconds_correct. rewrite LEAPS0_val. lia.
  - apply f_int. lia.
Qed.
Lemma leap_epoch g : leap_at (if str_eqb g g_BDS then EPOCH0_BEIDOU else EPOCH0_GPS) = Ok (if str_eqb g (u "C") then 33 else 19).
Proof. change g_BDS with (u "C"). destruct (str_eqb g (u "C")); vm_compute; reflexivity. Qed.
Lemma leapsecond_spec t g : representable t ->
  (t < midnight 1972 1 1 /\ leapsecond t g = Ok 0) \/
  (midnight 1972 1 1 <= t /\ exists n, tai_utc t n /\ leapsecond t g = Ok (n - (if str_eqb g (u "C") then 33 else 19))).
Proof.
  intros R. unfold leapsecond. cbn zeta. rewrite leap_before by exact R. destruct (Z.ltb_spec t (midnight 1972 1 1)) as [L|L].
  - left. split; [exact L|reflexivity].
  - right. split; [exact L|]. destruct (leap_at_spec t R L) as (n & E & T). exists n. split; [exact T|]. rewrite E. cbn [bind].
    rewrite leap_epoch. reflexivity.
Qed.

(* ------------------------------------------------------------ week number *)
Lemma week_number n : 0 <= n <= 5000000 ->
  int_of_float (ffloor (f_ratio n 7)) = Ok (n / 7).
Proof.
  intros H. pose proof (f_ratio_correct n 7 ltac:(lia)) as N.
  assert (0 <= IZR n <= 5000000)%R as B by (split; apply IZR_le; lia).
  assert (Rabs (IZR n / 7) <= IZR 5000000)%R as B1.
  { rewrite Rabs_pos_eq by lra. lra. }
  apply nearest_fdata in N; [|apply rnd_lt_huge with 5000000; [exact B1|lia]].
  destruct N as (D & V & _).
  pose proof (rnd_bound (IZR 5000000) _ (int_format 5000000 ltac:(lia)) B1) as B2. rewrite <- V in B2.
  destruct (ffloor_correct _ D) as (D2 & V2); [eapply Rle_trans; [exact B2|apply IZR_le; lia]|].
  rewrite int_of_float_correct by apply D2. rewrite V2, Ztrunc_IZR. f_equal.
  apply Zfloor_imp. rewrite V.
  pose proof (Z.div_mod n 7 ltac:(lia)) as DM. pose proof (Z.mod_pos_bound n 7 ltac:(lia)) as MB.
  set (q := n / 7) in *. set (r := n mod 7) in *.
  assert (IZR n = 7 * IZR q + IZR r)%R as E by (rewrite DM, plus_IZR, mult_IZR; reflexivity).
  assert (0 <= IZR r <= 6)%R as Br by (split; apply IZR_le; lia).
  split.
  - rewrite <- (rnd_format (IZR q)) by (apply int_format; lia). apply rnd_le. lra.
  - assert (Rabs (IZR n / 7) < bpow radix2 23)%R as B3.
    { eapply Rle_lt_trans; [exact B1|]. rewrite bpow_IZR by lia. apply IZR_lt. reflexivity. }
    pose proof (rnd_err 23 _ ltac:(lia) B3) as ER. apply Rabs_le_inv in ER as [_ ER].
    assert (bpow radix2 (23 - 54) < / 7)%R as P.
    { replace (23 - 54) with (- (31)) by lia. rewrite bpow_opp, bpow_IZR by lia. apply Rinv_lt_contravar; [apply Rmult_lt_0_compat; lra|]. apply IZR_lt. reflexivity. }
    rewrite plus_IZR. lra.
Qed.

(* ---------------------------------------------------------- time of week *)
(* the computed milliseconds since the epoch *)
Definition milliseconds (us ls : Z) : R := rnd (rnd (rnd (IZR us / 1000000) + IZR ls) * 1000).
(* [k]: the elapsed seconds are below 2^k *)
Lemma tow_spec us ls k :
  0 <= us <= 315537897599999999 -> 0 <= ls <= 1000 -> 31 <= k <= 39 -> us <= 2 ^ k * 1000000 - 1001000000 ->
  let w := us / week_us in
  let x := (IZR (us mod week_us) / 1000 + 1000 * IZR ls)%R in
  exists d, int_of_float (fsub (fmul (fadd (total_seconds us) (f_norm ls 0)) (f_norm 1000 0)) (f_norm (w * 604800000) 0)) = Ok (Zfloor d)
  /\ (0 <= d)%R /\ (Rabs (d - x) <= 1000 * bpow radix2 (k - 53) + bpow radix2 (k - 44) + bpow radix2 (-24))%R
  /\ (us mod 1000 = 0 -> milliseconds us ls = (IZR us / 1000 + 1000 * IZR ls)%R -> d = x).
Proof.
  intros Hu Hl Hk Hb w x.
  destruct (seconds_correct us ltac:(lia)) as (Ds & Vs & _). destruct (f_int ls ltac:(lia)) as (Dl & Vl & _).
  destruct (f_int 1000 ltac:(lia)) as (Dt & Vt & _).
  assert (0 <= w) as W0 by (apply Z.div_pos; unfold week_us; lia).
  assert (w <= 521722) as W1 by (change 521722 with (315537897599999999 / week_us); apply Z.div_le_mono; unfold week_us; lia).
  destruct (f_int (w * 604800000) ltac:(lia)) as (Dw & Vw & _).
  set (e := (IZR us / 1000000)%R) in *.
  pose proof (Z.div_mod us week_us ltac:(unfold week_us; lia)) as DM. fold w in DM.
  pose proof (Z.mod_pos_bound us week_us ltac:(unfold week_us; lia)) as MB. set (r := us mod week_us) in *.
  assert (IZR us = 604800000000 * IZR w + IZR r)%R as Eu by (rewrite DM, plus_IZR, mult_IZR; unfold week_us; reflexivity).
  assert (0 <= IZR r < 604800000000)%R as Br by (split; [apply IZR_le; lia|apply IZR_lt; unfold week_us in *; lia]).
  assert (0 <= IZR ls <= 1000)%R as Bl by (split; apply IZR_le; lia).
  assert (0 <= IZR w)%R as Bw by (apply IZR_le; lia).
  assert (IZR us <= bpow radix2 k * 1000000 - 1001000000)%R as Bu.
  { rewrite bpow_IZR by lia. rewrite <- mult_IZR, <- minus_IZR. apply IZR_le. exact Hb. }
  assert (0 <= e)%R as E0 by (unfold e; lra).
  assert (e <= bpow radix2 k - 1001)%R as E1 by (unfold e; lra).
  assert (bpow radix2 k <= IZR (2 ^ 39))%R as Bk.
  { rewrite bpow_IZR by lia. apply IZR_le. apply Z.pow_le_mono_r; lia. }
  assert (Hmono : forall a b, a <= b -> (bpow radix2 a <= bpow radix2 b)%R) by (intros; apply bpow_le; lia).
  (* seconds *)
  assert (Rabs e < bpow radix2 k)%R as A1 by (rewrite Rabs_pos_eq by lra; lra).
  pose proof (rnd_err k e ltac:(lia) A1) as R1. apply Rabs_le_inv in R1.
  assert (bpow radix2 (k - 54) <= / 2)%R as P54.
  { change (/ 2)%R with (bpow radix2 (-1)). apply Hmono. lia. }
  assert (604800 * IZR w <= rnd e)%R as L1.
  { rewrite <- (rnd_format (604800 * IZR w)).
    - apply rnd_le. unfold e. lra.
    - rewrite <- mult_IZR. apply int_format. lia. }
  (* plus leap seconds *)
  destruct (fadd_correct _ _ Ds Dl) as (sa & Na). rewrite Vs, Vl in Na.
  assert (Rabs (rnd e + IZR ls) < bpow radix2 k)%R as A2 by (rewrite Rabs_pos_eq; lra).
  pose proof (rnd_err k _ ltac:(lia) A2) as R2. apply Rabs_le_inv in R2.
  apply nearest_fdata in Na.
  2:{ apply rnd_lt_huge with (2 ^ 39); [lra|lia]. }
  destruct Na as (Da & Va & _).
  assert (604800 * IZR w + IZR ls <= rnd (rnd e + IZR ls))%R as L2.
  { rewrite <- (rnd_format (604800 * IZR w + IZR ls)).
    - apply rnd_le. lra.
    - rewrite <- mult_IZR, <- plus_IZR. apply int_format. lia. }
  set (ts1 := rnd (rnd e + IZR ls)) in *.
  (* milliseconds *)
  pose proof (fmul_correct _ _ (proj1 Da) (proj1 Dt) (proj2 Da) (proj2 Dt)) as Nm. rewrite Va, Vt in Nm.
  assert (bpow radix2 (k + 10) = 1024 * bpow radix2 k)%R as P10.
  { rewrite bpow_plus. change (bpow radix2 10) with 1024%R. ring. }
  assert (Rabs (ts1 * 1000) < bpow radix2 (k + 10))%R as A3 by (rewrite Rabs_pos_eq; lra).
  pose proof (rnd_err (k + 10) _ ltac:(lia) A3) as R3. apply Rabs_le_inv in R3.
  apply nearest_fdata in Nm.
  2:{ apply rnd_lt_huge with (2 ^ 49); [|lia]. apply Rlt_le. eapply Rlt_le_trans; [exact A3|]. rewrite P10. replace (2 ^ 49) with (1024 * 2 ^ 39) by reflexivity. rewrite mult_IZR. lra. }
  destruct Nm as (Dm & Vm & _).
  assert (604800000 * IZR w + 1000 * IZR ls <= rnd (ts1 * 1000))%R as L3.
  { rewrite <- (rnd_format (604800000 * IZR w + 1000 * IZR ls)).
    - apply rnd_le. lra.
    - rewrite <- !mult_IZR, <- plus_IZR. apply int_format. lia. }
  set (ts := rnd (ts1 * 1000)) in *.
  (* subtract whole weeks *)
  destruct (fsub_correct _ _ Dm Dw) as (sd & Nd). rewrite Vm, Vw in Nd. rewrite mult_IZR in Nd.
  assert (bpow radix2 (k - 53) = 2 * bpow radix2 (k - 54))%R as P53.
  { replace (k - 53) with (1 + (k - 54)) by lia. rewrite bpow_plus. reflexivity. }
  replace (k + 10 - 54) with (k - 44) in R3 by lia.
  assert (bpow radix2 (k - 44) <= / 2)%R as P44.
  { change (/ 2)%R with (bpow radix2 (-1)). apply Hmono. lia. }
  assert (Rabs (ts - (IZR w * 604800000 + x)) <= 1000 * bpow radix2 (k - 53) + bpow radix2 (k - 44))%R as ET.
  { apply Rabs_le. unfold x, e in *. lra. }
  assert (0 <= x < 604800000 + 1000 * IZR ls)%R as Bx by (unfold x; lra).
  assert (0 <= ts - IZR w * 604800000)%R as L4 by lra.
  assert (bpow radix2 (k - 54) <= / 32768)%R as P54'.
  { replace (/ 32768)%R with (bpow radix2 (-15)) by reflexivity. apply Hmono. lia. }
  assert (Rabs (ts - IZR w * 604800000) < bpow radix2 30)%R as A4.
  { rewrite Rabs_pos_eq by lra. apply Rabs_le_inv in ET. rewrite bpow_IZR by lia. change (2 ^ 30) with 1073741824. lra. }
  pose proof (rnd_err 30 _ ltac:(lia) A4) as R4. apply Rabs_le_inv in R4. change (30 - 54) with (-24) in R4.
  apply nearest_fdata in Nd.
  2:{ apply rnd_lt_huge with (2 ^ 30); [rewrite <- bpow_IZR by lia; lra|lia]. }
  destruct Nd as (Dd & Vd & _).
  set (d := rnd (ts - IZR w * 604800000)) in *.
  assert (0 <= d)%R as L5.
  { unfold d. rewrite <- rnd_0. apply rnd_le. exact L4. }
  exists d. split; [|split; [exact L5|split]].
  - rewrite int_of_float_correct by apply Dd. rewrite Vd. rewrite Ztrunc_floor by exact L5. reflexivity.
  - apply Rabs_le. apply Rabs_le_inv in ET. lra.
  - intros M Q. change (milliseconds us ls) with ts in Q.
    pose proof (Z.div_mod us 1000 ltac:(lia)) as DM2. rewrite M in DM2. set (q := us / 1000) in *.
    assert (IZR us = 1000 * IZR q)%R as Eq by (rewrite <- mult_IZR; f_equal; lia).
    assert (ts = IZR (q + 1000 * ls)) as Q3 by (rewrite Q, plus_IZR, mult_IZR; lra).
    unfold d. rewrite Q3, <- mult_IZR, <- minus_IZR. rewrite rnd_format by (apply int_format; lia).
    rewrite minus_IZR, !plus_IZR, !mult_IZR. unfold x. lra.
Qed.
Lemma ms_exact_seconds us ls : 0 <= us <= 315537897599999999 -> 0 <= ls <= 1000 -> us mod 1000000 = 0 ->
  milliseconds us ls = (IZR us / 1000 + 1000 * IZR ls)%R.
Proof.
  intros Hu Hl M. pose proof (Z.div_mod us 1000000 ltac:(lia)) as DM2. rewrite M in DM2. set (q := us / 1000000) in *.
  assert (IZR us = 1000000 * IZR q)%R as Eq by (rewrite <- mult_IZR; f_equal; lia).
  unfold milliseconds. replace (IZR us / 1000000)%R with (IZR q) by lra.
  rewrite (rnd_format (IZR q)) by (apply int_format; lia). rewrite <- plus_IZR.
  rewrite (rnd_format (IZR (q + ls))) by (apply int_format; lia). rewrite <- mult_IZR, rnd_format by (apply int_format; lia).
  rewrite mult_IZR, plus_IZR. lra.
Qed.
(* between 2^40 milliseconds and 2^31 seconds after the epoch no millisecond is lost *)
Lemma ms_exact_recent us ls : 1099511628000000 <= us <= 2147482000000000 -> 0 <= ls <= 1000 -> us mod 1000 = 0 ->
  milliseconds us ls = (IZR us / 1000 + 1000 * IZR ls)%R.
Proof.
  intros Hu Hl M. pose proof (Z.div_mod us 1000 ltac:(lia)) as DM2. rewrite M in DM2. set (q := us / 1000) in *.
  assert (IZR us = 1000 * IZR q)%R as Eq by (rewrite <- mult_IZR; f_equal; lia).
  assert (1099511628000 <= IZR q <= 2147482000000)%R as Bq by (split; apply IZR_le; lia).
  assert (0 <= IZR ls <= 1000)%R as Bl by (split; apply IZR_le; lia).
  unfold milliseconds. set (e := (IZR us / 1000000)%R). assert (e = IZR q / 1000)%R as Ee by (unfold e; lra).
  assert (Rabs e < bpow radix2 31)%R as A1.
  { rewrite Rabs_pos_eq by lra. rewrite bpow_IZR by lia. change (2 ^ 31) with 2147483648. lra. }
  pose proof (rnd_err 31 e ltac:(lia) A1) as R1. apply Rabs_le_inv in R1. change (31 - 54) with (-23) in R1.
  assert (bpow radix2 (-23) = / 8388608)%R as P23 by reflexivity. rewrite P23 in R1.
  assert (IZR (2 ^ 30) <= rnd e)%R as L1.
  { rewrite <- (rnd_format (IZR (2 ^ 30))) by (apply int_format; lia). apply rnd_le. change (2 ^ 30) with 1073741824. lra. }
  (* the sum is exact: both terms are multiples of 2^-22 *)
  assert (exists z, rnd e = F2R (Float radix2 z (-22))) as (z & Ez).
  { pose proof (format_rnd e) as F. unfold format64, generic_format in F. set (c := cexp radix2 fexp64 (rnd e)) in F.
    assert (31 <= mag radix2 (rnd e)) as Mg.
    { apply mag_ge_bpow. rewrite Rabs_pos_eq by (change (2 ^ 30) with 1073741824 in L1; lra). rewrite bpow_IZR by lia. exact L1. }
    assert (-22 <= c) as C by (unfold c, cexp; rewrite fexp64_val; lia).
    rewrite F. set (m := Ztrunc _). exists (m * 2 ^ (c + 22)). unfold F2R. cbn [Fnum Fexp]. rewrite mult_IZR, <- bpow_IZR by lia.
    rewrite Rmult_assoc, <- bpow_plus. do 2 f_equal. lia. }
  assert (rnd (rnd e + IZR ls) = rnd e + IZR ls)%R as X.
  { apply rnd_format. replace (rnd e + IZR ls)%R with (F2R (Float radix2 (z + ls * 2 ^ 22) (-22))).
    - apply small_format; [|lia]. apply le_IZR. rewrite abs_IZR.
      assert (Rabs (F2R (Float radix2 (z + ls * 2 ^ 22) (-22))) <= IZR (2 ^ 31))%R as B.
      { replace (F2R (Float radix2 (z + ls * 2 ^ 22) (-22))) with (rnd e + IZR ls)%R.
        - rewrite Rabs_pos_eq by (change (2 ^ 30) with 1073741824 in L1; lra). change (2 ^ 31) with 2147483648. lra.
        - rewrite Ez. unfold F2R. cbn [Fnum Fexp]. rewrite plus_IZR, mult_IZR, Rmult_plus_distr_r. f_equal. change (bpow radix2 (-22)) with (/ 4194304)%R. change (2 ^ 22) with 4194304. lra. }
      unfold F2R in B. cbn [Fnum Fexp] in B. rewrite Rabs_mult, (Rabs_pos_eq (bpow _ _)) in B by apply bpow_ge_0.
      change (bpow radix2 (-22)) with (/ 4194304)%R in B. change (2 ^ 53) with (2 ^ 31 * 4194304). rewrite mult_IZR. lra.
    - rewrite Ez. unfold F2R. cbn [Fnum Fexp]. rewrite plus_IZR, mult_IZR, Rmult_plus_distr_r. f_equal. change (bpow radix2 (-22)) with (/ 4194304)%R. change (2 ^ 22) with 4194304. lra. }
  rewrite X. set (v := ((rnd e + IZR ls) * 1000)%R). set (n := q + 1000 * ls).
  assert (IZR n = IZR q + 1000 * IZR ls)%R as En by (unfold n; rewrite plus_IZR, mult_IZR; lra).
  assert (Rabs (v - IZR n) <= 1000 / 8388608)%R as V by (apply Rabs_le; unfold v; rewrite En; lra).
  apply Rabs_le_inv in V.
  assert (Rabs v < bpow radix2 41)%R as A2.
  { rewrite Rabs_pos_eq by lra. rewrite bpow_IZR by lia. change (2 ^ 41) with 2199023255552. lra. }
  pose proof (rnd_err 41 v ltac:(lia) A2) as R2. apply Rabs_le_inv in R2. change (41 - 54) with (-13) in R2.
  change (bpow radix2 (-13)) with (/ 8192)%R in R2.
  assert (exists y, rnd v = F2R (Float radix2 y (-12))) as (y & Ey).
  { pose proof (format_rnd v) as F. unfold format64, generic_format in F. set (c := cexp radix2 fexp64 (rnd v)) in F.
    assert (41 <= mag radix2 (rnd v)) as Mg.
    { apply mag_ge_bpow. rewrite Rabs_pos_eq by lra. rewrite bpow_IZR by lia. change (2 ^ (41 - 1)) with 1099511627776. lra. }
    assert (-12 <= c) as C by (unfold c, cexp; rewrite fexp64_val; lia).
    rewrite F. set (m := Ztrunc _). exists (m * 2 ^ (c + 12)). unfold F2R. cbn [Fnum Fexp]. rewrite mult_IZR, <- bpow_IZR by lia.
    rewrite Rmult_assoc, <- bpow_plus. do 2 f_equal. lia. }
  unfold F2R in Ey. cbn [Fnum Fexp] in Ey. change (bpow radix2 (-12)) with (/ 4096)%R in Ey.
  assert (y = n * 4096) as ->.
  { assert (IZR (y - n * 4096) < 1)%R as B1 by (rewrite minus_IZR, mult_IZR; lra).
    assert (-1 < IZR (y - n * 4096))%R as B2 by (rewrite minus_IZR, mult_IZR; lra).
    apply lt_IZR in B1, B2. lia. }
  rewrite Ey, mult_IZR, En. lra.
Qed.

(* ------------------------------------------------------------ utc2wnotow *)
Lemma gnss_ep0_epoch g : gnss_ep0 g = epoch g.
Proof.
  unfold gnss_ep0, epoch. change g_BDS with (u "C"). change g_GAL with (u "E"). change g_IRN with (u "I").
  destruct (str_eqb g (u "C")); [reflexivity|]. destruct (str_eqb g (u "E")); [reflexivity|].
  destruct (str_eqb g (u "I")); reflexivity.
Qed.
Lemma gnss_rollover_weeks g : gnss_rollover g = week_rollover g.
Proof.
  unfold gnss_rollover, week_rollover. change g_BDS with (u "C"). change g_GAL with (u "E"). change g_IRN with (u "I").
  destruct (str_eqb g (u "C")); [reflexivity|]. destruct (str_eqb g (u "E")); [reflexivity|]. destruct (str_eqb g (u "I")); reflexivity.
Qed.
Lemma epoch_vals g : (epoch g = 63271670400000000 /\ str_eqb g (u "C") = true)
  \/ (str_eqb g (u "C") = false /\ (epoch g = 63070876800000000 \/ epoch g = 62451561600000000)).
Proof.
  unfold epoch. destruct (str_eqb g (u "C")); [left; split; reflexivity|right; split; [reflexivity|]].
  destruct (_ || _); [left|right]; reflexivity.
Qed.
Lemma tai_range t n lo s : In (s, lo) tai_rows -> s <= t -> tai_utc t n -> lo <= n <= 37.
Proof.
  intros I L T. apply tai_utc_rows in T as (s' & I' & L' & M). split; [exact (M _ _ I L)|].
  assert (forallb (fun r => snd r <=? 37) tai_rows = true) as C by (vm_compute; reflexivity).
  rewrite forallb_forall in C. specialize (C _ I'). cbn [snd] in C. lia.
Qed.
Lemma system_leap_range g t n : epoch g <= t -> system_leap g t n -> 0 <= n <= 18.
Proof.
  intros E S. unfold system_leap in S. destruct (str_eqb g (u "R")); [lia|]. destruct S as (a & T & ->).
  destruct (epoch_vals g) as [[V ->]|[-> V]].
  - assert (33 <= a <= 37); [|lia]. apply (tai_range t a 33 63271670400000000); [apply tai_row; exists 2006, 1, 1; split; [cbn [tai_table In]; tauto|reflexivity]|lia|exact T].
  - assert (19 <= a <= 37); [|lia]. apply (tai_range t a 19 62451129600000000); [apply tai_row; exists 1980, 1, 1; split; [cbn [tai_table In]; tauto|reflexivity]|lia|exact T].
Qed.
Lemma epoch_1972 g : midnight 1972 1 1 <= epoch g.
Proof. change (midnight 1972 1 1) with 62198668800000000. destruct (epoch_vals g) as [[-> _]|[_ [-> | ->]]]; lia. Qed.
Lemma leap_of g t : epoch g <= t -> representable t ->
  exists n, (if str_eqb g g_GLO then Ok 0 else leapsecond t g) = Ok n /\ system_leap g t n.
Proof.
  intros E R. change g_GLO with (u "R"). unfold system_leap. destruct (str_eqb g (u "R")); [exists 0; split; reflexivity|].
  destruct (leapsecond_spec t g R) as [[L _]|(_ & n & T & L)]; [pose proof (epoch_1972 g); lia|].
  eexists. split; [exact L|]. exists n. split; [exact T|reflexivity].
Qed.
Lemma utc2wnotow_spec t g modwno k : epoch g <= t -> representable t -> 31 <= k <= 39 -> t - epoch g <= 2 ^ k * 1000000 - 1001000000 ->
  exists n d, system_leap g t n /\ 0 <= n <= 18 /\
    utc2wnotow t g modwno = Ok (if modwno then ((t - epoch g) / week_us) mod week_rollover g else (t - epoch g) / week_us, Zfloor d, n)
    /\ (0 <= d)%R
    /\ (Rabs (d - (IZR ((t - epoch g) mod week_us) / 1000 + 1000 * IZR n)) <= 1000 * bpow radix2 (k - 53) + bpow radix2 (k - 44) + bpow radix2 (-24))%R
    /\ ((t - epoch g) mod 1000 = 0 -> milliseconds (t - epoch g) n = (IZR (t - epoch g) / 1000 + 1000 * IZR n)%R ->
        d = (IZR ((t - epoch g) mod week_us) / 1000 + 1000 * IZR n)%R).
Proof.
  intros E R Hk Hb. destruct (leap_of g t E R) as (n & L & S). pose proof (system_leap_range g t n E S) as Bn.
  unfold representable in R. rewrite dt_max_val in R.
  assert (0 <= epoch g) by (destruct (epoch_vals g) as [[-> _]|[_ [-> | ->]]]; lia).
  destruct (tow_spec (t - epoch g) n k ltac:(lia) ltac:(lia) Hk Hb) as (d & I & D0 & D1 & D2).
  exists n, d. split; [exact S|]. split; [exact Bn|]. split; [|split; [exact D0|split; [exact D1|exact D2]]].
  unfold utc2wnotow. cbn zeta. rewrite gnss_ep0_epoch, gnss_rollover_weeks, L. cbn [bind].
  assert (0 <= t - epoch g <= 315537897599999999) as B by lia. set (us := t - epoch g) in *. clearbody us.
  assert (us / us_per_day <= 3652059) as B1.
  { change 3652059 with (315537897600000000 / us_per_day). apply Z.div_le_mono; [unfold us_per_day; lia|lia]. }
  rewrite week_number by (split; [apply Z.div_pos; unfold us_per_day; lia|lia]). cbn [bind].
  rewrite Z.div_div by (unfold us_per_day; lia). change (us_per_day * 7) with week_us.
  assert (0 <= us / week_us) by (apply Z.div_pos; unfold week_us; lia).
  assert (us / week_us <= 521722) by (change 521722 with (315537897599999999 / week_us); apply Z.div_le_mono; unfold week_us; lia).
  rewrite f_of_Z_int by lia. cbn [bind]. rewrite I. reflexivity.
Qed.

(* -------------------------------------------------------------- wnotow2utc *)
Lemma wt_loop_spec g ls now w tow fuel i r :
  wt_loop fuel g ls true now w tow i = Some r ->
  match r with
  | Ok t => exists j, i <= j /\ wt_candidate g ls w tow j = Ok t /\ now < t + gnss_rollover g * us_per_week
      /\ forall h, i <= h < j -> exists s, wt_candidate g ls w tow h = Ok s /\ s + gnss_rollover g * us_per_week <= now
  | Raise e => True
  end.
Proof.
  revert i. induction fuel as [|fuel IH]; intros i H; [discriminate|]. cbn [wt_loop negb] in H.
  destruct (wt_candidate g ls w tow i) as [t|e] eqn:C; [|injection H as <-; exact I].
  destruct (dt_check (t + gnss_rollover g * us_per_week)) as [nx|e] eqn:D; [|injection H as <-; exact I].
  assert (nx = t + gnss_rollover g * us_per_week) as ->.
  { unfold dt_check in D. destruct (_ && _); [|discriminate]. congruence. }
  destruct (Z.ltb_spec now (t + gnss_rollover g * us_per_week)) as [L|L].
  - injection H as <-. exists i. split; [lia|]. split; [exact C|]. split; [exact L|]. intros h Hh. lia.
  - apply IH in H. destruct r as [t'|]; [|exact I]. destruct H as (j & J1 & J2 & J3 & J4). exists j. split; [lia|]. split; [exact J2|].
    split; [exact J3|]. intros h Hh. destruct (Z.eq_dec h i) as [->|]; [exists t; split; [exact C|exact L]|]. apply J4. lia.
Qed.
Lemma dt_check_raise t e : dt_check t = Raise e -> e = OverflowError.
Proof. unfold dt_check. destruct (_ && _); congruence. Qed.
Lemma wt_candidate_raise g ls w tow i e : wt_candidate g ls w tow i = Raise e -> e = OverflowError.
Proof.
  unfold wt_candidate. cbn zeta. set (t0 := _ + _). unfold dt_check at 1. destruct ((0 <=? t0) && (t0 <=? dt_max)) eqn:B; cbn [bind].
  - assert (representable t0) as R by (unfold representable; lia).
    destruct (str_eqb g g_GLO); [discriminate|]. destruct ls as [l|]; cbn [bind].
    + apply dt_check_raise.
    + destruct (leapsecond_spec t0 g R) as [[_ ->]|(_ & n & _ & ->)]; cbn [bind]; apply dt_check_raise.
  - congruence.
Qed.
Lemma wt_loop_raise g ls ar now w tow fuel i e : wt_loop fuel g ls ar now w tow i = Some (Raise e) -> e = OverflowError.
Proof.
  revert i. induction fuel as [|fuel IH]; intros i; cbn [wt_loop]; [discriminate|].
  destruct (wt_candidate g ls w tow i) as [t|e'] eqn:C.
  - destruct (negb ar); [discriminate|]. unfold dt_check. destruct (_ && _); [|congruence]. destruct (_ <? _); [discriminate|apply IH].
  - intros H. injection H as <-. exact (wt_candidate_raise _ _ _ _ _ _ C).
Qed.
Lemma rollover_pos g : 0 < gnss_rollover g * us_per_week.
Proof.
  assert (0 < gnss_rollover g) by (unfold gnss_rollover; destruct (str_eqb g g_BDS), (str_eqb g g_GAL), (str_eqb g g_IRN); lia).
  unfold us_per_week, us_per_day. lia.
Qed.
(* the first instant of candidate i, before leap seconds *)
Definition raw g w tow i := gnss_ep0 g + (w + i * gnss_rollover g) * us_per_week + tow * 1000.
Lemma candidate_in_range g ls w tow i t : wt_candidate g ls w tow i = Ok t -> 0 <= raw g w tow i <= dt_max.
Proof.
  unfold wt_candidate. cbn zeta. fold (raw g w tow i). unfold dt_check at 1. destruct (_ && _) eqn:B; [lia|discriminate].
Qed.
Lemma wt_loop_some g ls ar now w tow : forall fuel i, 0 <= raw g w tow i \/ wt_candidate g ls w tow i = Raise OverflowError ->
  (dt_max - raw g w tow i) / (gnss_rollover g * us_per_week) + 2 <= Z.of_nat fuel \/ wt_candidate g ls w tow i = Raise OverflowError ->
  (0 < fuel)%nat -> wt_loop fuel g ls ar now w tow i <> None.
Proof.
  pose proof (rollover_pos g) as P. induction fuel as [|fuel IH]; intros i R F Hf; [lia|]. cbn [wt_loop].
  destruct (wt_candidate g ls w tow i) as [t|e] eqn:C; [|discriminate].
  destruct R as [R|R]; [|discriminate]. destruct F as [F|F]; [|discriminate].
  destruct ar; cbn [negb]; [|discriminate]. destruct (dt_check _) as [nx|]; [|discriminate]. destruct (_ <? _); [discriminate|].
  pose proof (candidate_in_range _ _ _ _ _ _ C) as [_ B].
  assert (raw g w tow (i + 1) = raw g w tow i + gnss_rollover g * us_per_week) as E by (unfold raw; ring).
  assert (0 <= (dt_max - raw g w tow i) / (gnss_rollover g * us_per_week)) by (apply Z.div_pos; lia).
  apply IH.
  - left. lia.
  - left. rewrite E. replace (dt_max - (raw g w tow i + gnss_rollover g * us_per_week)) with
      (dt_max - raw g w tow i + (-1) * (gnss_rollover g * us_per_week)) by ring. rewrite Z.div_add by lia. lia.
  - lia.
Qed.
Lemma wnotow2utc_some wno tow ls g ar mw now : wnotow2utc wno tow ls g ar mw now <> None.
Proof.
  unfold wnotow2utc. set (w := if mw then _ else _). set (tw := tow mod 604800000). pose proof (rollover_pos g) as P.
  destruct (wt_candidate g ls w tw 0) as [t|e] eqn:C.
  - pose proof (candidate_in_range _ _ _ _ _ _ C) as [B1 B2]. apply wt_loop_some.
    + left. exact B1.
    + left. unfold wt_fuel. rewrite Z2Nat.id.
      * assert ((dt_max - raw g w tw 0) / (gnss_rollover g * us_per_week) <= dt_max / (gnss_rollover g * us_per_week)) by (apply Z.div_le_mono; lia). lia.
      * assert (0 <= dt_max / (gnss_rollover g * us_per_week)) by (apply Z.div_pos; [rewrite dt_max_val|]; lia). lia.
    + unfold wt_fuel. assert (0 <= dt_max / (gnss_rollover g * us_per_week)) by (apply Z.div_pos; [rewrite dt_max_val|]; lia). lia.
  - pose proof (wt_candidate_raise _ _ _ _ _ _ C) as ->. apply wt_loop_some; [right; exact C|right; exact C|].
    unfold wt_fuel. assert (0 <= dt_max / (gnss_rollover g * us_per_week)) by (apply Z.div_pos; [rewrite dt_max_val|]; lia). lia.
Qed.
