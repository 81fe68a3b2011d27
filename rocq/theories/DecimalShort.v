(* repr() of a float that was read from at most 15 significant digits writes those digits. *)
From Coq Require Import Reals Lia Lra.
From Flocq Require Import Core BinarySingleNaN.
From Verif Require Import Helpers BaseLemmas NumLemmas FloatProofs DecimalProofs.
Local Open Scope Z_scope.

Lemma near_rnd m e v : SpecFloat.bounded fprec femax m e = true -> (bpow radix2 (-1000) <= posval m e)%R ->
  rnd v = posval m e -> (Rabs (v - posval m e) <= posval m e * / 9007199254740992)%R.
Proof.
  intros B L R. destruct (bounded_facts m e B) as (M & E & C). pose proof (posval_pos m e) as P.
  assert (Rabs (rnd v - v) <= / 2 * ulp radix2 fexp64 (rnd v))%R as H by (apply error_le_half_ulp_round; [apply valid_fexp64|apply FLT.FLT_exp_monotone]).
  rewrite R in H. rewrite ulp_neq_0 in H by lra. rewrite C in H. rewrite Rabs_minus_sym in H.
  eapply Rle_trans; [exact H|]. unfold cexp in C. rewrite fexp64_val in C.
  set (g := mag radix2 (posval m e)) in *. assert (-1000 < g) as Hg.
  { apply (mag_gt_bpow radix2). rewrite Rabs_pos_eq by lra. exact L. }
  assert (bpow radix2 (e + 52) <= posval m e)%R as LB.
  { replace (e + 52) with (g - 1) by lia. rewrite <- (Rabs_pos_eq (posval m e)) by lra. apply bpow_mag_le. lra. }
  rewrite bpow_plus in LB. change (bpow radix2 52) with 4503599627370496%R in LB. lra.
Qed.
Lemma f_of_dec_rnd d ex m e : f_of_dec false d ex = S754_finite false m e -> rnd (IZR (Z.of_N d) * pow10 ex) = posval m e.
Proof.
  intros H. pose proof (f_of_dec_correct false d ex) as N. cbn [signR] in N. rewrite H in N. destruct N as [_ N].
  destruct (Rlt_bool _ _); [|discriminate N]. destruct N as [N _]. symmetry. exact N.
Qed.
Lemma cand_exponent m e p n d ex : cand m e p n = Some (d, ex) -> ex = - (n - p).
Proof.
  unfold cand. destruct (scaled_frac m e (n - p)) as [a b]. cbn zeta.
  destruct (same _ _), (same _ _); cbn [andb]; try discriminate.
  - destruct (2 * (a mod b) ?= b); [destruct (N.even _)| |]; intros E; injection E; auto.
  - intros E; injection E; auto.
  - intros E; injection E; auto.
Qed.
Lemma shortest_first m e p f n : n <= 15 -> 15 < n + Z.of_nat f -> cand m e p 15 <> None ->
  exists n' d ex, n' <= 15 /\ cand m e p n' = Some (d, ex) /\ shortest f m e p n = Some (d, ex).
Proof.
  revert n. induction f as [|f IH]; intros n N1 N2 C; [lia|]. cbn [shortest]. destruct (cand m e p n) as [[d ex]|] eqn:E.
  - exists n, d, ex. split; [exact N1|]. split; [exact E|reflexivity].
  - destruct (Z.eq_dec n 15) as [->|]; [contradiction|]. apply IH; [lia|lia|exact C].
Qed.
Lemma pow10_shift a b : b <= a -> pow10 a = (IZR (10 ^ (a - b)) * pow10 b)%R.
Proof. intros H. rewrite <- pow10_IZR by lia. rewrite <- pow10_add. f_equal. lia. Qed.
Lemma IZR_close a b : (Rabs (IZR a - IZR b) < 1)%R -> a = b.
Proof.
  intros H. rewrite <- minus_IZR, <- abs_IZR in H. apply lt_IZR in H. lia.
Qed.
Section Short.
  Variables (m : positive) (e : Z) (d0 : N) (q : Z).
  Hypothesis B : SpecFloat.bounded fprec femax m e = true.
  Hypothesis L : (bpow radix2 (-1000) <= posval m e)%R.
  Hypothesis R0 : f_of_dec false d0 q = S754_finite false m e.
  Hypothesis D0 : (d0 < 1000000000000000)%N.
  Let p := dec_point m e.
  Let D := (IZR (Z.of_N d0) * pow10 q)%R.
  Lemma short_scale : p - 15 <= q.
  Proof.
    destruct (Z.le_gt_cases (p - 15) q) as [|G]; [assumption|exfalso].
    pose proof (dec_point_correct m e) as [P1 _]. fold p in P1. pose proof (posval_pos m e) as PP.
    pose proof (near_rnd m e D B L (f_of_dec_rnd _ _ _ _ R0)) as E. apply Rabs_le_inv in E.
    assert (pow10 (q + 15) <= posval m e)%R as P2 by (apply (Rle_trans _ (pow10 (p - 1))); [apply pow10_le; lia|exact P1]).
    rewrite pow10_add, (pow10_IZR 15) in P2 by lia. change (IZR (10 ^ 15)) with 1000000000000000%R in P2.
    assert (IZR (Z.of_N d0) <= 999999999999999)%R as DB by (apply IZR_le; lia).
    pose proof (pow10_pos q) as PQ. unfold D in E.
    assert (IZR (Z.of_N d0) * pow10 q <= 999999999999999 * pow10 q)%R by (apply Rmult_le_compat_r; lra). lra.
  Qed.
  Definition short_int : Z := Z.of_N d0 * 10 ^ (q - (p - 15)).
  Lemma short_eq : D = (IZR short_int * pow10 (p - 15))%R.
  Proof. unfold D, short_int. rewrite (pow10_shift q (p - 15)) by exact short_scale. rewrite mult_IZR. ring. Qed.
  Lemma short_cand : cand m e p 15 <> None.
  Proof.
    pose proof (dec_point_correct m e) as [_ P2]. fold p in P2. pose proof (posval_pos m e) as PP.
    pose proof (near_rnd m e D B L (f_of_dec_rnd _ _ _ _ R0)) as E. rewrite short_eq in E.
    unfold cand. destruct (scaled_frac m e (15 - p)) as [a b] eqn:S. destruct (frac_correct _ _ _ _ _ S) as (A & Bp & V). cbn zeta.
    set (z := short_int) in *. assert (0 <= z) as Z0 by (unfold z, short_int; apply Z.mul_nonneg_nonneg; [lia|apply Z.pow_nonneg; lia]).
    assert (pow10 (p - 15) * pow10 (15 - p) = 1)%R as PI by (rewrite <- pow10_add; replace (p - 15 + (15 - p)) with 0 by lia; reflexivity).
    pose proof (pow10_pos (15 - p)) as PO. set (y := (IZR a / IZR b)%R) in *.
    assert (Rabs (IZR z - y) < 1)%R as NE.
    { rewrite V. replace (IZR z - posval m e * pow10 (15 - p))%R with ((IZR z * pow10 (p - 15) - posval m e) * pow10 (15 - p))%R
        by (rewrite Rmult_minus_distr_r, Rmult_assoc, PI; ring).
      rewrite Rabs_mult, (Rabs_pos_eq (pow10 (15 - p))) by lra.
      assert (posval m e * pow10 (15 - p) < 1000000000000000)%R as Up.
      { replace 1000000000000000%R with (pow10 p * pow10 (15 - p))%R.
        - apply Rmult_lt_compat_r; [exact PO|exact P2].
        - rewrite <- pow10_add. replace (p + (15 - p)) with 15 by lia. rewrite pow10_IZR by lia. reflexivity. }
      apply Rle_lt_trans with (posval m e * / 9007199254740992 * pow10 (15 - p))%R; [apply Rmult_le_compat_r; lra|]. nra. }
    assert (f_of_dec false (Z.to_N z) (- (15 - p)) = S754_finite false m e) as Rz.
    { rewrite <- R0. apply f_of_dec_ext. rewrite Z2N.id by exact Z0. replace (- (15 - p)) with (p - 15) by lia. symmetry. exact short_eq. }
    pose proof (Z.div_mod a b ltac:(lia)) as DM. pose proof (Z.mod_pos_bound a b Bp) as MB.
    assert (0 < IZR b)%R as Bp' by (apply IZR_lt; exact Bp).
    assert (y = IZR (a / b) + IZR (a mod b) / IZR b)%R as Ey.
    { unfold y. rewrite DM at 1. rewrite plus_IZR, mult_IZR. field. lra. }
    assert (0 <= IZR (a mod b) / IZR b < 1)%R as Fr.
    { split; [apply Rmult_le_pos; [apply IZR_le; lia|apply Rlt_le, Rinv_0_lt_compat, Bp']|].
      apply Rmult_lt_reg_r with (IZR b); [exact Bp'|]. unfold Rdiv. rewrite Rmult_assoc, Rinv_l, Rmult_1_r, Rmult_1_l by lra. apply IZR_lt. lia. }
    apply Rabs_def2 in NE. assert (z = a / b \/ (z = a / b + 1 /\ a mod b <> 0)) as [Hz|[Hz Hr]].
    { assert (a / b - 1 < z) by (apply lt_IZR; rewrite minus_IZR; lra). assert (z < a / b + 2) by (apply lt_IZR; rewrite plus_IZR; lra).
      assert (z = a / b \/ z = a / b + 1) as [Q|Q] by lia; [left; exact Q|right; split; [exact Q|]].
      intros Z1. rewrite Z1 in Ey. rewrite Q, plus_IZR in NE. lra. }
    - rewrite <- Hz, Rz, same_refl. destruct (same _ _); cbn [andb]; [destruct (2 * (a mod b) ?= b); [destruct (N.even _)| |]|]; discriminate.
    - assert (0 <= a / b) as Q0 by (apply Z.div_pos; lia). rewrite Hz in Rz. rewrite Z2N.inj_add, N.add_1_r in Rz by lia.
      destruct (Z.eqb_spec (a mod b) 0) as [|_]; [contradiction|]. rewrite Rz, same_refl, andb_true_r.
      destruct (same _ _); [destruct (2 * (a mod b) ?= b); [destruct (N.even _)| |]|]; discriminate.
  Qed.
  Lemma shortest_short : exists d ex, shortest 17 m e p 1 = Some (d, ex) /\ (IZR (Z.of_N d) * pow10 ex = IZR (Z.of_N d0) * pow10 q)%R.
  Proof.
    destruct (shortest_first m e p 17 1) as (n & d & ex & N & C & S); [lia|lia|exact short_cand|].
    exists d, ex. split; [exact S|]. fold D. pose proof (cand_exponent _ _ _ _ _ _ C) as X. pose proof (cand_some _ _ _ _ _ _ C) as Rd.
    pose proof (dec_point_correct m e) as [_ P2]. fold p in P2. pose proof (posval_pos m e) as PP.
    pose proof (near_rnd m e D B L (f_of_dec_rnd _ _ _ _ R0)) as E1. pose proof (near_rnd m e _ B L (f_of_dec_rnd _ _ _ _ Rd)) as E2.
    rewrite short_eq in *. rewrite (pow10_shift ex (p - 15)) in * by lia. rewrite <- Rmult_assoc, <- mult_IZR in *.
    set (z2 := Z.of_N d * _) in *. f_equal. f_equal. set (z := short_int) in *.
    pose proof (pow10_pos (p - 15)) as PO. replace p with (15 + (p - 15)) in P2 by lia. rewrite pow10_add, (pow10_IZR 15) in P2 by lia.
    change (IZR (10 ^ 15)) with 1000000000000000%R in P2. apply IZR_close.
    apply Rmult_lt_reg_r with (pow10 (p - 15)); [exact PO|]. rewrite <- (Rabs_pos_eq (pow10 (p - 15))) at 1 by lra. rewrite <- Rabs_mult.
    replace ((IZR z2 - IZR z) * pow10 (p - 15))%R with ((IZR z2 * pow10 (p - 15) - posval m e) - (IZR z * pow10 (p - 15) - posval m e))%R by ring.
    eapply Rle_lt_trans; [apply Rabs_triang|]. rewrite Rabs_Ropp. lra.
  Qed.
End Short.

(* ----------------------------------------------------- from decimals to text *)
Lemma strip_zeros_app ds k : last ds 0%N <> 0%N -> strip_zeros (ds ++ repeat 0%N k) = ds.
Proof.
  intros H. unfold strip_zeros. rewrite rev_app_distr, rev_repeat'.
  assert (forall l, lstrip_if (N.eqb 0) (repeat 0%N k ++ l) = lstrip_if (N.eqb 0) l) as G by (induction k; [reflexivity|assumption]).
  rewrite G. destruct ds as [|d ds] using rev_ind; [contradiction H; reflexivity|]. rewrite last_last in H.
  rewrite rev_app_distr. cbn [rev app lstrip_if]. destruct (N.eqb_spec 0 d) as [Q|_]; [congruence|]. cbn [rev]. rewrite rev_involutive. reflexivity.
Qed.
Lemma last_mod ds : Forall digit ds -> last ds 0%N <> 0%N -> (digits_val 10 ds mod 10 <> 0)%N.
Proof.
  intros F H. destruct ds as [|d ds] using rev_ind; [contradiction H; reflexivity|]. rewrite last_last in H.
  apply Forall_app in F as [_ F]. inversion F; subst. unfold digit in *. rewrite digits_val_app, N.add_comm, N.mod_add, N.mod_small by lia. exact H.
Qed.
Lemma digits_shift ds k : Forall digit ds -> hd 0%N ds <> 0%N -> N_digits 10 (digits_val 10 ds * 10 ^ N.of_nat k) = ds ++ repeat 0%N k.
Proof.
  intros F H. symmetry. apply canon_digits; [lia|]. rewrite <- digits_val_trailing. split; [reflexivity|].
  split; [apply Forall_app; split; [exact F|]; apply Forall_forall; intros x Hx; apply repeat_spec in Hx; subst; lia|].
  destruct ds as [|d ds]; [contradiction H; reflexivity|]. split; [discriminate|]. split; [intros _; exact H|]. cbn [hd app] in *.
  intros Z0. exfalso. rewrite digits_val_cons in Z0. assert (0 < 10 ^ lenN (ds ++ repeat 0%N k))%N by (apply N.neq_0_lt_0, N.pow_nonzero; lia).
  assert (0 < d * 10 ^ lenN (ds ++ repeat 0%N k))%N by (apply N.mul_pos_pos; lia). lia.
Qed.
Lemma digits_positive ds : Forall digit ds -> hd 0%N ds <> 0%N -> (10 ^ N.of_nat (length ds - 1) <= digits_val 10 ds)%N /\ (digits_val 10 ds < 10 ^ N.of_nat (length ds))%N.
Proof.
  intros F H. split; [|apply (digits_val_bound 10); [lia|exact F]].
  destruct ds as [|d ds]; [contradiction H; reflexivity|]. cbn [hd length] in *. rewrite digits_val_cons. unfold lenN.
  replace (S (length ds) - 1)%nat with (length ds) by lia. nia.
Qed.
(* equal decimals have the same digits *)
Lemma same_decimal ds q d ex : Forall digit ds -> hd 0%N ds <> 0%N -> last ds 0%N <> 0%N ->
  (IZR (Z.of_N d) * pow10 ex = IZR (Z.of_N (digits_val 10 ds)) * pow10 q)%R ->
  strip_zeros (N_digits 10 d) = ds /\ ex + Z.of_nat (length (N_digits 10 d)) = q + Z.of_nat (length ds).
Proof.
  intros F H1 H2 E. destruct (Z.le_gt_cases ex q) as [L|L].
  - assert (d = digits_val 10 ds * 10 ^ N.of_nat (Z.to_nat (q - ex)))%N as ->.
    { apply N2Z.inj, eq_IZR. rewrite IZR_pow10_mul, Z2Nat.id by lia. pose proof (pow10_pos ex).
      apply Rmult_eq_reg_r with (pow10 ex); [|lra]. rewrite E, Rmult_assoc, <- pow10_add. do 2 f_equal. lia. }
    rewrite digits_shift by assumption. split; [apply strip_zeros_app, H2|]. rewrite app_length, repeat_length. lia.
  - exfalso. apply (last_mod ds F H2).
    assert (digits_val 10 ds = d * 10 ^ N.of_nat (Z.to_nat (ex - q)))%N as ->.
    { apply N2Z.inj, eq_IZR. rewrite IZR_pow10_mul, Z2Nat.id by lia. pose proof (pow10_pos q).
      apply Rmult_eq_reg_r with (pow10 q); [|lra]. rewrite <- E, Rmult_assoc, <- pow10_add. do 2 f_equal. lia. }
    replace (N.of_nat (Z.to_nat (ex - q))) with (N.succ (N.of_nat (Z.to_nat (ex - q) - 1))) by lia.
    rewrite N.pow_succ_r'. rewrite (N.mul_comm 10), N.mul_assoc. apply N.mod_mul. lia.
Qed.
Lemma repr_short (neg : bool) ds pt x : Forall digit ds -> hd 0%N ds <> 0%N -> last ds 0%N <> 0%N -> (length ds <= 15)%nat -> -15 <= pt <= 15 ->
  nearest neg (signR neg (IZR (Z.of_N (digits_val 10 ds)) * pow10 (pt - Z.of_nat (length ds)))) x ->
  str_of_float x = (if neg then 45%N :: repr_text ds pt else repr_text ds pt).
Proof.
  intros F H1 H2 Ln P N. set (q := pt - Z.of_nat (length ds)) in *. set (n := digits_val 10 ds) in *.
  assert (x = f_of_dec neg n q) as -> by (eapply nearest_unique; [exact N|apply f_of_dec_correct]). clear N.
  destruct (digits_positive ds F H1) as [B1 B2]. fold n in B1, B2.
  assert (1 <= length ds)%nat as L1 by (destruct ds; [contradiction H1; reflexivity|cbn [length]; lia]).
  set (v := (IZR (Z.of_N n) * pow10 q)%R). pose proof (pow10_pos q) as PQ.
  assert (pow10 (pt - 1) <= v < pow10 pt)%R as [V1 V2].
  { replace (pt - 1) with (Z.of_nat (length ds - 1) + q) by (unfold q; lia). replace pt with (Z.of_nat (length ds) + q) by (unfold q; lia).
    rewrite !pow10_add, (pow10_IZR (Z.of_nat (length ds - 1))), (pow10_IZR (Z.of_nat (length ds))) by lia. unfold v. apply N2Z.inj_le in B1. apply N2Z.inj_lt in B2. rewrite N2Z.inj_pow, nat_N_Z in B1, B2.
    split; [apply Rmult_le_compat_r; [lra|apply IZR_le; exact B1]|apply Rmult_lt_compat_r; [lra|apply IZR_lt; exact B2]]. }
  assert (bpow radix2 (-1000) <= v)%R as V3.
  { eapply Rle_trans; [|exact V1]. apply Rle_trans with (pow10 (-20)); [|apply pow10_le; lia].
    apply Rle_trans with (bpow radix2 (-70)); [apply bpow_le; lia|]. change (-70) with (- (70)). change (-20) with (- (20)). rewrite bpow_opp, bpow_IZR, pow10_neg, pow10_IZR by lia.
    assert (0 < 10 ^ 20 <= 2 ^ 70) as [I1 I2] by (split; [reflexivity|vm_compute; discriminate]). apply IZR_lt in I1. apply IZR_le in I2.
    apply Rinv_le_contravar; assumption. }
  assert (bpow radix2 (-1000) <= rnd v)%R as V4.
  { rewrite <- (rnd_format (bpow radix2 (-1000))); [apply rnd_le, V3|]. apply generic_format_bpow. fold fexp64. rewrite fexp64_val. lia. }
  pose proof (bpow_gt_0 radix2 (-1000)) as BP.
  pose proof (f_of_dec_correct false n q) as C. cbn [signR] in C. fold v in C.
  apply nearest_fdata in C.
  2:{ apply (rnd_lt_huge _ (10 ^ 15)); [|lia]. rewrite Rabs_pos_eq by lra. rewrite <- (pow10_IZR 15) by lia.
      apply Rlt_le, Rlt_le_trans with (pow10 pt); [exact V2|apply pow10_le; lia]. }
  destruct C as ([Cv Cf] & Cr & Cs). destruct (f_of_dec false n q) as [s|s| |s m e] eqn:E; try discriminate Cf.
  { cbn [rval SF2R] in Cr. lra. }
  cbn [sign_of] in Cs. subst s. rewrite (f_of_dec_sign neg n q m e E).
  assert (rval (S754_finite false m e) = posval m e) as PV by reflexivity. rewrite PV in Cr.
  destruct (shortest_short m e n q Cv) as (d & ex & S & ED); [rewrite Cr; exact V4|exact E| |].
  { eapply N.lt_le_trans; [exact B2|]. change 1000000000000000%N with (10 ^ 15)%N. apply N.pow_le_mono_r; lia. }
  destruct (same_decimal ds q d ex F H1 H2 ED) as [Q1 Q2]. unfold str_of_float. rewrite S. cbn zeta. rewrite Q1, Q2.
  replace (q + Z.of_nat (length ds)) with pt by (unfold q; lia). reflexivity.
Qed.
