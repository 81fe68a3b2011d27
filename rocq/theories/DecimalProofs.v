(* Decimal text of floats: 17 significant digits identify a float, and the text
   of repr() reads back as the same float. *)
From Coq Require Import Reals Lia Lra.
From Flocq Require Import Core BinarySingleNaN.
From Verif Require Import Helpers BaseLemmas NumLemmas FloatProofs.
Local Open Scope Z_scope.

(* ------------------------------------------------ the neighbourhood of a float *)
Lemma rnd_near x v : format64 x ->
  ((x + pred radix2 fexp64 x) / 2 < v < (x + succ radix2 fexp64 x) / 2)%R -> rnd v = x.
Proof.
  intros F [A B]. apply Rle_antisym.
  - apply round_N_le_midp; [apply valid_fexp64|exact F|exact B].
  - apply round_N_ge_midp; [apply valid_fexp64|exact F|exact A].
Qed.
Definition posval (m : positive) (e : Z) : R := F2R (Float radix2 (Zpos m) e).
Lemma posval_pos m e : (0 < posval m e)%R.
Proof. apply F2R_gt_0. reflexivity. Qed.
Lemma bounded_facts m e : SpecFloat.bounded fprec femax m e = true ->
  Z.pos m < 2 ^ 53 /\ -1074 <= e /\ cexp radix2 fexp64 (posval m e) = e.
Proof.
  intros B. pose proof (bounded_ge_emin fprec femax m e) as _.
  assert (canonical radix2 fexp64 (Float radix2 (Zpos m) e)) as C.
  { apply andb_prop in B as [B _]. apply (canonical_canonical_mantissa fprec femax false m e B). }
  unfold canonical in C. cbn [Fexp] in C. unfold posval. symmetry in C. split; [|split; [|exact C]].
  - unfold cexp in C. rewrite mag_F2R_Zdigits in C by discriminate. rewrite fexp64_val in C.
    apply (Zpower_gt_Zdigits radix2 53 (Zpos m)). lia.
  - unfold cexp in C. rewrite fexp64_val in C. lia.
Qed.
Lemma near_float m e v : SpecFloat.bounded fprec femax m e = true ->
  (Rabs (v - posval m e) <= posval m e * / 20000000000000000)%R -> rnd v = posval m e.
Proof.
  intros B H. destruct (bounded_facts m e B) as (M & E & C). pose proof (posval_pos m e) as P.
  assert (posval m e = IZR (Zpos m) * bpow radix2 e)%R as PV by reflexivity.
  assert (format64 (posval m e)) as F by (apply small_format; lia).
  assert (IZR (Zpos m) <= 9007199254740991)%R as MB by (apply IZR_le; lia).
  assert (0 < bpow radix2 e)%R as PE by apply bpow_gt_0.
  assert (ulp radix2 fexp64 (posval m e) = bpow radix2 e) as U.
  { rewrite ulp_neq_0 by lra. rewrite C. reflexivity. }
  apply Rabs_le_inv in H. apply rnd_near; [exact F|]. split.
  - rewrite pred_eq_pos by lra. unfold pred_pos. destruct (Req_bool_spec (posval m e) (bpow radix2 (mag radix2 (posval m e) - 1))) as [Q|Q].
    + set (g := mag radix2 (posval m e)) in *.
      (* the gap below is half an ulp at worst *)
      assert (bpow radix2 e <= 2 * bpow radix2 (fexp64 (g - 1)))%R as G.
      { replace (2 * bpow radix2 (fexp64 (g - 1)))%R with (bpow radix2 (1 + fexp64 (g - 1))) by (rewrite bpow_plus; reflexivity).
        apply bpow_le. unfold cexp in C. fold g in C. rewrite fexp64_val in *. lia. }
      assert (posval m e <= 4503599627370496 * bpow radix2 e)%R as HB.
      { rewrite Q. replace 4503599627370496%R with (bpow radix2 52) by reflexivity. rewrite <- bpow_plus. apply bpow_le.
        unfold cexp in C. fold g in C. rewrite fexp64_val in C. lia. }
      lra.
    + rewrite U. nra.
  - rewrite succ_eq_pos by lra. rewrite U. nra.
Qed.

(* ------------------------------------------------------------ exact fractions *)
Lemma frac_correct m e k n d : scaled_frac m e k = (n, d) ->
  0 < n /\ 0 < d /\ (IZR n / IZR d = posval m e * pow10 k)%R.
Proof.
  unfold scaled_frac. cbn zeta. intros H. injection H as <- <-.
  assert (forall b, 0 < b -> forall z, 0 < (if 0 <=? z then b ^ z else 1)) as A.
  { intros b Hb z. destruct (Z.leb_spec 0 z); [apply Z.pow_pos_nonneg; lia|lia]. }
  assert (forall b, 0 < b -> forall z, 0 < (if 0 <=? z then 1 else b ^ (- z))) as A'.
  { intros b Hb z. destruct (Z.leb_spec 0 z); [lia|apply Z.pow_pos_nonneg; lia]. }
  pose proof (A 2 ltac:(lia) e). pose proof (A 10 ltac:(lia) k). pose proof (A' 2 ltac:(lia) e). pose proof (A' 10 ltac:(lia) k).
  split; [nia|]. split; [nia|]. rewrite !mult_IZR.
  assert (IZR (if 0 <=? e then 2 ^ e else 1) / IZR (if 0 <=? e then 1 else 2 ^ (- e)) = bpow radix2 e)%R as E2.
  { destruct (Z.leb_spec 0 e) as [L|L].
    - rewrite bpow_IZR by exact L. field.
    - replace e with (- (- e)) at 2 by lia. rewrite bpow_opp, bpow_IZR by lia. lra. }
  assert (IZR (if 0 <=? k then 10 ^ k else 1) / IZR (if 0 <=? k then 1 else 10 ^ (- k)) = pow10 k)%R as E10.
  { destruct (Z.leb_spec 0 k) as [L|L].
    - rewrite pow10_IZR by exact L. field.
    - replace k with (- (- k)) at 2 by lia. rewrite pow10_neg, pow10_IZR by lia. lra. }
  unfold posval, F2R. cbn [Fnum Fexp]. rewrite <- E2, <- E10. field.
  split; apply not_0_IZR; lia.
Qed.

(* ---------------------------------------------------------- decimal exponent *)
Lemma ndigits_bounds n : (0 < n)%N -> 1 <= ndigits n /\ 10 ^ (ndigits n - 1) <= Z.of_N n < 10 ^ ndigits n.
Proof.
  intros H. unfold ndigits. pose proof (N_digits_canon 10 n ltac:(lia)) as (_ & _ & NE & _).
  destruct (length (N_digits 10 n)) as [|k] eqn:L; [destruct (N_digits 10 n); [congruence|discriminate]|].
  split; [lia|]. split.
  - destruct k as [|k]; [cbn; lia|]. apply Z.nlt_ge. intros LT.
    assert (length (N_digits 10 n) <= S k)%nat as LE.
    { apply N_digits_length_le; [lia|]. apply N2Z.inj_lt. rewrite N2Z.inj_pow. replace (Z.of_N (N.of_nat (S k))) with (Z.of_nat (S (S k)) - 1) by lia. exact LT. }
    lia.
  - pose proof (N_digits_length_ge 10 n (S k) ltac:(lia) ltac:(lia)) as G. apply N2Z.inj_lt in G. rewrite N2Z.inj_pow in G.
    rewrite nat_N_Z in G. exact G.
Qed.
Lemma pow10_le a b : a <= b -> (pow10 a <= pow10 b)%R.
Proof.
  intros H. replace b with (a + (b - a)) by lia. rewrite pow10_add. rewrite <- (Rmult_1_r (pow10 a)) at 1.
  apply Rmult_le_compat_l; [apply Rlt_le, pow10_pos|]. rewrite pow10_IZR by lia. apply IZR_le. pose proof (Z.pow_pos_nonneg 10 (b - a)). lia.
Qed.
Lemma div_le a b c : 0 < b -> (IZR c <= IZR a / IZR b)%R <-> c * b <= a.
Proof.
  intros B. assert (0 < IZR b)%R as B' by (apply IZR_lt; exact B). split; intros H.
  - apply le_IZR. rewrite mult_IZR. apply Rmult_le_compat_r with (r := IZR b) in H; [|lra]. unfold Rdiv in H. rewrite Rmult_assoc, Rinv_l in H by lra. lra.
  - apply Rmult_le_reg_r with (IZR b); [exact B'|]. unfold Rdiv. rewrite Rmult_assoc, Rinv_l, Rmult_1_r by lra. rewrite <- mult_IZR. apply IZR_le, H.
Qed.
Lemma div_lt a b c : 0 < b -> (IZR a / IZR b < IZR c)%R <-> a < c * b.
Proof.
  intros B. assert (0 < IZR b)%R as B' by (apply IZR_lt; exact B). split; intros H.
  - apply lt_IZR. rewrite mult_IZR. apply Rmult_lt_compat_r with (r := IZR b) in H; [|lra]. unfold Rdiv in H. rewrite Rmult_assoc, Rinv_l in H by lra. lra.
  - apply Rmult_lt_reg_r with (IZR b); [exact B'|]. unfold Rdiv. rewrite Rmult_assoc, Rinv_l, Rmult_1_r by lra. rewrite <- mult_IZR. apply IZR_lt, H.
Qed.
Lemma dec_point_correct m e : (pow10 (dec_point m e - 1) <= posval m e < pow10 (dec_point m e))%R.
Proof.
  unfold dec_point. destruct (scaled_frac m e 0) as [n d] eqn:S. destruct (frac_correct _ _ _ _ _ S) as (N & D & V).
  change (pow10 0) with 1%R in V. rewrite Rmult_1_r in V. rewrite <- V. clear V S.
  destruct (Z.leb_spec d n) as [L|L].
  - assert (1 <= n / d) by (apply Z.div_le_lower_bound; lia).
    destruct (ndigits_bounds (Z.to_N (n / d))) as (B1 & B2 & B3); [lia|]. rewrite Z2N.id in B2, B3 by lia. set (p := ndigits _) in *.
    rewrite !pow10_IZR by lia. split.
    + apply div_le; [exact D|]. pose proof (Z.mul_div_le n d D). nia.
    + apply div_lt; [exact D|]. pose proof (Z.mul_succ_div_gt n d D). nia.
  - assert (1 <= (d - 1) / n) by (apply Z.div_le_lower_bound; lia).
    destruct (ndigits_bounds (Z.to_N ((d - 1) / n))) as (B1 & B2 & B3); [lia|]. rewrite Z2N.id in B2, B3 by lia. set (z := ndigits _) in *.
    replace (1 - z - 1) with (- z) by lia. replace (1 - z) with (- (z - 1)) by lia. rewrite !pow10_neg, !pow10_IZR by lia.
    pose proof (Z.mul_div_le (d - 1) n N) as Q1. pose proof (Z.mul_succ_div_gt (d - 1) n N) as Q2. set (q := (d - 1) / n) in *.
    assert (0 < IZR d)%R by (apply IZR_lt; exact D). assert (0 < IZR n)%R by (apply IZR_lt; exact N).
    assert (0 < 10 ^ z) by (apply Z.pow_pos_nonneg; lia). assert (0 < 10 ^ (z - 1)) by (apply Z.pow_pos_nonneg; lia).
    assert (0 < IZR (10 ^ z))%R by (apply IZR_lt; assumption). assert (0 < IZR (10 ^ (z - 1)))%R by (apply IZR_lt; assumption). split.
    + apply Rmult_le_reg_r with (IZR (10 ^ z)); [assumption|]. rewrite Rinv_l by lra.
      apply Rmult_le_reg_r with (IZR d); [assumption|]. replace (IZR n / IZR d * IZR (10 ^ z) * IZR d)%R with (IZR n * IZR (10 ^ z))%R by (field; lra).
      rewrite Rmult_1_l, <- mult_IZR. apply IZR_le. nia.
    + apply Rmult_lt_reg_r with (IZR (10 ^ (z - 1))); [assumption|]. rewrite Rinv_l by lra.
      apply Rmult_lt_reg_r with (IZR d); [assumption|]. replace (IZR n / IZR d * IZR (10 ^ (z - 1)) * IZR d)%R with (IZR n * IZR (10 ^ (z - 1)))%R by (field; lra).
      rewrite Rmult_1_l, <- mult_IZR. apply IZR_lt. nia.
Qed.

(* --------------------------------------------------- 17 digits are enough *)
Lemma same_true x y : same x y = true -> x = y.
Proof.
  destruct x as [s|s| |s m e], y as [s'|s'| |s' m' e']; cbn; try discriminate; intros H.
  - apply Bool.eqb_prop in H. congruence.
  - apply Bool.eqb_prop in H. congruence.
  - apply andb_true_iff in H as [H H3]. apply andb_true_iff in H as [H1 H2]. apply Bool.eqb_prop in H1. apply Pos.eqb_eq in H2. apply Z.eqb_eq in H3. congruence.
Qed.
Lemma same_refl s m e : same (S754_finite s m e) (S754_finite s m e) = true.
Proof. cbn. rewrite Bool.eqb_reflx, Pos.eqb_refl, Z.eqb_refl. reflexivity. Qed.
Lemma cand_some m e p n d ex : cand m e p n = Some (d, ex) -> f_of_dec false d ex = S754_finite false m e.
Proof.
  unfold cand. destruct (scaled_frac m e (n - p)) as [a b]. cbn zeta.
  set (lo := Z.to_N (a / b)). set (hi := if a mod b =? 0 then lo else N.succ lo).
  destruct (same (f_of_dec false lo _) _) eqn:L, (same (f_of_dec false hi _) _) eqn:H; cbn [andb];
    try (apply same_true in L); try (apply same_true in H).
  - destruct (2 * (a mod b) ?= b); [destruct (N.even lo)| |]; intros E; injection E as <- <-; assumption.
  - intros E; injection E as <- <-; assumption.
  - intros E; injection E as <- <-; assumption.
  - discriminate.
Qed.
Lemma finite_data s m e : SpecFloat.bounded fprec femax m e = true -> fdata (S754_finite s m e).
Proof. intros B. split; [exact B|reflexivity]. Qed.
Lemma dec_reads m e d k : SpecFloat.bounded fprec femax m e = true ->
  (Rabs (IZR (Z.of_N d) * pow10 k - posval m e) <= posval m e * / 20000000000000000)%R ->
  f_of_dec false d k = S754_finite false m e.
Proof.
  intros B H. pose proof (near_float m e _ B H) as R. pose proof (f_of_dec_correct false d k) as N. cbn [signR] in N.
  apply nearest_fdata in N.
  - destruct N as (D & V & S). rewrite R in V. apply fdata_inj; [exact D|apply finite_data, B|exact V|exact S].
  - rewrite R. exact (fdata_huge _ (finite_data false m e B)).
Qed.
Lemma cand_17 m e : SpecFloat.bounded fprec femax m e = true -> cand m e (dec_point m e) 17 <> None.
Proof.
  intros B. pose proof (dec_point_correct m e) as [P1 P2]. set (p := dec_point m e) in *. unfold cand.
  destruct (scaled_frac m e (17 - p)) as [a b] eqn:S. destruct (frac_correct _ _ _ _ _ S) as (A & Bp & V). cbn zeta.
  pose proof (Z.div_mod a b ltac:(lia)) as DM. pose proof (Z.mod_pos_bound a b Bp) as MB.
  assert (0 <= a / b) as Q0 by (apply Z.div_pos; lia).
  set (q := a / b) in *. set (r := a mod b) in *.
  set (lo := Z.to_N q). set (hi := if r =? 0 then lo else N.succ lo).
  (* unit in the last of 17 digits *)
  assert (pow10 (- (17 - p)) * pow10 (17 - p) = 1)%R as PP by (rewrite <- pow10_add; replace (- (17 - p) + (17 - p)) with 0 by lia; reflexivity).
  pose proof (pow10_pos (- (17 - p))) as PO. pose proof (pow10_pos (17 - p)) as PO2.
  assert (pow10 (- (17 - p)) <= posval m e * / 10000000000000000)%R as UB.
  { replace (- (17 - p)) with ((p - 1) + (- (16))) by lia. rewrite pow10_add, pow10_neg, (pow10_IZR 16) by lia.
    change (IZR (10 ^ 16)) with 10000000000000000%R. nra. }
  assert (0 < IZR b)%R as Bp' by (apply IZR_lt; exact Bp).
  assert (IZR a = IZR b * IZR q + IZR r)%R as EA by (rewrite DM, plus_IZR, mult_IZR; reflexivity).
  assert (posval m e = IZR a / IZR b * pow10 (- (17 - p)))%R as EV.
  { rewrite V, Rmult_assoc, (Rmult_comm (pow10 (17 - p))), PP. ring. }
  assert (IZR a / IZR b = IZR q + IZR r / IZR b)%R as ED by (rewrite EA; field; lra).
  destruct (Z.leb_spec (2 * r) b) as [L|L].
  - assert (f_of_dec false lo (- (17 - p)) = S754_finite false m e) as R.
    { apply dec_reads; [exact B|]. unfold lo. rewrite Z2N.id by exact Q0.
      replace (IZR q * pow10 (- (17 - p)) - posval m e)%R with (- (IZR r / IZR b * pow10 (- (17 - p))))%R by (rewrite EV, ED; ring).
      rewrite Rabs_Ropp, Rabs_pos_eq.
      - assert (IZR r / IZR b <= / 2)%R as H2.
        { apply Rmult_le_reg_r with (IZR b); [exact Bp'|]. unfold Rdiv. rewrite Rmult_assoc, Rinv_l by lra.
          assert (2 * IZR r <= IZR b)%R by (rewrite <- mult_IZR; apply IZR_le; lia). lra. }
        apply Rle_trans with (/ 2 * pow10 (- (17 - p)))%R; [apply Rmult_le_compat_r; lra|]. lra.
      - apply Rmult_le_pos; [|lra]. apply Rmult_le_pos; [apply IZR_le; lia|]. apply Rlt_le, Rinv_0_lt_compat. exact Bp'. }
    rewrite R, same_refl. destruct (same (f_of_dec false hi _) _); cbn [andb]; [destruct (2 * r ?= b); [destruct (N.even lo)| |]|]; discriminate.
  - assert (r <> 0) as R0 by lia. unfold hi. destruct (Z.eqb_spec r 0) as [|_]; [contradiction|].
    assert (f_of_dec false (N.succ lo) (- (17 - p)) = S754_finite false m e) as R.
    { apply dec_reads; [exact B|]. unfold lo. rewrite N2Z.inj_succ, Z2N.id by exact Q0. rewrite succ_IZR.
      replace ((IZR q + 1) * pow10 (- (17 - p)) - posval m e)%R with ((1 - IZR r / IZR b) * pow10 (- (17 - p)))%R by (rewrite EV, ED; ring).
      assert (/ 2 <= IZR r / IZR b <= 1)%R as H2.
      { split; apply Rmult_le_reg_r with (IZR b); try exact Bp'; unfold Rdiv; rewrite Rmult_assoc, Rinv_l by lra.
        - assert (IZR b <= 2 * IZR r)%R by (rewrite <- mult_IZR; apply IZR_le; lia). lra.
        - assert (IZR r <= IZR b)%R by (apply IZR_le; lia). lra. }
      rewrite Rabs_pos_eq by (apply Rmult_le_pos; lra).
      apply Rle_trans with (/ 2 * pow10 (- (17 - p)))%R; [apply Rmult_le_compat_r; lra|]. lra. }
    rewrite R, same_refl, andb_true_r. destruct (same (f_of_dec false lo _) _); [destruct (2 * r ?= b); [destruct (N.even lo)| |]|]; discriminate.
Qed.
Lemma shortest_some m e : SpecFloat.bounded fprec femax m e = true ->
  exists d ex, shortest 17 m e (dec_point m e) 1 = Some (d, ex) /\ f_of_dec false d ex = S754_finite false m e.
Proof.
  intros B. pose proof (cand_17 m e B) as C.
  assert (forall f n, n <= 17 -> 17 < n + Z.of_nat f -> exists d ex, shortest f m e (dec_point m e) n = Some (d, ex) /\ f_of_dec false d ex = S754_finite false m e) as G.
  { induction f as [|f IH]; intros n N1 N2; [lia|]. cbn [shortest]. destruct (cand m e (dec_point m e) n) as [[d ex]|] eqn:E.
    - exists d, ex. split; [reflexivity|]. exact (cand_some _ _ _ _ _ _ E).
    - destruct (Z.eq_dec n 17) as [->|]; [contradiction|]. apply IH; lia. }
  apply (G 17%nat 1); lia.
Qed.

(* ------------------------------------------------------------ reading text *)
Definition digit (d : N) : Prop := (d < 10)%N.
Lemma take_digits_app l r : Forall digit l -> match r with c :: _ => dec_digit c = None | [] => True end ->
  take_digits (map dec_char l ++ r) = (l, r).
Proof.
  intros F H. induction F as [|d l D _ IH]; cbn [map app take_digits].
  - destruct r as [|c r]; [reflexivity|]. cbn [take_digits]. rewrite H. reflexivity.
  - rewrite dec_digit_char by exact D. rewrite IH. reflexivity.
Qed.
Lemma take_digits_all l : Forall digit l -> take_digits (map dec_char l) = (l, []).
Proof. intros F. rewrite <- (app_nil_r (map dec_char l)). apply take_digits_app; [exact F|exact I]. Qed.
(* characters of a decimal numeral *)
Definition numeral_char (c : N) : Prop := (48 <= c <= 57 \/ c = 46 \/ c = 101 \/ c = 43 \/ c = 45)%N.
Ltac numlit := match goal with |- Forall _ ?l => let v := eval vm_compute in l in change l with v end;
  repeat (apply Forall_cons; [unfold numeral_char; lia|]); apply Forall_nil.
Lemma dec_chars l : Forall digit l -> Forall numeral_char (map dec_char l).
Proof. intros F. apply Forall_map. eapply Forall_impl; [|exact F]. unfold digit, numeral_char, dec_char. intros; lia. Qed.
Lemma us_ok_none b s : Forall numeral_char s -> us_ok b s = true.
Proof.
  intros F. revert b. induction F as [|c s C _ IH]; intros b; [reflexivity|]. cbn [us_ok].
  replace (c =? 95)%N with false by (unfold numeral_char in C; lia). apply IH.
Qed.
Lemma remove_none x s : Forall (fun c => c <> x) s -> remove_char x s = s.
Proof.
  unfold remove_char. induction 1 as [|c s C _ IH]; [reflexivity|]. cbn [filter].
  replace (c =? x)%N with false by (symmetry; apply N.eqb_neq; exact C). cbn [negb]. rewrite IH. reflexivity.
Qed.
Lemma low_not_word s d : (48 <= d <= 57)%N ->
  (str_eqb (map lower_ascii (d :: s)) (u "inf") || str_eqb (map lower_ascii (d :: s)) (u "infinity")) = false /\ str_eqb (map lower_ascii (d :: s)) (u "nan") = false.
Proof.
  intros D. cbn [map]. assert (lower_ascii d = d) as -> by (unfold lower_ascii; replace ((65 <=? d) && (d <=? 90))%N with false by lia; reflexivity).
  assert (forall w r, (w =? d)%N = false -> str_eqb (d :: map lower_ascii s) (w :: r) = false) as G.
  { intros w r H. apply str_eqb_neq. intros E. injection E as E _. apply N.eqb_neq in H. congruence. }
  rewrite orb_false_iff. split; [split|]; [apply (G 105%N)|apply (G 105%N)|apply (G 110%N)]; apply N.eqb_neq; lia.
Qed.
(* an unsigned numeral starting with a digit, signed by [neg] *)
Lemma float_of_text (neg : bool) t x : Forall numeral_char t -> match t with c :: _ => (48 <= c <= 57)%N | [] => False end ->
  parse_unsigned neg t = Some x -> float_of_str (if neg then 45%N :: t else t) = Ok x.
Proof.
  intros F H P. set (s := if neg then 45%N :: t else t).
  assert (Forall numeral_char s) as Fs by (unfold s; destruct neg; [constructor; [unfold numeral_char; lia|exact F]|exact F]).
  unfold float_of_str. cbv zeta. rewrite to_ascii_id by (eapply Forall_impl; [|exact Fs]; unfold numeral_char; intros; lia).
  rewrite strip_if_none by (eapply Forall_impl; [|exact Fs]; unfold numeral_char, c_isspace; intros; lia).
  rewrite us_ok_none by exact Fs. rewrite remove_none by (eapply Forall_impl; [|exact Fs]; unfold numeral_char; intros; lia).
  assert (split_sign s = (neg, t)) as SS.
  { unfold s. destruct neg; [reflexivity|]. destruct t as [|c t]; [contradiction|]. cbn [split_sign].
    replace (c =? 45)%N with false by lia. replace (c =? 43)%N with false by lia. reflexivity. }
  unfold s in SS. destruct neg; rewrite SS, P; reflexivity.
Qed.
(* digits [. digits] [e digits] *)
Lemma parse_plain neg ip fp : Forall digit ip -> Forall digit fp -> ip <> [] ->
  parse_unsigned neg (map dec_char ip ++ 46%N :: map dec_char fp) = Some (f_of_dec neg (digits_val 10 (ip ++ fp)) (- Z.of_nat (length fp))).
Proof.
  intros F1 F2 NE. unfold parse_unsigned. cbn zeta. destruct ip as [|d ip]; [congruence|].
  destruct (low_not_word (map dec_char ip ++ 46%N :: map dec_char fp) (dec_char d)) as [L1 L2].
  { inversion F1; subst. unfold digit, dec_char in *. lia. }
  change (map dec_char (d :: ip) ++ 46%N :: map dec_char fp) with (dec_char d :: (map dec_char ip ++ 46%N :: map dec_char fp)). rewrite L1, L2.
  change (dec_char d :: (map dec_char ip ++ 46%N :: map dec_char fp)) with (map dec_char (d :: ip) ++ 46%N :: map dec_char fp).
  rewrite take_digits_app by (exact F1 || reflexivity). change (46 =? 46)%N with true. cbn match. rewrite take_digits_all by exact F2.
  cbn [app parse_exp]. rewrite Z.sub_0_l. reflexivity.
Qed.
Lemma parse_expo neg d fp ex : digit d -> Forall digit fp ->
  parse_unsigned neg ((match map dec_char fp with [] => [dec_char d] | r => dec_char d :: 46%N :: r end)
     ++ [101%N; (if ex <? 0 then 45%N else 43%N)] ++ zfill 2 (dec_of_N (Z.abs_N ex)))
  = Some (f_of_dec neg (digits_val 10 (d :: fp)) (ex - Z.of_nat (length fp))).
Proof.
  intros D F. set (tl := [101%N; (if ex <? 0 then 45%N else 43%N)] ++ zfill 2 (dec_of_N (Z.abs_N ex))).
  assert (parse_exp tl = Some ex) as PE.
  { unfold tl. cbn [app parse_exp]. change ((101 =? 101) || (101 =? 69))%N with true. cbn match.
    assert (exists l, zfill 2 (dec_of_N (Z.abs_N ex)) = map dec_char l /\ Forall digit l /\ l <> [] /\ digits_val 10 l = Z.abs_N ex) as (l & -> & Fl & Nl & Vl).
    { unfold zfill, dec_of_N. rewrite map_length. exists (repeat 0%N (2 - length (N_digits 10 (Z.abs_N ex))) ++ N_digits 10 (Z.abs_N ex)). split; [|split; [|split]].
      - rewrite map_app. f_equal. generalize (2 - length (N_digits 10 (Z.abs_N ex)))%nat as n. induction n as [|n IH]; [reflexivity|]. cbn [repeat map]. rewrite <- IH. reflexivity.
      - apply Forall_app. split; [apply Forall_forall; intros x Hx; apply repeat_spec in Hx; subst; unfold digit; lia|].
        eapply Forall_impl; [|apply (N_digits_lt 10); lia]. intros a Ha. exact Ha.
      - intros H. apply app_eq_nil in H as [_ H]. destruct (N_digits_canon 10 (Z.abs_N ex)) as (_ & _ & NE & _); [lia|]. congruence.
      - rewrite digits_val_zeros. apply N_digits_val. lia. }
    unfold split_sign. destruct (Z.ltb_spec ex 0) as [L|L].
    - change (45 =? 45)%N with true. cbn match. rewrite take_digits_all by exact Fl. destruct l as [|a l]; [congruence|]. rewrite Vl. unfold signed. f_equal. lia.
    - change (43 =? 45)%N with false. change (43 =? 43)%N with true. cbn match. rewrite take_digits_all by exact Fl. destruct l as [|a l]; [congruence|]. rewrite Vl. unfold signed. f_equal. lia. }
  destruct fp as [|f fp].
  - change (parse_unsigned neg (dec_char d :: tl) = Some (f_of_dec neg (digits_val 10 [d]) (ex - 0))).
    unfold parse_unsigned. cbv zeta.
    destruct (low_not_word tl (dec_char d)) as [L1 L2]; [unfold digit, dec_char in *; lia|].
    rewrite L1, L2. change (dec_char d :: tl) with (map dec_char [d] ++ tl).
    rewrite take_digits_app; [|constructor; [exact D|constructor]|reflexivity].
    assert (exists r, tl = 101%N :: r) as (r & Et) by (eexists; reflexivity). rewrite Et in *. clear Et.
    change (101 =? 46)%N with false. cbv iota. cbn [app]. rewrite PE. reflexivity.
  - change (parse_unsigned neg (dec_char d :: 46%N :: (map dec_char (f :: fp) ++ tl)) = Some (f_of_dec neg (digits_val 10 (d :: f :: fp)) (ex - Z.of_nat (length (f :: fp))))).
    unfold parse_unsigned. cbv zeta.
    destruct (low_not_word (46%N :: (map dec_char (f :: fp) ++ tl)) (dec_char d)) as [L1 L2]; [unfold digit, dec_char in *; lia|].
    rewrite L1, L2.
    change (dec_char d :: 46%N :: (map dec_char (f :: fp) ++ tl)) with (map dec_char [d] ++ 46%N :: (map dec_char (f :: fp) ++ tl)).
    rewrite take_digits_app; [|constructor; [exact D|constructor]|reflexivity].
    change (46 =? 46)%N with true. cbv iota. rewrite take_digits_app; [|exact F|reflexivity]. cbn [app]. rewrite PE. reflexivity.
Qed.

Lemma rev_repeat' (k : nat) : rev (repeat 0%N k) = repeat 0%N k.
Proof.
  induction k as [|k IH]; [reflexivity|]. cbn [repeat rev]. rewrite IH. clear IH.
  induction k as [|k IH]; [reflexivity|]. cbn [repeat app]. rewrite IH. reflexivity.
Qed.
Lemma strip_zeros_split l : exists k, l = strip_zeros l ++ repeat 0%N k.
Proof.
  unfold strip_zeros. assert (forall r, exists k, r = repeat 0%N k ++ lstrip_if (N.eqb 0) r) as G.
  { induction r as [|c r [k IH]]; [exists 0%nat; reflexivity|]. cbn [lstrip_if]. destruct (N.eqb_spec 0 c) as [<-|].
    - exists (S k). cbn [repeat app]. rewrite <- IH. reflexivity.
    - exists 0%nat. reflexivity. }
  destruct (G (rev l)) as (k & E). exists k. apply (f_equal (@rev N)) in E. rewrite rev_involutive, rev_app_distr, rev_repeat' in E. exact E.
Qed.
Lemma digits_val_trailing l k : digits_val 10 (l ++ repeat 0%N k) = (digits_val 10 l * 10 ^ N.of_nat k)%N.
Proof.
  rewrite digits_val_app2. unfold lenN. rewrite repeat_length.
  assert (digits_val 10 (repeat 0%N k) = 0%N) as ->; [|lia]. rewrite <- (app_nil_r (repeat 0%N k)), digits_val_zeros. reflexivity.
Qed.
Lemma IZR_pow10_mul a k : (IZR (Z.of_N (a * 10 ^ N.of_nat k)) = IZR (Z.of_N a) * pow10 (Z.of_nat k))%R.
Proof. rewrite N2Z.inj_mul, N2Z.inj_pow, nat_N_Z, mult_IZR, pow10_IZR by lia. reflexivity. Qed.

(* the text of repr reads back as the decimal it prints *)
Lemma repr_reads (neg : bool) ds pt : Forall digit ds -> ds <> [] ->
  float_of_str (if neg then 45%N :: repr_text ds pt else repr_text ds pt) = Ok (f_of_dec neg (digits_val 10 ds) (pt - Z.of_nat (length ds)))
  /\ Forall numeral_char (repr_text ds pt) /\ match repr_text ds pt with c :: _ => (48 <= c <= 57)%N | [] => False end.
Proof.
  intros F NE.
  assert (forall t, Forall numeral_char t -> match t with c :: _ => (48 <= c <= 57)%N | [] => False end ->
     parse_unsigned neg t = Some (f_of_dec neg (digits_val 10 ds) (pt - Z.of_nat (length ds))) ->
     float_of_str (if neg then 45%N :: t else t) = Ok (f_of_dec neg (digits_val 10 ds) (pt - Z.of_nat (length ds)))
     /\ Forall numeral_char t /\ match t with c :: _ => (48 <= c <= 57)%N | [] => False end) as G.
  { intros t T1 T2 T3. split; [apply float_of_text; assumption|split; assumption]. }
  apply G; clear G; unfold repr_text; cbn zeta; set (n := Z.of_nat (length ds)).
  - destruct (_ || _).
    + apply Forall_app. split; [|apply Forall_app; split].
      * destruct ds as [|d r]; [congruence|]. inversion F; subst. cbn [map]. pose proof (dec_chars r H2) as Fr.
        assert (numeral_char (dec_char d)) by (unfold numeral_char, dec_char, digit in *; lia).
        destruct (map dec_char r); [apply Forall_cons; [assumption|apply Forall_nil]|]. apply Forall_cons; [assumption|apply Forall_cons; [unfold numeral_char; lia|exact Fr]].
      * apply Forall_cons; [unfold numeral_char; lia|]. apply Forall_cons; [destruct (pt - 1 <? 0); unfold numeral_char; lia|apply Forall_nil].
      * unfold zfill. apply Forall_app. split; [apply Forall_forall; intros x Hx; apply repeat_spec in Hx; subst; unfold numeral_char; lia|].
        eapply Forall_impl; [|apply dec_of_N_ascii]. unfold numeral_char. intros; lia.
    + destruct (pt <=? 0); [|destruct (n <=? pt)].
      * repeat (apply Forall_app; split); [numlit| |apply dec_chars, F].
        apply Forall_forall. intros x Hx. apply repeat_spec in Hx. subst. unfold numeral_char. lia.
      * repeat (apply Forall_app; split); [apply dec_chars, F| |numlit].
        apply Forall_forall. intros x Hx. apply repeat_spec in Hx. subst. unfold numeral_char. lia.
      * pose proof (dec_chars ds F) as Fc. rewrite <- (firstn_skipn (Z.to_nat pt)) in Fc. apply Forall_app in Fc as [Fc1 Fc2].
        apply Forall_app; split; [exact Fc1|]. apply Forall_app; split; [numlit|exact Fc2].
  - destruct ds as [|d r]; [congruence|]. inversion F; subst. unfold digit in *. destruct (Z.leb_spec pt (-4)), (Z.ltb_spec 16 pt); cbn [orb].
    1-3: cbn [map]; destruct (map dec_char r); cbn [app]; unfold dec_char; lia.
    destruct (Z.leb_spec pt 0); [cbn [app u]; change (48 <= 48 <= 57)%N; lia|].
    destruct (Z.leb_spec n pt); [cbn [map app]; unfold dec_char; lia|].
    destruct (Z.to_nat pt) eqn:E; [lia|]. cbn [map firstn app]. unfold dec_char. lia.
  - destruct ((pt <=? -4) || (16 <? pt)).
    + destruct ds as [|d r]; [congruence|]. inversion F; subst. cbn [map].
      replace (pt - n) with (pt - 1 - Z.of_nat (length r)) by (unfold n; cbn [length]; lia).
      pose proof (parse_expo neg d r (pt - 1) H1 H2) as P. destruct (map dec_char r); exact P.
    + destruct (Z.leb_spec pt 0) as [P0|P0]; [|destruct (Z.leb_spec n pt) as [P1|P1]].
      * pose proof (parse_plain neg [0%N] (repeat 0%N (Z.to_nat (- pt)) ++ ds)) as P.
        rewrite map_app in P. assert (forall k, map dec_char (repeat 0%N k) = repeat 48%N k) as MR by (induction k as [|k IH]; [reflexivity|cbn [repeat map]; rewrite IH; reflexivity]).
        rewrite MR in P. change (u "0.") with (map dec_char [0%N] ++ [46%N]). rewrite <- app_assoc. cbn [app] in *. rewrite P; clear P.
        -- f_equal. rewrite digits_val_cons. rewrite N.mul_0_l, N.add_0_l, digits_val_zeros. f_equal. rewrite app_length, repeat_length. unfold n. lia.
        -- constructor; [unfold digit; lia|constructor].
        -- apply Forall_app. split; [|exact F]. apply Forall_forall. intros x Hx. apply repeat_spec in Hx. subst. unfold digit. lia.
        -- discriminate.
      * pose proof (parse_plain neg (ds ++ repeat 0%N (Z.to_nat (pt - n))) [0%N]) as P.
        rewrite map_app in P. assert (forall k, map dec_char (repeat 0%N k) = repeat 48%N k) as MR by (induction k as [|k IH]; [reflexivity|cbn [repeat map]; rewrite IH; reflexivity]).
        rewrite MR in P. rewrite <- app_assoc in P. cbn [map] in P. change (46%N :: [dec_char 0]) with (u ".0") in P. rewrite P; clear P.
        -- f_equal. apply f_of_dec_ext. rewrite (digits_val_trailing _ 1), digits_val_trailing, !IZR_pow10_mul. cbn [length].
           rewrite !Rmult_assoc, <- !pow10_add. do 2 f_equal. unfold n in *. lia.
        -- apply Forall_app. split; [exact F|]. apply Forall_forall. intros x Hx. apply repeat_spec in Hx. subst. unfold digit. lia.
        -- constructor; [unfold digit; lia|constructor].
        -- intros H. apply app_eq_nil in H as [H _]. contradiction.
      * pose proof (parse_plain neg (firstn (Z.to_nat pt) ds) (skipn (Z.to_nat pt) ds)) as P.
        rewrite firstn_skipn in P. rewrite <- firstn_map, <- skipn_map in P. cbn [app] in *. rewrite P; clear P.
        -- do 2 f_equal. rewrite skipn_length. unfold n in *. lia.
        -- rewrite <- (firstn_skipn (Z.to_nat pt)) in F. apply Forall_app in F as [F1 _]. exact F1.
        -- rewrite <- (firstn_skipn (Z.to_nat pt)) in F. apply Forall_app in F as [_ F2]. exact F2.
        -- destruct (Z.to_nat pt) eqn:E; [lia|]. destruct ds; [congruence|discriminate].
Qed.
(* repr() round trips *)
Lemma f_of_dec_sign s d ex m e : f_of_dec false d ex = S754_finite false m e -> f_of_dec s d ex = S754_finite s m e.
Proof.
  intros H. destruct s; [|exact H].
  pose proof (f_of_dec_correct false d ex) as N. pose proof (f_of_dec_correct true d ex) as N'. cbn [signR] in N, N'. rewrite H in N.
  set (v := (IZR (Z.of_N d) * pow10 ex)%R) in *. assert (rnd (- v) = - rnd v)%R as O by (unfold rnd; apply round_NE_opp).
  destruct N as [V N]. destruct (Rlt_bool_spec (Rabs (rnd v)) huge) as [L|L]; [|discriminate N]. destruct N as (N1 & _).
  apply nearest_fdata in N'; [|rewrite O, Rabs_Ropp; exact L]. destruct N' as (D' & V' & S').
  apply fdata_inj; [exact D'|split; [exact V|reflexivity]| |exact S'].
  rewrite V', O, <- N1. cbn [rval SF2R cond_Zopp]. change (Z.neg m) with (- Z.pos m). rewrite F2R_Zopp. reflexivity.
Qed.
Lemma lstrip_digits (P : N -> Prop) p l : Forall P l -> Forall P (lstrip_if p l).
Proof. induction 1 as [|c l C F IH]; cbn [lstrip_if]; [constructor|]. destruct (p c); [exact IH|constructor; assumption]. Qed.
Lemma float_text_reads s m e : SpecFloat.bounded fprec femax m e = true ->
  float_of_str (str_of_float (S754_finite s m e)) = Ok (S754_finite s m e)
  /\ exists t, str_of_float (S754_finite s m e) = (if s then 45%N :: t else t) /\ Forall numeral_char t /\ match t with c :: _ => (48 <= c <= 57)%N | [] => False end.
Proof.
  intros B. destruct (shortest_some m e B) as (d & ex & S & R). unfold str_of_float. rewrite S.
  set (ds := N_digits 10 d). destruct (strip_zeros_split ds) as (k & E).
  assert (Forall digit ds) as Fd by (eapply Forall_impl; [|apply (N_digits_lt 10); lia]; intros a Ha; exact Ha).
  assert (Forall digit (strip_zeros ds)) as Fs by (rewrite E in Fd; apply Forall_app in Fd as [Fd _]; exact Fd).
  assert (strip_zeros ds <> []) as NE.
  { intros H. rewrite H in E. cbn [app] in E. assert (digits_val 10 ds = 0%N) as Z0 by (rewrite E, <- (app_nil_r (repeat 0%N k)), digits_val_zeros; reflexivity).
    unfold ds in Z0. rewrite N_digits_val in Z0 by lia. subst d. cbn [f_of_dec] in R. discriminate R. }
  destruct (repr_reads s (strip_zeros ds) (ex + Z.of_nat (length ds)) Fs NE) as (P & Q1 & Q2). cbn zeta. split.
  - rewrite P. f_equal. rewrite <- (f_of_dec_sign s d ex m e R). apply f_of_dec_ext.
    assert (d = digits_val 10 (strip_zeros ds ++ repeat 0%N k)) as Ed by (rewrite <- E; unfold ds; rewrite N_digits_val by lia; reflexivity).
    assert (length ds = length (strip_zeros ds) + k)%nat as Ln by (rewrite E at 1; rewrite app_length, repeat_length; reflexivity).
    rewrite digits_val_trailing in Ed. rewrite Ln. clearbody ds. rewrite Ed. rewrite IZR_pow10_mul, Rmult_assoc, <- pow10_add. do 2 f_equal. lia.
  - eexists. split; [reflexivity|split; assumption].
Qed.
Lemma float_text_round_trip x : binary64 x -> float_of_str (str_of_float x) = Ok x.
Proof.
  intros V. destruct x as [s|s| |s m e].
  - destruct s; vm_compute; reflexivity.
  - destruct s; vm_compute; reflexivity.
  - vm_compute. reflexivity.
  - apply float_text_reads. exact V.
Qed.
