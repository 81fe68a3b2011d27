(* Proofs about coordinate text: decimal rounding, divmod by 60, ddd2dmm, dmm2ddd. *)
From Coq Require Import Reals Lia Lra.
From Flocq Require Import Core BinarySingleNaN.
From Verif Require Import Helpers BaseLemmas TextLemmas NumLemmas TimeSpec TimeProofs CoordSpec FloatProofs DecimalProofs.
Local Open Scope Z_scope.

(* -------------------------------------------------------- decimal rounding *)
Lemma half_even_err n d : 0 < d -> (Rabs (IZR (div_half_even n d) - IZR n / IZR d) <= / 2)%R.
Proof.
  intros D. assert (0 < IZR d)%R as D' by (apply IZR_lt; exact D).
  assert (IZR n / IZR d = IZR (n / d) + IZR (n mod d) / IZR d)%R as E.
  { rewrite (Z.div_mod n d) at 1 by lia. rewrite plus_IZR, mult_IZR. field. lra. }
  pose proof (Z.mod_pos_bound n d D) as M. rewrite E. clear E.
  assert (IZR (n mod d) / IZR d = IZR (n mod d) * / IZR d)%R as F by reflexivity.
  assert (0 <= IZR (n mod d))%R as M0 by (apply IZR_le; lia).
  assert (0 < / IZR d)%R as I by (apply Rinv_0_lt_compat; exact D').
  assert (IZR d * / IZR d = 1)%R as ID by (apply Rinv_r; lra).
  unfold div_half_even. cbn zeta. apply Rabs_le.
  destruct (Z.compare_spec (2 * (n mod d)) d) as [C|C|C].
  - assert (IZR (n mod d) / IZR d = / 2)%R as H.
    { apply (f_equal IZR) in C. rewrite mult_IZR in C. rewrite <- C. field. lra. }
    destruct (Z.even _); rewrite ?plus_IZR, H; lra.
  - assert (2 * IZR (n mod d) < IZR d)%R as H by (rewrite <- mult_IZR; apply IZR_lt, C).
    rewrite F. nra.
  - assert (IZR d < 2 * IZR (n mod d))%R as H by (rewrite <- mult_IZR; apply IZR_lt, C).
    assert (IZR (n mod d) < IZR d)%R as H' by (apply IZR_lt; lia).
    rewrite plus_IZR, F. nra.
Qed.
Lemma scaled_round_err m e k : (Rabs (IZR (scaled_round m e k) - posval m e * pow10 k) <= / 2)%R.
Proof.
  unfold scaled_round. destruct (scaled_frac m e k) as [n d] eqn:E. apply frac_correct in E as (_ & D & <-). apply half_even_err, D.
Qed.
(* an integer within half of r stays on the same side of integers *)
Lemma half_le n r z : (Rabs (IZR n - r) <= / 2)%R -> (r <= IZR z)%R -> n <= z.
Proof.
  intros H L. apply Rabs_le_inv in H. assert (n < z + 1); [|lia]. apply lt_IZR. rewrite plus_IZR. lra.
Qed.
Lemma half_ge n r z : (Rabs (IZR n - r) <= / 2)%R -> (IZR z <= r)%R -> z <= n.
Proof.
  intros H L. apply Rabs_le_inv in H. assert (z < n + 1); [|lia]. apply lt_IZR. rewrite plus_IZR. lra.
Qed.
Lemma fdata_zero x : fdata x -> is_zero x = true <-> rval x = 0%R.
Proof.
  intros [V F]. destruct x as [s|s| |s m e]; try discriminate; cbn [is_zero rval SF2R]; [tauto|]. split; [discriminate|].
  intros E. exfalso. apply eq_0_F2R in E. destruct s; discriminate E.
Qed.
Lemma fdata_nonneg x : fdata x -> sign_of x = false -> (0 <= rval x)%R.
Proof.
  intros [V F] S. destruct x as [s|s| |s m e]; try discriminate; cbn [sign_of] in S; subst; cbn [rval SF2R]; [lra|].
  apply F2R_ge_0. cbn. lia.
Qed.
Lemma sign_pos x : fdata x -> (0 < rval x)%R -> sign_of x = false.
Proof.
  intros [V F] P. destruct x as [s|s| |s m e]; try discriminate; cbn [rval SF2R sign_of] in *; [lra|].
  destruct s; [|reflexivity]. exfalso. apply gt_0_F2R in P. discriminate P.
Qed.
(* f"{x:.kf}" of a non-negative number *)
Lemma fmt_fixed_correct k x : fdata x -> sign_of x = false ->
  exists n, 0 <= n /\ fmt_fixed k x = fixed_text (Z.to_N n) k /\ (Rabs (IZR n - rval x * pow10 (Z.of_nat k)) <= / 2)%R.
Proof.
  intros D S. unfold fmt_fixed. rewrite S. pose proof (fdata_nonneg x D S) as P. destruct D as [V F].
  destruct x as [s|s| |s m e]; try discriminate; cbn [sign_of] in S; subst s.
  - exists 0. cbn [rval SF2R]. split; [lia|]. split; [reflexivity|]. rewrite Rmult_0_l, Rminus_0_r, Rabs_R0. lra.
  - exists (scaled_round m e (Z.of_nat k)). pose proof (scaled_round_err m e (Z.of_nat k)) as E.
    split; [|split; [reflexivity|exact E]]. eapply half_ge; [exact E|]. apply Rmult_le_pos; [exact P|apply Rlt_le, pow10_pos].
Qed.
(* round(x, k) *)
Lemma fround_correct k x : fdata x -> exists n s, 0 <= n /\
  (Rabs (IZR n - Rabs (rval x) * pow10 (Z.of_nat k)) <= / 2)%R
  /\ nearest s (signR (sign_of x) (IZR n * pow10 (- Z.of_nat k))) (fround k x) /\ s = sign_of x.
Proof.
  intros [V F]. destruct x as [s|s| |s m e]; try discriminate.
  - exists 0, s. cbn [rval SF2R sign_of fround]. split; [lia|]. split; [|split; [|reflexivity]].
    + rewrite Rabs_R0, Rmult_0_l, Rminus_0_r, Rabs_R0. lra.
    + rewrite Rmult_0_l. replace (signR s 0) with 0%R by (destruct s; cbn [signR]; lra). apply nearest_zero.
  - exists (scaled_round m e (Z.of_nat k)), s. cbn [sign_of fround].
    assert (Rabs (rval (S754_finite s m e)) = posval m e) as ->.
    { cbn [rval SF2R]. rewrite <- F2R_Zabs. unfold posval. destruct s; reflexivity. }
    pose proof (scaled_round_err m e (Z.of_nat k)) as E.
    assert (0 <= scaled_round m e (Z.of_nat k)) as P.
    { eapply half_ge; [exact E|]. apply Rmult_le_pos; [apply Rlt_le, posval_pos|apply Rlt_le, pow10_pos]. }
    split; [exact P|]. split; [exact E|]. split; [|reflexivity].
    pose proof (f_of_dec_correct s (Z.to_N (scaled_round m e (Z.of_nat k))) (- Z.of_nat k)) as N. rewrite Z2N.id in N by exact P. exact N.
Qed.
Lemma rval_sign x : fdata x -> rval x = signR (sign_of x) (Rabs (rval x)).
Proof.
  intros [V F]. destruct x as [s|s| |s m e]; try discriminate; cbn [rval SF2R sign_of]; [rewrite Rabs_R0; destruct s; cbn [signR]; lra|].
  rewrite <- F2R_Zabs. destruct s; cbn [signR]; [|reflexivity]. rewrite <- F2R_Zopp. reflexivity.
Qed.
Lemma signR_abs s r : Rabs (signR s r) = Rabs r.
Proof. destruct s; cbn [signR]; [apply Rabs_Ropp|reflexivity]. Qed.
Lemma fround_err k x j : (k <= 20)%nat -> fdata x -> 1 <= j <= 52 -> (Rabs (rval x) <= bpow radix2 j - 1)%R ->
  fdata (fround k x) /\ sign_of (fround k x) = sign_of x
  /\ (Rabs (rval (fround k x) - rval x) <= / 2 * pow10 (- Z.of_nat k) + bpow radix2 (j - 54))%R.
Proof.
  intros K D J B. destruct (fround_correct k x D) as (n & s & P & E & N & ->).
  set (v := (IZR n * pow10 (- Z.of_nat k))%R) in *.
  pose proof (pow10_pos (Z.of_nat k)) as T. assert (pow10 (- Z.of_nat k) = / pow10 (Z.of_nat k))%R as TI by apply pow10_neg.
  assert (1 <= pow10 (Z.of_nat k))%R as T1 by (rewrite pow10_IZR by lia; apply IZR_le; pose proof (Z.pow_pos_nonneg 10 (Z.of_nat k)); lia).
  assert (pow10 (Z.of_nat k) * / pow10 (Z.of_nat k) = 1)%R as TT by (apply Rinv_r; lra).
  assert (0 < / pow10 (Z.of_nat k))%R as TP by (apply Rinv_0_lt_compat; exact T).
  assert (/ pow10 (Z.of_nat k) <= 1)%R as TP1 by nra.
  assert (Rabs (v - Rabs (rval x)) <= / 2 * / pow10 (Z.of_nat k))%R as E'.
  { unfold v. rewrite TI. replace (IZR n * / pow10 (Z.of_nat k) - Rabs (rval x))%R with ((IZR n - Rabs (rval x) * pow10 (Z.of_nat k)) * / pow10 (Z.of_nat k))%R by (field; lra).
    rewrite Rabs_mult, (Rabs_pos_eq (/ _)) by lra. apply Rmult_le_compat_r; [lra|exact E]. }
  assert (0 <= v)%R as V0 by (unfold v; apply Rmult_le_pos; [apply IZR_le; exact P|apply Rlt_le, pow10_pos]).
  assert (v < bpow radix2 j)%R as VB by (apply Rabs_le_inv in E'; nra).
  assert (Rabs (signR (sign_of x) v) < bpow radix2 j)%R as AB by (rewrite signR_abs, Rabs_pos_eq by exact V0; exact VB).
  pose proof (rnd_err j _ ltac:(lia) AB) as RE.
  apply nearest_fdata in N.
  - destruct N as (D' & V' & S'). split; [exact D'|]. split; [exact S'|]. rewrite V'. rewrite (rval_sign x D) at 1.
    set (s := sign_of x) in *.
    replace (rnd (signR s v) - signR s (Rabs (rval x)))%R with ((rnd (signR s v) - signR s v) + signR s (v - Rabs (rval x)))%R by (destruct s; cbn [signR]; lra).
    eapply Rle_trans; [apply Rabs_triang|]. rewrite signR_abs, TI. lra.
  - apply rnd_lt_huge with (2 ^ j); [|apply Z.pow_le_mono_r; lia]. rewrite <- bpow_IZR by lia. lra.
Qed.

(* ------------------------------------------------------------- fixed width *)
Lemma fixed_numeral w k n : (1 <= w)%nat -> (1 <= k)%nat -> 0 <= n < 10 ^ Z.of_nat (w + k) ->
  zfill (w + 1 + k) (fixed_text (Z.to_N n) k) = numeral_text w (n / 10 ^ Z.of_nat k) ++ [46%N] ++ numeral_text k n.
Proof.
  intros W K B. unfold fixed_text. cbn zeta. set (d := zfill (S k) (dec_of_N (Z.to_N n))).
  assert (length (dec_of_N (Z.to_N n)) <= w + k)%nat as L1.
  { unfold dec_of_N. rewrite map_length. replace (w + k)%nat with (S (w + k - 1)) by lia. apply N_digits_length_le; [lia|]. apply N2Z.inj_lt. rewrite N2Z.inj_pow, nat_N_Z, Z2N.id by lia. replace (S (w + k - 1)) with (w + k)%nat by lia. apply B. }
  assert (length d = Nat.max (S k) (length (dec_of_N (Z.to_N n)))) as L by (unfold d, zfill; rewrite app_length, repeat_length; lia).
  assert (zfill (w + k) d = numeral_text (w + k) n) as E.
  { rewrite <- pad_numeral by (lia || exact B). unfold pad, d, zfill. rewrite app_length, repeat_length, app_assoc, <- repeat_app. f_equal. f_equal. lia. }
  rewrite numeral_text_split in E by lia. unfold zfill in E.
  rewrite <- (firstn_skipn (length d - k) d) in E at 2. rewrite app_assoc in E.
  unfold zfill. rewrite !app_length, firstn_length, skipn_length. cbn [length].
  replace (w + 1 + k - (Nat.min (length d - k) (length d) + (1 + (length d - (length d - k)))))%nat with (w + k - length d)%nat by lia.
  apply (f_equal (fun l => (firstn w l, skipn w l))) in E.
  assert (length (repeat 48%N (w + k - length d) ++ firstn (length d - k) d) = w) as LL by (rewrite app_length, repeat_length, firstn_length; lia).
  assert (forall (a b : list N), length a = w -> firstn w (a ++ b) = a /\ skipn w (a ++ b) = b) as G.
  { intros a b <-. rewrite firstn_app, skipn_app, Nat.sub_diag, firstn_all, skipn_all. cbn [firstn skipn app]. rewrite app_nil_r. split; reflexivity. }
  destruct (G _ (skipn (length d - k) d) LL) as [G1 G2].
  destruct (G (numeral_text w (n / 10 ^ Z.of_nat k)) (numeral_text k n) (numeral_text_length _ _)) as [G3 G4].
  rewrite G1, G2, G3, G4 in E. injection E as E1 E2. rewrite <- E1, <- E2, <- app_assoc. reflexivity.
Qed.

(* ----------------------------------------------------------- divmod by 60 *)
Lemma f60_data : fdata f60 /\ rval f60 = 60%R /\ sign_of f60 = false.
Proof. apply (f_int 60). cbn. lia. Qed.
Lemma fone_data : fdata fone /\ rval fone = 1%R /\ sign_of fone = false.
Proof. apply (f_int 1). cbn. lia. Qed.
Lemma ffmod60 x : fdata x -> sign_of x = false ->
  fdata (ffmod x f60) /\ sign_of (ffmod x f60) = false
  /\ rval (ffmod x f60) = (rval x - 60 * IZR (Zfloor (rval x / 60)))%R /\ (0 <= rval (ffmod x f60) < 60)%R.
Proof.
  intros D S. assert (exists m', f60 = S754_finite false m' (-47) /\ Z.pos m' = 60 * 2 ^ 47) as (m' & F60 & M') by (eexists; split; vm_compute; reflexivity).
  assert (0 <= rval x - 60 * IZR (Zfloor (rval x / 60)) < 60)%R as B.
  { pose proof (Zfloor_lb (rval x / 60)). pose proof (Zfloor_ub (rval x / 60)). lra. }
  rewrite F60. destruct D as [V F]. destruct x as [s|s| |s m e]; try discriminate; cbn [sign_of] in S; subst s.
  - cbn [ffmod sign_of rval SF2R]. split; [split; reflexivity|]. split; [reflexivity|].
    replace (0 / 60)%R with 0%R by lra. rewrite Zfloor_IZR. lra.
  - cbn [ffmod]. cbv zeta iota. set (ee := Z.min e (-47)). set (a := Z.pos m * 2 ^ (e - ee)). set (b := Z.pos m' * 2 ^ (-47 - ee)).
    destruct (bounded_facts m e V) as (M & E & _).
    assert (0 < 2 ^ (e - ee)) as P1 by (apply Z.pow_pos_nonneg; lia). assert (0 < 2 ^ (-47 - ee)) as P2 by (apply Z.pow_pos_nonneg; lia).
    assert (0 < b) as Bb by (unfold b; lia). pose proof (Z.mod_pos_bound a b Bb) as R.
    assert (rval (S754_finite false m e) = IZR a * bpow radix2 ee)%R as VA.
    { cbn [rval SF2R SpecFloat.cond_Zopp]. unfold a. rewrite mult_IZR, <- (bpow_IZR (e - ee)) by lia. rewrite Rmult_assoc, <- bpow_plus.
      unfold F2R. cbn [Fnum Fexp cond_Zopp]. do 2 f_equal. lia. }
    assert (60 = IZR b * bpow radix2 ee)%R as VB.
    { unfold b. rewrite mult_IZR, <- (bpow_IZR (-47 - ee)) by lia. rewrite Rmult_assoc, <- bpow_plus.
      replace (-47 - ee + ee) with (-47) by lia. rewrite M', mult_IZR, <- (bpow_IZR 47), Rmult_assoc, <- bpow_plus by lia. change (bpow radix2 (47 + -47)) with 1%R. lra. }
    assert (0 < bpow radix2 ee)%R as PE by apply bpow_gt_0.
    assert (0 < IZR b)%R as PB by (apply IZR_lt; exact Bb).
    assert (Zfloor (rval (S754_finite false m e) / 60) = a / b) as FL.
    { rewrite VA, VB. replace (IZR a * bpow radix2 ee / (IZR b * bpow radix2 ee))%R with (IZR a / IZR b)%R by (field; lra).
      apply Zfloor_div. lia. }
    pose proof (normalize_correct (a mod b) ee false) as N.
    assert (F2R (Float radix2 (a mod b) ee) = rval (S754_finite false m e) - 60 * IZR (Zfloor (rval (S754_finite false m e) / 60)))%R as FV.
    { rewrite FL, VA. rewrite VB at 1. unfold F2R. cbn [Fnum Fexp]. rewrite (Z.mod_eq a b) by lia. rewrite minus_IZR, mult_IZR. lra. }
    assert (format64 (F2R (Float radix2 (a mod b) ee))) as FF.
    { apply small_format; [|lia]. rewrite Z.abs_eq by lia. destruct (Z.leb_spec e (-47)) as [L|L].
      - assert (a = Z.pos m) as A by (unfold a, ee; rewrite Z.min_l by lia; rewrite Z.sub_diag, Z.pow_0_r; lia).
        assert (a mod b <= a) by (apply Z.mod_le; lia). lia.
      - assert (b = 60 * 2 ^ 47) as A by (unfold b, ee; rewrite Z.min_r by lia; change (-47 - -47) with 0; rewrite Z.pow_0_r; lia).
        change (2 ^ 53) with (64 * 2 ^ 47). lia. }
    rewrite FV in *. apply nearest_fdata in N.
    + destruct N as (N1 & N2 & N3). rewrite rnd_format in N2 by exact FF. split; [exact N1|]. split.
      * rewrite N3. destruct (a mod b =? 0); [reflexivity|]. apply Z.ltb_ge. lia.
      * rewrite N2. split; [reflexivity|exact B].
    + rewrite rnd_format by exact FF. rewrite Rabs_pos_eq by lra. apply Rlt_trans with 64%R; [lra|]. change 64%R with (bpow radix2 6). apply huge_big. lia.
Qed.
Lemma fdivmod60 x q : fdata x -> sign_of x = false -> (rval x < IZR (2 ^ 53))%R -> q = Zfloor (rval x / 60) ->
  let '(dv, md) := fdivmod x f60 in
  sign_of dv = false /\ fdata dv /\ rval dv = IZR q /\ fdata md /\ sign_of md = false /\ rval md = (rval x - 60 * IZR q)%R /\ (0 <= rval md < 60)%R /\ 0 <= q.
Proof.
  intros D S B ->. set (q := Zfloor (rval x / 60)). destruct (ffmod60 x D S) as (D1 & S1 & V1 & B1). fold q in V1.
  destruct f60_data as (D60 & V60 & S60). pose proof (fdata_nonneg x D S) as X0.
  assert (0 <= q) as Q0 by (apply Zfloor_lub; lra).
  assert (60 * IZR q <= rval x)%R as QB by lra.
  assert (60 * q <= 2 ^ 53) as QI by (apply le_IZR; rewrite mult_IZR; lra).
  unfold fdivmod. cbv zeta. set (md := ffmod x f60) in *. set (dv := fdiv (fsub x md) f60).
  assert (fdata (fsub x md) /\ rval (fsub x md) = (60 * IZR q)%R) as (DS & VS).
  { destruct (fsub_correct x md D D1) as (s & N). rewrite V1 in N. replace (rval x - (rval x - 60 * IZR q))%R with (IZR (60 * q)) in N by (rewrite mult_IZR; lra).
    apply nearest_fdata in N; rewrite rnd_format in N || rewrite rnd_format; try (apply int_format; lia).
    - destruct N as (N1 & N2 & _). rewrite mult_IZR in N2. split; assumption.
    - rewrite Rabs_pos_eq by (apply IZR_le; lia). eapply Rle_lt_trans; [apply IZR_le, QI|]. rewrite <- bpow_IZR by lia. apply huge_big. lia. }
  assert (fdata dv /\ rval dv = IZR q) as (DV & VV).
  { destruct DS as [DS1 DS2]. destruct D60 as [D61 D62].
    assert (is_zero f60 = false) as Z60 by reflexivity.
    pose proof (fdiv_correct (fsub x md) f60 DS1 D61 DS2 D62 Z60) as N. rewrite VS, V60 in N. replace (60 * IZR q / 60)%R with (IZR q) in N by lra.
    apply nearest_fdata in N; rewrite rnd_format in N || rewrite rnd_format; try (apply int_format; lia).
    - destruct N as (N1 & N2 & _). split; assumption.
    - rewrite Rabs_pos_eq by (apply IZR_le; lia). eapply Rle_lt_trans; [apply (IZR_le q (2 ^ 53)); lia|]. rewrite <- bpow_IZR by lia. apply huge_big. lia. }
  assert (exists md', (if is_zero md then (copysign0 f60, dv) else if Bool.eqb (fltb f60 fzero) (fltb md fzero) then (md, dv) else (fadd md f60, fsub dv fone)) = (md', dv)
     /\ fdata md' /\ sign_of md' = false /\ rval md' = rval md) as (md' & -> & DM & SM & VM).
  { destruct (is_zero md) eqn:Z.
    - exists (copysign0 f60). apply (fdata_zero md D1) in Z. rewrite Z. split; [reflexivity|]. split; [split; reflexivity|split; reflexivity].
    - exists md. replace (fltb f60 fzero) with false by reflexivity.
      rewrite fltb_correct by (exact D1 || (split; reflexivity)). change (rval fzero) with 0%R. rewrite Rlt_bool_false by lra. cbn [Bool.eqb].
      split; [reflexivity|]. split; [exact D1|]. split; [exact S1|reflexivity]. }
  rewrite V1 in VM. destruct (is_zero dv) eqn:Z.
  - apply (fdata_zero dv DV) in Z. rewrite VV in Z. split.
    { cbn [copysign0 sign_of]. destruct D as [D1' D2']. destruct D60 as [D61 D62]. destruct (fdiv_correct x f60 D1' D61 D2' D62 eq_refl) as [_ N].
      rewrite S, S60 in N. cbn [xorb] in N. destruct (Rlt_bool _ _); [apply N|rewrite N; reflexivity]. }
    split; [split; reflexivity|]. split; [cbn [copysign0 rval SF2R]; lra|].
    split; [exact DM|]. split; [exact SM|]. split; [exact VM|]. split; [lra|exact Q0].
  - assert (Rabs (rval dv) <= IZR (2 ^ 53))%R as BD by (rewrite VV, Rabs_pos_eq by (apply IZR_le; lia); apply IZR_le; lia).
    destruct (ffloor_correct dv DV BD) as (DF & VF). rewrite VV, Zfloor_IZR in VF.
    assert (fltb fhalf (fsub dv (ffloor dv)) = false) as ->.
    { destruct (fsub_correct dv (ffloor dv) DV DF) as (s & N). rewrite VV, VF, Rminus_diag_eq in N by reflexivity.
      apply nearest_fdata in N; [|rewrite rnd_0, Rabs_R0; apply huge_pos]. destruct N as (N1 & N2 & _).
      assert (fdata fhalf) as DH by (split; reflexivity). rewrite fltb_correct by assumption. rewrite N2, rnd_0.
      apply Rlt_bool_false. apply fdata_nonneg; [exact DH|reflexivity]. }
    split.
    { apply sign_pos; [exact DF|]. rewrite VF, <- VV. assert (rval dv <> 0)%R as NZ by (intros E; apply (fdata_zero dv DV) in E; congruence).
      assert (0 <= rval dv)%R by (rewrite VV; apply IZR_le; exact Q0). lra. }
    split; [exact DF|]. split; [exact VF|]. split; [exact DM|]. split; [exact SM|]. split; [exact VM|]. split; [lra|exact Q0].
Qed.

(* ------------------------------------------------------------- sums, bounds *)
Lemma fadd_sign x y : fdata x -> fdata y -> sign_of x = false -> sign_of y = false -> sign_of (fadd x y) = false.
Proof.
  intros [Vx Fx] [Vy Fy] Sx Sy. destruct x as [sx|sx| |sx mx ex]; try discriminate; destruct y as [sy|sy| |sy my ey]; try discriminate; cbn [sign_of] in Sx, Sy; subst; try reflexivity.
  unfold fadd, SFadd. cbv zeta.
  match goal with |- sign_of (SpecFloat.binary_normalize _ _ ?z ?e _) = _ => set (zz := z); set (e0 := e) end.
  pose proof (normalize_correct zz e0 false) as N. assert (0 < zz) as P by (unfold zz; cbn [SpecFloat.cond_Zopp]; lia).
  destruct N as [_ N]. destruct (Rlt_bool _ _).
  - destruct N as (_ & _ & N). fold fprec femax in N. rewrite N. destruct (zz =? 0); [reflexivity|]. apply Z.ltb_ge. lia.
  - fold fprec femax in N. rewrite N. cbn [sign_of]. destruct (zz =? 0); [reflexivity|]. apply Z.ltb_ge. lia.
Qed.
(* a float below the integer z is below z by one unit in the last place *)
Lemma below_int x z g : fdata x -> 1 <= g <= 53 -> 2 ^ (g - 1) < z < 2 ^ g -> (rval x < IZR z)%R -> (rval x <= IZR z - bpow radix2 (g - 53))%R.
Proof.
  intros D G HZ L. apply Rle_trans with (pred radix2 fexp64 (IZR z)).
  - apply pred_ge_gt; [apply valid_fexp64|apply fdata_format, D|apply int_format; assert (2 ^ g <= 2 ^ 53) by (apply Z.pow_le_mono_r; lia); assert (0 < 2 ^ (g - 1)) by (apply Z.pow_pos_nonneg; lia); lia|exact L].
  - assert (0 < 2 ^ (g - 1)) as P by (apply Z.pow_pos_nonneg; lia).
    assert (0 < IZR z)%R as PZ by (apply IZR_lt; lia).
    assert (mag radix2 (IZR z) = g :> Z) as M.
    { apply mag_unique. rewrite Rabs_pos_eq by lra. rewrite !bpow_IZR by lia. split; [apply IZR_le|apply IZR_lt]; lia. }
    rewrite pred_eq_pos by lra. unfold pred_pos. rewrite M. rewrite Req_bool_false.
    + rewrite ulp_neq_0 by lra. unfold cexp. rewrite M, fexp64_val. replace (Z.max (g - 53) (-1074)) with (g - 53) by lia. lra.
    + rewrite bpow_IZR by lia. intros E. apply eq_IZR in E. lia.
Qed.
Lemma times60 x : fdata x -> (Rabs (rval x) < 1000)%R ->
  fdata (fmul (fabs x) f60) /\ sign_of (fmul (fabs x) f60) = false /\ rval (fmul (fabs x) f60) = rnd (Rabs (rval x) * 60)
  /\ (Rabs (rval (fmul (fabs x) f60) - Rabs (rval x) * 60) <= bpow radix2 (-38))%R
  /\ (rval (fmul (fabs x) f60) < 60000)%R
  /\ ((Rabs (rval x) < 100)%R -> (rval (fmul (fabs x) f60) < 6000)%R).
Proof.
  intros D L. destruct D as [V F]. destruct (fabs_correct x V) as (Va & Ra & Fa & Sa).
  destruct f60_data as ([V60 F60] & R60 & S60).
  pose proof (fmul_correct (fabs x) f60 Va V60 (eq_trans Fa F) F60) as N. rewrite Sa, S60, Ra, R60 in N. cbn [xorb] in N.
  set (a := Rabs (rval x)) in *. assert (0 <= a)%R as A0 by apply Rabs_pos.
  assert (fdata (fabs x)) as Da by (split; [exact Va|congruence]).
  assert (forall z g j, 1 <= g <= 53 -> 2 ^ (g - 1) < z < 2 ^ g -> 1 <= j <= 53 -> 2 ^ 52 <= 60 * z * 2 ^ (53 - j) - 1 < 2 ^ 53 ->
     (/ 2 * bpow radix2 (j - 53) < 60 * bpow radix2 (g - 53))%R -> (a < IZR z)%R -> (rnd (a * 60) < IZR (60 * z))%R) as G.
  { intros z g j Hg Hz Hj Hb Hu Ha. pose proof (below_int (fabs x) z g Da Hg Hz) as B. rewrite Ra in B. specialize (B Ha).
    set (b := F2R (Float radix2 (60 * z * 2 ^ (53 - j) - 1) (j - 53))).
    assert (0 < bpow radix2 (j - 53))%R as PJ by apply bpow_gt_0.
    assert (b = IZR (60 * z) - bpow radix2 (j - 53))%R as VB.
    { unfold b, F2R. cbn [Fnum Fexp]. rewrite minus_IZR, (mult_IZR (60 * z)), <- (bpow_IZR (53 - j)) by lia.
      rewrite Rmult_minus_distr_r, Rmult_assoc, <- bpow_plus. replace (53 - j + (j - 53)) with 0 by lia. change (bpow radix2 0) with 1%R. lra. }
    assert (0 < b)%R as Pb by (unfold b; apply F2R_gt_0; cbn [Fnum]; lia).
    assert (mag radix2 b = j :> Z) as M.
    { unfold b. rewrite mag_F2R_Zdigits by lia. rewrite (Zdigits_unique radix2 _ 53); [lia|]. rewrite Z.abs_eq by lia. exact Hb. }
    apply Rle_lt_trans with b; [|lra]. apply round_N_le_midp; [apply valid_fexp64|apply small_format; [lia|lia]|].
    rewrite succ_eq_pos by lra. rewrite ulp_neq_0 by lra. unfold cexp. rewrite M, fexp64_val. replace (Z.max (j - 53) (-1074)) with (j - 53) by lia.
    rewrite VB. rewrite mult_IZR. lra. }
  apply nearest_fdata in N.
  - destruct N as (N1 & N2 & N3). split; [exact N1|]. split; [exact N3|]. split; [exact N2|]. rewrite N2. split; [|split].
    + replace (-38) with (16 - 54) by lia. apply rnd_err; [lia|]. rewrite Rabs_pos_eq by lra. change (bpow radix2 16) with 65536%R. lra.
    + apply (G 1000 10 16); [lia|lia|lia|lia| |exact L].
      change (bpow radix2 (16 - 53)) with (/ 137438953472)%R. change (bpow radix2 (10 - 53)) with (/ 8796093022208)%R. lra.
    + intros L2. apply (G 100 7 13); [lia|lia|lia|lia| |exact L2].
      change (bpow radix2 (13 - 53)) with (/ 1099511627776)%R. change (bpow radix2 (7 - 53)) with (/ 70368744177664)%R. lra.
  - apply rnd_lt_huge with 60000; [|lia]. rewrite Rabs_pos_eq by lra. lra.
Qed.

(* ----------------------------------------------------------------- ddd2dmm *)
Definition decimals (hp : bool) : nat := if hp then 7%nat else 5%nat.
Definition degree_digits (att : pystr) : nat := if str_eqb att ty_LA then 2%nat else 3%nat.
Lemma dmm_text_eq att hp v : dmm_text att hp v = zfill (degree_digits att + 2 + 1 + decimals hp) (fmt_fixed (decimals hp) v).
Proof. unfold dmm_text, degree_digits, decimals. destruct hp, (str_eqb att ty_LA); reflexivity. Qed.

Lemma numeral_split_at w v z a n : 0 <= a -> 0 <= n < 10 ^ Z.of_nat v -> z = a * 10 ^ Z.of_nat v + n -> numeral_text (w + v) z = numeral_text w a ++ numeral_text v n.
Proof.
  intros A N ->. assert (0 < 10 ^ Z.of_nat v) by (apply Z.pow_pos_nonneg; lia).
  rewrite numeral_text_split by lia. rewrite Z.div_add_l by lia. rewrite (Z.div_small n) by lia. rewrite Z.add_0_r. f_equal.
  rewrite <- numeral_mod by lia. f_equal. rewrite Z.add_comm, Z.mod_add by lia. apply Z.mod_small. exact N.
Qed.

Lemma ddd2dmm_correct x att hp : fdata x -> (Rabs (rval x) < IZR (10 ^ Z.of_nat (degree_digits att)))%R ->
  exists q n, 0 <= q < 10 ^ Z.of_nat (degree_digits att) /\ 0 <= n <= 60 * 10 ^ Z.of_nat (decimals hp)
  /\ ddd2dmm (VFloat x) att hp = Ok (numeral_text (degree_digits att) q ++ numeral_text 2 (n / 10 ^ Z.of_nat (decimals hp)) ++ [46%N] ++ numeral_text (decimals hp) n)
  /\ (Rabs (IZR q + IZR n / (60 * pow10 (Z.of_nat (decimals hp))) - Rabs (rval x)) <= / 2 / (60 * pow10 (Z.of_nat (decimals hp))) + / 1000000000000)%R.
Proof.
  intros D B. set (w := degree_digits att) in *. set (k := decimals hp).
  assert (w = 2%nat \/ w = 3%nat) as W by (unfold w, degree_digits; destruct (str_eqb att ty_LA); [left|right]; reflexivity).
  assert (1 <= k)%nat as K by (unfold k; destruct hp; cbn; lia).
  assert (0 < 10 ^ Z.of_nat k) as PK by (apply Z.pow_pos_nonneg; lia).
  assert (Rabs (rval x) < 1000)%R as B3 by (destruct W as [W|W]; rewrite W in B; [change (IZR (10 ^ Z.of_nat 2)) with 100%R in B|change (IZR (10 ^ Z.of_nat 3)) with 1000%R in B]; lra).
  destruct (times60 x D B3) as (D1 & S1 & V1 & E1 & L1 & L2).
  set (y := fmul (fabs x) f60) in *.
  assert (rval y < IZR (2 ^ 53))%R as BY by (eapply Rlt_trans; [exact L1|]; apply (IZR_lt 60000); lia).
  pose proof (fdivmod60 y _ D1 S1 BY eq_refl) as M. set (q := Zfloor (rval y / 60)) in M. unfold ddd2dmm, ddd2dmm_float. fold y.
  destruct (fdivmod y f60) as [dv md]. destruct M as (_ & DV & VV & DM & SM & VM & BM & Q0).
  assert (q < 10 ^ Z.of_nat w) as QW.
  { apply lt_IZR. pose proof (Zfloor_lb (rval y / 60)) as LB. fold q in LB. destruct W as [W|W]; rewrite W in *.
    - change (IZR (10 ^ Z.of_nat 2)) with 100%R in *. specialize (L2 B). lra.
    - change (IZR (10 ^ Z.of_nat 3)) with 1000%R in *. lra. }
  assert (q < 1000) as Q3 by (destruct W as [W|W]; rewrite W in QW; cbn in QW; lia).
  (* dv * 100 *)
  destruct (f_int 100 ltac:(cbn; lia)) as ([V100 F100] & R100 & S100). fold f100 in V100, F100, R100, S100.
  destruct DV as [DV1 DV2]. pose proof (fmul_correct dv f100 DV1 V100 DV2 F100) as N. rewrite VV, R100 in N. rewrite <- mult_IZR in N.
  apply nearest_fdata in N; [|rewrite rnd_format by (apply int_format; lia); rewrite Rabs_pos_eq by (apply IZR_le; lia); apply Rle_lt_trans with (IZR (2 ^ 53)); [apply IZR_le; lia|rewrite <- bpow_IZR by lia; apply huge_big; lia]].
  destruct N as ([N1 N2] & N3 & _). rewrite rnd_format in N3 by (apply int_format; lia).
  rewrite int_of_float_correct by exact N2. rewrite N3, Ztrunc_IZR. rewrite f_of_Z_int by lia. cbn [bind].
  destruct (f_int (q * 100) ltac:(lia)) as (DQ & VQ & SQ). replace (q * 100 <? 0) with false in SQ by (symmetry; apply Z.ltb_ge; lia).
  set (df := f_norm (q * 100) 0) in *.
  destruct (fadd_correct df md DQ DM) as (s & A). pose proof (fadd_sign df md DQ DM SQ SM) as SA. rewrite VQ in A.
  set (t := (IZR (q * 100) + rval md)%R) in *.
  assert (IZR (q * 100) <= t <= IZR (q * 100 + 60))%R as TB by (unfold t; rewrite plus_IZR; lra).
  assert (IZR (q * 100) <= rnd t <= IZR (q * 100 + 60))%R as RB.
  { split; [rewrite <- (rnd_format (IZR (q * 100))) by (apply int_format; lia)|rewrite <- (rnd_format (IZR (q * 100 + 60))) by (apply int_format; lia)]; apply rnd_le; lra. }
  assert (0 <= IZR (q * 100))%R as Q100 by (apply IZR_le; lia).
  assert (IZR (q * 100 + 60) <= 100000)%R as Q101 by (apply IZR_le; lia).
  assert (Rabs (rnd t - t) <= bpow radix2 (-37))%R as E2.
  { replace (-37) with (17 - 54) by lia. apply rnd_err; [lia|]. rewrite Rabs_pos_eq by lra. change (bpow radix2 17) with 131072%R. lra. }
  apply nearest_fdata in A; [|apply rnd_lt_huge with 100000; [rewrite Rabs_pos_eq by lra; lra|lia]]. destruct A as (DA & VA & _).
  destruct (fmt_fixed_correct k (fadd df md) DA SA) as (n & Nn & TX & NE). rewrite VA in NE.
  set (p := pow10 (Z.of_nat k)) in *. assert (p = IZR (10 ^ Z.of_nat k)) as PP by (apply pow10_IZR; lia).
  assert (0 < p)%R as Pp by apply pow10_pos.
  assert (q * 100 * 10 ^ Z.of_nat k <= n) as NL by (eapply half_ge; [exact NE|]; rewrite mult_IZR, <- PP; nra).
  assert (n <= (q * 100 + 60) * 10 ^ Z.of_nat k) as NU by (eapply half_le; [exact NE|]; rewrite mult_IZR, <- PP; nra).
  exists q, (n - q * 100 * 10 ^ Z.of_nat k). split; [lia|]. split; [lia|]. split.
  - rewrite dmm_text_eq. fold w k. rewrite TX. rewrite fixed_numeral.
    + f_equal. rewrite (app_assoc (numeral_text w q)). f_equal.
      * apply numeral_split_at; [exact Q0| |].
        -- split; [apply Z.div_pos; lia|]. apply Z.div_lt_upper_bound; [exact PK|]. change (10 ^ Z.of_nat 2) with 100. lia.
        -- change (10 ^ Z.of_nat 2) with 100. replace n with (q * 100 * 10 ^ Z.of_nat k + (n - q * 100 * 10 ^ Z.of_nat k)) at 1 by lia. rewrite Z.div_add_l by lia. reflexivity.
      * f_equal. rewrite <- (numeral_mod k n), <- (numeral_mod k (n - _)) by lia. f_equal.
        replace n with ((n - q * 100 * 10 ^ Z.of_nat k) + q * 100 * 10 ^ Z.of_nat k) at 1 by lia. rewrite Z.mod_add by lia. reflexivity.
    + lia.
    + exact K.
    + split; [exact Nn|]. eapply Z.le_lt_trans; [exact NU|]. rewrite Nat2Z.inj_add, Z.pow_add_r by lia. apply Z.mul_lt_mono_pos_r; [exact PK|].
      rewrite Nat2Z.inj_add, Z.pow_add_r by lia. change (10 ^ Z.of_nat 2) with 100. lia.
  - rewrite minus_IZR, mult_IZR, <- PP. set (a := Rabs (rval x)) in *. rewrite mult_IZR in *.
    change (bpow radix2 (-38)) with (/ 274877906944)%R in E1. change (bpow radix2 (-37)) with (/ 137438953472)%R in E2.
    replace (IZR q + (IZR n - IZR q * 100 * p) / (60 * p) - a)%R
      with ((IZR n - rnd t * p) / (60 * p) + ((rnd t - t) + (rval y - a * 60)) / 60)%R.
    + eapply Rle_trans; [apply Rabs_triang|]. apply Rplus_le_compat.
      * unfold Rdiv. rewrite Rabs_mult, (Rabs_pos_eq (/ (60 * p))) by (apply Rlt_le, Rinv_0_lt_compat; lra).
        apply Rmult_le_compat_r; [apply Rlt_le, Rinv_0_lt_compat; lra|exact NE].
      * apply Rabs_le. apply Rabs_le_inv in E1, E2. lra.
    + assert (t = IZR q * 100 + (rval y - 60 * IZR q))%R as -> by (unfold t; rewrite VM, mult_IZR; reflexivity). field. lra.
Qed.

(* ----------------------------------------------------------------- dmm2ddd *)
Lemma number_acc_digits l a : Forall digit l -> number_acc a (map dec_char l) = a * 10 ^ Z.of_nat (length l) + Z.of_N (digits_val 10 l).
Proof.
  intros F. revert a. induction F as [|d l D _ IH]; intros a; cbn [map number_acc].
  - cbn [length digits_val fold_left]. change (Z.of_nat 0) with 0. rewrite Z.pow_0_r. unfold digits_val. cbn [fold_left]. lia.
  - rewrite IH. rewrite digits_val_cons. unfold lenN, dec_char, digit in *. cbn [length]. rewrite Nat2Z.inj_succ, Z.pow_succ_r by lia.
    replace (Z.of_N (48 + d) - 48) with (Z.of_N d) by lia. rewrite N2Z.inj_add, N2Z.inj_mul, N2Z.inj_pow, nat_N_Z. change (Z.of_N 10) with 10. lia.
Qed.
Lemma digit_text_list s : digit_text s -> exists l, s = map dec_char l /\ Forall digit l /\ length l = length s /\ Z.of_N (digits_val 10 l) = number s.
Proof.
  intros F. assert (exists l, s = map dec_char l /\ Forall digit l) as (l & -> & Fl).
  { induction F as [|c s C _ (l & -> & Fl)]; [exists []; split; [reflexivity|constructor]|]. exists ((c - 48)%N :: l). cbn [map]. split.
    - f_equal. unfold dec_char. lia.
    - constructor; [unfold digit; lia|exact Fl]. }
  exists l. split; [reflexivity|]. split; [exact Fl|]. split; [rewrite map_length; reflexivity|]. unfold number. rewrite number_acc_digits by exact Fl. lia.
Qed.
Lemma parse_int_digits neg l : Forall digit l -> l <> [] -> parse_unsigned neg (map dec_char l) = Some (f_of_dec neg (digits_val 10 l) 0).
Proof.
  intros F NE. unfold parse_unsigned. cbv zeta. destruct l as [|d l]; [congruence|].
  destruct (low_not_word (map dec_char l) (dec_char d)) as [L1 L2]; [inversion F; subst; unfold digit, dec_char in *; lia|].
  change (map dec_char (d :: l)) with (dec_char d :: map dec_char l). rewrite L1, L2. change (dec_char d :: map dec_char l) with (map dec_char (d :: l)).
  rewrite take_digits_all by exact F. rewrite app_nil_r. cbn [parse_exp length]. reflexivity.
Qed.
Lemma numeral_head d l r : digit d -> match map dec_char (d :: l) ++ r with c :: _ => (48 <= c <= 57)%N | [] => False end.
Proof. unfold digit, dec_char. cbn. lia. Qed.
Lemma float_of_int_digits l : Forall digit l -> l <> [] -> float_of_str (map dec_char l) = Ok (f_of_dec false (digits_val 10 l) 0).
Proof.
  intros F NE. apply (float_of_text false); [apply dec_chars, F| |apply parse_int_digits; assumption].
  destruct l as [|d l]; [congruence|]. inversion F; subst. rewrite <- (app_nil_r (map dec_char (d :: l))). apply numeral_head. assumption.
Qed.
Lemma float_of_point_digits ip fp : Forall digit ip -> Forall digit fp -> ip <> [] ->
  float_of_str (map dec_char ip ++ 46%N :: map dec_char fp) = Ok (f_of_dec false (digits_val 10 (ip ++ fp)) (- Z.of_nat (length fp))).
Proof.
  intros F1 F2 NE. apply (float_of_text false); [| |apply parse_plain; assumption].
  - apply Forall_app. split; [apply dec_chars, F1|]. apply Forall_cons; [unfold numeral_char; lia|apply dec_chars, F2].
  - destruct ip as [|d l]; [congruence|]. inversion F1; subst. apply numeral_head. assumption.
Qed.
Lemma find_char_app c s r : ~ In c s -> find_char c (s ++ c :: r) = Some (length s).
Proof.
  induction s as [|a s IH]; cbn [app length]; intros H; cbn [find_char].
  - rewrite N.eqb_refl. reflexivity.
  - replace (a =? c)%N with false by (symmetry; apply N.eqb_neq; intros ->; apply H; left; reflexivity).
    rewrite IH by (intros I; apply H; right; exact I). reflexivity.
Qed.
Lemma digit_text_no_dot s : digit_text s -> ~ In 46%N s.
Proof. intros F I. unfold digit_text in F. rewrite Forall_forall in F. specialize (F _ I). cbn in F. lia. Qed.

Lemma dmm2ddd_digits dd mm ff : digit_text dd -> digit_text mm -> digit_text ff -> (2 <= length dd)%nat -> length mm = 2%nat -> number dd <= 100000 ->
  exists y, dmm2ddd (dd ++ mm ++ [46%N] ++ ff) = VFloat y /\ fdata y /\ sign_of y = false /\
  (Rabs (rval y - (IZR (number dd) + IZR (number (mm ++ ff)) / (60 * pow10 (Z.of_nat (length ff))))) <= 7 / 100000000000)%R.
Proof.
  intros F1 F2 F3 L1 L2 ND.
  unfold dmm2ddd. rewrite app_assoc. change ((dd ++ mm) ++ [46%N] ++ ff) with ((dd ++ mm) ++ 46%N :: ff).
  rewrite find_char_app by (apply digit_text_no_dot; apply Forall_app; split; assumption). rewrite app_length, L2.
  replace (length dd + 2 <? 4)%nat with false by (symmetry; apply Nat.ltb_ge; lia). replace (length dd + 2 - 2)%nat with (length dd) by lia.
  rewrite <- app_assoc. rewrite firstn_app, skipn_app, Nat.sub_diag, firstn_all, skipn_all. cbn [firstn skipn app]. rewrite app_nil_r.
  assert (number (mm ++ ff) = number mm * 10 ^ Z.of_nat (length ff) + number ff) as NM.
  { destruct (digit_text_list mm F2) as (l2 & -> & G2 & _ & V2). destruct (digit_text_list ff F3) as (l3 & -> & G3 & _ & V3).
    rewrite <- map_app. unfold number. rewrite !number_acc_digits by (assumption || (apply Forall_app; split; assumption)).
    rewrite digits_val_app2, map_length, N2Z.inj_add, N2Z.inj_mul, N2Z.inj_pow. unfold lenN. rewrite nat_N_Z. change (Z.of_N 10) with 10. lia. }
  destruct (digit_text_list dd F1) as (l1 & E1 & G1 & N1 & V1). destruct (digit_text_list mm F2) as (l2 & E2 & G2 & N2 & V2). destruct (digit_text_list ff F3) as (l3 & E3 & G3 & N3 & V3).
  rewrite E1, E2, E3.
  rewrite float_of_int_digits; [|exact G1|intros ->; cbn in N1; lia].
  rewrite float_of_point_digits; [|exact G2|exact G3|intros ->; cbn in N2; lia]. rewrite <- E1, <- E2, <- E3.
  (* the degrees *)
  set (q := number dd) in *. assert (0 <= q) as Q0 by lia.
  pose proof (f_of_dec_correct false (digits_val 10 l1) 0) as A. cbn [signR] in A. rewrite V1 in A. change (pow10 0) with 1%R in A. rewrite Rmult_1_r in A.
  apply nearest_fdata in A; [|rewrite rnd_format by (apply int_format; lia); rewrite Rabs_pos_eq by (apply IZR_le; lia); apply Rle_lt_trans with (IZR (2 ^ 53)); [apply IZR_le; lia|rewrite <- bpow_IZR by lia; apply huge_big; lia]].
  destruct A as (DA & VA & SA). rewrite rnd_format in VA by (apply int_format; lia). set (d := f_of_dec false (digits_val 10 l1) 0) in *.
  (* the minutes *)
  pose proof (f_of_dec_correct false (digits_val 10 (l2 ++ l3)) (- Z.of_nat (length l3))) as M. cbn [signR] in M.
  assert (Z.of_N (digits_val 10 (l2 ++ l3)) = number (mm ++ ff)) as VM.
  { rewrite digits_val_app2, N2Z.inj_add, N2Z.inj_mul, N2Z.inj_pow. unfold lenN. rewrite nat_N_Z. change (Z.of_N 10) with 10. rewrite N3. lia. }
  set (m := f_of_dec false (digits_val 10 (l2 ++ l3)) (- Z.of_nat (length l3))) in *. rewrite VM, N3, pow10_neg in M.
  set (p := pow10 (Z.of_nat (length ff))) in *. assert (0 < p)%R as Pp by apply pow10_pos.
  set (z := number (mm ++ ff)) in *.
  assert (0 <= z) as Z0 by lia.
  assert (z < 100 * 10 ^ Z.of_nat (length ff)) as Z1.
  { rewrite <- VM. pose proof (digits_val_bound 10 (l2 ++ l3) ltac:(lia)) as B. rewrite N2Z.inj_lt in B. rewrite N2Z.inj_pow in B. unfold lenN in B. rewrite app_length, N2, N3, L2, nat_N_Z in B.
    rewrite Nat2Z.inj_add, Z.pow_add_r in B by lia. apply B. apply Forall_app. split; assumption. }
  set (r := (IZR z * / p)%R) in *.
  assert (0 <= r < 100)%R as RB.
  { unfold r. assert (0 < / p)%R as IP by (apply Rinv_0_lt_compat; exact Pp). assert (0 <= IZR z)%R by (apply IZR_le; exact Z0).
    assert (IZR z < 100 * p)%R by (unfold p; rewrite pow10_IZR by lia; rewrite <- mult_IZR; apply IZR_lt, Z1).
    split; [apply Rmult_le_pos; lra|]. apply Rmult_lt_reg_r with p; [exact Pp|]. rewrite Rmult_assoc, Rinv_l by lra. lra. }
  assert (0 <= rnd r <= 100)%R as RR.
  { split; [rewrite <- rnd_0; apply rnd_le; lra|]. rewrite <- (rnd_format 100) by (apply (int_format 100); lia). apply rnd_le; lra. }
  pose proof (rnd_err 7 r ltac:(lia)) as RE. rewrite Rabs_pos_eq in RE by lra. specialize (RE ltac:(change (bpow radix2 7) with 128%R; lra)).
  apply nearest_fdata in M; [|apply rnd_lt_huge with 100; [rewrite Rabs_pos_eq by lra; lra|lia]]. destruct M as (DM & WM & SM).
  (* minutes / 60 *)
  destruct f60_data as ([B60 F60] & V60 & S60). destruct DM as [DM1 DM2].
  pose proof (fdiv_correct m f60 DM1 B60 DM2 F60 eq_refl) as Q. rewrite SM, S60, WM, V60 in Q. cbn [xorb] in Q.
  set (h := (rnd r / 60)%R) in *. assert (0 <= h <= 2)%R as HB by (unfold h; lra).
  assert (0 <= rnd h <= 2)%R as HR.
  { split; [rewrite <- rnd_0; apply rnd_le; lra|]. rewrite <- (rnd_format 2) by (apply (int_format 2); lia). apply rnd_le; lra. }
  pose proof (rnd_err 2 h ltac:(lia)) as HE. rewrite Rabs_pos_eq in HE by lra. specialize (HE ltac:(change (bpow radix2 2) with 4%R; lra)).
  apply nearest_fdata in Q; [|apply rnd_lt_huge with 2; [rewrite Rabs_pos_eq by lra; lra|lia]]. destruct Q as (DQ & VQ & SQ).
  (* the sum *)
  assert (fabs d = d) as FD by (destruct d as [s|s| |s ? ?]; cbn [sign_of] in SA; subst; reflexivity). rewrite FD.
  destruct (fadd_correct d (fdiv m f60) DA DQ) as (s & T). pose proof (fadd_sign d (fdiv m f60) DA DQ SA SQ) as ST. rewrite VA, VQ in T.
  set (t := (IZR q + rnd h)%R) in *. assert (0 <= IZR q <= 100000)%R as QB by (split; apply IZR_le; lia).
  assert (0 <= t <= 100002)%R as TB by (unfold t; lra).
  assert (0 <= rnd t <= 100002)%R as TR.
  { split; [rewrite <- rnd_0; apply rnd_le; lra|]. rewrite <- (rnd_format 100002) by (apply (int_format 100002); lia). apply rnd_le; lra. }
  pose proof (rnd_err 17 t ltac:(lia)) as TE. rewrite Rabs_pos_eq in TE by lra. specialize (TE ltac:(change (bpow radix2 17) with 131072%R; lra)).
  apply nearest_fdata in T; [|apply rnd_lt_huge with 100002; [rewrite Rabs_pos_eq by lra; lra|lia]]. destruct T as (DT & VT & _).
  set (y := fadd d (fdiv m f60)) in *.
  destruct (fround_err 10 y 17 ltac:(lia) DT ltac:(lia)) as (DY & SY & EY); [rewrite VT, Rabs_pos_eq by lra; change (bpow radix2 17) with 131072%R; lra|].
  exists (fround 10 y). split; [reflexivity|]. split; [exact DY|]. split; [rewrite SY; exact ST|].
  change (bpow radix2 (7 - 54)) with (/ 140737488355328)%R in RE. change (bpow radix2 (2 - 54)) with (/ 4503599627370496)%R in HE.
  change (bpow radix2 (17 - 54)) with (/ 137438953472)%R in TE, EY. rewrite VT in EY. rewrite pow10_neg in EY. change (pow10 (Z.of_nat 10)) with (powerRZ 10 10) in EY.
  assert (powerRZ 10 10 = 10000000000)%R as P10 by (apply (pow10_IZR 10); lia). rewrite P10 in EY.
  replace (IZR z / (60 * p))%R with (r / 60)%R by (unfold r; field; lra).
  apply Rabs_le. apply Rabs_le_inv in RE, HE, TE, EY. unfold t, h in *. lra.
Qed.
Lemma numeral_digit_text w z : digit_text (numeral_text w z).
Proof.
  revert z. induction w as [|w IH]; intros z; [constructor|]. cbn [numeral_text]. apply Forall_app. split; [apply IH|].
  constructor; [|constructor]. pose proof (Z.mod_pos_bound z 10 ltac:(lia)). lia.
Qed.
Lemma number_snoc s c : number (s ++ [c]) = 10 * number s + (Z.of_N c - 48).
Proof.
  unfold number. generalize 0. induction s as [|b s IH]; intros a; [reflexivity|]. cbn [app number_acc]. apply IH.
Qed.
Lemma numeral_number w z : 0 <= z -> number (numeral_text w z) = z mod 10 ^ Z.of_nat w.
Proof.
  revert z. induction w as [|w IH]; intros z H; cbn [numeral_text].
  - change (Z.of_nat 0) with 0. rewrite Z.pow_0_r, Z.mod_1_r. reflexivity.
  - rewrite number_snoc, IH by (apply Z.div_pos; lia). rewrite Nat2Z.inj_succ, Z.pow_succ_r by lia.
    assert (0 < 10 ^ Z.of_nat w) by (apply Z.pow_pos_nonneg; lia). rewrite Z.rem_mul_r by lia.
    pose proof (Z.mod_pos_bound z 10 ltac:(lia)). lia.
Qed.
