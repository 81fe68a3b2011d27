(* The executable floats of PyFloat.v compute correctly rounded results.  The
   real-number reading of a float and rounding to nearest even are Flocq's. *)
From Coq Require Import Reals Lia Lra.
From Flocq Require Import Core Operations BinarySingleNaN.
From Verif Require Import Helpers.
Local Open Scope Z_scope.

Global Instance prec_pos : FLX.Prec_gt_0 fprec := eq_refl _.
Global Instance prec_emax : Prec_lt_emax fprec femax := eq_refl _.

(* the value of a float *)
Definition rval (x : fl) : R := SF2R radix2 x.
(* a binary64 datum *)
Definition binary64 (x : fl) : Prop := valid_binary fprec femax x = true.
(* rounding to nearest even in binary64, ignoring overflow *)
Definition fexp64 := SpecFloat.fexp fprec femax.
Definition rnd (r : R) : R := round radix2 fexp64 ZnearestE r.
Global Instance valid_fexp64 : Valid_exp fexp64 := fexp_correct fprec femax _.
Global Instance mono_fexp64 : Monotone_exp fexp64 := fexp_monotone fprec femax.
Definition huge : R := bpow radix2 femax.

(* x is the float nearest to r, with sign s *)
Definition nearest (s : bool) (r : R) (x : fl) : Prop :=
  binary64 x /\
  if Rlt_bool (Rabs (rnd r)) huge then rval x = rnd r /\ is_fin x = true /\ sign_of x = s
  else x = S754_infinity s.

Lemma is_fin_SF x : is_finite_SF x = is_fin x.
Proof. destruct x; reflexivity. Qed.
Lemma sign_of_SF x : sign_SF x = sign_of x.
Proof. destruct x; reflexivity. Qed.

Lemma round_nearest_even_equiv s m l : round_nearest_even m l = choice_mode mode_NE s m l.
Proof. case l; [reflexivity|intro c]. case c; [|reflexivity..]. simpl. unfold Round.cond_incr. now case Z.even. Qed.
Lemma binary_round_aux_equiv sx mx ex lx :
  SpecFloat.binary_round_aux fprec femax sx mx ex lx = BinarySingleNaN.binary_round_aux fprec femax mode_NE sx mx ex lx.
Proof.
  unfold SpecFloat.binary_round_aux, BinarySingleNaN.binary_round_aux.
  set (mrse' := shr_fexp _ _ _ _ _). case mrse'; intros mrs' e'; simpl.
  now rewrite (round_nearest_even_equiv sx).
Qed.
Lemma binary_round_equiv s m e :
  SpecFloat.binary_round fprec femax s m e = BinarySingleNaN.binary_round fprec femax mode_NE s m e.
Proof.
  unfold SpecFloat.binary_round, BinarySingleNaN.binary_round, shl_align_fexp.
  set (mez := shl_align _ _ _); case mez as [mz ez]. apply binary_round_aux_equiv.
Qed.
Lemma nearest_intro s r z :
  (valid_binary fprec femax z = true /\
  if Rlt_bool (Rabs (round radix2 (SpecFloat.fexp fprec femax) (round_mode mode_NE) r)) (bpow radix2 femax) then
    SF2R radix2 z = round radix2 (SpecFloat.fexp fprec femax) (round_mode mode_NE) r /\ is_finite_SF z = true /\ sign_SF z = s
  else z = binary_overflow fprec femax mode_NE s) -> nearest s r z.
Proof.
  intros [V H]. split; [exact V|]. unfold rnd, huge, fexp64. cbn [round_mode] in H.
  destruct (Rlt_bool _ _); [|exact H]. rewrite is_fin_SF, sign_of_SF in H. exact H.
Qed.

Lemma round_correct s m e : nearest s (F2R (Float radix2 (cond_Zopp s (Zpos m)) e)) (SpecFloat.binary_round fprec femax s m e).
Proof. rewrite binary_round_equiv. apply nearest_intro. apply (binary_round_correct fprec femax _ _ mode_NE s m e). Qed.

Lemma F2R_0e b e : F2R (Float b 0 e) = 0%R.
Proof. apply F2R_0. Qed.
Lemma rnd_0 : rnd 0 = 0%R.
Proof. apply round_0. apply valid_rnd_N. Qed.
Lemma huge_pos : (0 < huge)%R.
Proof. apply bpow_gt_0. Qed.
Lemma nearest_zero s : nearest s 0 (S754_zero s).
Proof. split; [reflexivity|]. rewrite rnd_0, Rabs_R0, Rlt_bool_true by apply huge_pos. repeat split. Qed.

Lemma f_norm_correct z e : nearest (z <? 0) (F2R (Float radix2 z e)) (f_norm z e).
Proof.
  unfold f_norm, SpecFloat.binary_normalize. destruct z as [|p|p].
  - rewrite F2R_0e. apply nearest_zero.
  - apply (round_correct false).
  - apply (round_correct true).
Qed.
Lemma normalize_correct z e s0 : nearest (if z =? 0 then s0 else z <? 0) (F2R (Float radix2 z e)) (SpecFloat.binary_normalize fprec femax z e s0).
Proof.
  unfold SpecFloat.binary_normalize. destruct z as [|p|p].
  - rewrite F2R_0e. apply nearest_zero.
  - apply (round_correct false).
  - apply (round_correct true).
Qed.

(* ------------------------------------------------------------ operations *)
Lemma fmul_correct x y : binary64 x -> binary64 y -> is_fin x = true -> is_fin y = true ->
  nearest (xorb (sign_of x) (sign_of y)) (rval x * rval y) (fmul x y).
Proof.
  intros Vx Vy Fx Fy. destruct x as [sx|sx| |sx mx ex]; try discriminate; destruct y as [sy|sy| |sy my ey]; try discriminate;
    cbn [rval SF2R sign_of fmul SFmul]; rewrite ?Rmult_0_l, ?Rmult_0_r; try apply nearest_zero.
  unfold fmul, SFmul. rewrite binary_round_aux_equiv. apply nearest_intro.
  exact (Bmult_correct_aux fprec femax _ _ mode_NE sx mx ex Vx sy my ey Vy).
Qed.
Lemma fdiv_correct x y : binary64 x -> binary64 y -> is_fin x = true -> is_fin y = true -> is_zero y = false ->
  nearest (xorb (sign_of x) (sign_of y)) (rval x / rval y) (fdiv x y).
Proof.
  intros Vx Vy Fx Fy Z. destruct x as [sx|sx| |sx mx ex]; try discriminate; destruct y as [sy|sy| |sy my ey]; try discriminate.
  - cbn [rval SF2R]. unfold Rdiv. rewrite Rmult_0_l. apply nearest_zero.
  - unfold fdiv, SFdiv. cbn [sign_of]. apply nearest_intro.
    pose proof (Bdiv_correct_aux fprec femax _ _ mode_NE sx mx ex sy my ey) as B. cbn zeta in B.
    destruct (SFdiv_core_binary _ _ _ _ _ _) as [[q e] l]. rewrite binary_round_aux_equiv. exact B.
Qed.
Lemma ratio_correct s n d : (* n, d positive *)
  nearest s (IZR (cond_Zopp s (Zpos n)) / IZR (Zpos d))
    (let '(mz, ez, lz) := SFdiv_core_binary fprec femax (Zpos n) 0 (Zpos d) 0 in SpecFloat.binary_round_aux fprec femax s mz ez lz).
Proof.
  pose proof (Bdiv_correct_aux fprec femax _ _ mode_NE s n 0 false d 0) as B. cbn zeta in B.
  rewrite xorb_false_r in B. unfold F2R in B. cbn [Fnum Fexp] in B. change (bpow radix2 0) with 1%R in B.
  rewrite !Rmult_1_r in B. cbn [cond_Zopp] in B.
  destruct (SFdiv_core_binary _ _ _ _ _ _) as [[q e] l]. rewrite binary_round_aux_equiv. apply nearest_intro. exact B.
Qed.

Lemma fabs_correct x : binary64 x -> binary64 (fabs x) /\ rval (fabs x) = Rabs (rval x) /\ is_fin (fabs x) = is_fin x /\ sign_of (fabs x) = false.
Proof.
  intros V. destruct x as [s|s| |s m e]; cbn; rewrite ?Rabs_R0; repeat split; try reflexivity; try exact V.
  rewrite <- F2R_Zabs. destruct s; reflexivity.
Qed.

Definition fdata (x : fl) : Prop := binary64 x /\ is_fin x = true.
Lemma nearest_fdata s r x : nearest s r x -> (Rabs (rnd r) < huge)%R -> fdata x /\ rval x = rnd r /\ sign_of x = s.
Proof. intros [V H] B. rewrite Rlt_bool_true in H by exact B. destruct H as (H1 & H2 & H3). repeat split; assumption. Qed.

Lemma align_F2R sx mx ex ez : ez <= ex ->
  F2R (Float radix2 (cond_Zopp sx (Zpos (fst (shl_align mx ex ez)))) ez) = F2R (Float radix2 (cond_Zopp sx (Zpos mx)) ex).
Proof.
  intros H. rewrite !F2R_cond_Zopp. f_equal. pose proof (shl_align_correct mx ex ez) as S.
  destruct (shl_align mx ex ez) as [m e] eqn:E. destruct S as [S1 S2].
  assert (e = ez) as ->.
  { pose proof (snd_shl_align mx ex ez H) as S. rewrite E in S. exact S. }
  symmetry. exact S1.
Qed.
Lemma fadd_correct x y : fdata x -> fdata y ->
  exists s, nearest s (rval x + rval y) (fadd x y).
Proof.
  intros [Vx Fx] [Vy Fy]. destruct x as [sx|sx| |sx mx ex]; try discriminate; destruct y as [sy|sy| |sy my ey]; try discriminate.
  - unfold fadd, SFadd. cbn [rval SF2R]. rewrite Rplus_0_l. destruct (Bool.eqb sx sy); eexists; apply nearest_zero.
  - unfold fadd, SFadd. cbn [rval SF2R]. rewrite Rplus_0_l. exists sy. apply nearest_intro. split; [exact Vy|].
    rewrite round_generic; [|apply valid_rnd_N|exact (generic_format_B2R fprec femax (SF2B (S754_finite sy my ey) Vy))].
    rewrite Rlt_bool_true; [repeat split|]. exact (abs_B2R_lt_emax fprec femax (SF2B (S754_finite sy my ey) Vy)).
  - unfold fadd, SFadd. cbn [rval SF2R]. rewrite Rplus_0_r. exists sx. apply nearest_intro. split; [exact Vx|].
    rewrite round_generic; [|apply valid_rnd_N|exact (generic_format_B2R fprec femax (SF2B (S754_finite sx mx ex) Vx))].
    rewrite Rlt_bool_true; [repeat split|]. exact (abs_B2R_lt_emax fprec femax (SF2B (S754_finite sx mx ex) Vx)).
  - unfold fadd, SFadd. eexists. set (ez := Z.min ex ey).
    replace (rval _ + rval _)%R with (F2R (Float radix2
      (SpecFloat.cond_Zopp sx (Zpos (fst (shl_align mx ex ez))) + SpecFloat.cond_Zopp sy (Zpos (fst (shl_align my ey ez)))) ez));
      [apply normalize_correct|].
    replace (Float radix2 _ _) with (Fplus (Float radix2 (cond_Zopp sx (Zpos (fst (shl_align mx ex ez)))) ez)
       (Float radix2 (cond_Zopp sy (Zpos (fst (shl_align my ey ez)))) ez)).
    + rewrite F2R_plus, !align_F2R by (unfold ez; lia). reflexivity.
    + unfold Fplus, Falign. rewrite Zle_bool_refl. rewrite Z.sub_diag. cbn [Zpower]. rewrite Zmult_1_r. reflexivity.
Qed.
Lemma fsub_fopp x y : fsub x y = fadd x (fopp y) \/ (is_zero x = true /\ is_zero y = true).
Proof.
  destruct x as [sx|sx| |sx mx ex], y as [sy|sy| |sy my ey]; try (right; split; reflexivity); left; try reflexivity.
  unfold fsub, fadd, SFsub, SFadd, fopp, SFopp. f_equal. destruct sy; cbn [negb SpecFloat.cond_Zopp]; lia.
Qed.
Lemma fopp_correct x : fdata x -> fdata (fopp x) /\ rval (fopp x) = (- rval x)%R.
Proof.
  intros [V F]. destruct x as [s|s| |s m e]; try discriminate; cbn; (split; [split; [exact V|reflexivity]|]); [rewrite Ropp_0; reflexivity|].
  rewrite <- F2R_Zopp. destruct s; reflexivity.
Qed.
Lemma fsub_correct x y : fdata x -> fdata y -> exists s, nearest s (rval x - rval y) (fsub x y).
Proof.
  intros Dx Dy. destruct (fsub_fopp x y) as [->|[Zx Zy]].
  - destruct (fopp_correct y Dy) as [D E]. unfold Rminus. rewrite <- E. apply fadd_correct; assumption.
  - destruct x; try discriminate. destruct y; try discriminate. unfold fsub, SFsub. cbn [rval SF2R]. rewrite Rminus_0_r.
    destruct (Bool.eqb _ _); eexists; apply nearest_zero.
Qed.

(* ------------------------------------------------- formats and bounds *)
Definition format64 (r : R) : Prop := generic_format radix2 fexp64 r.
Lemma fdata_format x : fdata x -> format64 (rval x).
Proof.
  intros [V F]. unfold rval. rewrite <- (B2R_SF2B fprec femax x V). apply generic_format_B2R.
Qed.
Lemma fdata_huge x : fdata x -> (Rabs (rval x) < huge)%R.
Proof. intros [V F]. unfold rval. rewrite <- (B2R_SF2B fprec femax x V). apply abs_B2R_lt_emax. Qed.
Lemma rnd_format r : format64 r -> rnd r = r.
Proof. apply round_generic, valid_rnd_N. Qed.
Lemma rnd_le a b : (a <= b)%R -> (rnd a <= rnd b)%R.
Proof. apply round_le; [apply valid_fexp64|apply valid_rnd_N]. Qed.
Lemma format_rnd r : format64 (rnd r).
Proof. apply generic_format_round; [apply valid_fexp64|apply valid_rnd_N]. Qed.

(* equality of floats *)
Lemma fdata_inj x y : fdata x -> fdata y -> rval x = rval y -> sign_of x = sign_of y -> x = y.
Proof.
  intros [Vx Fx] [Vy Fy] E S. rewrite <- (B2SF_SF2B fprec femax x Vx), <- (B2SF_SF2B fprec femax y Vy). f_equal.
  apply B2R_Bsign_inj.
  - rewrite is_finite_SF2B, is_fin_SF. exact Fx.
  - rewrite is_finite_SF2B, is_fin_SF. exact Fy.
  - rewrite !B2R_SF2B. exact E.
  - rewrite !Bsign_SF2B, !sign_of_SF. exact S.
Qed.
Lemma nearest_unique s r x y : nearest s r x -> nearest s r y -> x = y.
Proof.
  intros [Vx Hx] [Vy Hy]. destruct (Rlt_bool _ _).
  - destruct Hx as (E1 & F1 & S1), Hy as (E2 & F2 & S2). apply fdata_inj; [split; assumption..|congruence|congruence].
  - congruence.
Qed.

(* comparisons *)
Lemma fltb_correct x y : fdata x -> fdata y -> fltb x y = Rlt_bool (rval x) (rval y).
Proof.
  intros [Vx Fx] [Vy Fy]. unfold fltb. pose proof (Bltb_correct fprec femax (SF2B x Vx) (SF2B y Vy)) as B.
  unfold Bltb in B. rewrite !B2SF_SF2B, !B2R_SF2B, !is_finite_SF2B, !is_fin_SF in B. apply B; assumption.
Qed.
Lemma fleb_correct x y : fdata x -> fdata y -> SFleb x y = Rle_bool (rval x) (rval y).
Proof.
  intros [Vx Fx] [Vy Fy]. pose proof (Bleb_correct fprec femax (SF2B x Vx) (SF2B y Vy)) as B.
  unfold Bleb in B. rewrite !B2SF_SF2B, !B2R_SF2B, !is_finite_SF2B, !is_fin_SF in B. apply B; assumption.
Qed.

(* decimal scaling *)
Definition pow10 (e : Z) : R := powerRZ 10 e.
Lemma pow10_pos e : (0 < pow10 e)%R.
Proof. apply powerRZ_lt. lra. Qed.
Lemma pow10_IZR e : 0 <= e -> pow10 e = IZR (10 ^ e).
Proof.
  intros H. unfold pow10. destruct e as [|p|p]; [reflexivity| |lia]. cbn [powerRZ]. rewrite pow_IZR. f_equal. f_equal. lia.
Qed.
Lemma pow10_neg e : pow10 (- e) = (/ pow10 e)%R.
Proof. apply powerRZ_neg'. Qed.
Lemma pow10_add a b : pow10 (a + b) = (pow10 a * pow10 b)%R.
Proof. apply powerRZ_add. lra. Qed.

Definition signR (s : bool) (r : R) : R := if s then (- r)%R else r.
Lemma f_of_dec_correct s m e : nearest s (signR s (IZR (Z.of_N m) * pow10 e)) (f_of_dec s m e).
Proof.
  destruct m as [|p]; cbn [f_of_dec Z.of_N].
  - rewrite Rmult_0_l. replace (signR s 0) with 0%R by (destruct s; cbn [signR]; lra). apply nearest_zero.
  - destruct (0 <=? e) eqn:E.
    + apply Z.leb_le in E. rewrite pow10_IZR, <- mult_IZR by exact E.
      set (z := Z.pos p * 10 ^ e). assert (0 < z) by (unfold z; pose proof (Z.pow_pos_nonneg 10 e); lia).
      pose proof (f_norm_correct (if s then - z else z) 0) as F.
      replace ((if s then - z else z) <? 0) with s in F by (destruct s; lia).
      replace (F2R _) with (signR s (IZR z)) in F; [exact F|].
      unfold F2R. cbn [Fnum Fexp bpow]. rewrite Rmult_1_r. destruct s; cbn [signR]; rewrite ?opp_IZR; reflexivity.
    + apply Z.leb_gt in E. assert (0 < 10 ^ (- e)) by (apply Z.pow_pos_nonneg; lia).
      destruct (10 ^ (- e)) as [|d|d] eqn:D; try lia.
      pose proof (ratio_correct s p d) as F.
      replace (IZR (cond_Zopp s (Z.pos p)) / IZR (Z.pos d))%R with (signR s (IZR (Z.pos p) * pow10 e)) in F; [exact F|].
      rewrite <- D, <- pow10_IZR, pow10_neg by lia. unfold Rdiv. rewrite Rinv_inv.
      destruct s; cbn [signR cond_Zopp]; [|reflexivity]. rewrite opp_IZR. ring.
Qed.
(* the float depends on the decimal value only *)
Lemma f_of_dec_ext s m e m' e' : (IZR (Z.of_N m) * pow10 e = IZR (Z.of_N m') * pow10 e')%R -> f_of_dec s m e = f_of_dec s m' e'.
Proof.
  intros H. eapply nearest_unique; [apply f_of_dec_correct|]. rewrite H. apply f_of_dec_correct.
Qed.

(* -------------------------------------------------------- error bounds *)
Lemma fexp64_val e : fexp64 e = Z.max (e - 53) (-1074).
Proof. reflexivity. Qed.
Lemma rnd_err k r : -1021 <= k -> (Rabs r < bpow radix2 k)%R -> (Rabs (rnd r - r) <= bpow radix2 (k - 54))%R.
Proof.
  intros K H. destruct (Req_dec r 0) as [->|Z].
  - rewrite rnd_0, Rminus_0_r, Rabs_R0. apply bpow_ge_0.
  - apply Rle_trans with (/ 2 * ulp radix2 fexp64 r)%R; [apply error_le_half_ulp, valid_fexp64|].
    rewrite ulp_neq_0 by exact Z. unfold cexp.
    assert (mag radix2 r <= k) as M by (apply mag_le_bpow; assumption).
    apply Rle_trans with (/ 2 * bpow radix2 (k - 53))%R.
    + apply Rmult_le_compat_l; [lra|]. apply bpow_le. rewrite fexp64_val. lia.
    + replace (k - 53) with (1 + (k - 54)) by lia. rewrite bpow_plus. change (bpow radix2 1) with 2%R. lra.
Qed.
Lemma small_format z e : Z.abs z <= 2 ^ 53 -> -1074 <= e -> format64 (F2R (Float radix2 z e)).
Proof.
  intros H E. assert (Z.abs z < 2 ^ 53 \/ Z.abs z = 2 ^ 53) as [L|L] by lia.
  - apply generic_format_FLT. exists (Float radix2 z e); [reflexivity|exact L|exact E].
  - assert (z = 2 ^ 53 \/ z = - 2 ^ 53) as [->| ->] by lia.
    + replace (F2R _) with (bpow radix2 (53 + e)).
      * apply generic_format_bpow. rewrite fexp64_val. lia.
      * unfold F2R. cbn [Fnum Fexp]. rewrite bpow_plus. f_equal.
    + replace (F2R _) with (- bpow radix2 (53 + e))%R.
      * apply generic_format_opp, generic_format_bpow. rewrite fexp64_val. lia.
      * unfold F2R. cbn [Fnum Fexp]. rewrite bpow_plus, Ropp_mult_distr_l. f_equal.
Qed.
Lemma IZR_F2R z : F2R (Float radix2 z 0) = IZR z.
Proof. unfold F2R. cbn [Fnum Fexp bpow]. apply Rmult_1_r. Qed.
Lemma int_format z : Z.abs z <= 2 ^ 53 -> format64 (IZR z).
Proof. intros H. rewrite <- IZR_F2R. apply small_format; lia. Qed.
Lemma huge_big k : k < 1024 -> (bpow radix2 k < huge)%R.
Proof. intros H. apply bpow_lt. exact H. Qed.
Lemma bpow_IZR k : 0 <= k -> bpow radix2 k = IZR (2 ^ k).
Proof. intros H. rewrite <- (IZR_Zpower radix2) by exact H. reflexivity. Qed.
(* rounding does not pass a representable bound *)
Lemma rnd_bound b r : format64 b -> (Rabs r <= b)%R -> (Rabs (rnd r) <= b)%R.
Proof.
  intros F H. apply Rabs_le. apply Rabs_le_inv in H as [H1 H2]. split.
  - rewrite <- (rnd_format (- b)) by (apply generic_format_opp, F). apply rnd_le, H1.
  - rewrite <- (rnd_format b) by exact F. apply rnd_le, H2.
Qed.
Lemma rnd_lt_huge r z : (Rabs r <= IZR z)%R -> z <= 2 ^ 53 -> (Rabs (rnd r) < huge)%R.
Proof.
  intros H Hz. assert (0 <= z) as P.
  { apply le_IZR. eapply Rle_trans; [apply Rabs_pos|exact H]. }
  apply Rle_lt_trans with (IZR z); [apply rnd_bound; [apply int_format; lia|exact H]|].
  apply Rle_lt_trans with (bpow radix2 53); [|apply huge_big; lia]. rewrite bpow_IZR by lia. apply IZR_le. exact Hz.
Qed.
(* integers of at most 53 bits are exact *)
Lemma f_int z : Z.abs z <= 2 ^ 53 -> fdata (f_norm z 0) /\ rval (f_norm z 0) = IZR z /\ sign_of (f_norm z 0) = (z <? 0).
Proof.
  intros H. pose proof (f_norm_correct z 0) as N. rewrite IZR_F2R in N. apply nearest_fdata in N.
  - rewrite (rnd_format (IZR z)) in N by (apply int_format; exact H). exact N.
  - apply rnd_lt_huge with (Z.abs z); [rewrite <- abs_IZR; lra|exact H].
Qed.
Lemma f_of_Z_int z : Z.abs z <= 2 ^ 53 -> f_of_Z z = Ok (f_norm z 0).
Proof.
  intros H. unfold f_of_Z. destruct (f_int z H) as ([_ F] & _). destruct (f_norm z 0); try discriminate; reflexivity.
Qed.
Lemma f_ratio_correct n d : 0 < d -> nearest (n <? 0) (IZR n / IZR d) (f_ratio n d).
Proof.
  intros D. destruct d as [|d|d]; try lia. destruct n as [|p|p]; unfold f_ratio.
  - unfold Rdiv. rewrite Rmult_0_l. apply nearest_zero.
  - apply (ratio_correct false).
  - apply (ratio_correct true).
Qed.

(* ------------------------------------------------- integers from floats *)
Lemma F2R_neg z e : e < 0 -> F2R (Float radix2 z e) = (IZR z / IZR (2 ^ (- e)))%R.
Proof.
  intros H. unfold F2R. cbn [Fnum Fexp]. unfold Rdiv. f_equal. replace e with (- (- e)) at 1 by lia. rewrite bpow_opp, bpow_IZR by lia. reflexivity.
Qed.
Lemma F2R_nonneg z e : 0 <= e -> F2R (Float radix2 z e) = IZR (z * 2 ^ e).
Proof. intros H. unfold F2R. cbn [Fnum Fexp]. rewrite bpow_IZR, mult_IZR by lia. reflexivity. Qed.
Lemma Zfloor_F2R z e : e < 0 -> Zfloor (F2R (Float radix2 z e)) = z / 2 ^ (- e).
Proof. intros H. rewrite F2R_neg by exact H. apply Zfloor_div. pose proof (Z.pow_pos_nonneg 2 (- e)). lia. Qed.

(* int() truncates *)
Lemma int_of_float_correct x : is_fin x = true -> int_of_float x = Ok (Ztrunc (rval x)).
Proof.
  destruct x as [s|s| |s m e]; try discriminate; intros _; cbn [int_of_float rval SF2R].
  - rewrite Ztrunc_IZR. reflexivity.
  - f_equal. destruct (Z.leb_spec 0 e) as [E|E].
    + rewrite F2R_nonneg, Ztrunc_IZR by exact E. destruct s; cbn [cond_Zopp]; lia.
    + rewrite F2R_cond_Zopp.
      assert (Ztrunc (F2R (Float radix2 (Z.pos m) e)) = Z.pos m / 2 ^ (- e)) as T.
      { rewrite Ztrunc_floor by (apply F2R_ge_0; cbn; lia). apply Zfloor_F2R, E. }
      destruct s; cbn [cond_Ropp]; [rewrite Ztrunc_opp|]; rewrite T; reflexivity.
Qed.
Lemma ffloor_correct x : fdata x -> (Rabs (rval x) <= IZR (2 ^ 53))%R -> fdata (ffloor x) /\ rval (ffloor x) = IZR (Zfloor (rval x)).
Proof.
  intros [V F] B. destruct x as [s|s| |s m e]; try discriminate; cbn [ffloor].
  - split; [split; [exact V|reflexivity]|]. cbn [rval SF2R]. rewrite Zfloor_IZR. reflexivity.
  - destruct (Z.leb_spec 0 e) as [E|E].
    + split; [split; [exact V|reflexivity]|]. cbn [rval SF2R]. rewrite F2R_nonneg, Zfloor_IZR by exact E. reflexivity.
    + set (z := (if s then - Z.pos m else Z.pos m) / 2 ^ (- e)).
      assert (Zfloor (rval (S754_finite s m e)) = z) as Z1.
      { cbn [rval SF2R]. rewrite Zfloor_F2R by exact E. reflexivity. }
      assert (Z.abs z <= 2 ^ 53) as Z2.
      { apply Rabs_le_inv in B as [B1 B2].
        assert (z <= 2 ^ 53) by (rewrite <- Z1; apply le_IZR; eapply Rle_trans; [apply Zfloor_lb|exact B2]).
        assert (- 2 ^ 53 <= z) by (rewrite <- Z1; apply Zfloor_lub; rewrite opp_IZR; exact B1). lia. }
      pose proof (normalize_correct z 0 s) as N. rewrite IZR_F2R in N. apply nearest_fdata in N.
      * rewrite (rnd_format (IZR z)) in N by (apply int_format; exact Z2). destruct N as (N1 & N2 & _). rewrite Z1. split; assumption.
      * apply rnd_lt_huge with (Z.abs z); [rewrite <- abs_IZR; lra|exact Z2].
Qed.
