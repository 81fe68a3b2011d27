(* The hypotheses of C78-C81 can be met: the C library that rounds every
   function correctly. *)
From Coq Require Import Reals Lia Lra.
From Flocq Require Import Core BinarySingleNaN.
From Verif Require Import PyFloat FloatProofs FloatErr FGeo FGeoSpec GeoSpec Geo GeoProofs.
Local Open Scope R_scope.

(* the float nearest to a real number *)
(* not in the code: one C library that satisfies the accuracy assumptions about math *)
Definition rfl (r : R) : fl :=
  f_norm (ZnearestE (scaled_mantissa radix2 fexp64 r)) (cexp radix2 fexp64 r).

Lemma rfl_val r : Rabs r <= big -> fdata (rfl r) /\ rval (rfl r) = rnd r.
Proof.
  intros B. unfold rfl. pose proof (f_norm_correct (ZnearestE (scaled_mantissa radix2 fexp64 r)) (cexp radix2 fexp64 r)) as N.
  change (F2R _) with (rnd r) in N. apply nearest_fdata in N.
  - rewrite (rnd_format (rnd r)) in N by apply format_rnd. tauto.
  - rewrite (rnd_format (rnd r)) by apply format_rnd. apply Rle_lt_trans with (big + big); [|apply big_huge].
    pose proof (rnd_rel r) as Q. assert (Rabs r * u53 <= big * u53) by (apply Rmult_le_compat_r; [unfold u53; lra|exact B]).
    replace (rnd r) with (r + (rnd r - r)) by ring. eapply Rle_trans; [apply Rabs_triang|]. unfold big, u53, tiny in *. lra.
Qed.
Lemma rnd_half_ulp r : Rabs (rnd r - r) <= / 2 * ulp radix2 fexp64 r.
Proof. apply error_le_half_ulp, valid_fexp64. Qed.
Lemma ulp_pos r : 0 < ulp radix2 fexp64 r.
Proof.
  destruct (Req_dec r 0) as [->|Z0].
  - change fexp64 with (FLT_exp (-1074) 53). rewrite ulp_FLT_0. apply bpow_gt_0. reflexivity.
  - rewrite ulp_neq_0 by exact Z0. apply bpow_gt_0.
Qed.
Lemma rfl_faithful r : Rabs r <= big -> faithful (rfl r) r.
Proof.
  intros B. destruct (rfl_val r B) as [F V]. split; [exact F|]. rewrite V.
  pose proof (rnd_half_ulp r). pose proof (ulp_pos r). lra.
Qed.

(* a one-argument function correctly rounded where it is defined; the exact
   cases of annex F by the argument's zero or one *)
(* not in the code: one C library that satisfies the accuracy assumptions about math *)
Definition in_unit (x : fl) : bool := Raux.Rle_bool (-1) (rval x) && Raux.Rle_bool (rval x) 1.
(* not in the code: one C library that satisfies the accuracy assumptions about math *)
Definition exact_libm : libm := {|
  l_sin := fun x => if is_zero x then x else rfl (sin (rval x));
  l_cos := fun x => if is_zero x then fone else rfl (cos (rval x));
  l_asin := fun x => if in_unit x then rfl (asin (rval x)) else S754_nan;
  l_acos := fun x => if SFeqb x fone then fzero else if in_unit x then rfl (acos (rval x)) else S754_nan;
  l_atan2 := fun y x => if is_zero y && is_zero x then y else rfl (m_atan2 (rval y) (rval x));
  l_pow := fun x _ => rfl (rval x * rval x)
|}.

Lemma small_big r k : Rabs r <= k -> k <= big -> Rabs r <= big.
Proof. intros; lra. Qed.
Lemma in_unit_true x : -1 <= rval x <= 1 -> in_unit x = true.
Proof. intros [A B]. unfold in_unit. rewrite !Rle_bool_true by assumption. reflexivity. Qed.
Lemma in_unit_false x : rval x < -1 \/ 1 < rval x -> in_unit x = false.
Proof.
  intros [A|A]; unfold in_unit; [rewrite Rle_bool_false by exact A; reflexivity|].
  rewrite (Rle_bool_false (rval x)) by exact A. apply Bool.andb_false_r.
Qed.
Lemma zero_val x : is_zero x = true -> rval x = 0.
Proof. destruct x; try discriminate. reflexivity. Qed.
Lemma faithful_eq x r : fdata x -> rval x = r -> faithful x r.
Proof. intros F E. split; [exact F|]. rewrite E, Rminus_diag_eq, Rabs_R0 by reflexivity. apply ulp_pos. Qed.
Lemma rval_one : rval fone = 1.
Proof. destruct (f_int 1) as (_ & V & _); [lia|exact V]. Qed.
Lemma fdata_one : fdata fone. Proof. split; reflexivity. Qed.
Lemma feqb_correct x y : fdata x -> fdata y -> SFeqb x y = Req_bool (rval x) (rval y).
Proof.
  intros [Vx Fx] [Vy Fy]. pose proof (BinarySingleNaN.Beqb_correct fprec femax (BinarySingleNaN.SF2B x Vx) (BinarySingleNaN.SF2B y Vy)) as B.
  unfold BinarySingleNaN.Beqb in B. rewrite !BinarySingleNaN.B2SF_SF2B, !BinarySingleNaN.B2R_SF2B, !BinarySingleNaN.is_finite_SF2B, !is_fin_SF in B.
  apply B; assumption.
Qed.
Lemma eqb_one x : fdata x -> SFeqb x fone = true -> x = fone.
Proof.
  intros F E. rewrite feqb_correct in E by (exact F || apply fdata_one).
  assert (rval x = rval fone) as V by (destruct (Req_bool_spec (rval x) (rval fone)); [assumption|discriminate]).
  apply fdata_inj; [exact F|apply fdata_one|exact V|].
  rewrite rval_one in V. destruct F as [_ F]. destruct x as [s|s| |s m e]; try discriminate.
  - cbn in V. lra.
  - destruct s; [|reflexivity]. exfalso. cbn in V.
    pose proof (F2R_lt_0 radix2 (Float radix2 (Z.neg m) e) eq_refl). lra.
Qed.

Theorem exact_libm_ok : libm_ok exact_libm.
Proof.
  assert (4 <= big) as B4 by num.
  pose proof PI_4 as P4. pose proof PI_RGT_0 as P0.
  constructor; cbn [exact_libm l_sin l_cos l_asin l_acos l_atan2 l_pow].
  - intros x F. destruct (is_zero x) eqn:Z0.
    + apply faithful_eq; [exact F|]. rewrite (zero_val x Z0), sin_0. reflexivity.
    + apply rfl_faithful. apply small_big with 1; [|lra]. apply Rabs_le, SIN_bound.
  - intros x F. destruct (is_zero x) eqn:Z0.
    + apply faithful_eq; [apply fdata_one|]. rewrite (zero_val x Z0), cos_0. apply rval_one.
    + apply rfl_faithful. apply small_big with 1; [|lra]. apply Rabs_le, COS_bound.
  - intros x F U. rewrite in_unit_true by exact U. apply rfl_faithful. apply small_big with 4; [|exact B4].
    pose proof (asin_bound (rval x)). apply Rabs_le. lra.
  - intros x F U. rewrite in_unit_false by exact U. reflexivity.
  - intros x F U. destruct (SFeqb x fone) eqn:E.
    + apply eqb_one in E as ->; [|exact F]. rewrite rval_one, acos_1. apply faithful_eq; [split; reflexivity|reflexivity].
    + rewrite in_unit_true by exact U. apply rfl_faithful. apply small_big with 4; [|exact B4].
      pose proof (acos_bound (rval x)). apply Rabs_le. lra.
  - intros x F U. destruct (SFeqb x fone) eqn:E.
    + apply eqb_one in E as ->; [|exact F]. rewrite rval_one in U. lra.
    + rewrite in_unit_false by exact U. reflexivity.
  - intros y x Fy Fx. destruct (is_zero y && is_zero x)%bool eqn:Z0.
    + apply andb_prop in Z0 as [Zy Zx]. rewrite (zero_val y Zy), (zero_val x Zx). exists 0.
      rewrite !Rmult_0_l, Rplus_0_l, sqrt_0, !Rmult_0_l. repeat split; try lra; try apply Fy.
      rewrite (zero_val y Zy), Rminus_diag_eq, Rabs_R0 by reflexivity. apply ulp_pos.
    + destruct (m_atan2_polar (rval x) (rval y)) as (R1 & R2 & R3 & _).
      exists (m_atan2 (rval y) (rval x)). split; [lra|]. split; [exact R2|]. split; [exact R3|].
      apply rfl_faithful. apply small_big with 4; [|exact B4]. apply Rabs_le. lra.
  - intros x F B. apply rfl_faithful. rewrite Rabs_mult. apply Rle_trans with (10 ^ 15 * 10 ^ 15); [|num].
    apply Rmult_le_compat; try apply Rabs_pos; exact B.
  - reflexivity.
  - reflexivity.
  - replace (SFeqb fone fone) with true by reflexivity. reflexivity.
  - reflexivity.
Qed.
Theorem exact_cos_sharp : cos_sharp exact_libm.
Proof.
  intros x F. cbn [exact_libm l_cos]. pose proof (ulp_pos (cos (rval x))) as U. destruct (is_zero x) eqn:Z0.
  - rewrite (zero_val x Z0), cos_0, rval_one, Rminus_diag_eq, Rabs_R0 by reflexivity.
    pose proof (ulp_pos 1). lra.
  - destruct (rfl_val (cos (rval x))) as [_ ->].
    + apply small_big with 1; [apply Rabs_le, COS_bound|num].
    + pose proof (rnd_half_ulp (cos (rval x))). lra.
Qed.
