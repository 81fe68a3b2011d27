(* Error analysis of the binary64 geodesy, part 9: the accuracy of ecef2llh in
   the meridian plane. *)
From Coq Require Import Reals Lia Lra Psatz.
From Flocq Require Import Core BinarySingleNaN.
From Verif Require Import PyFloat FloatProofs PiBounds FloatErr FGeo FGeoSpec GeoSpec Geo GeoProofs EcefProofs EcefAccuracy FGeoProofs FGeoProofs2 FGeoProofs3 FGeoProofs4 FGeoProofs5 FGeoProofs6 FGeoProofs7 FGeoProofs8.
Local Open Scope R_scope.

Lemma eps_low f : 290 <= f <= 1000 -> 1999 / 1000000 <= 1 / f * (2 - 1 / f).
Proof.
  intros F. assert (1 / 1000 <= 1 / f <= 1 / 290) as B.
  { unfold Rdiv. rewrite !Rmult_1_l. split; apply Rinv_le_contravar; lra. }
  set (t := 1 / f) in *. nra.
Qed.

Section Acc.
Variable L : libm.
Variables x y z a f : fl.
Hypothesis K : libm_ok L.
Hypothesis FX : fdata x.
Hypothesis FY : fdata y.
Hypothesis FZ : fdata z.
Hypothesis FA : fdata a.
Hypothesis BA : 6300000 <= rval a <= 6400000.
Hypothesis FF : fdata f.
Hypothesis BF : 290 <= rval f <= 1000.
Let X := rval x. Let Y := rval y. Let Z0 := rval z.
Let W := sqrt (X * X + Y * Y).
Let Ro := sqrt (X * X + Y * Y + Z0 * Z0).
Let e2 := 1 / rval f * (2 - 1 / rval f).
Variables ph h d : R.
Hypothesis HP : 0 <= ph <= PI / 2.
Hypothesis HH : -200000 <= h <= 10000000000.
Hypothesis HD : 0 <= d <= 1 / 5.
Let qf := sqrt (1 - e2 * (sin ph * sin ph)).
Let Wt := (rval a / qf + h) * cos ph.
Let Zt := (rval a / qf + h - rval a * e2 / qf) * sin ph.
Hypothesis DW : Rabs (W - Wt) <= 2 * d.
Hypothesis DZ : Rabs (Rabs Z0 - Zt) <= d.

Lemma acc_far : 6050000 <= Ro <= 10007000000 /\ 0 <= Wt /\ 0 <= Zt /\ Wt <= Ro + 3 * d /\ Zt <= Ro + 3 * d /\ 6000000 <= rval a / qf + h /\
  Ro <= 1008 / 1000 * (rval a / qf + h - rval a * e2 / qf) + 3 * d /\ 0 < rval a / qf + h - rval a * e2 / qf.
Proof.
  pose proof PI_RGT_0 as Pi. pose proof (datum_e2 f (proj1 BF)) as E. fold e2 in E. pose proof (datum_a1 a f BA (proj1 BF)) as A1. fold e2 in A1.
  assert (0 <= sin ph <= 1) as S by (split; [apply sin_ge_0; lra|apply SIN_bound]).
  assert (0 <= cos ph <= 1) as C by (split; [apply cos_ge_0; lra|apply COS_bound]).
  pose proof (sc1 ph) as SC. pose proof (q_low e2 _ _ E SC) as Q. fold qf in Q. pose proof (inv_q _ Q) as I.
  assert (6300000 <= rval a / qf <= 6430000) as AQ by (split; [apply le_div; lra|apply div_le; lra]).
  assert (0 <= rval a * e2 / qf <= 44320) as EQ by (split; [apply le_div; lra|apply div_le; lra]).
  set (Hh := rval a / qf + h) in *. set (g := rval a * e2 / qf) in *.
  assert (6100000 <= Hh <= 10006430000) as HB by (unfold Hh; lra).
  assert (0 <= Wt) as W0 by (apply Rmult_le_pos; [fold Hh|]; lra). assert (0 <= Zt) as Z1 by (apply Rmult_le_pos; [fold Hh; fold g|]; lra).
  set (R1 := sqrt (Wt * Wt + Zt * Zt)).
  pose proof (sq_nonneg X). pose proof (sq_nonneg Y). pose proof (sq_nonneg Z0). pose proof (sq_nonneg Wt). pose proof (sq_nonneg Zt).
  assert (W * W = X * X + Y * Y) as WW by (apply sqrt_sqrt; lra).
  assert (Ro = sqrt (W * W + Rabs Z0 * Rabs Z0)) as ER by (rewrite <- sq_abs, WW; reflexivity).
  assert (R1 <= Ro + 3 * d) as N1.
  { rewrite ER. replace (3 * d) with (2 * d + d) by ring. apply norm_lip; rewrite Rabs_minus_sym; assumption. }
  assert (Ro <= R1 + 3 * d) as N2.
  { rewrite ER. replace (3 * d) with (2 * d + d) by ring. apply norm_lip; assumption. }
  assert (Wt * Wt = Hh * Hh * (cos ph * cos ph)) as E1 by (unfold Wt; ring).
  assert (Zt * Zt = (Hh - g) * (Hh - g) * (sin ph * sin ph)) as E2 by (unfold Zt; ring).
  pose proof (sq_nonneg (sin ph)) as PS. pose proof (sq_nonneg (cos ph)) as PC.
  assert ((Hh - g) * (Hh - g) <= Hh * Hh) as SQ by (apply Rmult_le_compat; lra).
  assert (Hh - g <= R1) as R1L.
  { apply le_sqrt_of_sq; [lra|]. rewrite E1, E2.
    assert ((Hh - g) * (Hh - g) * (cos ph * cos ph) <= Hh * Hh * (cos ph * cos ph)) by (apply Rmult_le_compat_r; lra).
    assert ((Hh - g) * (Hh - g) = (Hh - g) * (Hh - g) * (sin ph * sin ph) + (Hh - g) * (Hh - g) * (cos ph * cos ph)) by (rewrite <- Rmult_plus_distr_l, SC; ring). lra. }
  assert (R1 <= Hh) as R1H.
  { apply sqrt_le_of_sq; [lra|]. rewrite E1, E2.
    assert ((Hh - g) * (Hh - g) * (sin ph * sin ph) <= Hh * Hh * (sin ph * sin ph)) by (apply Rmult_le_compat_r; lra).
    assert (Hh * Hh = Hh * Hh * (sin ph * sin ph) + Hh * Hh * (cos ph * cos ph)) by (rewrite <- Rmult_plus_distr_l, SC; ring). lra. }
  assert (Wt <= R1) by (apply le_sqrt_of_sq; lra). assert (Zt <= R1) by (apply le_sqrt_of_sq; lra).
  split; [unfold Hh in *; lra|]. repeat split; try assumption; unfold Hh in *; lra.
Qed.

Lemma acc_plane : exists lat latr h',
  fecef2llh L x y z a f = Ok (rad2deg (if fltb z fzero then fopp lat else lat), rad2deg (l_atan2 L y x), h') /\
  approx lat latr (67 / 1000000000000000 + 94 / 10 * (d / Ro)) /\ Rabs (latr - ph) <= 3 / 10000000000 /\
  approx h' h (15 / 10000 + 5 * d).
Proof.
  destruct acc_far as (RB & W0 & Z1 & WR & ZR & HF & _).
  assert (Ro <= 20000000000) as BR by lra. assert (100000001 / 1000 <= Ro) as LO1 by lra.
  pose proof (dist_outside x y z FX FY FZ BR LO1) as T.
  destruct (fecef_guess L x y z a f K FX FY FZ FA BA FF (proj1 BF) BR T) as (lat & s & c & ss & th & E & LO & AW & G).
  fold X Y Z0 in LO, AW, G. fold W Ro e2 in LO, AW, G. destruct G as (HT & GL & GS & GC & GSS & GD & GM).
  specialize (GM ltac:(lra)).
  pose proof PI_RGT_0 as Pi.
  pose proof (datum_e2 f (proj1 BF)) as E2. fold e2 in E2. pose proof (datum_a1 a f BA (proj1 BF)) as A1. fold e2 in A1.
  set (a1 := rval a * e2) in *.
  assert (12590 <= a1) as A1L.
  { pose proof (eps_low _ BF) as EL. fold e2 in EL. unfold a1. pose proof (Rmult_le_compat 6300000 (rval a) (1999 / 1000000) e2 ltac:(lra) ltac:(lra) ltac:(lra) EL). lra. }
  set (Ro' := Ro + 3 * d).
  assert (99999999 / 1000 <= Ro' <= 20000000000) as B0 by (unfold Ro'; lra).
  assert (0 <= 2 * d <= 1) as D0 by lra.
  assert (0 <= Wt <= Ro') as WB by (unfold Ro'; lra). assert (0 <= Zt <= Ro') as ZB by (unfold Ro'; lra).
  assert (approx (fsq (fw2 x y)) Wt (7 / 10000000000000000 * Ro' + 2 * d)) as AW'.
  { split; [apply AW|]. replace (rval (fsq (fw2 x y)) - Wt) with ((rval (fsq (fw2 x y)) - W) + (W - Wt)) by ring.
    eapply Rle_trans; [apply Rabs_triang|]. pose proof (proj2 AW). unfold Ro'. lra. }
  assert (approx (fabs z) Zt (2 * d)) as AZ.
  { assert (approx (fabs z) (Rabs Z0) 0) as Q by (apply approx_abs, approx_exact, FZ). split; [apply Q|].
    replace (rval (fabs z) - Zt) with ((rval (fabs z) - Rabs Z0) + (Rabs Z0 - Zt)) by ring.
    eapply Rle_trans; [apply Rabs_triang|]. pose proof (proj2 Q). lra. }
  rewrite (tail_run a f _ _ z lat (l_atan2 L y x) s c ss FA BA FF (proj1 BF) Wt Zt Ro' th (2 * d) B0 D0 WB ZB AW' AZ HT GS GC GSS L) in E.
  pose proof (tail_ff a f _ _ s c ss FA BA FF (proj1 BF) Wt Zt Ro' th (2 * d) B0 D0 WB ZB AW' AZ HT GS GC GSS) as QF.
  pose proof (tail_fm a f _ _ s c ss FA BA FF (proj1 BF) Wt Zt Ro' th (2 * d) B0 D0 WB ZB AW' AZ HT GS GC GSS) as QM.
  destruct (tail_fd a f _ _ s c ss FA BA FF (proj1 BF) Wt Zt Ro' th (2 * d) B0 D0 WB ZB AW' AZ HT GS GC GSS) as [QD _].
  destruct (tail_facts a f BA (proj1 BF) th HT) as (_ & SB & CB & SC & QB & QQ & _).
  pose proof (tail_d_pos (rval a) e2 Wt Zt (sin th) (cos th) (conj BA E2) SC) as TD.
  fold e2 in QF, QM, QD, QQ, QB. fold a1 in TD.
  assert (Rabs (cos th * (W - Wt)) <= 2 * d /\ Rabs (sin th * (W - Wt)) <= 2 * d /\ Rabs (cos th * (Rabs Z0 - Zt)) <= d /\ Rabs (sin th * (Rabs Z0 - Zt)) <= d) as (P1 & P2 & P3 & P4).
  { pose proof (b_pos _ _ SB) as PS. pose proof (b_pos _ _ CB) as PC.
    pose proof (b_mul _ _ _ _ PC DW). pose proof (b_mul _ _ _ _ PS DW). pose proof (b_mul _ _ _ _ PC DZ). pose proof (b_mul _ _ _ _ PS DZ). repeat split; lra. }
  assert (Rabs (tail_m (rval a) e2 Wt Zt (sin th) (cos th)) <= 201 / 10000 * a1) as SM.
  { replace (tail_m (rval a) e2 Wt Zt (sin th) (cos th)) with
      (tail_m (rval a) e2 W (Rabs Z0) (sin th) (cos th) + (- (cos th * (Rabs Z0 - Zt)) + sin th * (W - Wt))) by (unfold tail_m; ring).
    eapply Rle_trans; [apply Rabs_triang|]. eapply Rle_trans; [apply Rplus_le_compat; [exact GM|apply Rabs_triang]|]. rewrite Rabs_Ropp. fold a1. lra. }
  assert (44 / 100 * Ro <= tail_d (rval a) e2 Wt Zt (sin th) (cos th)) as DL.
  { eapply Rle_trans; [|exact TD]. apply b_inv in P1, P4. lra. }
  destruct (step_result (rval a) e2 ph th h (conj BA E2) HP HT HF SM) as [SR1 SR2].
  fold qf in SR1, SR2. fold a1 in SR1, SR2.
  change ((rval a / qf + h) * cos ph) with Wt in SR1, SR2. change ((rval a / qf + h - a1 / qf) * sin ph) with Zt in SR1, SR2.
  set (F1 := ff a f _ _ s c ss) in *. set (M1 := fm a f _ _ s c ss) in *. set (D1 := fd a f _ _ s c ss) in *.
  set (Fr := tail_f (rval a) e2 Wt Zt (sin th) (cos th)) in *. set (Mr := tail_m (rval a) e2 Wt Zt (sin th) (cos th)) in *.
  set (Dr := tail_d (rval a) e2 Wt Zt (sin th) (cos th)) in *.
  set (eta := d / Ro). assert (eta * Ro = d) as EE by (unfold eta; field; lra).
  assert (0 <= eta) as E0 by (apply Rmult_le_pos; [lra|left; apply Rinv_0_lt_compat; lra]).
  assert (eta <= d / 6000000) as E1.
  { unfold eta. apply Rmult_le_compat_l; [lra|]. apply Rinv_le_contravar; lra. }
  set (lo := 44 / 100 * Ro) in *. assert (2600000 <= lo) as LO2 by (unfold lo; lra).
  set (ka := 62 / 1000000000000000 + 915 / 100 * eta). set (kb := 71 / 1000000000000000 + 92 / 10 * eta).
  assert (Rabs Mr <= 888) as MB by lra.
  destruct (approx_div_rel M1 D1 Mr Dr ka kb lo (35 / 100000) (65 / 1000000000000000 + 93 / 10 * eta)) as [QP NP]; try (unfold ka, kb; num).
  - eapply approx_weaken; [exact QM|]. unfold ka, lo, Ro'. lra.
  - eapply approx_weaken; [exact QD|]. unfold kb, lo, Ro'. lra.
  - rewrite Rabs_pos_eq; lra.
  - rewrite (fdivide_ok _ _ NP) in E. cbn [bind] in E.
    assert (Rabs (Mr / Dr) <= 35 / 100000) as PB.
    { unfold Rdiv. rewrite Rabs_mult, Rabs_inv, (Rabs_pos_eq Dr) by lra. apply div_le; lra. }
    pose proof pi_bounds as PIB. pose proof (Rabs_pos Mr).
    exists (fadd lat (fdiv M1 D1)), (th + Mr / Dr), (fadd F1 (fdiv (fmul M1 (fdiv M1 D1)) ftwo)).
    split; [exact E|]. fold eta. split; [|split].
    + eapply approx_add with (M := 16 / 10); [exact GL|exact QP| |num|num].
      eapply Rle_trans; [apply Rabs_triang|]. rewrite (Rabs_pos_eq th); lra.
    + replace (th + Mr / Dr - ph) with (Mr / Dr - (ph - th)) by ring. exact SR1.
    + assert (d * d <= 1 / 5 * d) as DD by (apply Rmult_le_compat_r; lra).
      assert (approx M1 Mr (3 / 10000 + 402 / 100 * d)) as QM' by (eapply approx_weaken; [exact QM|unfold Ro'; lra]).
      assert (approx (fdiv M1 D1) (Mr / Dr) (1 / 10000000000000 + 16 / 10000000 * d)) as QP' by (eapply approx_weaken; [exact QP|lra]).
      assert (approx (fmul M1 (fdiv M1 D1)) (Mr * (Mr / Dr)) (2 / 10000000 + 3 / 1000 * d)) as QMP.
      { eapply approx_mul with (A := 888) (B := 35 / 100000); [exact QM'|exact QP'|exact MB|exact PB| |]; num. }
      assert (Rabs (Mr * (Mr / Dr)) <= 1) as MPB.
      { rewrite Rabs_mult. eapply Rle_trans; [apply Rmult_le_compat; [apply Rabs_pos|apply Rabs_pos|exact MB|exact PB]|]. lra. }
      destruct (approx_div _ _ _ _ _ _ 1 2 1 (2 / 10000000 + 2 / 1000 * d) QMP approx_two) as [QH _]; try num.
      { rewrite Rabs_pos_eq; lra. }
      apply b_inv in SR2.
      assert (approx (fadd F1 (fdiv (fmul M1 (fdiv M1 D1)) ftwo)) (Fr + Mr * (Mr / Dr) / 2) (3 / 10000 + 5 * d)) as QHH.
      { eapply approx_add with (M := 10000000001); [exact QF|exact QH| | |]; try (unfold Ro'; num). apply Rabs_le. lra. }
      split; [apply QHH|]. pose proof (approx_bounds _ _ _ QHH). apply Rabs_le. lra.
Qed.
End Acc.
