(* Error analysis of the binary64 geodesy, part 8: ecef2llh always returns. *)
From Coq Require Import Reals Lia Lra Psatz.
From Flocq Require Import Core BinarySingleNaN.
From Verif Require Import PyFloat FloatProofs PiBounds FloatErr FGeo FGeoSpec GeoSpec Geo GeoProofs EcefProofs EcefAccuracy FGeoProofs FGeoProofs2 FGeoProofs3 FGeoProofs4 FGeoProofs5 FGeoProofs6 FGeoProofs7.
Local Open Scope R_scope.

Lemma approx_rad2deg x r e M : approx x r e -> Rabs r <= M -> M <= 1000000 -> e <= 1 ->
  approx (rad2deg x) (r * 180 / PI) (58 * e + M * (16 / 1000000000000000) + 1 / 10000000000000000000000).
Proof.
  intros A B BM BE. pose proof (approx_nonneg _ _ _ A) as E0. assert (0 <= M) by (eapply Rle_trans; [apply Rabs_pos|exact B]).
  assert (approx (fmul x f180) (r * 180) (180 * e + M * (201 / 10000000000000000) + e * (201 / 10000000000000000) + 2 * tiny)) as A1.
  { eapply approx_mul with (A := M) (B := 180); [exact A|apply approx_180|exact B| | |]; try num. rewrite Rabs_pos_eq; lra. }
  pose proof pi_bounds as PB.
  unfold rad2deg. apply (approx_div _ _ _ _ _ _ (180 * M) (314 / 100) (574 / 10 * M) _ A1 approx_pi); try num.
  - rewrite Rabs_mult, (Rabs_pos_eq 180) by lra. lra.
  - rewrite Rabs_pos_eq; lra.
Qed.

Lemma lon_result L x y : libm_ok L -> fdata x -> fdata y ->
  exists t, - PI <= t <= PI /\ rval x = sqrt (rval x * rval x + rval y * rval y) * cos t /\
    rval y = sqrt (rval x * rval x + rval y * rval y) * sin t /\
    approx (rad2deg (l_atan2 L y x)) (t * 180 / PI) (1 / 10000000000000).
Proof.
  intros K FX FY. destruct (atan2_ok L K y x FY FX) as (t & B & X & Y & A). exists t.
  split; [exact B|]. split; [exact X|]. split; [exact Y|]. pose proof pi_bounds as PB.
  assert (approx (l_atan2 L y x) t (7 / 10000000000000000)) as A1.
  { apply (faithful_approx _ _ (315 / 100)); [exact A|apply Rabs_le; lra|num]. }
  eapply approx_weaken; [apply approx_rad2deg with (M := 315 / 100); [exact A1|apply Rabs_le; lra|lra|lra]|lra].
Qed.

(* the sum of a float and a nonnegative one is no smaller *)
Lemma fadd_ge x y : fdata x -> fdata y -> fdata (fadd x y) -> 0 <= rval y -> rval x <= rval (fadd x y).
Proof.
  intros FX FY F P. rewrite (fadd_val x y FX FY F). rewrite <- (rnd_format (rval x)) at 1 by (apply fdata_format, FX).
  apply rnd_le. lra.
Qed.
Lemma same_sign m d : fdata m -> fdata d -> 0 < rval d -> is_zero d = false -> fdata (fdiv m d) -> fdata (fmul m (fdiv m d)) ->
  0 <= rval (fmul m (fdiv m d)).
Proof.
  intros FM FD P N F1 F2. rewrite (fmul_val _ _ FM F1 F2), (fdiv_val _ _ FM FD N F1). apply rnd_pos.
  assert (0 < / rval d) as I by (apply Rinv_0_lt_compat; exact P).
  destruct (Rle_or_lt 0 (rval m)) as [H|H].
  - apply Rmult_le_pos; [exact H|]. apply rnd_pos. apply Rmult_le_pos; lra.
  - assert (rnd (rval m / rval d) <= 0) as Q.
    { rewrite <- rnd_0. apply rnd_le. unfold Rdiv. assert (0 <= - rval m * / rval d) by (apply Rmult_le_pos; lra). lra. }
    assert (0 <= - rval m * - rnd (rval m / rval d)) by (apply Rmult_le_pos; lra). lra.
Qed.

Section Far.
Variable L : libm.
Variables x y z a f : fl.
Hypothesis K : libm_ok L.
Hypothesis FX : fdata x.
Hypothesis FY : fdata y.
Hypothesis FZ : fdata z.
Hypothesis FA : fdata a.
Hypothesis BA : 6300000 <= rval a <= 6400000.
Hypothesis FF : fdata f.
Hypothesis BF : 290 <= rval f.
Let X := rval x. Let Y := rval y. Let Z0 := rval z.
Let W := sqrt (X * X + Y * Y).
Let Ro := sqrt (X * X + Y * Y + Z0 * Z0).
Hypothesis BR : Ro <= 20000000000.
Let e2 := 1 / rval f * (2 - 1 / rval f).

Lemma fecef_far : fltb (fsq (fr2 x y z)) (f_norm 100000 0) = false ->
  exists lat lon h, fecef2llh L x y z a f = Ok (lat, lon, h) /\ fdata lat /\ fdata lon /\ fdata h /\ -6400000 < rval h /\
    exists t, - PI <= t <= PI /\ X = sqrt (X * X + Y * Y) * cos t /\
    Y = sqrt (X * X + Y * Y) * sin t /\ Rabs (rval lon - t * 180 / PI) <= 1 / 10000000000000.
Proof.
  intros T. destruct (fecef_guess L x y z a f K FX FY FZ FA BA FF BF BR T) as (lat & s & c & ss & th & E & LO & AW & G).
  fold X Y Z0 in LO, AW, G. fold W Ro e2 in LO, AW, G. destruct G as (HT & GL & GS & GC & GSS & GD & _).
  destruct (dist_facts x y z) as (W0 & WW & R0 & RR & WR & ZR & XR & YR).
  fold X Y Z0 in W0, WW, R0, RR, WR, ZR, XR, YR. fold W in W0, WW, WR. fold Ro in R0, RR, WR, ZR, XR, YR.
  set (Zp := Rabs Z0) in *. assert (0 <= Zp) as ZP by apply Rabs_pos.
  assert (approx (fsq (fw2 x y)) W (7 / 10000000000000000 * Ro + 0)) as AW' by (eapply approx_weaken; [exact AW|lra]).
  assert (approx (fabs z) Zp 0) as AZ by (apply approx_abs, approx_exact, FZ).
  pose proof (conj LO BR) as B0. pose proof (conj W0 WR) as WB. pose proof (conj ZP ZR) as ZB.
  assert (0 <= 0 <= 1) as D0 by lra.
  rewrite (tail_run a f _ _ z lat (l_atan2 L y x) s c ss FA BA FF BF W Zp Ro th 0 B0 D0 WB ZB AW' AZ HT GS GC GSS L) in E.
  pose proof (tail_ff a f _ _ s c ss FA BA FF BF W Zp Ro th 0 B0 D0 WB ZB AW' AZ HT GS GC GSS) as QF.
  pose proof (tail_fm a f _ _ s c ss FA BA FF BF W Zp Ro th 0 B0 D0 WB ZB AW' AZ HT GS GC GSS) as QM.
  destruct (tail_fd a f _ _ s c ss FA BA FF BF W Zp Ro th 0 B0 D0 WB ZB AW' AZ HT GS GC GSS) as [QD _].
  destruct (fm_bound a f BA BF W Zp Ro th WB ZB HT) as [FB MB].
  destruct (tail_facts a f BA BF th HT) as (E2 & SB & CB & SC & QB & QQ & _).
  pose proof (datum_a1 a f BA BF) as A1.
  pose proof (tail_d_pos (rval a) _ W Zp (sin th) (cos th) (conj BA E2) SC) as TD.
  fold e2 in QF, QM, QD, FB, MB, E2, QQ, QB, A1, TD.
  set (F1 := ff a f _ _ s c ss) in *. set (M1 := fm a f _ _ s c ss) in *. set (D1 := fd a f _ _ s c ss) in *.
  set (Fr := tail_f (rval a) e2 W Zp (sin th) (cos th)) in *. set (Mr := tail_m (rval a) e2 W Zp (sin th) (cos th)) in *.
  set (Dr := tail_d (rval a) e2 W Zp (sin th) (cos th)) in *.
  set (lo := 449 / 1000 * Ro - 44160). assert (739 <= lo) as LO1 by (unfold lo; lra).
  assert (lo <= Dr) as LD by (unfold lo; lra).
  pose proof (approx_bounds _ _ _ QD) as BD.
  destruct (approx_div_rel M1 D1 Mr Dr (117 / 1000000000000) (135 / 1000000000000) lo 18000 (3 / 1000000)) as [QP NP]; try num.
  - eapply approx_weaken; [exact QM|]. unfold lo. lra.
  - eapply approx_weaken; [exact QD|]. unfold lo. lra.
  - rewrite Rabs_pos_eq; lra.
  - unfold lo. lra.
  - rewrite (fdivide_ok _ _ NP) in E. cbn [bind] in E.
    assert (Rabs (Mr / Dr) <= 18000) as PB.
    { unfold Rdiv. rewrite Rabs_mult, Rabs_inv, (Rabs_pos_eq Dr) by lra. apply div_le; [lra|]. unfold lo in LD. lra. }
    pose proof pi_bounds as PIB. pose proof (Rabs_pos Mr).
    assert (approx (fadd lat (fdiv M1 D1)) (th + Mr / Dr) (4 / 1000000)) as QL.
    { eapply approx_add with (M := 18002); [exact GL|exact QP| |num|num]. eapply Rle_trans; [apply Rabs_triang|]. rewrite (Rabs_pos_eq th); lra. }
    assert (Rabs (th + Mr / Dr) <= 18002) as LB.
    { eapply Rle_trans; [apply Rabs_triang|]. rewrite (Rabs_pos_eq th); lra. }
    assert (approx (fmul M1 (fdiv M1 D1)) (Mr * (Mr / Dr)) 1000000) as QMP.
    { eapply approx_mul with (A := 2 * (Ro + 6430000)) (B := 18000); [exact QM|exact QP|exact MB|exact PB| |]; num. }
    assert (Rabs (Mr * (Mr / Dr)) <= 1000000000000000) as MPB.
    { rewrite Rabs_mult. eapply Rle_trans; [apply Rmult_le_compat; [apply Rabs_pos|apply Rabs_pos|exact MB|exact PB]|]. lra. }
    destruct (approx_div _ _ _ _ _ _ 1000000000000000 2 1000000000000000 1000000 QMP approx_two) as [QH _]; try num.
    { rewrite Rabs_pos_eq; lra. }
    assert (approx (fadd F1 (fdiv (fmul M1 (fdiv M1 D1)) ftwo)) (Fr + Mr * (Mr / Dr) / 2) 10000000) as QHH.
    { eapply approx_add with (M := 1000000000000000000); [exact QF|exact QH| |num|num].
      eapply Rle_trans; [apply Rabs_triang|]. unfold Rdiv at 1. rewrite Rabs_mult, (Rabs_pos_eq (/ 2)) by lra. lra. }
    assert (0 <= rval (fdiv (fmul M1 (fdiv M1 D1)) ftwo)) as HP.
    { rewrite (fdiv_val _ _ (proj1 QMP) (proj1 approx_two) eq_refl (proj1 QH)). apply rnd_pos.
      pose proof (same_sign M1 D1 (proj1 QM) (proj1 QD) ltac:(lra) NP (proj1 QP) (proj1 QMP)).
      pose proof (approx_bounds _ _ _ approx_two). apply Rmult_le_pos; [assumption|]. left. apply Rinv_0_lt_compat. lra. }
    assert (forall b : bool, approx (if b then fopp (fadd lat (fdiv M1 D1)) else fadd lat (fdiv M1 D1)) (if b then - (th + Mr / Dr) else th + Mr / Dr) (4 / 1000000)) as QS.
    { intros [|]; [apply approx_opp|]; exact QL. }
    specialize (QS (fltb z fzero)).
    destruct (lon_result L x y K FX FY) as (t & TB & TX & TY & TL).
    eexists _, _, _. split; [exact E|]. split.
    { eapply (approx_rad2deg _ _ _ 18002); [exact QS| |lra|lra]. destruct (fltb z fzero); [rewrite Rabs_Ropp|]; exact LB. }
    split; [apply TL|]. split; [apply QHH|]. split.
    { eapply Rlt_le_trans; [|apply fadd_ge; [apply QF|apply QH|apply QHH|exact HP]].
      pose proof (approx_bounds _ _ _ QF) as BFF. unfold Fr, tail_f in BFF.
      set (q := sqrt (1 - e2 * (sin th * sin th))) in *.
      assert (rval a * q <= 6400000) by (pose proof (mul_bound (rval a) q 6400000 1 ltac:(lra) ltac:(lra)); lra). lra. }
    exists t. repeat split; try assumption; try lra. apply TL.
Qed.
End Far.
