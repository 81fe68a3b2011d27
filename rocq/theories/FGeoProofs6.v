(* Error analysis of the binary64 geodesy, part 6: ecef2llh up to its last
   correction, and that correction. *)
From Coq Require Import Reals Lia Lra Psatz.
From Flocq Require Import Core BinarySingleNaN.
From Verif Require Import PyFloat FloatProofs PiBounds FloatErr FGeo FGeoSpec GeoSpec Geo GeoProofs EcefProofs EcefAccuracy FGeoProofs FGeoProofs2 FGeoProofs3 FGeoProofs4 FGeoProofs5.
Local Open Scope R_scope.

Lemma approx_3 : approx (f_of_dec false 3 (-1)) (3 / 10) (1 / 10000000000000000).
Proof.
  pose proof (f_of_dec_correct false 3 (-1)) as N. cbn [signR] in N.
  eapply approx_nearest with (d := 0) (M := 3 / 10); [exact N| | | |]; try num.
  - replace (IZR (Z.of_N 3) * pow10 (-1)) with (3 / 10); [rewrite Rminus_diag_eq, Rabs_R0 by reflexivity; lra|].
    unfold pow10. change (powerRZ 10 (-1)) with (/ 10 ^ 1). change (IZR (Z.of_N 3)) with 3. field.
  - rewrite Rabs_pos_eq; lra.
Qed.

Section Guess.
Variable L : libm.
Variables x y z a f : fl.
Hypothesis K : libm_ok L.
Hypothesis FX : fdata x.
Hypothesis FY : fdata y.
Hypothesis FZ : fdata z.
Hypothesis FA : fdata a.
Hypothesis BA : 6300000 <= rval a <= 6400000.
Hypothesis FF : fdata f.
Hypothesis BF : 290 <= rval f.
Let X := rval x. Let Y := rval y. Let Z0 := rval z.
Let W := sqrt (X * X + Y * Y).
Let Ro := sqrt (X * X + Y * Y + Z0 * Z0).
Hypothesis BR : Ro <= 20000000000.
Let e2 := 1 / rval f * (2 - 1 / rval f).

Lemma fecef_near : Ro <= 99999999 / 1000 -> fecef2llh L x y z a f = Ok (fzero, fzero, f_norm (-10000000) 0).
Proof.
  intros B. destruct (dist_w x y z FX FY FZ BR) as (E1 & _). destruct (dist_r_ok x y z FX FY FZ BR) as (E2 & _).
  destruct (ecc_result f FF BF) as (E3 & _).
  pose proof (dist_core x y z FX FY FZ BR B) as E4.
  unfold fecef2llh. rewrite E3. cbn [bind]. cbv zeta.
  fold (fw2 x y). rewrite E1. cbn [bind]. fold (fr2 x y z). rewrite E2. cbn [bind]. rewrite E4. reflexivity.
Qed.

Lemma fecef_guess : fltb (fsq (fr2 x y z)) (f_norm 100000 0) = false ->
  exists lat s c ss th,
    fecef2llh L x y z a f = fecef_tail L a (fe2 f) (fa6 f) (fsq (fw2 x y)) (fabs z) z lat (l_atan2 L y x) s c ss /\
    99999999 / 1000 <= Ro /\ approx (fsq (fw2 x y)) W (7 / 10000000000000000 * Ro) /\
    guessed (rval a) e2 W (Rabs Z0) Ro lat s c ss th.
Proof.
  intros T.
  assert (99999999 / 1000 <= Ro) as LO.
  { destruct (Rle_or_lt (99999999 / 1000) Ro) as [H|H]; [exact H|]. apply Rlt_le in H.
    pose proof (dist_core x y z FX FY FZ BR H). congruence. }
  destruct (dist_facts x y z) as (W0 & WW & R0 & RR & WR & ZR & XR & YR).
  fold X Y Z0 in W0, WW, R0, RR, WR, ZR, XR, YR. fold W in W0, WW, WR. fold Ro in R0, RR, WR, ZR, XR, YR.
  destruct (sq_sums x y z FX FY FZ BR) as (QW & QZ & QR & PW2 & PZ2 & PR2).
  fold X Y Z0 in QW, QZ, QR. fold W in QW. fold Ro in QW, QZ, QR.
  destruct (dist_w x y z FX FY FZ BR) as (E1 & AW & PW). fold X Y Z0 in AW. fold W Ro in AW.
  destruct (dist_r_ok x y z FX FY FZ BR) as (E2 & _).
  pose proof (dist_r x y z FX FY FZ BR ltac:(fold X Y Z0; fold Ro; lra)) as AR. fold X Y Z0 in AR. fold Ro in AR.
  destruct (ecc_result f FF BF) as (E3 & _).
  assert (99999 * 99999 <= Ro * Ro) as RR1 by (apply Rmult_le_compat; lra).
  assert (Z0 * Z0 = Rabs Z0 * Rabs Z0) as ZZ by apply sq_abs.
  assert (approx (fw2 x y) (W * W) (4 / 10000000000000000 * (Ro * Ro))) as AW2 by (eapply approx_weaken; [exact QW|num]).
  assert (approx (fmul z z) (Rabs Z0 * Rabs Z0) (12 / 100000000000000000 * (Ro * Ro))) as AZ2 by (rewrite <- ZZ; eapply approx_weaken; [exact QZ|num]).
  assert (approx (fr2 x y z) (Ro * Ro) (6 / 10000000000000000 * (Ro * Ro))) as AR2 by (eapply approx_weaken; [exact QR|num]).
  assert (approx (fsq (fr2 x y z)) Ro (7 / 10000000000000000 * Ro)) as AR' by (eapply approx_weaken; [exact AR|num]).
  assert (approx (fsq (fw2 x y)) W (7 / 10000000000000000 * Ro)) as AW' by (eapply approx_weaken; [exact AW|num]).
  assert (approx (fabs z) (Rabs Z0) 0) as AZ by (apply approx_abs, approx_exact, FZ).
  assert (W * W + Rabs Z0 * Rabs Z0 = Ro * Ro) as WZ by lra.
  assert (0 <= Rabs Z0) as ZP by apply Rabs_pos.
  pose proof (conj LO BR) as B0.
  destruct (guess_dir a f BA BF W (Rabs Z0) Ro B0 W0 ZP WZ) as (C0 & S0 & SC & EW & EZ & C1 & S1 & _ & _ & EPS).
  fold e2 in EPS.
  destruct (guess_s2 a f BA BF _ _ _ _ _ B0 W0 ZP WZ AZ2 AR2) as [Q1 N1].
  pose proof (guess_c2 a f BA BF _ _ _ _ _ B0 W0 ZP WZ AW2 AR2) as Q2.
  pose proof (guess_r _ _ _ _ _ B0 ZP WZ AR' AZ) as N2.
  pose proof (guess_s1 a f FA BA FF BF _ _ _ _ _ _ _ _ B0 W0 ZP WZ AW2 AZ2 AR2 AR' AZ) as G1.
  pose proof (guess_cos2 a f FA BA FF BF _ _ _ _ _ _ _ _ _ B0 W0 ZP WZ AW2 AZ2 AR2 AR' AW' AZ PW) as G2.
  fold e2 in G1, G2. pose proof (datum_e2 f BF) as E. fold e2 in E.
  pose proof (datum_a1 a f BA BF) as A1. fold e2 in A1.
  set (cp := W / Ro) in *. set (sp := Rabs Z0 / Ro) in *. set (eps := rval a * e2 / Ro) in *.
  assert (6000000 <= Ro -> eps <= 736 / 100000) as E6 by (intros H; unfold eps; apply div_le; lra).
  pose proof (approx_bounds _ _ _ Q2) as B2. pose proof approx_3 as A3. pose proof (approx_bounds _ _ _ A3) as B3.
  assert (fecef2llh L x y z a f =
    if fltb (f_of_dec false 3 (-1)) (fdiv (fw2 x y) (fr2 x y z)) then
      let s := fs1 a f (fabs z) (fw2 x y) (fmul z z) (fr2 x y z) (fsq (fr2 x y z)) in
      let! lat := math1 (l_asin L) s in
      let! c := math_sqrt (fsub fone (fmul s s)) in
      fecef_tail L a (fe2 f) (fa6 f) (fsq (fw2 x y)) (fabs z) z lat (l_atan2 L y x) s c (fmul s s)
    else
      let c := fc2 a f (fsq (fw2 x y)) (fw2 x y) (fmul z z) (fr2 x y z) (fsq (fr2 x y z)) in
      let! lat := math1 (l_acos L) c in
      let! s := math_sqrt (fsub fone (fmul c c)) in
      fecef_tail L a (fe2 f) (fa6 f) (fsq (fw2 x y)) (fabs z) z lat (l_atan2 L y x) s c (fsub fone (fmul c c))) as U.
  { unfold fecef2llh. rewrite E3. cbn [bind]. cbv zeta.
    fold (fe2 f). fold (fa1 a f). fold (fa2 a f). fold (fa3 a f). fold (fa4 a f). fold (fa5 a f). fold (fa6 f).
    fold (fw2 x y). rewrite E1. cbn [bind]. fold (fr2 x y z). rewrite E2. cbn [bind]. rewrite T.
    rewrite !(fdivide_ok _ _ N1), !(fdivide_ok _ _ N2). cbn [bind].
    rewrite !(fdivide_ok _ _ N2). cbn [bind]. reflexivity. }
  destruct (fltb (f_of_dec false 3 (-1)) (fdiv (fw2 x y) (fr2 x y z))) eqn:T2;
    rewrite fltb_correct in T2 by (apply A3 || apply Q2).
  - assert (2999 / 10000 < cp * cp) as CB.
    { revert T2. destruct (Rlt_bool_spec (rval (f_of_dec false 3 (-1))) (rval (fdiv (fw2 x y) (fr2 x y z)))); [intros _; lra|discriminate]. }
    destruct (G1 CB) as [GA GP].
    destruct (branch1 L (rval a) e2 W (Rabs Z0) Ro cp sp eps _ K ltac:(lra) EW EZ (conj S0 S1) (conj C0 C1) SC CB eq_refl EPS E6 E GA GP) as (th & M1 & M2 & G).
    cbv zeta in U. rewrite M1 in U. cbn [bind] in U. rewrite M2 in U. cbn [bind] in U.
    eexists _, _, _, _, th. split; [exact U|]. split; [exact LO|]. split; [exact AW'|exact G].
  - assert (cp * cp <= 3001 / 10000) as CB.
    { revert T2. destruct (Rlt_bool_spec (rval (f_of_dec false 3 (-1))) (rval (fdiv (fw2 x y) (fr2 x y z)))); [discriminate|intros _; lra]. }
    destruct (G2 CB) as [GA GP].
    destruct (branch2 L (rval a) e2 W (Rabs Z0) Ro cp sp eps _ K ltac:(lra) EW EZ (conj S0 S1) (conj C0 C1) SC CB eq_refl EPS E6 E GA GP) as (th & M1 & M2 & G).
    cbv zeta in U. rewrite M1 in U. cbn [bind] in U. rewrite M2 in U. cbn [bind] in U.
    eexists _, _, _, _, th. split; [exact U|]. split; [exact LO|]. split; [exact AW'|exact G].
Qed.
End Guess.
