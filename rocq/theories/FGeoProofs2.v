(* Error analysis of the binary64 geodesy, part 2: planar, area, bearing. *)
From Coq Require Import Reals Lia Lra Psatz.
From Flocq Require Import Core BinarySingleNaN.
From Verif Require Import PyFloat Helpers FloatProofs PiBounds FloatErr FGeo FGeoSpec LibmExact GeoSpec Geo GeoProofs EcefProofs EcefAccuracy FGeoProofs DecimalProofs CoordProofs.
Local Open Scope Z_scope.

(* x % 360 is exact *)
Lemma ffmod360 x : fdata x -> sign_of x = false ->
  fdata (ffmod x f360) /\ sign_of (ffmod x f360) = false
  /\ rval (ffmod x f360) = (rval x - 360 * IZR (Zfloor (rval x / 360)))%R /\ (0 <= rval (ffmod x f360) < 360)%R.
Proof.
  intros D S. assert (exists m', f360 = S754_finite false m' (-44) /\ Z.pos m' = 360 * 2 ^ 44) as (m' & F360 & M') by (eexists; split; vm_compute; reflexivity).
  assert (0 <= rval x - 360 * IZR (Zfloor (rval x / 360)) < 360)%R as B.
  { pose proof (Zfloor_lb (rval x / 360)). pose proof (Zfloor_ub (rval x / 360)). lra. }
  rewrite F360. destruct D as [V F]. destruct x as [s|s| |s m e]; try discriminate; cbn [sign_of] in S; subst s.
  - cbn [ffmod sign_of rval SF2R]. split; [split; reflexivity|]. split; [reflexivity|].
    replace (0 / 360)%R with 0%R by lra. rewrite Zfloor_IZR. lra.
  - cbn [ffmod]. cbv zeta iota. set (ee := Z.min e (-44)). set (a := Z.pos m * 2 ^ (e - ee)). set (b := Z.pos m' * 2 ^ (-44 - ee)).
    destruct (bounded_facts m e V) as (M & E & _).
    assert (0 < 2 ^ (e - ee)) as P1 by (apply Z.pow_pos_nonneg; lia). assert (0 < 2 ^ (-44 - ee)) as P2 by (apply Z.pow_pos_nonneg; lia).
    assert (0 < b) as Bb by (unfold b; lia). pose proof (Z.mod_pos_bound a b Bb) as R.
    assert (rval (S754_finite false m e) = IZR a * bpow radix2 ee)%R as VA.
    { cbn [rval SF2R SpecFloat.cond_Zopp]. unfold a. rewrite mult_IZR, <- (bpow_IZR (e - ee)) by lia. rewrite Rmult_assoc, <- bpow_plus.
      unfold F2R. cbn [Fnum Fexp cond_Zopp]. do 2 f_equal. lia. }
    assert (360 = IZR b * bpow radix2 ee)%R as VB.
    { unfold b. rewrite mult_IZR, <- (bpow_IZR (-44 - ee)) by lia. rewrite Rmult_assoc, <- bpow_plus.
      replace (-44 - ee + ee) with (-44) by lia. rewrite M', mult_IZR, <- (bpow_IZR 44), Rmult_assoc, <- bpow_plus by lia. change (bpow radix2 (44 + -44)) with 1%R. lra. }
    assert (0 < bpow radix2 ee)%R as PE by apply bpow_gt_0.
    assert (0 < IZR b)%R as PB by (apply IZR_lt; exact Bb).
    assert (Zfloor (rval (S754_finite false m e) / 360) = a / b) as FL.
    { rewrite VA, VB. replace (IZR a * bpow radix2 ee / (IZR b * bpow radix2 ee))%R with (IZR a / IZR b)%R by (field; lra).
      apply Zfloor_div. lia. }
    pose proof (normalize_correct (a mod b) ee false) as N.
    assert (F2R (Float radix2 (a mod b) ee) = rval (S754_finite false m e) - 360 * IZR (Zfloor (rval (S754_finite false m e) / 360)))%R as FV.
    { rewrite FL, VA. rewrite VB at 1. unfold F2R. cbn [Fnum Fexp]. rewrite (Z.mod_eq a b) by lia. rewrite minus_IZR, mult_IZR. lra. }
    assert (format64 (F2R (Float radix2 (a mod b) ee))) as FF.
    { apply small_format; [|lia]. rewrite Z.abs_eq by lia. destruct (Z.leb_spec e (-44)) as [L|L].
      - assert (a = Z.pos m) as A by (unfold a, ee; rewrite Z.min_l by lia; rewrite Z.sub_diag, Z.pow_0_r; lia).
        assert (a mod b <= a) by (apply Z.mod_le; lia). lia.
      - assert (b = 360 * 2 ^ 44) as A by (unfold b, ee; rewrite Z.min_r by lia; change (-44 - -44) with 0; rewrite Z.pow_0_r; lia).
        change (2 ^ 53) with (512 * 2 ^ 44). lia. }
    rewrite FV in *. apply nearest_fdata in N.
    + destruct N as (N1 & N2 & N3). rewrite rnd_format in N2 by exact FF. split; [exact N1|]. split.
      * rewrite N3. destruct (a mod b =? 0); [reflexivity|]. apply Z.ltb_ge. lia.
      * rewrite N2. split; [reflexivity|exact B].
    + rewrite rnd_format by exact FF. rewrite Rabs_pos_eq by lra. apply Rlt_trans with 512%R; [lra|]. change 512%R with (bpow radix2 9). apply huge_big. lia.
Qed.
Local Open Scope R_scope.

(* ---------------------------------------------------------------- planar *)
Lemma norm_lip X Y X' Y' ex ey : Rabs (X' - X) <= ex -> Rabs (Y' - Y) <= ey ->
  sqrt (X' * X' + Y' * Y') <= sqrt (X * X + Y * Y) + (ex + ey).
Proof.
  intros HX HY. pose proof (Rabs_pos (X' - X)). pose proof (Rabs_pos (Y' - Y)).
  pose proof (sq_nonneg X). pose proof (sq_nonneg Y).
  set (n := sqrt (X * X + Y * Y)). assert (0 <= n) by apply sqrt_pos.
  assert (n * n = X * X + Y * Y) as NN by (apply sqrt_sqrt; lra).
  assert (Rabs X <= n) as NX. { apply Rabs_le. split; [|apply sq_le; lra]. assert (- X <= n) by (apply sq_le; lra). lra. }
  assert (Rabs Y <= n) as NY. { apply Rabs_le. split; [|apply sq_le; lra]. assert (- Y <= n) by (apply sq_le; lra). lra. }
  apply sqrt_le_of_sq; [lra|].
  assert (forall u v e, Rabs (v - u) <= e -> Rabs u <= n -> 0 <= e -> v * v <= u * u + 2 * n * e + e * e) as P.
  { intros u v e J1 J2 J3. replace (v * v) with (u * u + 2 * (u * (v - u)) + (v - u) * (v - u)) by ring.
    assert (u * (v - u) <= n * e).
    { eapply Rle_trans; [apply Rle_abs|]. rewrite Rabs_mult. apply Rmult_le_compat; try apply Rabs_pos; assumption. }
    assert ((v - u) * (v - u) <= e * e).
    { eapply Rle_trans; [apply Rle_abs|]. rewrite Rabs_mult. apply Rmult_le_compat; try apply Rabs_pos; assumption. }
    lra. }
  pose proof (P X X' ex HX NX ltac:(lra)). pose proof (P Y Y' ey HY NY ltac:(lra)).
  assert (0 <= ex * ey) by (apply Rmult_le_pos; lra). lra.
Qed.
(* the square root of a sum of squares computed in floats *)
Lemma approx_norm x y X Y ex ey N e : approx x X ex -> approx y Y ey -> sqrt (X * X + Y * Y) <= N -> N + (ex + ey) <= 1000000000000 ->
  ex + ey + 3 / 1000000000000000 + (N + (ex + ey)) * (6 * u53) <= e ->
  fdata (fadd (fmul x x) (fmul y y)) /\
  0 <= rval (fadd (fmul x x) (fmul y y)) /\
  approx (SFsqrt fprec femax (fadd (fmul x x) (fmul y y))) (sqrt (X * X + Y * Y)) e.
Proof.
  intros HX HY HN HB HE. pose proof (approx_nonneg _ _ _ HX) as Ex. pose proof (approx_nonneg _ _ _ HY) as Ey.
  pose proof (norm_lip X Y (rval x) (rval y) ex ey (proj2 HX) (proj2 HY)) as L1.
  assert (sqrt (X * X + Y * Y) <= sqrt (rval x * rval x + rval y * rval y) + (ex + ey)) as L2.
  { apply norm_lip; rewrite Rabs_minus_sym; [apply HX|apply HY]. }
  set (n := sqrt (X * X + Y * Y)) in *. set (n' := sqrt (rval x * rval x + rval y * rval y)) in *.
  assert (0 <= n') as N0 by apply sqrt_pos.
  pose proof (sq_nonneg (rval x)) as Sx. pose proof (sq_nonneg (rval y)) as Sy.
  assert (n' * n' = rval x * rval x + rval y * rval y) as NN by (apply sqrt_sqrt; lra).
  assert (n' <= 1000000000000) as NB by lra.
  assert (n' * n' <= 1000000000000 * 1000000000000) as NB2 by (apply Rmult_le_compat; lra).
  assert (approx (fmul x x) (rval x * rval x) (rval x * rval x * u53 + tiny)) as QX.
  { eapply approx_nearest with (d := 0) (M := rval x * rval x); [apply fmul_correct; apply HX| | | |]; try num.
    - rewrite Rminus_diag_eq, Rabs_R0 by reflexivity. lra.
    - rewrite Rabs_pos_eq; lra. }
  assert (approx (fmul y y) (rval y * rval y) (rval y * rval y * u53 + tiny)) as QY.
  { eapply approx_nearest with (d := 0) (M := rval y * rval y); [apply fmul_correct; apply HY| | | |]; try num.
    - rewrite Rminus_diag_eq, Rabs_R0 by reflexivity. lra.
    - rewrite Rabs_pos_eq; lra. }
  assert (approx (fadd (fmul x x) (fmul y y)) (rval x * rval x + rval y * rval y) (n' * n' * (3 * u53) + 4 * tiny)) as Q.
  { eapply approx_add with (M := n' * n'); [exact QX|exact QY| | |]; try num.
    rewrite NN, Rabs_pos_eq; lra. }
  assert (0 <= rval (fadd (fmul x x) (fmul y y))) as P.
  { rewrite fadd_val by (apply QX || apply QY || apply Q). apply rnd_pos.
    rewrite (fmul_val x x) by (apply HX || apply QX). rewrite (fmul_val y y) by (apply HY || apply QY).
    pose proof (rnd_pos _ Sx). pose proof (rnd_pos _ Sy). lra. }
  split; [apply Q|]. split; [exact P|].
  pose proof (approx_bounds _ _ _ Q) as B. rewrite <- NN in B.
  set (s := rval (fadd (fmul x x) (fmul y y))) in *.
  destruct (fsqrt_correct _ (proj1 Q) P) as [FS VS]. split; [exact FS|]. rewrite VS. fold s.
  pose proof (sqrt_pos s) as S0. pose proof (sqrt_sqrt s P) as SS.
  set (q := 2 / 1000000000000000). assert (q * q = 4 * tiny) as QQ by (unfold q; num).
  assert (sqrt s <= n' * (1 + 3 * u53) + q) as U1.
  { apply sqrt_le_of_sq; [unfold q; num|]. assert (0 <= n' * u53 * q) by (apply Rmult_le_pos; [apply Rmult_le_pos|]; unfold q; num).
    assert (0 <= n' * q) by (apply Rmult_le_pos; unfold q; lra). assert (0 <= n' * n') by apply sq_nonneg.
    assert (0 <= n' * n' * (u53 * u53)) by (apply Rmult_le_pos; [assumption|num]).
    assert (0 <= n' * n' * u53) by (apply Rmult_le_pos; [assumption|num]). lra. }
  assert (n' * (1 - 3 * u53) <= sqrt s + q) as U2.
  { apply sq_le; [unfold q; lra|]. assert (0 <= sqrt s * q) by (apply Rmult_le_pos; [exact S0|unfold q; lra]).
    assert (0 <= n' * n') by apply sq_nonneg.
    replace ((sqrt s + q) * (sqrt s + q)) with (sqrt s * sqrt s + 2 * (sqrt s * q) + q * q) by ring. rewrite SS, QQ.
    assert (n' * n' * ((1 - 3 * u53) * (1 - 3 * u53)) <= n' * n' * (1 - 3 * u53)) by (apply Rmult_le_compat_l; [assumption|num]).
    lra. }
  pose proof (rnd_rel (sqrt s)) as RR. rewrite (Rabs_pos_eq (sqrt s)) in RR by exact S0. apply Rabs_le_inv in RR.
  assert (0 <= n' * u53) by (apply Rmult_le_pos; num).
  assert (n' * u53 <= (N + (ex + ey)) * u53) by (apply Rmult_le_compat_r; num).
  apply Rabs_le. unfold q in *. split; num.
Qed.

Lemma planar_result L lat1 lon1 lat2 lon2 radius : libm_ok L ->
  latitude lat1 -> longitude lon1 -> latitude lat2 -> longitude lon2 -> sphere_radius radius ->
  let n := sqrt (radians (rval lat2 - rval lat1) * radians (rval lat2 - rval lat1)
                 + (cos (radians (rval lat1)) * radians (rval lon2 - rval lon1)) * (cos (radians (rval lat1)) * radians (rval lon2 - rval lon1))) in
  exists d, fplanar L lat1 lon1 lat2 lon2 radius = Ok d /\ fdata d /\ 0 <= rval d /\
    Rabs (rval d - rval radius * n) <= rval radius * (2 / 100000000000000).
Proof.
  intros K P1 M1 P2 M2 R n. pose proof pi_bounds as PB.
  pose proof (lat_rad lat1 P1) as A1. pose proof (lon_rad lon1 M1) as B1.
  pose proof (lat_rad lat2 P2) as A2. pose proof (lon_rad lon2 M2) as B2.
  pose proof (radians_bound _ 90 (proj2 P1)) as RA1. pose proof (radians_bound _ 180 (proj2 M1)) as RB1.
  pose proof (radians_bound _ 90 (proj2 P2)) as RA2. pose proof (radians_bound _ 180 (proj2 M2)) as RB2.
  unfold n. rewrite !radians_sub.
  set (p1 := radians (rval lat1)) in *. set (p2 := radians (rval lat2)) in *.
  set (l1 := radians (rval lon1)) in *. set (l2 := radians (rval lon2)) in *.
  assert (Rabs (p2 - p1) <= 3141593 / 1000000) as BD by (eapply abs_sub_le; [exact RA2|exact RA1|lra]).
  assert (Rabs (l2 - l1) <= 6283186 / 1000000) as BL by (eapply abs_sub_le; [exact RB2|exact RB1|lra]).
  assert (approx (fsub (deg2rad lat2) (deg2rad lat1)) (p2 - p1) (122 / 100000000000000000)) as D.
  { eapply approx_sub with (M := 3141593 / 1000000); [exact A2|exact A1|exact BD| |]; num. }
  assert (approx (fsub (deg2rad lon2) (deg2rad lon1)) (l2 - l1) (241 / 100000000000000000)) as DL.
  { eapply approx_sub with (M := 6283186 / 1000000); [exact B2|exact B1|exact BL| |]; num. }
  destruct (approx_cos L _ _ _ (66 / 100000000000000000) K A1) as [C1 C1o]; [unfold eps1; lra|].
  assert (approx (fmul (fsub (deg2rad lon2) (deg2rad lon1)) (l_cos L (deg2rad lat1))) ((l2 - l1) * cos p1) (730 / 100000000000000000)) as X.
  { eapply approx_mul with (A := 6283186 / 1000000) (B := 1); [exact DL|exact C1|exact BL|apply cos_abs| |]; num. }
  set (dl := fmul (fsub (deg2rad lon2) (deg2rad lon1)) (l_cos L (deg2rad lat1))) in *. set (dp := fsub (deg2rad lat2) (deg2rad lat1)) in *.
  assert (sqrt ((l2 - l1) * cos p1 * ((l2 - l1) * cos p1) + (p2 - p1) * (p2 - p1)) <= 8) as NB.
  { apply sqrt_le_of_sq; [lra|].
    assert ((p2 - p1) * (p2 - p1) <= 10) by (apply Rabs_le_inv in BD; nra).
    assert (((l2 - l1) * cos p1) * ((l2 - l1) * cos p1) <= 6283186 / 1000000 * (6283186 / 1000000)).
    { eapply Rle_trans; [apply Rle_abs|]. rewrite Rabs_mult. assert (Rabs ((l2 - l1) * cos p1) <= 6283186 / 1000000).
      - rewrite Rabs_mult. pose proof (cos_abs p1). pose proof (Rabs_pos (l2 - l1)). pose proof (Rabs_pos (cos p1)). nra.
      - apply Rmult_le_compat; try apply Rabs_pos; assumption. }
    lra. }
  destruct (approx_norm dl dp _ _ _ _ 8 (187 / 10000000000000000) X D NB) as (FS & PS & Q); try num.
  unfold fplanar. rewrite C1o. cbn [bind]. fold dl dp. rewrite math_sqrt_ok by assumption. cbn [bind].
  replace (sqrt ((p2 - p1) * (p2 - p1) + cos p1 * (l2 - l1) * (cos p1 * (l2 - l1))))
    with (sqrt ((l2 - l1) * cos p1 * ((l2 - l1) * cos p1) + (p2 - p1) * (p2 - p1))) by (f_equal; ring).
  destruct R as [FR R]. eexists. split; [reflexivity|].
  assert (approx (fmul radius (SFsqrt fprec femax (fadd (fmul dl dl) (fmul dp dp))))
     (rval radius * sqrt ((l2 - l1) * cos p1 * ((l2 - l1) * cos p1) + (p2 - p1) * (p2 - p1))) (rval radius * (2 / 100000000000000))) as Z1.
  { eapply approx_mul with (A := rval radius) (B := 8); [apply approx_exact, FR|exact Q| | | |]; try num.
    - rewrite Rabs_pos_eq; lra.
    - rewrite Rabs_pos_eq; [exact NB|apply sqrt_pos]. }
  split; [apply Z1|]. split; [|apply Z1].
  rewrite fmul_val by (exact FR || apply Q || apply Z1). apply rnd_pos, Rmult_le_pos; [lra|].
  destruct (fsqrt_correct _ FS PS) as [_ ->]. apply rnd_pos, sqrt_pos.
Qed.

(* ------------------------------------------------------------------ area *)
Lemma fdiv_val x y : fdata x -> fdata y -> is_zero y = false -> fdata (fdiv x y) -> rval (fdiv x y) = rnd (rval x / rval y).
Proof. intros [Vx Fx] [Vy Fy] Z0 F. eapply nearest_val; [apply fdiv_correct; assumption|exact F]. Qed.
Lemma square_ok L x : libm_ok L -> fdata x -> Rabs (rval x) <= 10 ^ 15 ->
  square L x = Ok (l_pow L x (f_norm 2 0)) /\ faithful (l_pow L x (f_norm 2 0)) (rval x * rval x).
Proof.
  intros K F B. pose proof (pow_ok L K x F B) as Q. split; [|exact Q].
  unfold square. destruct Q as [[_ Q] _]. destruct (l_pow L x (f_norm 2 0)); try discriminate; reflexivity.
Qed.
Lemma area_result L lat1 lon1 lat2 lon2 radius : libm_ok L ->
  latitude lat1 -> longitude lon1 -> latitude lat2 -> longitude lon2 -> sphere_radius radius ->
  exists d, farea L lat1 lon1 lat2 lon2 radius = Ok d /\ fdata d /\ 0 <= rval d /\
    Rabs (rval d - area (rval lat1) (rval lon1) (rval lat2) (rval lon2) (rval radius))
      <= rval radius * rval radius * (3 / 100000000000000).
Proof.
  intros K P1 M1 P2 M2 [FR R]. pose proof pi_bounds as PB.
  pose proof (lat_rad lat1 P1) as A1. pose proof (lat_rad lat2 P2) as A2.
  destruct (square_ok L radius K FR) as [SQ SF]; [rewrite Rabs_pos_eq; lra|].
  set (q := rval radius * rval radius) in *.
  assert (/ 1000000000000 <= q <= 1000000000000000000000000) as QB by (unfold q; split; nra).
  destruct (approx_sin L _ _ _ (66 / 100000000000000000) K A1) as [S1 S1o]; [unfold eps1; lra|].
  destruct (approx_sin L _ _ _ (66 / 100000000000000000) K A2) as [S2 S2o]; [unfold eps1; lra|].
  unfold farea. rewrite SQ, S1o, S2o. cbn [bind]. eexists. split; [reflexivity|].
  set (r2 := l_pow L radius (f_norm 2 0)) in *. set (s1 := l_sin L (deg2rad lat1)) in *. set (s2 := l_sin L (deg2rad lat2)) in *.
  assert (approx r2 q (q * (23 / 100000000000000000))) as X1.
  { eapply (faithful_approx _ _ q); [exact SF|rewrite Rabs_pos_eq; lra|num]. }
  assert (approx (fmul r2 py_pi) (q * PI) (q * (12 / 10000000000000000))) as X2.
  { eapply approx_mul with (A := q) (B := 315 / 100); [exact X1|apply approx_pi| | | |]; try num; rewrite Rabs_pos_eq; lra. }
  set (v1 := sin (radians (rval lat1))) in *. set (v2 := sin (radians (rval lat2))) in *.
  assert (Rabs (v1 - v2) <= 2) as VB by (eapply abs_sub_le; [apply sin_abs1|apply sin_abs1|lra]).
  assert (approx (fabs (fsub s1 s2)) (Rabs (v1 - v2)) (155 / 100000000000000000)) as X3.
  { apply approx_abs. eapply approx_sub with (M := 2); [exact S1|exact S2|exact VB| |]; num. }
  assert (approx (fmul (fmul r2 py_pi) (fabs (fsub s1 s2))) (q * PI * Rabs (v1 - v2)) (q * (82 / 10000000000000000))) as X4.
  { eapply approx_mul with (A := q * (315 / 100)) (B := 2); [exact X2|exact X3| | | |]; try num.
    - rewrite Rabs_pos_eq; [apply Rmult_le_compat_l; lra|apply Rmult_le_pos; lra].
    - rewrite Rabs_Rabsolu. exact VB. }
  assert (approx (fabs (fsub lon1 lon2)) (Rabs (rval lon1 - rval lon2)) (41 / 1000000000000000)) as X5.
  { apply approx_abs. destruct M1 as [F1 B1], M2 as [F2 B2].
    eapply approx_sub with (M := 360); [apply approx_exact, F1|apply approx_exact, F2| | |]; try num. apply Rabs_le; lra. }
  assert (Rabs (rval lon1 - rval lon2) <= 360) as LB by (destruct M1 as [_ B1], M2 as [_ B2]; apply Rabs_le; lra).
  assert (approx (fmul (fmul (fmul r2 py_pi) (fabs (fsub s1 s2))) (fabs (fsub lon1 lon2)))
            (q * PI * Rabs (v1 - v2) * Rabs (rval lon1 - rval lon2)) (q * (35 / 10000000000000))) as X6.
  { eapply approx_mul with (A := q * (63 / 10)) (B := 360); [exact X4|exact X5| | | |]; try num.
    - pose proof (Rabs_pos (v1 - v2)). rewrite Rabs_pos_eq.
      + rewrite Rmult_assoc. apply Rmult_le_compat_l; [lra|]. apply Rle_trans with (PI * 2); [apply Rmult_le_compat_l; lra|lra].
      + apply Rmult_le_pos; [apply Rmult_le_pos; lra|assumption].
    - rewrite Rabs_Rabsolu. exact LB. }
  assert (approx (fdiv (fmul (fmul (fmul r2 py_pi) (fabs (fsub s1 s2))) (fabs (fsub lon1 lon2))) f180)
            (q * PI * Rabs (v1 - v2) * Rabs (rval lon1 - rval lon2) / 180) (q * (3 / 100000000000000))) as X7.
  { apply (approx_div _ _ _ _ _ _ (q * 2268) 180 (q * (126 / 10)) _ X6 approx_180); try num.
    - pose proof (Rabs_pos (v1 - v2)). pose proof (Rabs_pos (rval lon1 - rval lon2)).
      assert (0 <= q * PI * Rabs (v1 - v2)) by (apply Rmult_le_pos; [apply Rmult_le_pos; lra|assumption]).
      rewrite Rabs_pos_eq; [|apply Rmult_le_pos; assumption].
      apply Rle_trans with (q * PI * Rabs (v1 - v2) * 360); [apply Rmult_le_compat_l; lra|].
      assert (q * PI * Rabs (v1 - v2) <= q * (63 / 10)); [|lra].
      rewrite Rmult_assoc. apply Rmult_le_compat_l; [lra|]. apply Rle_trans with (PI * 2); [apply Rmult_le_compat_l; lra|lra].
    - rewrite Rabs_pos_eq; lra. }
  split; [apply X7|]. split.
  - rewrite fdiv_val by (apply X6 || apply X7 || apply approx_180 || reflexivity). apply rnd_pos. rewrite rval_180.
    apply Rmult_le_pos; [|lra]. rewrite fmul_val by (apply X4 || apply X5 || apply X6). apply rnd_pos, Rmult_le_pos.
    + rewrite fmul_val by (apply X2 || apply X3 || apply X4). apply rnd_pos, Rmult_le_pos.
      * rewrite fmul_val by (apply X1 || apply py_pi_data || apply X2). apply rnd_pos, Rmult_le_pos.
        -- apply (faithful_pos _ _ SF). lra.
        -- rewrite py_pi_val. lra.
      * destruct (fabs_correct (fsub s1 s2)) as (_ & -> & _); [|apply Rabs_pos].
        eapply (approx_sub s1 s2 v1 v2 _ _ 2 1); [exact S1|exact S2|exact VB| |]; num.
    + destruct (fabs_correct (fsub lon1 lon2)) as (_ & -> & _); [|apply Rabs_pos].
      destruct M1 as [F1 B1], M2 as [F2 B2]. 
      eapply (approx_sub lon1 lon2 _ _ 0 0 360 1); [apply approx_exact, F1|apply approx_exact, F2|exact LB| |]; num.
  - unfold area. rewrite !to_rad_radians. fold v1 v2. replace (rval radius ^ 2) with q by (unfold q; ring). apply X7.
Qed.

(* --------------------------------------------------------------- bearing *)
Lemma pos_sign x : fdata x -> 0 < rval x -> sign_of x = false.
Proof.
  intros [_ F] H. destruct x as [s|s| |s m e]; try discriminate; [cbn in H; lra|].
  destruct s; [|reflexivity]. exfalso.
  assert (rval (S754_finite true m e) < 0) by (apply (F2R_lt_0 radix2 (Float radix2 (Z.neg m) e)); reflexivity). lra.
Qed.
Lemma frem360 x : fdata x -> 0 < rval x -> fdata (frem x f360) /\
  exists j : Z, rval (frem x f360) = rval x - 360 * IZR j /\ 0 <= rval (frem x f360) < 360.
Proof.
  intros F H. destruct (ffmod360 x F (pos_sign x F H)) as (FM & SM & VM & BM).
  unfold frem, fdivmod. cbv zeta.
  replace (fltb f360 fzero) with false by reflexivity.
  assert (fltb (ffmod x f360) fzero = false) as LT.
  { rewrite fltb_correct by (exact FM || (split; reflexivity)). apply Rlt_bool_false. change (rval fzero) with 0. lra. }
  rewrite LT. cbn [Bool.eqb].
  destruct (is_zero (ffmod x f360)) eqn:Z0; cbn [fst snd].
  - destruct (is_zero (fdiv (fsub x (ffmod x f360)) f360)); cbn [snd]; (split; [split; reflexivity|]);
      exists (Zfloor (rval x / 360)); rewrite <- VM, (zero_val _ Z0); change (rval (copysign0 f360)) with 0; lra.
  - destruct (is_zero (fdiv (fsub x (ffmod x f360)) f360)); cbn [snd]; (split; [exact FM|]);
      exists (Zfloor (rval x / 360)); (split; [exact VM|exact BM]).
Qed.
(* an angle whose sine is small compared with its positive cosine *)
Lemma small_angle w eta rho' : 0 < rho' * cos w -> rho' * Rabs (sin w) <= eta -> 0 <= rho' ->
  exists k : Z, rho' * Rabs (w - 2 * PI * IZR k) <= 18 / 10 * eta.
Proof.
  intros C S1 R0. pose proof pi_bounds as PB.
  set (k := Zfloor ((w + PI) / (2 * PI))). exists k. set (w0 := w - 2 * PI * IZR k).
  assert (- PI <= w0 < PI) as B.
  { unfold w0. pose proof (Zfloor_lb ((w + PI) / (2 * PI))) as L1. pose proof (Zfloor_ub ((w + PI) / (2 * PI))) as L2. fold k in L1, L2.
    assert (IZR k * (2 * PI) <= w + PI).
    { replace (w + PI) with ((w + PI) / (2 * PI) * (2 * PI)) by (field; lra). apply Rmult_le_compat_r; lra. }
    assert (w + PI < (IZR k + 1) * (2 * PI)).
    { replace (w + PI) with ((w + PI) / (2 * PI) * (2 * PI)) by (field; lra). apply Rmult_lt_compat_r; lra. }
    lra. }
  assert (cos w0 = cos w) as CW by apply cos_turns. assert (sin w0 = sin w) as SW by apply sin_turns.
  assert (0 < rho') as RP.
  { destruct R0 as [?|E]; [assumption|]. rewrite <- E, Rmult_0_l in C. lra. }
  assert (0 < cos w0) as CP.
  { rewrite CW. apply Rmult_lt_reg_l with rho'; [exact RP|]. lra. }
  assert (Rabs w0 <= PI / 2) as BW.
  { apply Rnot_lt_le. intros G. assert (cos (Rabs w0) = cos w0) as E by (unfold Rabs; destruct (Rcase_abs w0); [apply cos_neg|reflexivity]).
    assert (Rabs w0 <= PI) by (apply Rabs_le; lra).
    pose proof (cos_le_0 (Rabs w0)) as L. rewrite E in L. lra. }
  assert (Rabs (sin w0) = sin (Rabs w0)) as SE.
  { unfold Rabs at 2. destruct (Rcase_abs w0) as [N|N].
    - rewrite sin_neg. apply Rabs_left1. assert (0 <= sin (- w0)) by (apply sin_ge_0; lra). rewrite sin_neg in H. lra.
    - apply Rabs_pos_eq. apply sin_ge_0; lra. }
  rewrite <- SW, SE in S1. pose proof (Rabs_pos w0) as P0.
  pose proof (sin_low (Rabs w0) ltac:(lra)) as L.
  set (a := Rabs w0) in *.
  assert (a * (10 / 18) <= sin a) as J.
  { assert (a * a <= 158 / 100 * (158 / 100)) by (apply Rmult_le_compat; lra).
    assert (a * (a * a) <= a * (158 / 100 * (158 / 100))) by (apply Rmult_le_compat_l; lra). lra. }
  assert (rho' * (a * (10 / 18)) <= rho' * sin a) by (apply Rmult_le_compat_l; lra). lra.
Qed.
Lemma direction_error x y x' y' ex ey rho b t rho' : Rabs (x' - x) <= ex -> Rabs (y' - y) <= ey ->
  x = rho * cos b -> y = rho * sin b -> x' = rho' * cos t -> y' = rho' * sin t -> 0 <= rho' -> ex + ey < rho ->
  exists k : Z, Rabs (t - b - 2 * PI * IZR k) <= 18 / 10 * ((ex + ey) / (rho - (ex + ey))).
Proof.
  intros HX HY X Y X' Y' R0 E. set (w := t - b). pose proof (sc1 b) as B1.
  assert (rho' * sin w = cos b * (y' - y) - sin b * (x' - x)) as S1.
  { unfold w. rewrite sin_minus, X', Y', X, Y. ring. }
  assert (rho' * cos w = rho + (cos b * (x' - x) + sin b * (y' - y))) as C1.
  { unfold w. rewrite cos_minus, X', Y', X, Y. replace rho with (rho * (sin b * sin b + cos b * cos b)) at 1 by (rewrite B1; ring). ring. }
  assert (forall c v e, Rabs c <= 1 -> Rabs v <= e -> Rabs (c * v) <= e) as P.
  { intros c v e Hc Hv. rewrite Rabs_mult. replace e with (1 * e) by ring. apply Rmult_le_compat; try apply Rabs_pos; assumption. }
  pose proof (P (cos b) (y' - y) ey (cos_abs b) HY) as Q1. pose proof (P (sin b) (x' - x) ex (sin_abs1 b) HX) as Q2.
  pose proof (P (cos b) (x' - x) ex (cos_abs b) HX) as Q3. pose proof (P (sin b) (y' - y) ey (sin_abs1 b) HY) as Q4.
  apply Rabs_le_inv in Q1, Q2, Q3, Q4.
  assert (rho' * Rabs (sin w) <= ex + ey) as S2.
  { rewrite <- (Rabs_pos_eq rho') at 1 by exact R0. rewrite <- Rabs_mult, S1. apply Rabs_le. lra. }
  assert (rho - (ex + ey) <= rho' * cos w) as C2 by lra.
  destruct (small_angle w (ex + ey) rho') as [k Hk]; try assumption; [lra|].
  exists k. pose proof (COS_bound w) as [_ CB]. pose proof (Rabs_pos (w - 2 * PI * IZR k)) as P0.
  assert (rho - (ex + ey) <= rho') as RL by (assert (rho' * cos w <= rho' * 1) by (apply Rmult_le_compat_l; lra); lra).
  apply Rmult_le_reg_l with (rho - (ex + ey)); [lra|].
  replace ((rho - (ex + ey)) * (18 / 10 * ((ex + ey) / (rho - (ex + ey))))) with (18 / 10 * (ex + ey)) by (field; lra).
  eapply Rle_trans; [|exact Hk]. apply Rmult_le_compat_r; assumption.
Qed.
Lemma bearing_result L lat1 lon1 lat2 lon2 : libm_ok L ->
  latitude lat1 -> longitude lon1 -> latitude lat2 -> longitude lon2 ->
  exists d, fbearing L lat1 lon1 lat2 lon2 = Ok d /\ fdata d /\ 0 <= rval d < 360 /\
    forall b rho, 1 / 1000000000000 <= rho ->
      dot (sphere_point (rval lat2) (rval lon2)) (east (rval lat1) (rval lon1)) = rho * sin (radians b) ->
      dot (sphere_point (rval lat2) (rval lon2)) (north (rval lat1) (rval lon1)) = rho * cos (radians b) ->
      exists k : Z, Rabs (rval d - b - 360 * IZR k) <= 1 / 1000000000000 / rho + 2 / 10000000000000.
Proof.
  intros K P1 M1 P2 M2. pose proof pi_bounds as PB.
  pose proof (lat_rad lat1 P1) as A1. pose proof (lon_rad lon1 M1) as B1.
  pose proof (lat_rad lat2 P2) as A2. pose proof (lon_rad lon2 M2) as B2.
  pose proof (radians_bound _ 180 (proj2 M1)) as RB1. pose proof (radians_bound _ 180 (proj2 M2)) as RB2.
  unfold dot, sphere_point, east, north.
  set (p1 := radians (rval lat1)) in *. set (p2 := radians (rval lat2)) in *.
  set (l1 := radians (rval lon1)) in *. set (l2 := radians (rval lon2)) in *.
  assert (Rabs (l2 - l1) <= 6283186 / 1000000) as BL by (eapply abs_sub_le; [exact RB2|exact RB1|lra]).
  assert (approx (fsub (deg2rad lon2) (deg2rad lon1)) (l2 - l1) (241 / 100000000000000000)) as DL.
  { eapply approx_sub with (M := 6283186 / 1000000); [exact B2|exact B1|exact BL| |]; num. }
  destruct (approx_sin L _ _ _ (264 / 100000000000000000) K DL) as [SL SLo]; [unfold eps1; lra|].
  destruct (approx_cos L _ _ _ (264 / 100000000000000000) K DL) as [CL CLo]; [unfold eps1; lra|].
  destruct (approx_cos L _ _ _ (66 / 100000000000000000) K A1) as [C1 C1o]; [unfold eps1; lra|].
  destruct (approx_cos L _ _ _ (66 / 100000000000000000) K A2) as [C2 C2o]; [unfold eps1; lra|].
  destruct (approx_sin L _ _ _ (66 / 100000000000000000) K A1) as [S1 S1o]; [unfold eps1; lra|].
  destruct (approx_sin L _ _ _ (66 / 100000000000000000) K A2) as [S2 S2o]; [unfold eps1; lra|].
  unfold fbearing. cbv zeta. rewrite SLo, C2o. cbn [bind]. rewrite C1o. cbn [bind]. rewrite S2o. cbn [bind]. rewrite S1o. cbn [bind].
  rewrite CLo. cbn [bind].
  set (sl := l_sin L (fsub (deg2rad lon2) (deg2rad lon1))) in *. set (cl := l_cos L (fsub (deg2rad lon2) (deg2rad lon1))) in *.
  set (c1 := l_cos L (deg2rad lat1)) in *. set (c2 := l_cos L (deg2rad lat2)) in *.
  set (s1 := l_sin L (deg2rad lat1)) in *. set (s2 := l_sin L (deg2rad lat2)) in *.
  assert (approx (fmul sl c2) (sin (l2 - l1) * cos p2) (342 / 100000000000000000)) as Y.
  { eapply approx_mul with (A := 1) (B := 1); [exact SL|exact C2|apply sin_abs1|apply cos_abs| |]; num. }
  assert (approx (fmul c1 s2) (cos p1 * sin p2) (145 / 100000000000000000)) as X1.
  { eapply approx_mul with (A := 1) (B := 1); [exact C1|exact S2|apply cos_abs|apply sin_abs1| |]; num. }
  assert (approx (fmul s1 c2) (sin p1 * cos p2) (145 / 100000000000000000)) as X2.
  { eapply approx_mul with (A := 1) (B := 1); [exact S1|exact C2|apply sin_abs1|apply cos_abs| |]; num. }
  assert (forall u v, Rabs u <= 1 -> Rabs v <= 1 -> Rabs (u * v) <= 1) as M.
  { intros u v Hu Hv. rewrite Rabs_mult. replace 1 with (1 * 1) by ring. apply Rmult_le_compat; try apply Rabs_pos; assumption. }
  assert (approx (fmul (fmul s1 c2) cl) (sin p1 * cos p2 * cos (l2 - l1)) (422 / 100000000000000000)) as X3.
  { eapply approx_mul with (A := 1) (B := 1); [exact X2|exact CL|apply M; [apply sin_abs1|apply cos_abs]|apply cos_abs| |]; num. }
  assert (approx (fsub (fmul c1 s2) (fmul (fmul s1 c2) cl)) (cos p1 * sin p2 - sin p1 * cos p2 * cos (l2 - l1)) (590 / 100000000000000000)) as X.
  { eapply approx_sub with (M := 2); [exact X1|exact X3| | |]; try num.
    eapply abs_sub_le; [apply M; [apply cos_abs|apply sin_abs1]|apply M; [apply M; [apply sin_abs1|apply cos_abs]|apply cos_abs]|lra]. }
  set (y := fmul sl c2) in *. set (x := fsub (fmul c1 s2) (fmul (fmul s1 c2) cl)) in *.
  destruct (atan2_ok L K y x (proj1 Y) (proj1 X)) as (t & T & TX & TY & TF).
  assert (Rabs t <= PI) as TB by (apply Rabs_le; lra).
  assert (approx (l_atan2 L y x) t (7 / 10000000000000000)) as TA.
  { eapply (faithful_approx _ _ PI); [exact TF|exact TB|num]. }
  set (th := l_atan2 L y x) in *.
  assert (approx (fmul th f180) (t * 180) (2 / 10000000000000)) as W1.
  { eapply approx_mul with (A := 315 / 100) (B := 180); [exact TA|apply approx_180|lra| | |]; try num. rewrite Rabs_pos_eq; lra. }
  assert (approx (rad2deg th) (t * 180 / PI) (1 / 10000000000000)) as W2.
  { unfold rad2deg. apply (approx_div _ _ _ _ _ _ 566 (314 / 100) 181 _ W1 approx_pi); try num.
    - rewrite Rabs_mult, (Rabs_pos_eq 180); lra.
    - rewrite Rabs_pos_eq; lra. }
  assert (Rabs (t * 180 / PI) <= 180) as WB.
  { apply Rabs_le. split; apply (Rmult_le_reg_r PI); try lra; unfold Rdiv; rewrite Rmult_assoc, Rinv_l by lra; lra. }
  assert (approx (fadd (rad2deg th) f360) (t * 180 / PI + 360) (16 / 100000000000000)) as W3.
  { eapply approx_add with (M := 540); [exact W2|apply approx_360| | |]; try num. apply Rabs_le_inv in WB. apply Rabs_le; lra. }
  assert (0 < rval (fadd (rad2deg th) f360)) as POS.
  { pose proof (approx_bounds _ _ _ W3). apply Rabs_le_inv in WB. lra. }
  destruct (frem360 _ (proj1 W3) POS) as (FD & j & VD & BD).
  eexists. split; [reflexivity|]. split; [exact FD|]. split; [exact BD|].
  intros b rho RH HY HX.
  destruct (direction_error (cos p1 * sin p2 - sin p1 * cos p2 * cos (l2 - l1)) (sin (l2 - l1) * cos p2) (rval x) (rval y)
     (590 / 100000000000000000) (342 / 100000000000000000) rho (radians b) t (sqrt (rval x * rval x + rval y * rval y))) as [k Hk];
    try assumption; try apply X; try apply Y; try apply sqrt_pos.
  - rewrite <- HX, cos_minus. ring.
  - rewrite <- HY, sin_minus. ring.
  - lra.
  - exists (k + 1 - j)%Z. rewrite VD, minus_IZR, plus_IZR.
    replace (rval (fadd (rad2deg th) f360) - 360 * IZR j - b - 360 * (IZR k + 1 - IZR j)) with
      ((rval (fadd (rad2deg th) f360) - (t * 180 / PI + 360)) + (t - radians b - 2 * PI * IZR k) * (180 / PI))
      by (unfold radians; field; lra).
    eapply Rle_trans; [apply Rabs_triang|]. destruct W3 as [_ W3].
    assert (Rabs ((t - radians b - 2 * PI * IZR k) * (180 / PI)) <= 1 / 1000000000000 / rho); [|lra].
    assert (0 <= 180 / PI <= 573 / 10) as Q.
    { split; [apply Rmult_le_pos; [lra|apply Rlt_le, Rinv_0_lt_compat; lra]|].
      apply (Rmult_le_reg_r PI); [lra|]. unfold Rdiv at 1. rewrite Rmult_assoc, Rinv_l by lra. lra. }
    rewrite Rabs_mult, (Rabs_pos_eq (180 / PI)) by lra.
    set (g := 590 / 100000000000000000 + 342 / 100000000000000000) in *.
    assert (18 / 10 * (g / (rho - g)) <= 17 / 1000000000000000 / rho).
    { apply (Rmult_le_reg_r (rho * (rho - g))); [apply Rmult_lt_0_compat; unfold g; lra|].
      replace (18 / 10 * (g / (rho - g)) * (rho * (rho - g))) with (18 / 10 * g * rho) by (field; unfold g; lra).
      replace (17 / 1000000000000000 / rho * (rho * (rho - g))) with (17 / 1000000000000000 * (rho - g)) by (field; unfold g; lra).
      unfold g. lra. }
    assert (0 < / rho) by (apply Rinv_0_lt_compat; lra).
    apply Rle_trans with (17 / 1000000000000000 / rho * (573 / 10)).
    + apply Rmult_le_compat; [apply Rabs_pos|lra|lra|lra].
    + unfold Rdiv in *. lra.
Qed.
