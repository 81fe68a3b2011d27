(* Error analysis of the binary64 geodesy, part 3: llh2ecef. *)
From Coq Require Import Reals Lia Lra Psatz.
From Flocq Require Import Core BinarySingleNaN.
From Verif Require Import PyFloat FloatProofs PiBounds FloatErr FGeo FGeoSpec LibmExact GeoSpec Geo GeoProofs EcefProofs EcefAccuracy FGeoProofs FGeoProofs2.
Local Open Scope R_scope.

Lemma math1_fin f x r : faithful (f x) r -> math1 f x = Ok (f x).
Proof. intros [[_ F] _]. apply math1_ok, F. Qed.
Lemma fdivide_ok x y : is_zero y = false -> fdivide x y = Ok (fdiv x y).
Proof. unfold fdivide. intros ->. reflexivity. Qed.
Lemma mul_abs_le a b A B : Rabs a <= A -> Rabs b <= B -> Rabs (a * b) <= A * B.
Proof. intros HA HB. rewrite Rabs_mult. apply Rmult_le_compat; try apply Rabs_pos; assumption. Qed.

(* the square of the eccentricity *)
Lemma ecc_result f : fdata f -> 290 <= rval f ->
  fdivide fone f = Ok (fdiv fone f) /\
  (0 <= 1 / rval f <= 345 / 100000) /\
  (0 <= 1 / rval f * (2 - 1 / rval f) <= 69 / 10000) /\
  approx (fdiv fone f) (1 / rval f) (4 / 10000000000000000000) /\
  approx (fmul (fdiv fone f) (fsub ftwo (fdiv fone f))) (1 / rval f * (2 - 1 / rval f)) (24 / 10000000000000000000).
Proof.
  intros FF BF. assert (0 <= 1 / rval f <= 345 / 100000) as B1.
  { split; [apply Rlt_le, Rmult_lt_0_compat; [lra|apply Rinv_0_lt_compat; lra]|].
    apply (Rmult_le_reg_r (rval f)); [lra|]. unfold Rdiv at 1. rewrite Rmult_assoc, Rinv_l by lra. lra. }
  destruct (approx_div _ _ _ _ _ _ 1 290 (345 / 100000) (4 / 10000000000000000000) approx_one (approx_exact f FF)) as [A1 Z1]; try num;
    try (rewrite Rabs_pos_eq; lra).
  set (F := 1 / rval f) in *.
  assert (approx (fsub ftwo (fdiv fone f)) (2 - F) (224 / 1000000000000000000)) as A2.
  { eapply approx_sub with (M := 2); [apply approx_two|exact A1| | |]; try num. rewrite Rabs_pos_eq; lra. }
  assert (approx (fmul (fdiv fone f) (fsub ftwo (fdiv fone f))) (F * (2 - F)) (24 / 10000000000000000000)) as A3.
  { eapply approx_mul with (A := 345 / 100000) (B := 2); [exact A1|exact A2| | | |]; try num; rewrite Rabs_pos_eq; lra. }
  split; [apply fdivide_ok, Z1|]. split; [exact B1|]. split; [|split; assumption].
  split; [apply Rmult_le_pos; lra|]. apply Rle_trans with (345 / 100000 * 2); [apply Rmult_le_compat; lra|lra].
Qed.

(* for any angles whose radian measure is computed accurately *)
Lemma llh2ecef_near L lat lon h a f : libm_ok L ->
  approx (deg2rad lat) (radians (rval lat)) (43 / 100000000000000000) ->
  approx (deg2rad lon) (radians (rval lon)) (85 / 100000000000000000) ->
  fdata h -> Rabs (rval h) <= 1000000000000 ->
  fdata a -> 6300000 <= rval a <= 6400000 -> fdata f -> 290 <= rval f ->
  let e2 := 1 / rval f * (2 - 1 / rval f) in
  let p := radians (rval lat) in
  let l := radians (rval lon) in
  let N := rval a / sqrt (1 - e2 * (sin p * sin p)) in
  let T := 6430000 + Rabs (rval h) in
  exists x y z, fllh2ecef L lat lon h a f = Ok (x, y, z) /\
    approx x ((N + rval h) * cos p * cos l) (T * (25 / 10000000000000000)) /\
    approx y ((N + rval h) * cos p * sin l) (T * (25 / 10000000000000000)) /\
    approx z (((1 - e2) * N + rval h) * sin p) (T * (25 / 10000000000000000)).
Proof.
  intros K A1 A2 FH BH FA BA FF BF e2 p l N T.
  pose proof (Rabs_pos (rval h)) as H0. pose proof (Rle_abs (rval h)) as H1.
  assert (6430000 <= T <= 1000006430000) as TB by (unfold T; lra).
  destruct (ecc_result f FF BF) as (DV & BF1 & BE & _ & E2). fold e2 in BE, E2.
  fold p in A1. fold l in A2.
  destruct (approx_cos L _ _ _ (66 / 100000000000000000) K A1) as [C C_o]; [unfold eps1; lra|].
  destruct (approx_sin L _ _ _ (66 / 100000000000000000) K A1) as [S So]; [unfold eps1; lra|].
  destruct (approx_cos L _ _ _ (108 / 100000000000000000) K A2) as [CL CLo]; [unfold eps1; lra|].
  destruct (approx_sin L _ _ _ (108 / 100000000000000000) K A2) as [SL SLo]; [unfold eps1; lra|].
  destruct (square_ok L a K FA) as [Q_o QF]; [rewrite Rabs_pos_eq; lra|].
  unfold fllh2ecef. cbv zeta. rewrite DV. cbn [bind]. rewrite Q_o. cbn [bind]. rewrite So. cbn [bind].
  set (ef := fmul (fdiv fone f) (fsub ftwo (fdiv fone f))) in *.
  set (a2 := l_pow L a (f_norm 2 0)) in *. set (s := l_sin L (deg2rad lat)) in *. set (c := l_cos L (deg2rad lat)) in *.
  set (cl := l_cos L (deg2rad lon)) in *. set (sl := l_sin L (deg2rad lon)) in *.
  assert (6300000 * 6300000 <= rval a * rval a <= 6400000 * 6400000) as BQ by (split; apply Rmult_le_compat; lra).
  assert (approx a2 (rval a * rval a) (943 / 100000)) as X1.
  { eapply (faithful_approx _ _ (6400000 * 6400000)); [exact QF|rewrite Rabs_pos_eq; lra|num]. }
  assert (approx (fsub fone ef) (1 - e2) (114 / 1000000000000000000)) as X2.
  { eapply approx_sub with (M := 1); [apply approx_one|exact E2|rewrite Rabs_pos_eq; lra| |]; num. }
  assert (approx (fmul a2 (fsub fone ef)) (rval a * rval a * (1 - e2)) (187 / 10000)) as X3.
  { eapply approx_mul with (A := 6400000 * 6400000) (B := 1); [exact X1|exact X2|rewrite Rabs_pos_eq; lra|rewrite Rabs_pos_eq; lra| |]; num. }
  assert (approx (fdiv (fmul a2 (fsub fone ef)) a2) (rval a * rval a * (1 - e2) / (rval a * rval a)) (84 / 100000000000000000) /\ is_zero a2 = false) as [X4 X4o].
  { apply (approx_div _ _ _ _ _ _ (6400000 * 6400000) (6300000 * 6300000) (104 / 100) _ X3 X1); try num.
    - rewrite Rabs_pos_eq by (apply Rmult_le_pos; lra). apply Rle_trans with (rval a * rval a * 1); [apply Rmult_le_compat_l; lra|lra].
    - rewrite Rabs_pos_eq; lra. }
  replace (rval a * rval a * (1 - e2) / (rval a * rval a)) with (1 - e2) in X4 by (field; lra).
  (* sin^2 *)
  assert (Rabs (rval s) <= 1) as SU by (apply sin_unit; [exact K|apply A1]).
  destruct (square_ok L s K (proj1 S)) as [SQo SQF]; [lra|].
  rewrite SQo. cbn [bind]. set (ss := l_pow L s (f_norm 2 0)) in *.
  assert (approx ss (sin p * sin p) (156 / 100000000000000000)) as X5.
  { assert (approx ss (rval s * rval s) (223 / 1000000000000000000)) as Y.
    { eapply (faithful_approx _ _ (1 * 1)); [exact SQF|apply mul_abs_le; exact SU|num]. }
    split; [apply Y|]. destruct Y as [_ Y], S as [_ S0].
    assert (Rabs (rval s * rval s - sin p * sin p) <= 66 / 100000000000000000 * 2) as D.
    { replace (rval s * rval s - sin p * sin p) with ((rval s - sin p) * (rval s + sin p)) by ring.
      apply mul_abs_le; [exact S0|]. eapply Rle_trans; [apply Rabs_triang|]. pose proof (sin_abs1 p). lra. }
    replace (rval ss - sin p * sin p) with ((rval ss - rval s * rval s) + (rval s * rval s - sin p * sin p)) by ring.
    eapply Rle_trans; [apply Rabs_triang|]. lra. }
  pose proof (sq_nonneg (sin p)) as SP0. pose proof (mul_abs_le _ _ _ _ (sin_abs1 p) (sin_abs1 p)) as SP1. rewrite Rabs_pos_eq in SP1 by exact SP0.
  set (w := sin p * sin p) in *.
  assert (approx (fmul ef ss) (e2 * w) (15 / 1000000000000000000)) as X6.
  { eapply approx_mul with (A := 69 / 10000) (B := 1); [exact E2|exact X5|rewrite Rabs_pos_eq; lra|rewrite Rabs_pos_eq; lra| |]; num. }
  assert (0 <= e2 * w <= 69 / 10000) as EW.
  { split; [apply Rmult_le_pos; lra|]. apply Rle_trans with (69 / 10000 * 1); [apply Rmult_le_compat; lra|lra]. }
  assert (approx (fsub fone (fmul ef ss)) (1 - e2 * w) (128 / 1000000000000000000)) as X7.
  { eapply approx_sub with (M := 1); [apply approx_one|exact X6|rewrite Rabs_pos_eq; lra| |]; num. }
  destruct (approx_sqrt _ _ _ (996 / 1000) 1 (242 / 1000000000000000000) X7) as [X8 X8o]; try num.
  rewrite X8o. cbn [bind].
  assert (996 / 1000 <= sqrt (1 - e2 * w) <= 1) as SB.
  { split; [apply Rsqr_incr_0_var; [|apply sqrt_pos]; rewrite Rsqr_sqrt by lra; unfold Rsqr; lra|].
    apply sqrt_le_of_sq; lra. }
  set (q := SFsqrt fprec femax (fsub fone (fmul ef ss))) in *.
  destruct (approx_div a q (rval a) (sqrt (1 - e2 * w)) 0 (242 / 1000000000000000000) 6400000 (996 / 1000) 6430000 (23 / 10000000000) (approx_exact a FA) X8) as [X9 X9o];
    try num; try (rewrite Rabs_pos_eq; lra).
  rewrite (fdivide_ok a q) by exact X9o. cbn [bind]. fold N in X9.
  assert (0 <= N <= 6430000) as NB.
  { unfold N. split; [apply Rmult_le_pos; [lra|apply Rlt_le, Rinv_0_lt_compat; lra]|].
    apply (Rmult_le_reg_r (sqrt (1 - e2 * w))); [lra|]. unfold Rdiv. rewrite Rmult_assoc, Rinv_l by lra.
    apply Rle_trans with (6430000 * (996 / 1000)); [lra|apply Rmult_le_compat_l; lra]. }
  rewrite C_o, CLo. cbn [bind]. rewrite SLo. cbn [bind]. rewrite fdivide_ok by exact X4o. cbn [bind].
  assert (Rabs (N + rval h) <= T) as NT.
  { eapply Rle_trans; [apply Rabs_triang|]. rewrite (Rabs_pos_eq N) by lra. unfold T. lra. }
  assert (approx (fadd (fdiv a q) h) (N + rval h) (T * (48 / 100000000000000000))) as Y1.
  { eapply approx_add with (M := T); [exact X9|apply approx_exact, FH|exact NT| |]; num. }
  assert (approx (fmul (fadd (fdiv a q) h) c) ((N + rval h) * cos p) (T * (126 / 100000000000000000))) as Y2.
  { eapply approx_mul with (A := T) (B := 1); [exact Y1|exact C|exact NT|apply cos_abs| |]; num. }
  assert (Rabs ((N + rval h) * cos p) <= T) as NT2.
  { replace T with (T * 1) by ring. apply mul_abs_le; [exact NT|apply cos_abs]. }
  eexists _, _, _. split; [reflexivity|]. split; [|split].
  - eapply approx_mul with (A := T) (B := 1); [exact Y2|exact CL|exact NT2|apply cos_abs| |]; num.
  - eapply approx_mul with (A := T) (B := 1); [exact Y2|exact SL|exact NT2|apply sin_abs1| |]; num.
  - assert (approx (fmul (fdiv (fmul a2 (fsub fone ef)) a2) (fdiv a q)) ((1 - e2) * N) (85 / 10000000000)) as Z1.
    { eapply approx_mul with (A := 1) (B := 6430000); [exact X4|exact X9|rewrite Rabs_pos_eq; lra|rewrite Rabs_pos_eq; lra| |]; num. }
    assert (Rabs ((1 - e2) * N + rval h) <= T) as NT3.
    { eapply Rle_trans; [apply Rabs_triang|]. unfold T. assert (Rabs ((1 - e2) * N) <= 1 * 6430000); [|lra].
      apply mul_abs_le; rewrite Rabs_pos_eq; lra. }
    assert (approx (fadd (fmul (fdiv (fmul a2 (fsub fone ef)) a2) (fdiv a q)) h) ((1 - e2) * N + rval h) (T * (145 / 100000000000000000))) as Z2.
    { eapply approx_add with (M := T); [exact Z1|apply approx_exact, FH|exact NT3| |]; num. }
    eapply approx_mul with (A := T) (B := 1); [exact Z2|exact S|exact NT3|apply sin_abs1| |]; num.
Qed.
Lemma llh2ecef_result L lat lon h a f : libm_ok L -> latitude lat -> longitude lon ->
  fdata h -> Rabs (rval h) <= 1000000000000 ->
  fdata a -> 6300000 <= rval a <= 6400000 -> fdata f -> 290 <= rval f ->
  let e2 := 1 / rval f * (2 - 1 / rval f) in
  let p := radians (rval lat) in
  let l := radians (rval lon) in
  let N := rval a / sqrt (1 - e2 * (sin p * sin p)) in
  let T := 6430000 + Rabs (rval h) in
  exists x y z, fllh2ecef L lat lon h a f = Ok (x, y, z) /\
    approx x ((N + rval h) * cos p * cos l) (T * (25 / 10000000000000000)) /\
    approx y ((N + rval h) * cos p * sin l) (T * (25 / 10000000000000000)) /\
    approx z (((1 - e2) * N + rval h) * sin p) (T * (25 / 10000000000000000)).
Proof. intros K P M. apply llh2ecef_near; [exact K|apply lat_rad, P|apply lon_rad, M]. Qed.
