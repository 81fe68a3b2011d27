(* C78: the great-circle distance as CPython computes it, in binary64. *)
From Coq Require Import Reals Lia Lra Psatz.
From Flocq Require Import Core BinarySingleNaN.
From Verif Require Import PyFloat FloatProofs PiBounds FloatErr FGeo FGeoSpec LibmExact GeoSpec GeoProofs EcefAccuracy FGeoProofs.
Local Open Scope R_scope.

(* haversine returns a distance within 1.5e-7 radius of the great-circle
   distance, or raises ValueError; it raises only if the points are within
   1.5e-7 radius (1 metre on Earth) of being antipodal *)
Theorem C78_haversine : forall L lat1 lon1 lat2 lon2 radius t, libm_ok L ->
  latitude lat1 -> longitude lon1 -> latitude lat2 -> longitude lon2 -> sphere_radius radius ->
  angle_between (rval lat1) (rval lon1) (rval lat2) (rval lon2) t ->
  (exists d, fhaversine L lat1 lon1 lat2 lon2 radius = Ok d /\ fdata d /\ 0 <= rval d /\
     Rabs (rval d - rval radius * t) <= rval radius * (15 / 100000000)) \/
  (fhaversine L lat1 lon1 lat2 lon2 radius = Raise ValueError /\ PI - t <= 15 / 100000000).
Proof.
  intros L lat1 lon1 lat2 lon2 radius t K P1 M1 P2 M2 R T.
  destruct (hav_result L lat1 lon1 lat2 lon2 radius t K P1 M1 P2 M2 R T) as [(d & t' & E & F & N & T' & C & D)|[E C]]; [left|right].
  - exists d. repeat split; try assumption; try apply F.
    pose proof (angle_close t t' (proj1 T) T' C) as G. destruct R as [_ R].
    replace (rval d - rval radius * t) with ((rval d - rval radius * t') + rval radius * - (t - t')) by ring.
    eapply Rle_trans; [apply Rabs_triang|]. rewrite Rabs_mult, Rabs_Ropp, (Rabs_pos_eq (rval radius)) by lra.
    assert (rval radius * Rabs (t - t') <= rval radius * (1416 / 10000000000)) by (apply Rmult_le_compat_l; lra). lra.
  - split; [exact E|]. pose proof (angle_near_pi t (proj1 T) C). lra.
Qed.

(* so it never raises for points at least a metre (of a million-th part) from antipodal *)
Theorem C78_never_raises : forall L lat1 lon1 lat2 lon2 radius t, libm_ok L ->
  latitude lat1 -> longitude lon1 -> latitude lat2 -> longitude lon2 -> sphere_radius radius ->
  angle_between (rval lat1) (rval lon1) (rval lat2) (rval lon2) t -> 15 / 100000000 < PI - t ->
  exists d, fhaversine L lat1 lon1 lat2 lon2 radius = Ok d.
Proof.
  intros L lat1 lon1 lat2 lon2 radius t K P1 M1 P2 M2 R T G.
  destruct (C78_haversine L lat1 lon1 lat2 lon2 radius t K P1 M1 P2 M2 R T) as [(d & E & _)|[_ C]]; [exists d; exact E|lra].
Qed.

(* with the default radius, 6378.137 km: for points 50 m or more apart (and
   50 m or more from antipodal), as the docstring asks, within 2 cm *)
Theorem C78_default_radius : forall L lat1 lon1 lat2 lon2 t, libm_ok L ->
  latitude lat1 -> longitude lon1 -> latitude lat2 -> longitude lon2 ->
  angle_between (rval lat1) (rval lon1) (rval lat2) (rval lon2) t ->
  5 / 100 <= 6378137 / 1000 * t <= 6378137 / 1000 * PI - 5 / 100 ->
  exists d, fhaversine L lat1 lon1 lat2 lon2 f_radius_km = Ok d /\
    Rabs (rval d - 6378137 / 1000 * t) <= 2 / 100000.
Proof.
  intros L lat1 lon1 lat2 lon2 t K P1 M1 P2 M2 T B.
  assert (approx f_radius_km (6378137 / 1000) (1 / 1000000000000)) as RA.
  { apply (approx_div _ _ _ _ 0 0 6378137 1000 6379 (1 / 1000000000000) (approx_int 6378137 ltac:(lia)) (approx_int 1000 ltac:(lia))); try num;
      rewrite Rabs_pos_eq; lra. }
  pose proof (approx_bounds _ _ _ RA) as RB.
  assert (sphere_radius f_radius_km) as R by (split; [apply RA|lra]).
  pose proof pi_bounds as PB.
  destruct (hav_result L lat1 lon1 lat2 lon2 f_radius_km t K P1 M1 P2 M2 R T) as [(d & t' & E & F & N & T' & C & D)|[E C]].
  - exists d. split; [exact E|].
    assert (Rabs (t - t') <= 2 * (1283 / 1000000000000)) as G.
    { apply angle_gap_far with (1 / 100000000000000) (39 / 10000000); try assumption; lra. }
    replace (rval d - 6378137 / 1000 * t) with
      ((rval d - rval f_radius_km * t') + (rval f_radius_km - 6378137 / 1000) * t' + 6378137 / 1000 * - (t - t')) by ring.
    eapply Rle_trans; [apply Rabs_triang|]. rewrite (Rabs_mult (6378137 / 1000)), Rabs_Ropp, (Rabs_pos_eq (6378137 / 1000)) by lra.
    assert (Rabs ((rval f_radius_km - 6378137 / 1000) * t') <= 1 / 1000000000000 * 4).
    { rewrite Rabs_mult. apply Rmult_le_compat; try apply Rabs_pos; [apply RA|rewrite Rabs_pos_eq; lra]. }
    pose proof (Rabs_triang (rval d - rval f_radius_km * t') ((rval f_radius_km - 6378137 / 1000) * t')). lra.
  - exfalso. pose proof (angle_near_pi t (proj1 T) C). lra.
Qed.

(* the distance of a point from itself is exactly 0 *)
Lemma fsub_self x : is_fin x = true -> fsub x x = fzero.
Proof.
  destruct x as [s|s| |s m e]; try discriminate; intros _.
  - destruct s; reflexivity.
  - unfold fsub, SFsub. rewrite Z.min_id, Z.sub_diag. reflexivity.
Qed.
Lemma fmul_zero x : is_fin x = true -> fmul x fzero = S754_zero (sign_of x).
Proof. destruct x as [s|s| |s m e]; try discriminate; intros _; cbn; rewrite Bool.xorb_false_r; reflexivity. Qed.
Theorem C78_same : forall L lat lon radius, libm_ok L -> latitude lat -> longitude lon -> fdata radius -> sign_of radius = false ->
  fhaversine L lat lon lat lon radius = Ok fzero.
Proof.
  intros L lat lon radius K P M [_ R] S. unfold fhaversine, fhav_cosine.
  destruct (lat_rad lat P) as [FP _]. destruct (lon_rad lon M) as [FM _].
  rewrite (fsub_self (deg2rad lat)), (fsub_self (deg2rad lon)) by (apply FP || apply FM).
  pose proof (cos_ok L K _ FP) as [[_ C] _].
  assert (math1 (l_cos L) fzero = Ok fone) as C0 by (unfold math1; rewrite (cos_zero L K); reflexivity).
  rewrite C0. cbn [bind]. rewrite math1_ok by exact C. cbn [bind].
  rewrite fsub_self by reflexivity.
  assert (is_fin (fmul (l_cos L (deg2rad lat)) (l_cos L (deg2rad lat))) = true) as F2.
  { assert (approx (l_cos L (deg2rad lat)) (cos (rval (deg2rad lat))) (1 / 2)) as A.
    { eapply (faithful_approx _ _ 1); [apply cos_ok; assumption|apply cos_abs|num]. }
    assert (approx (fmul (l_cos L (deg2rad lat)) (l_cos L (deg2rad lat))) (cos (rval (deg2rad lat)) * cos (rval (deg2rad lat))) 4) as [[_ F2] _];
      [|exact F2].
    eapply approx_mul with (A := 1) (B := 1); [exact A|exact A|apply cos_abs|apply cos_abs| |]; num. }
  rewrite fmul_zero by exact F2.
  replace (fsub fone (S754_zero _)) with fone by reflexivity.
  unfold math1. rewrite (acos_one L K). cbn [is_nan is_inf is_fin fzero andb bind]. rewrite fmul_zero by exact R. rewrite S. reflexivity.
Qed.

(* ---------------------------------------------------------------------- *)
(* between antipodal points it can raise: 45N 0E and 45S 180E *)
Lemma half_one_format x : format64 x -> / 2 <= x < 1 -> exists m, x = IZR m / 9007199254740992.
Proof.
  intros F B. exists (Ztrunc (scaled_mantissa radix2 fexp64 x)). red in F. red in F.
  assert (cexp radix2 fexp64 x = (-53)%Z) as C.
  { unfold cexp. rewrite (mag_unique_pos radix2 x 0); [reflexivity|]. change (bpow radix2 (0 - 1)) with (/ 2). change (bpow radix2 0) with 1. lra. }
  rewrite F at 1. unfold F2R. cbn [Fnum Fexp]. rewrite C. reflexivity.
Qed.
Lemma half_one_ulp r : / 2 <= r < 1 -> ulp radix2 fexp64 r = / 9007199254740992.
Proof.
  intros B. rewrite ulp_neq_0 by lra. unfold cexp. rewrite (mag_unique_pos radix2 r 0); [reflexivity|]. change (bpow radix2 (0 - 1)) with (/ 2). change (bpow radix2 0) with 1. lra.
Qed.
Definition c45 : fl := S754_finite false 6369051672525773 (-53).
Lemma rval_c45 : rval c45 = 6369051672525773 / 9007199254740992.
Proof. unfold rval, c45. cbn [SF2R cond_Zopp]. rewrite F2R_neg by lia. reflexivity. Qed.
Lemma cos45 : 70710678118654754 / 100000000000000000 <= cos (rval py_pi / 4) <= 70710678118654756 / 100000000000000000.
Proof.
  pose proof pi_bounds as PB. pose proof py_pi_val as PV. set (p := rval py_pi) in *.
  set (d := PI / 4 - p / 4). assert (30 / 1000000000000000000 <= d <= 31 / 1000000000000000000) as D by (unfold d; lra).
  replace (p / 4) with (PI / 4 - d) by (unfold d; ring). rewrite cos_minus, cos_PI4, sin_PI4.
  assert (0 < sqrt 2) as S0 by (apply sqrt_lt_R0; lra).
  pose proof (sqrt_sqrt 2 ltac:(lra)) as SS. set (s := sqrt 2) in *.
  assert (14142135623730950488 / 10000000000000000000 <= s <= 14142135623730950489 / 10000000000000000000) as SB by (split; nra).
  replace (1 / s * cos d + 1 / s * sin d) with (s / 2 * (cos d + sin d)) by (rewrite <- SS at 1; field; lra).
  pose proof (sin_low d ltac:(lra)) as L1. pose proof (cos_low d) as L2. pose proof (sin_high d ltac:(lra)) as H1. pose proof (COS_bound d) as [_ H2].
  assert (0 <= d * d <= 1 / 1000000000000000000000000000000) as DD by (split; nra).
  assert (0 <= d * d * d <= 1 / 1000000000000000000000000000000) as DDD by (split; nra).
  assert (1 + 29 / 1000000000000000000 <= cos d + sin d <= 1 + 31 / 1000000000000000000) as CS by lra.
  split; nra.
Qed.
Lemma sharp45 L x : libm_ok L -> cos_sharp L -> fdata x -> rval x = rval py_pi / 4 \/ rval x = - (rval py_pi / 4) -> l_cos L x = c45.
Proof.
  intros K H F V. assert (cos (rval x) = cos (rval py_pi / 4)) as E by (destruct V as [->| ->]; rewrite ?cos_neg; reflexivity).
  pose proof cos45 as C. pose proof (H x F) as A. rewrite E in A. rewrite half_one_ulp in A by lra. apply Rabs_le_inv in A.
  destruct (cos_ok L K x F) as [G _].
  destruct (half_one_format (rval (l_cos L x)) (fdata_format _ G)) as [m M]; [lra|].
  assert (m = 6369051672525773%Z) as ->.
  { assert (6369051672525772 < m)%Z by (apply lt_IZR; lra). assert (m < 6369051672525774)%Z by (apply lt_IZR; lra). lia. }
  apply fdata_inj; [exact G|split; reflexivity|rewrite M, rval_c45; reflexivity|].
  destruct (l_cos L x) as [s|s| |s mm e] eqn:Q; destruct G as [_ G]; try discriminate.
  - cbn in M. lra.
  - destruct s; [|reflexivity]. exfalso. assert (rval (S754_finite true mm e) < 0) by (apply (F2R_lt_0 radix2 (Float radix2 (Z.neg mm) e)); reflexivity). lra.
Qed.
Lemma sharp180 L : libm_ok L -> cos_sharp L -> rval (l_cos L py_pi) = -1.
Proof.
  intros K H. pose proof pi_bounds as PB. pose proof py_pi_val as PV. pose proof (H py_pi py_pi_data) as A.
  set (p := rval py_pi) in *. set (d := PI - p). assert (0 < d <= 13 / 100000000000000000) as D by (unfold d; lra).
  assert (cos p = - cos d) as E by (unfold d; rewrite <- Rtrigo_facts.cos_pi_minus; f_equal; ring).
  assert (0 <= d * d <= 1 / 1000000000000000000000000000000) as DD by (split; nra).
  pose proof (cos_low d) as L2.
  assert (cos d < 1) as L3.
  { rewrite <- cos_0. apply cos_decreasing_1; lra. }
  rewrite E in A. rewrite ulp_opp in A. rewrite half_one_ulp in A by lra. apply Rabs_le_inv in A.
  destruct (cos_ok L K py_pi py_pi_data) as [G _].
  pose proof (cos_unit L py_pi K py_pi_data) as U. apply Rabs_le_inv in U.
  destruct (Req_dec (rval (l_cos L py_pi)) (-1)) as [?|N]; [assumption|exfalso].
  destruct (half_one_format (- rval (l_cos L py_pi))) as [m M]; [apply generic_format_opp, fdata_format, G|lra|].
  assert (m < 9007199254740992)%Z by (apply lt_IZR; lra). assert (9007199254740991 < m)%Z by (apply lt_IZR; lra). lia.
Qed.
Lemma fl_minus_one x : fdata x -> rval x = -1 -> x = f_norm (-1) 0.
Proof.
  intros F V. destruct (f_int (-1)) as (G & W & S); [lia|]. apply fdata_inj; [exact F|exact G|rewrite V, W; reflexivity|].
  rewrite S. destruct F as [_ F]. destruct x as [s|s| |s m e]; try discriminate; [cbn in V; lra|].
  destruct s; [reflexivity|exfalso]. assert (0 < rval (S754_finite false m e)) by (apply (F2R_gt_0 radix2 (Float radix2 (Z.pos m) e)); reflexivity). lra.
Qed.
Theorem C78_antipodal_refuted : forall L, libm_ok L -> cos_sharp L ->
  fhaversine L (f_norm 45 0) (f_norm 0 0) (f_norm (-45) 0) (f_norm 180 0) f_radius_km = Raise ValueError.
Proof.
  intros L K H. pose proof pi_bounds as PB. pose proof py_pi_val as PV. unfold fhaversine, fhav_cosine.
  replace (deg2rad (f_norm 45 0)) with (S754_finite false 7074237752028440 (-53)) by (vm_compute; reflexivity).
  replace (deg2rad (f_norm (-45) 0)) with (S754_finite true 7074237752028440 (-53)) by (vm_compute; reflexivity).
  replace (deg2rad (f_norm 0 0)) with fzero by (vm_compute; reflexivity).
  replace (deg2rad (f_norm 180 0)) with py_pi by (vm_compute; reflexivity).
  replace (fsub py_pi fzero) with py_pi by (vm_compute; reflexivity).
  replace (fsub (S754_finite true 7074237752028440 (-53)) (S754_finite false 7074237752028440 (-53)))
    with (S754_finite true 7074237752028440 (-52)) by (vm_compute; reflexivity).
  set (h := S754_finite true 7074237752028440 (-52)).
  assert (fdata h) as FH by (split; reflexivity).
  assert (rval h = - (rval py_pi / 2)) as VH.
  { unfold h, rval at 1. cbn [SF2R cond_Zopp Z.opp]. rewrite F2R_neg by lia. rewrite PV. change (2 ^ - (-52))%Z with 4503599627370496%Z. lra. }
  rewrite !(math1_ok (l_cos L)) by (apply cos_ok; first [assumption|exact K|apply py_pi_data|split; reflexivity]). cbn [bind].
  rewrite (sharp45 L (S754_finite false 7074237752028440 (-53))); [|assumption|assumption|split; reflexivity|left].
  2:{ unfold rval at 1. cbn [SF2R cond_Zopp Z.opp]. rewrite F2R_neg by lia. rewrite PV. change (2 ^ - (-53))%Z with 9007199254740992%Z. lra. }
  rewrite (sharp45 L (S754_finite true 7074237752028440 (-53))); [|assumption|assumption|split; reflexivity|right].
  2:{ unfold rval at 1. cbn [SF2R cond_Zopp Z.opp]. rewrite F2R_neg by lia. rewrite PV. change (2 ^ - (-53))%Z with 9007199254740992%Z. lra. }
  rewrite (fl_minus_one (l_cos L py_pi)); [|apply cos_ok; [exact K|apply py_pi_data]|apply sharp180; assumption].
  replace (fmul (fmul c45 c45) (fsub fone (f_norm (-1) 0))) with (S754_finite false 4503599627370497 (-52)) by (vm_compute; reflexivity).
  set (w := S754_finite false 4503599627370497 (-52)).
  assert (fdata w) as FW by (split; reflexivity).
  assert (rval w = 4503599627370497 / 4503599627370496) as VW.
  { unfold w, rval. cbn [SF2R cond_Zopp]. rewrite F2R_neg by lia. reflexivity. }
  (* the cosine of the latitude difference is next to nothing *)
  assert (approx (l_cos L h) 0 (1 / 10000000000000000)) as [FC AC].
  { destruct (cos_ok L K h FH) as [G A]. split; [exact G|].
    assert (0 <= cos (rval h) <= 7 / 100000000000000000) as B.
    { rewrite VH, cos_neg, <- sin_shift. set (d := PI / 2 - rval py_pi / 2).
      assert (0 < d <= 7 / 100000000000000000) as D by (unfold d; lra).
      split; [apply sin_ge_0; lra|]. pose proof (sin_high d ltac:(lra)). lra. }
    pose proof (ulp_rel (cos (rval h))) as U. rewrite (Rabs_pos_eq (cos (rval h))) in U by lra.
    apply Rabs_lt_inv in A. apply Rabs_le. num. }
  destruct (fsub_correct (l_cos L h) w FC FW) as [sg N].
  apply Rabs_le_inv in AC.
  set (r := rval (l_cos L h) - rval w) in *.
  assert (Rabs r < 2) as RB by (apply Rabs_lt; unfold r; rewrite VW; lra).
  assert (Rabs (rnd r - r) <= bpow radix2 (1 - 54)) as RE by (apply rnd_err; [lia|exact RB]).
  change (bpow radix2 (1 - 54)) with (/ 9007199254740992) in RE. apply Rabs_le_inv in RE.
  assert (rnd r < -1) as LT by (unfold r in *; rewrite VW in *; lra).
  destruct (nearest_fdata _ _ _ N) as (FS & VS & _).
  { apply rnd_lt_huge with 2%Z; [lra|lia]. }
  unfold math1. rewrite (acos_dom L K _ FS) by (left; rewrite VS; exact LT).
  destruct FS as [_ FS]. destruct (fsub (l_cos L h) w); try discriminate; reflexivity.
Qed.

(* the hypotheses are met: a correctly rounding library, a quarter of the equator *)
Lemma lat_int z : (-90 <= z <= 90)%Z -> latitude (f_norm z 0).
Proof. intros B. destruct (f_int z) as (F & V & _); [lia|]. split; [exact F|]. rewrite V. split; apply IZR_le; lia. Qed.
Lemma lon_int z : (-180 <= z <= 180)%Z -> longitude (f_norm z 0).
Proof. intros B. destruct (f_int z) as (F & V & _); [lia|]. split; [exact F|]. rewrite V. split; apply IZR_le; lia. Qed.
Lemma val_int z : (Z.abs z <= 2 ^ 53)%Z -> rval (f_norm z 0) = IZR z.
Proof. intros B. destruct (f_int z) as (_ & V & _); [lia|exact V]. Qed.
Theorem C78_example :
  (libm_ok exact_libm /\ cos_sharp exact_libm) /\
  exists d, fhaversine exact_libm (f_norm 0 0) (f_norm 0 0) (f_norm 0 0) (f_norm 90 0) f_radius_km = Ok d /\
    Rabs (rval d - 6378137 / 1000 * (PI / 2)) <= 2 / 100000.
Proof.
  pose proof pi_bounds as PB. split; [split; [apply exact_libm_ok|apply exact_cos_sharp]|].
  apply C78_default_radius; try (apply lat_int; lia); try (apply lon_int; lia); [apply exact_libm_ok| |lra].
  rewrite !val_int by lia. split; [lra|]. unfold dot, sphere_point, radians.
  replace (0 * (PI / 180)) with 0 by ring. replace (90 * (PI / 180)) with (PI / 2) by field.
  rewrite cos_0, sin_0, cos_PI2, sin_PI2. ring.
Qed.
