(* C115: the arguments left out.  haversine and area without a radius are in
   kilometres on a sphere of 6378.137 km, planar in metres on one of 6378137 m,
   llh2ecef and ecef2llh in metres on the WGS84 ellipsoid.
   C79/C80 overflow: a radius or semi-axis too large to be squared is an
   OverflowError, never an infinite result. *)
From Coq Require Import Reals Lia Lra Psatz.
From Flocq Require Import Core BinarySingleNaN.
From Verif Require Import PyFloat FloatProofs PiBounds FloatErr FGeo FGeoSpec LibmExact GeoSpec Geo GeoProofs EcefProofs EcefAccuracy
  FGeoProofs FGeoProofs2 GeoDefaults PropsGeo PropsEcef PropsFGeo PropsFGeo2 PropsFGeo3 PropsFGeo4.
Local Open Scope R_scope.

(* an argument that is given is used as it is *)
Theorem C115_given : forall lat1 lon1 lat2 lon2 radius,
  area_call lat1 lon1 lat2 lon2 (Some radius) = area lat1 lon1 lat2 lon2 radius /\
  haversine_call lat1 lon1 lat2 lon2 (Some radius) = haversine lat1 lon1 lat2 lon2 radius /\
  planar_call lat1 lon1 lat2 lon2 (Some radius) = planar lat1 lon1 lat2 lon2 radius.
Proof. repeat split. Qed.
(* ... and one left out is the WGS84 number *)
Theorem C115_given_ellipsoid : forall p q r a f,
  llh2ecef_call p q r (Some a) (Some f) = llh2ecef p q r a f /\
  llh2ecef_call p q r (Some a) None = llh2ecef p q r a (298257223563 / 1000000000) /\
  llh2ecef_call p q r None (Some f) = llh2ecef p q r 6378137 f /\
  ecef2llh_call p q r (Some a) (Some f) = ecef2llh p q r a f /\
  ecef2llh_call p q r (Some a) None = ecef2llh p q r a (298257223563 / 1000000000) /\
  ecef2llh_call p q r None (Some f) = ecef2llh p q r 6378137 f.
Proof. repeat split. Qed.

(* ------------------------------------------------- the default sphere *)
(* the great circle distance in kilometres: 6378.137 times the angle between
   the points *)
Theorem C115_haversine : forall lat1 lon1 lat2 lon2,
  exists angle, haversine_call lat1 lon1 lat2 lon2 None = Ok (6378137 / 1000 * angle) /\
    0 <= angle <= PI /\ cos angle = dot (sphere_point lat1 lon1) (sphere_point lat2 lon2).
Proof. intros. apply C62_haversine_great_circle. Qed.

(* planar in metres *)
Theorem C115_planar : forall lat1 lon1 lat2 lon2,
  exists d, planar_call lat1 lon1 lat2 lon2 None = Ok (6378137 * d) /\ 0 <= d /\
    d * d = radians (lat2 - lat1) ^ 2 + (cos (radians lat1) * radians (lon2 - lon1)) ^ 2.
Proof.
  intros. unfold planar_call, given_or, planar. cbv zeta. rewrite !to_rad_radians.
  match goal with |- context [m_sqrt ?e] => set (q := e) end. assert (0 <= q) as Q.
  { pose proof (Rle_0_sqr ((radians lon2 - radians lon1) * cos (radians lat1))).
    pose proof (Rle_0_sqr (radians lat2 - radians lat1)). unfold q, Rsqr in *. lra. }
  rewrite m_sqrt_ok by exact Q. cbn [bind]. exists (sqrt q). split; [reflexivity|]. split; [apply sqrt_pos|].
  rewrite sqrt_sqrt by exact Q. unfold q, radians. ring.
Qed.

(* area in square kilometres: the whole Earth, and proportional to the square of
   the radius *)
Theorem C115_area : forall lat1 lon1 lat2 lon2,
  area_call lat1 lon1 lat2 lon2 None = (6378137 / 1000) ^ 2 * area_call lat1 lon1 lat2 lon2 (Some 1) /\
  area_call (-90) (-180) 90 180 None = 4 * PI * (6378137 / 1000) ^ 2.
Proof.
  intros. unfold area_call, given_or, WGS84_SMAJ_AXIS. split; [unfold area; cbv zeta; field|].
  rewrite C62_area_sphere. ring.
Qed.

(* the two distance helpers measure in different units: along the equator the
   number of planar is 1000 times that of haversine *)
Theorem C115_units : forall lon1 lon2, Rabs (lon2 - lon1) <= 180 ->
  exists km m, haversine_call 0 lon1 0 lon2 None = Ok km /\ planar_call 0 lon1 0 lon2 None = Ok m /\ m = 1000 * km.
Proof.
  intros lon1 lon2 B. destruct (C115_haversine 0 lon1 0 lon2) as (t & E & T & C).
  destruct (C115_planar 0 lon1 0 lon2) as (d & E2 & D & Q).
  do 2 eexists. split; [exact E|]. split; [exact E2|].
  assert (radians 0 = 0) as R0 by (unfold radians; ring).
  replace (0 - 0) with 0 in Q by ring. rewrite R0, cos_0 in Q.
  pose proof PI_RGT_0 as P.
  assert (d = Rabs (radians (lon2 - lon1))) as ->.
  { rewrite <- (Rabs_pos_eq d) by exact D. apply Rsqr_eq_abs_0. unfold Rsqr. rewrite Q. ring. }
  assert (t = Rabs (radians (lon2 - lon1))) as ->; [|field].
  assert (0 <= Rabs (radians (lon2 - lon1)) <= PI) as B2.
  { split; [apply Rabs_pos|]. unfold radians. rewrite Rabs_mult, (Rabs_pos_eq (PI / 180)) by lra. nra. }
  assert (cos t = cos (Rabs (radians (lon2 - lon1)))) as CE.
  { rewrite C. unfold dot, sphere_point. rewrite R0, sin_0, cos_0.
    transitivity (cos (radians (lon2 - lon1))); [|unfold Rabs; destruct (Rcase_abs _); [symmetry; apply cos_neg|reflexivity]].
    replace (radians (lon2 - lon1)) with (radians lon2 - radians lon1) by (unfold radians; ring). rewrite cos_minus. ring. }
  rewrite <- (acos_cos t) by exact T. rewrite CE. apply acos_cos, B2.
Qed.

(* ---------------------------------------------------- the default ellipsoid *)
(* on the equator 6378137 m from the centre, at the poles 6356752.314245 m
   (to a micrometre), height added along the normal *)
Theorem C115_llh2ecef : forall height,
  llh2ecef_call 0 0 height None None = Ok (6378137 + height, 0, 0) /\
  (exists polar, Rabs (polar - 6356752314245 / 1000000) <= 1 / 1000000 /\
     llh2ecef_call 90 0 height None None = Ok (0, 0, polar + height) /\
     llh2ecef_call (-90) 0 height None None = Ok (0, 0, - (polar + height))).
Proof.
  intros h. unfold llh2ecef_call, given_or.
  assert (WGS84_SMAJ_AXIS <> 0 /\ WGS84_FLATTENING <> 0 /\ WGS84_FLATTENING <> 1) as (A & F & F1)
    by (unfold WGS84_SMAJ_AXIS, WGS84_FLATTENING; repeat split; lra).
  split.
  - destruct (llh2ecef_eq 0 0 h _ _ A F F1) as [_ ->].
    assert (radians 0 = 0) as -> by (unfold radians; ring). rewrite sin_0, cos_0.
    replace (1 - 1 / WGS84_FLATTENING * (2 - 1 / WGS84_FLATTENING) * 0 ^ 2) with 1 by (field; exact F).
    rewrite sqrt_1. unfold WGS84_SMAJ_AXIS. f_equal. f_equal; [f_equal|]; [field|field|ring].
  - exists (6378137 * (1 - 1 / (298257223563 / 1000000000))).
    split; [rewrite Rabs_pos_eq; lra|].
    assert (0 < 1 - 1 / WGS84_FLATTENING) as P by (unfold WGS84_FLATTENING; lra).
    assert (sqrt ((1 - 1 / WGS84_FLATTENING) * (1 - 1 / WGS84_FLATTENING)) = 1 - 1 / WGS84_FLATTENING) as SQ by (apply sqrt_square; lra).
    split.
    + destruct (llh2ecef_eq 90 0 h _ _ A F F1) as [_ ->].
      rewrite radians_90, sin_PI2, cos_PI2.
      replace (1 - 1 / WGS84_FLATTENING * (2 - 1 / WGS84_FLATTENING) * 1 ^ 2) with ((1 - 1 / WGS84_FLATTENING) * (1 - 1 / WGS84_FLATTENING)) by (field; exact F).
      rewrite SQ. unfold WGS84_SMAJ_AXIS, WGS84_FLATTENING in *. f_equal. f_equal; [f_equal|]; field; lra.
    + destruct (llh2ecef_eq (-90) 0 h _ _ A F F1) as [_ ->].
      assert (radians (-90) = - (PI / 2)) as -> by (unfold radians; field). rewrite sin_neg, cos_neg, sin_PI2, cos_PI2.
      replace (1 - 1 / WGS84_FLATTENING * (2 - 1 / WGS84_FLATTENING) * (- (1)) ^ 2) with ((1 - 1 / WGS84_FLATTENING) * (1 - 1 / WGS84_FLATTENING)) by (field; exact F).
      rewrite SQ. unfold WGS84_SMAJ_AXIS, WGS84_FLATTENING in *. f_equal. f_equal; [f_equal|]; field; lra.
Qed.

(* ecef2llh measures heights from the same ellipsoid, and undoes llh2ecef *)
Theorem C115_ecef2llh : forall d, 100000 <= d ->
  ecef2llh_call d 0 0 None None = Ok (0, 0, d - 6378137) /\
  (exists polar, Rabs (polar - 6356752314245 / 1000000) <= 1 / 1000000 /\
     ecef2llh_call 0 0 d None None = Ok (90, 0, d - polar) /\
     ecef2llh_call 0 0 (- d) None None = Ok (-90, 0, d - polar)).
Proof.
  intros d D. unfold ecef2llh_call, given_or. destruct PropsEcef.wgs84_datum as [A F].
  assert (sqrt (d * d + 0 * 0) = d) as SQ by (replace (d * d + 0 * 0) with (d * d) by ring; apply sqrt_square; lra).
  split.
  - destruct (C65_equator d 0 WGS84_SMAJ_AXIS WGS84_FLATTENING A F) as (lon & E & (B & C & S & _)); [rewrite SQ; exact D|].
    rewrite E, SQ in *. unfold WGS84_SMAJ_AXIS at 1. f_equal. f_equal. f_equal.
    pose proof PI_RGT_0 as P.
    assert (radians lon = 0) as R.
    { assert (cos (radians lon) = 1) as CE.
      { apply Rmult_eq_reg_l with d; [lra|lra]. }
      destruct (Req_dec (radians lon) 0) as [Z0|Z0]; [exact Z0|exfalso].
      assert (0 < Rabs (radians lon) <= PI) as AB.
      { split; [apply Rabs_pos_lt, Z0|apply Rabs_le; lra]. }
      assert (cos (Rabs (radians lon)) = 1) as CA by (unfold Rabs; destruct (Rcase_abs _); [rewrite cos_neg|]; exact CE).
      rewrite <- cos_0 in CA. assert (Rabs (radians lon) = 0); [|lra].
      apply cos_inj; try lra; exact CA. }
    unfold radians in R. apply Rmult_integral in R. destruct R as [R|R]; [exact R|lra].
  - exists (6378137 * (1 - 1 / (298257223563 / 1000000000))). split; [rewrite Rabs_pos_eq; lra|].
    apply (C65_poles d WGS84_SMAJ_AXIS WGS84_FLATTENING A F D).
Qed.
Theorem C115_round_trip : forall lat lon h, -90 <= lat <= 90 -> -200000 <= h ->
  exists x y z lat' lon' h',
    llh2ecef_call lat lon h None None = Ok (x, y, z) /\
    ecef2llh_call x y z None None = Ok (lat', lon', h') /\
    Rabs (lat' - lat) <= 2 / 100000000 /\ Rabs (h' - h) <= 2 / 1000 /\
    (-90 < lat < 90 -> -180 < lon <= 180 -> lon' = lon).
Proof. intros lat lon h L H. apply C65_round_trip; try assumption; apply PropsEcef.wgs84_datum. Qed.

(* leaving out only the flattening keeps the WGS84 shape on the given axis *)
Theorem C115_only_axis : forall a height, 0 < a ->
  llh2ecef_call 0 0 height (Some a) None = Ok (a + height, 0, 0) /\
  llh2ecef_call 90 0 height (Some a) None = Ok (0, 0, a * (1 - 1 / (298257223563 / 1000000000)) + height).
Proof.
  intros a h P0. unfold llh2ecef_call, given_or.
  assert (a <> 0 /\ WGS84_FLATTENING <> 0 /\ WGS84_FLATTENING <> 1) as (A & F & F1)
    by (unfold WGS84_FLATTENING; repeat split; lra).
  split.
  - destruct (llh2ecef_eq 0 0 h _ _ A F F1) as [_ ->].
    assert (radians 0 = 0) as -> by (unfold radians; ring). rewrite sin_0, cos_0.
    replace (1 - 1 / WGS84_FLATTENING * (2 - 1 / WGS84_FLATTENING) * 0 ^ 2) with 1 by (field; exact F).
    rewrite sqrt_1. f_equal. f_equal; [f_equal|]; [field|field|ring].
  - assert (0 < 1 - 1 / WGS84_FLATTENING) as P by (unfold WGS84_FLATTENING; lra).
    assert (sqrt ((1 - 1 / WGS84_FLATTENING) * (1 - 1 / WGS84_FLATTENING)) = 1 - 1 / WGS84_FLATTENING) as SQ by (apply sqrt_square; lra).
    destruct (llh2ecef_eq 90 0 h _ _ A F F1) as [_ ->].
    rewrite radians_90, sin_PI2, cos_PI2.
    replace (1 - 1 / WGS84_FLATTENING * (2 - 1 / WGS84_FLATTENING) * 1 ^ 2) with ((1 - 1 / WGS84_FLATTENING) * (1 - 1 / WGS84_FLATTENING)) by (field; exact F).
    rewrite SQ. unfold WGS84_FLATTENING in *. f_equal. f_equal; [f_equal|]; field; lra.
Qed.

(* -------------------------------------------------------------- in binary64 *)
Lemma axis_val : fdata f_SMAJ_AXIS /\ rval f_SMAJ_AXIS = 6378137.
Proof. destruct (f_int 6378137) as (F & V & _); [lia|]. exact (conj F V). Qed.
Lemma km_val : approx f_radius_km (6378137 / 1000) (1 / 1000000000000).
Proof.
  apply (approx_div _ _ _ _ 0 0 6378137 1000 6379 (1 / 1000000000000) (approx_int 6378137 ltac:(lia)) (approx_int 1000 ltac:(lia))); try num;
    rewrite Rabs_pos_eq; lra.
Qed.
Theorem C115_float_haversine : forall L lat1 lon1 lat2 lon2 t, libm_ok L ->
  latitude lat1 -> longitude lon1 -> latitude lat2 -> longitude lon2 ->
  angle_between (rval lat1) (rval lon1) (rval lat2) (rval lon2) t ->
  5 / 100 <= 6378137 / 1000 * t <= 6378137 / 1000 * PI - 5 / 100 ->
  exists d, fhaversine_call L lat1 lon1 lat2 lon2 None = Ok d /\
    Rabs (rval d - 6378137 / 1000 * t) <= 2 / 100000.
Proof. intros L lat1 lon1 lat2 lon2 t K P1 M1 P2 M2. apply C78_default_radius; assumption. Qed.
Theorem C115_float_planar : forall L lat1 lon1 lat2 lon2 t, libm_ok L ->
  latitude lat1 -> longitude lon1 -> latitude lat2 -> longitude lon2 ->
  0 <= t -> t * t = radians (rval lat2 - rval lat1) ^ 2 + (cos (radians (rval lat1)) * radians (rval lon2 - rval lon1)) ^ 2 ->
  exists d, fplanar_call L lat1 lon1 lat2 lon2 None = Ok d /\ fdata d /\ 0 <= rval d /\
    Rabs (rval d - 6378137 * t) <= 13 / 10 ^ 8.
Proof.
  intros L lat1 lon1 lat2 lon2 t K P1 M1 P2 M2 T Q. destruct axis_val as [F V].
  destruct (C79_planar L lat1 lon1 lat2 lon2 f_SMAJ_AXIS t K P1 M1 P2 M2) as (d & E & Fd & N & D); try assumption.
  { split; [exact F|rewrite V; lra]. }
  exists d. split; [exact E|]. split; [exact Fd|]. split; [exact N|]. rewrite V in D.
  replace (10 ^ 14) with 100000000000000 in D by ring. replace (10 ^ 8) with 100000000 by ring. lra.
Qed.
(* to a tenth of a square metre *)
Theorem C115_float_area : forall L lat1 lon1 lat2 lon2, libm_ok L ->
  latitude lat1 -> longitude lon1 -> latitude lat2 -> longitude lon2 ->
  exists d, farea_call L lat1 lon1 lat2 lon2 None = Ok d /\ fdata d /\ 0 <= rval d /\
    Rabs (rval d - (6378137 / 1000) ^ 2 * Rabs (sin (radians (rval lat1)) - sin (radians (rval lat2)))
                     * Rabs (radians (rval lon1) - radians (rval lon2)))
      <= 2 / 10 ^ 6.
Proof.
  intros L lat1 lon1 lat2 lon2 K P1 M1 P2 M2. pose proof km_val as RA. pose proof (approx_bounds _ _ _ RA) as RB.
  destruct (C79_area L lat1 lon1 lat2 lon2 f_radius_km K P1 M1 P2 M2) as (d & E & Fd & N & D).
  { split; [apply RA|lra]. }
  exists d. split; [exact E|]. split; [exact Fd|]. split; [exact N|].
  set (g := Rabs (sin _ - _)) in *. set (w := Rabs (radians _ - _)) in *.
  set (r := rval f_radius_km) in *.
  assert (0 <= g <= 2) as G.
  { unfold g. split; [apply Rabs_pos|]. apply Rabs_le. pose proof (SIN_bound (radians (rval lat1))). pose proof (SIN_bound (radians (rval lat2))). lra. }
  pose proof pi_bounds as PB.
  assert (0 <= w <= 8) as W.
  { unfold w. split; [apply Rabs_pos|]. apply Rabs_le. destruct M1 as [_ M1]. destruct M2 as [_ M2].
    unfold radians. nra. }
  replace (10 ^ 14) with 100000000000000 in D by ring. replace (10 ^ 6) with 1000000 by ring.
  assert (0 <= g * w <= 16) as GW by nra.
  assert (Rabs (r * r - 6378137 / 1000 * (6378137 / 1000)) <= 2 / 100000000) as RR by (apply Rabs_le; split; nra).
  replace (rval d - (6378137 / 1000) ^ 2 * g * w) with ((rval d - r ^ 2 * g * w) + (r * r - 6378137 / 1000 * (6378137 / 1000)) * (g * w)) by ring.
  eapply Rle_trans; [apply Rabs_triang|].
  assert (Rabs ((r * r - 6378137 / 1000 * (6378137 / 1000)) * (g * w)) <= 2 / 100000000 * 16).
  { rewrite Rabs_mult. apply Rmult_le_compat; try apply Rabs_pos; [exact RR|rewrite Rabs_pos_eq; lra]. }
  assert (r ^ 2 * (3 / 100000000000000) <= 15 / 10000000) by nra.
  lra.
Qed.

(* the float constants: 6378137 exactly, and the float next to 298.257223563 *)
Theorem C115_float_given : exists axis flattening km : fl,
  (fdata axis /\ rval axis = 6378137) /\
  (fdata flattening /\ Rabs (rval flattening - 298257223563 / 1000000000) <= 4 / 10 ^ 14) /\
  (fdata km /\ Rabs (rval km - 6378137 / 1000) <= 1 / 10 ^ 12) /\
  forall L p q r s a f x,
  fllh2ecef_call L p q r a f = fllh2ecef L p q r (match a with Some v => v | None => axis end) (match f with Some v => v | None => flattening end) /\
  fecef2llh_call L p q r a f = fecef2llh L p q r (match a with Some v => v | None => axis end) (match f with Some v => v | None => flattening end) /\
  farea_call L p q r s x = farea L p q r s (match x with Some v => v | None => km end) /\
  fhaversine_call L p q r s x = fhaversine L p q r s (match x with Some v => v | None => km end) /\
  fplanar_call L p q r s x = fplanar L p q r s (match x with Some v => v | None => axis end).
Proof.
  exists f_SMAJ_AXIS, f_FLATTENING, f_radius_km. destruct wgs84_values as [_ B]. pose proof km_val as C.
  split; [exact axis_val|]. split; [|split; [|intros; repeat split]].
  - replace (10 ^ 14) with 100000000000000 by ring. split; apply B.
  - replace (10 ^ 12) with 1000000000000 by ring. split; apply C.
Qed.
(* llh2ecef without datum: a position of the WGS84 ellipsoid, within 2e-8 m of
   the one on the ellipsoid of the float constants, up to 20 km of height *)
Theorem C115_float_llh2ecef : forall L lat lon h v, libm_ok L -> latitude lat -> longitude lon ->
  fdata h -> Rabs (rval h) <= 20000 ->
  surface_point (rval f_SMAJ_AXIS) (rval f_SMAJ_AXIS * (1 - 1 / rval f_FLATTENING)) (rval lat) (rval lon) v ->
  exists p, fllh2ecef_call L lat lon h None None = Ok p /\
    within (2 / 10 ^ 8) p (vadd v (vscale (rval h) (sphere_point (rval lat) (rval lon)))).
Proof. intros L lat lon h v. apply C80_wgs84. Qed.

(* ----------------------------------------------------------------- overflow *)
(* pow(radius, 2) of a finite radius that is too large raises; an infinite area
   is never returned for one *)
Theorem C79_overflow : forall L lat1 lon1 lat2 lon2 radius,
  is_fin radius = true -> is_inf (l_pow L radius (f_norm 2 0)) = true ->
  farea L lat1 lon1 lat2 lon2 radius = Raise OverflowError.
Proof. intros L lat1 lon1 lat2 lon2 radius F I. unfold farea, square. rewrite I, F. reflexivity. Qed.
Theorem C80_overflow : forall L lat lon height a f,
  is_zero f = false -> is_fin a = true -> is_inf (l_pow L a (f_norm 2 0)) = true ->
  fllh2ecef L lat lon height a f = Raise OverflowError.
Proof.
  intros L lat lon h a f Z0 F I. unfold fllh2ecef, fdivide. rewrite Z0. cbn [bind]. unfold square at 1. rewrite I, F. reflexivity.
Qed.
(* such a radius: 2 to the power 700, with a pow that multiplies *)
Theorem C79_overflow_example : exists pow_ : fl -> fl -> fl,
  is_fin (f_norm 1 700) = true /\ is_inf (pow_ (f_norm 1 700) (f_norm 2 0)) = true /\
  (forall L lat1 lon1 lat2 lon2,
     farea (mklibm (l_sin L) (l_cos L) (l_asin L) (l_acos L) (l_atan2 L) pow_) lat1 lon1 lat2 lon2 (f_norm 1 700)
     = Raise OverflowError).
Proof.
  exists (fun x _ => fmul x x). split; [vm_compute; reflexivity|]. split; [vm_compute; reflexivity|].
  intros. apply C79_overflow; vm_compute; reflexivity.
Qed.
