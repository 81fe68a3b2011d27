(* C80: llh2ecef as CPython computes it, in binary64. *)
From Coq Require Import Reals Lia Lra Psatz.
From Flocq Require Import Core BinarySingleNaN.
From Verif Require Import PyFloat FloatProofs PiBounds FloatErr FGeo FGeoSpec LibmExact GeoSpec Geo GeoProofs EcefProofs FGeoProofs FGeoProofs2 FGeoProofs3 PropsFGeo.
Local Open Scope R_scope.

(* an ellipsoid in use for the Earth, as floats: equatorial semi-axis 6300 to
   6400 km, inverse flattening at least 290 *)
Definition geodetic_datum (a f : fl) : Prop :=
  fdata a /\ 6300000 <= rval a <= 6400000 /\ fdata f /\ 290 <= rval f.

(* v is the point of the ellipsoid (a, b) with geodetic latitude and longitude
   lat and lon: the outward normal there, a positive multiple of the gradient of
   the ellipsoid's equation, has that latitude and longitude *)
Definition surface_point (a b lat lon : R) (v : vec) : Prop :=
  on_ellipsoid a b v /\
  exists k, 0 < k /\ let '(x, y, z) := v in (x / (a * a), y / (a * a), z / (b * b)) = vscale k (sphere_point lat lon).

(* every component of p is within e of the one of q *)
Definition within (e : R) (p : fl * fl * fl) (q : vec) : Prop :=
  let '(x, y, z) := p in let '(u, v, w) := q in
  (fdata x /\ Rabs (rval x - u) <= e) /\ (fdata y /\ Rabs (rval y - v) <= e) /\ (fdata z /\ Rabs (rval z - w) <= e).

Lemma approx_eqr x r r' e : approx x r e -> r = r' -> fdata x /\ Rabs (rval x - r') <= e.
Proof. intros H <-. exact H. Qed.
Lemma within_weaken e e' p q : within e p q -> e <= e' -> within e' p q.
Proof. destruct p as [[x y] z], q as [[u v] w]. intros ([X1 X] & [Y1 Y] & [W1 W]) H. unfold within. repeat split; try apply X1; try apply Y1; try apply W1; lra. Qed.
(* the constants of nmeatypes_core.py *)
Lemma wgs84_values : approx f_SMAJ_AXIS 6378137 0 /\ approx f_FLATTENING (298257223563 / 1000000000) (4 / 100000000000000).
Proof.
  split; [apply (approx_int 6378137); lia|].
  pose proof (f_of_dec_correct false 298257223563 (-9)) as N. fold f_FLATTENING in N. cbn [signR] in N.
  eapply approx_nearest with (d := 0) (M := 299); [exact N| | | |]; try num.
  - replace (IZR (Z.of_N 298257223563) * pow10 (-9)) with (298257223563 / 1000000000); [rewrite Rminus_diag_eq, Rabs_R0 by reflexivity; lra|].
    unfold pow10. change (powerRZ 10 (-9)) with (/ 10 ^ 9). change (IZR (Z.of_N 298257223563)) with 298257223563. field.
  - rewrite Rabs_pos_eq; lra.
Qed.
Lemma wgs84_datum : geodetic_datum f_SMAJ_AXIS f_FLATTENING.
Proof.
  destruct wgs84_values as [A B]. pose proof (approx_bounds _ _ _ A). pose proof (approx_bounds _ _ _ B).
  repeat split; try apply A; try apply B; lra.
Qed.

Lemma surface_radius a F lat lon v : 0 < a -> 0 <= F <= 345 / 100000 -> surface_point a (a * (1 - F)) lat lon v ->
  let N := a / sqrt (1 - F * (2 - F) * (sin (radians lat) * sin (radians lat))) in
  v = (N * cos (radians lat) * cos (radians lon), N * cos (radians lat) * sin (radians lon), (1 - F * (2 - F)) * N * sin (radians lat)).
Proof.
  intros A BF [E (k & K & V)] N. destruct v as [[x y] z]. unfold on_ellipsoid in E.
  assert (0 < a * (1 - F)) as B by (apply Rmult_lt_0_compat; lra).
  set (b := a * (1 - F)) in *. unfold vscale, sphere_point in V.
  set (s := sin (radians lat)) in *. set (c := cos (radians lat)) in *. set (sl := sin (radians lon)) in *. set (cl := cos (radians lon)) in *.
  assert (s * s + c * c = 1) as SC by (unfold s, c; pose proof (sin2_cos2 (radians lat)) as Q; unfold Rsqr in Q; exact Q).
  assert (sl * sl + cl * cl = 1) as SL by (unfold sl, cl; pose proof (sin2_cos2 (radians lon)) as Q; unfold Rsqr in Q; exact Q).
  assert (x = k * (a * a) * (c * cl)) as X by (apply (f_equal (fun q => fst (fst q) * (a * a))) in V; cbn [fst snd] in V; rewrite <- (Rmult_1_r x); replace 1 with (/ (a * a) * (a * a)) by (field; lra); unfold Rdiv in V; lra).
  assert (y = k * (a * a) * (c * sl)) as Y by (apply (f_equal (fun q => snd (fst q) * (a * a))) in V; cbn [fst snd] in V; rewrite <- (Rmult_1_r y); replace 1 with (/ (a * a) * (a * a)) by (field; lra); unfold Rdiv in V; lra).
  assert (z = k * (b * b) * s) as ZZ by (apply (f_equal (fun q => snd q * (b * b))) in V; cbn [fst snd] in V; rewrite <- (Rmult_1_r z); replace 1 with (/ (b * b) * (b * b)) by (field; lra); unfold Rdiv in V; lra).
  assert (s * s <= 1) as S1 by (pose proof (sq_nonneg c); lra). pose proof (sq_nonneg s) as S0.
  set (g := 1 - F * (2 - F) * (s * s)) in *.
  assert (b * b = a * a * (1 - F * (2 - F))) as BB by (unfold b; ring).
  assert (k * a * (k * a) * g = 1) as G.
  { rewrite <- E, X, Y, ZZ.
    replace ((k * (a * a) * (c * cl) * (k * (a * a) * (c * cl)) + k * (a * a) * (c * sl) * (k * (a * a) * (c * sl))) / (a * a))
      with (k * k * (a * a) * (c * c) * (sl * sl + cl * cl)) by (field; lra).
    replace (k * (b * b) * s * (k * (b * b) * s) / (b * b)) with (k * k * (b * b) * (s * s)) by (field; lra).
    rewrite SL, BB. unfold g. replace (c * c) with (1 - s * s) by lra. ring. }
  assert (0 < g) as GP.
  { unfold g. assert (F * (2 - F) <= 69 / 10000) by nra. assert (0 <= F * (2 - F)) by (apply Rmult_le_pos; lra). nra. }
  assert (k * a * sqrt g = 1) as KG.
  { assert (0 < k * a) by (apply Rmult_lt_0_compat; lra). rewrite <- (sqrt_square (k * a)) by lra. rewrite <- sqrt_mult_alt by (apply Rmult_le_pos; lra).
    rewrite G. apply sqrt_1. }
  assert (0 < sqrt g) as SG by (apply sqrt_lt_R0, GP).
  assert (N = k * (a * a)) as NK.
  { unfold N. apply (Rmult_eq_reg_r (sqrt g)); [|lra]. unfold Rdiv. rewrite Rmult_assoc, Rinv_l by lra.
    replace (k * (a * a) * sqrt g) with (a * (k * a * sqrt g)) by ring. rewrite KG. ring. }
  rewrite NK, X, Y, ZZ, BB. f_equal; [f_equal|]; ring.
Qed.

(* llh2ecef never raises; its result is within 2.5e-15 (6430 km + |height|) of
   the point at that height above the point of the ellipsoid with that geodetic
   latitude and longitude, along the outward normal there *)
Theorem C80_llh2ecef : forall L lat lon h a f v, libm_ok L -> latitude lat -> longitude lon ->
  fdata h -> Rabs (rval h) <= 10 ^ 12 -> geodetic_datum a f ->
  surface_point (rval a) (rval a * (1 - 1 / rval f)) (rval lat) (rval lon) v ->
  exists p, fllh2ecef L lat lon h a f = Ok p /\
    within ((6430000 + Rabs (rval h)) * (25 / 10 ^ 16)) p
           (vadd v (vscale (rval h) (sphere_point (rval lat) (rval lon)))).
Proof.
  intros L lat lon h a f v K P M FH BH (FA & BA & FF & BF) V.
  replace (10 ^ 16) with 10000000000000000 by ring. replace (10 ^ 12) with 1000000000000 in BH by ring.
  destruct (llh2ecef_result L lat lon h a f K P M FH BH FA BA FF BF) as (x & y & z & E & X & Y & Z0).
  destruct (ecc_result f FF BF) as (_ & BF1 & _).
  pose proof (surface_radius (rval a) (1 / rval f) (rval lat) (rval lon) v ltac:(lra) BF1 V) as ->.
  cbv zeta in X, Y, Z0. exists (x, y, z). split; [exact E|]. unfold within, vadd, vscale, sphere_point.
  set (N := rval a / _) in *. 
  split; [|split].
  - eapply approx_eqr; [exact X|ring].
  - eapply approx_eqr; [exact Y|ring].
  - eapply approx_eqr; [exact Z0|ring].
Qed.

(* the WGS84 defaults: up to 20 km of height, within 2e-8 m *)
Theorem C80_wgs84 : forall L lat lon h v, libm_ok L -> latitude lat -> longitude lon ->
  fdata h -> Rabs (rval h) <= 20000 ->
  surface_point (rval f_SMAJ_AXIS) (rval f_SMAJ_AXIS * (1 - 1 / rval f_FLATTENING)) (rval lat) (rval lon) v ->
  exists p, fllh2ecef L lat lon h f_SMAJ_AXIS f_FLATTENING = Ok p /\
    within (2 / 10 ^ 8) p (vadd v (vscale (rval h) (sphere_point (rval lat) (rval lon)))).
Proof.
  intros L lat lon h v K P M FH BH V.
  destruct (C80_llh2ecef L lat lon h f_SMAJ_AXIS f_FLATTENING v K P M FH) as (p & E & W); try assumption.
  - replace (10 ^ 12) with 1000000000000 by ring. lra.
  - apply wgs84_datum.
  - exists p. split; [exact E|]. eapply within_weaken; [exact W|].
    replace (10 ^ 16) with 10000000000000000 by ring. replace (10 ^ 8) with 100000000 by ring. lra.
Qed.

(* the hypotheses are met: with a correctly rounding library, at 0N 0E and a
   height of 1000 m *)
Theorem C80_example :
  surface_point (rval f_SMAJ_AXIS) (rval f_SMAJ_AXIS * (1 - 1 / rval f_FLATTENING)) (rval (f_norm 0 0)) (rval (f_norm 0 0)) (6378137, 0, 0) /\
  exists p, fllh2ecef exact_libm (f_norm 0 0) (f_norm 0 0) (f_norm 1000 0) f_SMAJ_AXIS f_FLATTENING = Ok p /\
    within (2 / 10 ^ 8) p (6379137, 0, 0).
Proof.
  destruct wgs84_values as [A B]. pose proof (approx_bounds _ _ _ A) as BA. pose proof (approx_bounds _ _ _ B) as BB.
  assert (rval f_SMAJ_AXIS = 6378137) as VA by lra.
  assert (surface_point (rval f_SMAJ_AXIS) (rval f_SMAJ_AXIS * (1 - 1 / rval f_FLATTENING)) (rval (f_norm 0 0)) (rval (f_norm 0 0)) (6378137, 0, 0)) as V.
  { rewrite VA, val_int by lia. assert (0 < 1 - 1 / rval f_FLATTENING) as P.
    { assert (1 / rval f_FLATTENING < 1); [|lra]. apply (Rmult_lt_reg_r (rval f_FLATTENING)); [lra|].
      unfold Rdiv. rewrite Rmult_assoc, Rinv_l; lra. }
    set (b := 6378137 * (1 - 1 / rval f_FLATTENING)) in *. assert (0 < b) by (unfold b; lra).
    split; [unfold on_ellipsoid; field; lra|]. exists (/ 6378137). split; [lra|].
    unfold vscale, sphere_point, radians. replace (0 * (PI / 180)) with 0 by ring. rewrite cos_0, sin_0.
    f_equal; [f_equal|]; field; lra. }
  split; [exact V|].
  destruct (C80_wgs84 exact_libm (f_norm 0 0) (f_norm 0 0) (f_norm 1000 0) (6378137, 0, 0) exact_libm_ok) as (p & E & W).
  - apply lat_int; lia.
  - apply lon_int; lia.
  - destruct (f_int 1000) as (F & _); [lia|exact F].
  - rewrite val_int by lia. rewrite Rabs_pos_eq; lra.
  - exact V.
  - exists p. split; [exact E|]. rewrite !val_int in W by lia. unfold vadd, vscale, sphere_point, radians in W.
    replace (0 * (PI / 180)) with 0 in W by ring. rewrite cos_0, sin_0 in W.
    match type of W with within _ _ ?q => replace q with (6379137, 0, 0) in W end; [exact W|].
    f_equal; [f_equal|]; ring.
Qed.
