(* C79: bearing, planar and area as CPython computes them, in binary64. *)
From Coq Require Import Reals Lia Lra Psatz.
From Flocq Require Import Core BinarySingleNaN.
From Verif Require Import PyFloat FloatProofs PiBounds FloatErr FGeo FGeoSpec LibmExact GeoSpec Geo GeoProofs EcefProofs EcefAccuracy FGeoProofs FGeoProofs2 PropsFGeo.
Local Open Scope R_scope.

(* bearing never raises and returns a number in [0, 360); if the second point is
   seen from the first in the direction b (degrees clockwise from north), and
   rho is the sine of their angular distance, the result is b up to whole turns
   and an error of 1e-12/rho + 2e-13 degrees *)
Theorem C79_bearing : forall L lat1 lon1 lat2 lon2, libm_ok L ->
  latitude lat1 -> longitude lon1 -> latitude lat2 -> longitude lon2 ->
  exists d, fbearing L lat1 lon1 lat2 lon2 = Ok d /\ fdata d /\ 0 <= rval d < 360 /\
    forall b rho, 1 / 10 ^ 12 <= rho ->
      dot (sphere_point (rval lat2) (rval lon2)) (east (rval lat1) (rval lon1)) = rho * sin (radians b) ->
      dot (sphere_point (rval lat2) (rval lon2)) (north (rval lat1) (rval lon1)) = rho * cos (radians b) ->
      exists k : Z, Rabs (rval d - b - 360 * IZR k) <= 1 / 10 ^ 12 / rho + 2 / 10 ^ 13.
Proof.
  intros L lat1 lon1 lat2 lon2 K P1 M1 P2 M2.
  replace (10 ^ 12) with 1000000000000 by ring. replace (10 ^ 13) with 10000000000000 by ring.
  apply bearing_result; assumption.
Qed.

(* from a point to itself: exactly 0 *)
Lemma fmul_comm x y : fmul x y = fmul y x.
Proof.
  unfold fmul, SFmul. destruct x as [s|s| |s m e], y as [t|t| |t n k]; rewrite ?(Bool.xorb_comm s); try reflexivity.
  rewrite (Pos.mul_comm m), (Z.add_comm e). reflexivity.
Qed.
Lemma fmul_one x : fdata x -> fmul x fone = x.
Proof.
  intros F. assert (nearest (xorb (sign_of x) false) (rval x * rval fone) (fmul x fone)) as N
    by (apply fmul_correct; try apply F; reflexivity).
  rewrite rval_one, Rmult_1_r, Bool.xorb_false_r in N.
  apply nearest_fdata in N.
  - rewrite rnd_format in N by (apply fdata_format, F). destruct N as (N1 & N2 & N3). apply fdata_inj; try assumption.
  - rewrite rnd_format by (apply fdata_format, F). apply fdata_huge, F.
Qed.
Theorem C79_bearing_same : forall L lat lon, libm_ok L -> latitude lat -> longitude lon ->
  fbearing L lat lon lat lon = Ok fzero.
Proof.
  intros L lat lon K P M. pose proof (lat_rad lat P) as A. destruct (lon_rad lon M) as [FM _].
  destruct (approx_cos L _ _ _ (66 / 100000000000000000) K A) as [C Co]; [unfold eps1; lra|].
  destruct (approx_sin L _ _ _ (66 / 100000000000000000) K A) as [S So]; [unfold eps1; lra|].
  unfold fbearing. cbv zeta. rewrite (fsub_self (deg2rad lon)) by apply FM.
  assert (math1 (l_sin L) fzero = Ok fzero) as S0 by (unfold math1; rewrite (sin_zero L K); reflexivity).
  assert (math1 (l_cos L) fzero = Ok fone) as C0 by (unfold math1; rewrite (cos_zero L K); reflexivity).
  rewrite S0, Co, So, C0. cbn [bind].
  set (c := l_cos L (deg2rad lat)) in *. set (s := l_sin L (deg2rad lat)) in *.
  assert (approx (fmul s c) (sin (radians (rval lat)) * cos (radians (rval lat))) 4) as Q.
  { eapply approx_mul with (A := 1) (B := 1); [exact S|exact C|apply sin_abs1|apply cos_abs| |]; num. }
  rewrite (fmul_comm c s), fmul_one by apply Q. rewrite fsub_self by apply Q.
  rewrite fmul_comm, fmul_zero by apply C.
  assert (sign_of c = false) as ->.
  { apply pos_sign; [apply C|].
    pose proof (lat_rad_pi2 lat P) as B. rewrite py_pi_val in B. pose proof pi_bounds as PB.
    destruct (cos_ok L K (deg2rad lat) (proj1 A)) as [_ CF]. fold c in CF. set (x := rval (deg2rad lat)) in *.
    assert (5 / 100000000000000000 <= cos x) as LB.
    { assert (cos x = cos (Rabs x)) as -> by (unfold Rabs; destruct (Rcase_abs x); rewrite ?cos_neg; reflexivity).
      assert (Rabs x <= PI / 2 - 6 / 100000000000000000) as XB by (apply Rabs_le; lra).
      set (h := 6 / 100000000000000000) in *. apply Rle_trans with (cos (PI / 2 - h)).
      - rewrite cos_shift. pose proof (sin_low h ltac:(unfold h; lra)). unfold h in *. lra.
      - apply cos_decr_1; try (apply Rabs_pos); unfold h in *; lra. }
    pose proof (ulp_rel (cos x)) as U. rewrite Rabs_pos_eq in U by lra. apply Rabs_lt_inv in CF.
    pose proof (COS_bound x). num. }
  change (S754_zero false) with fzero. rewrite (atan2_zero L K). vm_compute. reflexivity.
Qed.

(* ---------------------------------------------------------------- planar *)
(* planar never raises; its result is within 2e-14 radius of the flat distance
   t (with the longitude difference shortened by the cosine of the first
   latitude) *)
Theorem C79_planar : forall L lat1 lon1 lat2 lon2 radius t, libm_ok L ->
  latitude lat1 -> longitude lon1 -> latitude lat2 -> longitude lon2 -> sphere_radius radius ->
  0 <= t -> t * t = radians (rval lat2 - rval lat1) ^ 2 + (cos (radians (rval lat1)) * radians (rval lon2 - rval lon1)) ^ 2 ->
  exists d, fplanar L lat1 lon1 lat2 lon2 radius = Ok d /\ fdata d /\ 0 <= rval d /\
    Rabs (rval d - rval radius * t) <= rval radius * (2 / 10 ^ 14).
Proof.
  intros L lat1 lon1 lat2 lon2 radius t K P1 M1 P2 M2 R T0 TT.
  destruct (planar_result L lat1 lon1 lat2 lon2 radius K P1 M1 P2 M2 R) as (d & E & F & N & D).
  exists d. split; [exact E|]. split; [exact F|]. split; [exact N|].
  replace (10 ^ 14) with 100000000000000 by ring.
  match type of D with context [sqrt ?q] => replace (sqrt q) with t in D end; [exact D|].
  transitivity (sqrt (t * t)); [symmetry; apply sqrt_square, T0|rewrite TT; f_equal; ring].
Qed.
Theorem C79_planar_same : forall L lat lon radius, libm_ok L -> latitude lat -> longitude lon -> fdata radius -> sign_of radius = false ->
  fplanar L lat lon lat lon radius = Ok fzero.
Proof.
  intros L lat lon radius K P M [_ R] S. pose proof (lat_rad lat P) as A. destruct (lon_rad lon M) as [FM _].
  destruct (approx_cos L _ _ _ (66 / 100000000000000000) K A) as [C Co]; [unfold eps1; lra|].
  unfold fplanar. cbv zeta. rewrite Co. cbn [bind]. rewrite (fsub_self (deg2rad lon)), (fsub_self (deg2rad lat)) by (apply FM || apply A).
  rewrite (fmul_comm fzero), fmul_zero by apply C.
  assert (forall g, math_sqrt (fadd (fmul (S754_zero g) (S754_zero g)) (fmul fzero fzero)) = Ok fzero) as -> by (intros []; reflexivity).
  cbn [bind]. rewrite fmul_zero by exact R. rewrite S. reflexivity.
Qed.

(* ------------------------------------------------------------------ area *)
(* area never raises; its result is within 3e-14 radius^2 of the area of the
   patch (which C62_area_is_surface identifies as the surface integral) *)
Theorem C79_area : forall L lat1 lon1 lat2 lon2 radius, libm_ok L ->
  latitude lat1 -> longitude lon1 -> latitude lat2 -> longitude lon2 -> sphere_radius radius ->
  exists d, farea L lat1 lon1 lat2 lon2 radius = Ok d /\ fdata d /\ 0 <= rval d /\
    Rabs (rval d - rval radius ^ 2 * Rabs (sin (radians (rval lat1)) - sin (radians (rval lat2)))
                     * Rabs (radians (rval lon1) - radians (rval lon2)))
      <= rval radius ^ 2 * (3 / 10 ^ 14).
Proof.
  intros L lat1 lon1 lat2 lon2 radius K P1 M1 P2 M2 R.
  destruct (area_result L lat1 lon1 lat2 lon2 radius K P1 M1 P2 M2 R) as (d & E & F & N & D).
  exists d. split; [exact E|]. split; [exact F|]. split; [exact N|].
  replace (10 ^ 14) with 100000000000000 by ring. replace (rval radius ^ 2) with (rval radius * rval radius) by ring.
  match goal with |- Rabs (_ - ?e) <= _ => replace e with (area (rval lat1) (rval lon1) (rval lat2) (rval lon2) (rval radius)) end; [exact D|].
  unfold area. rewrite !to_rad_radians. replace (radians (rval lon1) - radians (rval lon2)) with ((rval lon1 - rval lon2) * (PI / 180)) by (unfold radians; ring).
  rewrite Rabs_mult, (Rabs_pos_eq (PI / 180)) by (pose proof PI_RGT_0; lra). field.
Qed.

(* the order of the corners does not matter at all *)
Lemma rnd_opp r : rnd (- r) = - rnd r.
Proof. unfold rnd. apply round_NE_opp. Qed.
Lemma fabs_fsub_comm x y : fdata x -> fdata y -> Rabs (rval x) <= 1000 -> Rabs (rval y) <= 1000 -> fabs (fsub x y) = fabs (fsub y x).
Proof.
  intros Fx Fy Bx By. assert (forall u v, fdata u -> fdata v -> Rabs (rval u) <= 1000 -> Rabs (rval v) <= 1000 -> fdata (fsub u v)) as F.
  { intros u v Fu Fv Bu Bv. assert (approx (fsub u v) (rval u - rval v) 1) as [Q _]; [|exact Q].
    eapply approx_sub with (M := 2000); [apply approx_exact, Fu|apply approx_exact, Fv|eapply abs_sub_le; [exact Bu|exact Bv|lra]| |]; num. }
  pose proof (F x y Fx Fy Bx By) as F1. pose proof (F y x Fy Fx By Bx) as F2.
  destruct (fabs_correct _ (proj1 F1)) as (V1 & R1 & G1 & S1). destruct (fabs_correct _ (proj1 F2)) as (V2 & R2 & G2 & S2).
  apply fdata_inj; [split; [exact V1|rewrite G1; apply F1]|split; [exact V2|rewrite G2; apply F2]| |rewrite S1, S2; reflexivity].
  rewrite R1, R2, !fsub_val by assumption. replace (rval x - rval y) with (- (rval y - rval x)) by ring. rewrite rnd_opp. apply Rabs_Ropp.
Qed.
Theorem C79_area_symmetric : forall L lat1 lon1 lat2 lon2 radius, libm_ok L ->
  latitude lat1 -> longitude lon1 -> latitude lat2 -> longitude lon2 ->
  farea L lat1 lon1 lat2 lon2 radius = farea L lat2 lon2 lat1 lon1 radius.
Proof.
  intros L lat1 lon1 lat2 lon2 radius K P1 M1 P2 M2. unfold farea. cbv zeta.
  destruct (square L radius) as [r2|]; [|reflexivity]. cbn [bind].
  destruct (lat_rad lat1 P1) as [F1 _]. destruct (lat_rad lat2 P2) as [F2 _].
  pose proof (sin_ok L K _ F1) as [G1 _]. pose proof (sin_ok L K _ F2) as [G2 _].
  rewrite (math1_ok _ _ (proj2 G1)), (math1_ok _ _ (proj2 G2)). cbn [bind]. do 2 f_equal.
  rewrite (fabs_fsub_comm (l_sin L (deg2rad lat1))); try assumption; try (eapply Rle_trans; [apply sin_unit; assumption|lra]).
  rewrite (fabs_fsub_comm lon1); try apply M1; try apply M2; [reflexivity| |]; destruct M1, M2; apply Rabs_le; lra.
Qed.

(* the hypotheses are met: with a correctly rounding library, from 0N 0E a
   quarter of the equator eastwards is in direction 90, and the octant there
   has a fourth of the hemisphere's area *)
Theorem C79_example :
  (exists d k, fbearing exact_libm (f_norm 0 0) (f_norm 0 0) (f_norm 0 0) (f_norm 90 0) = Ok d /\
     Rabs (rval d - 90 - 360 * IZR k) <= 2 / 10 ^ 12) /\
  (exists d, fplanar exact_libm (f_norm 0 0) (f_norm 0 0) (f_norm 0 0) (f_norm 90 0) (f_norm 1 0) = Ok d /\
     Rabs (rval d - PI / 2) <= 2 / 10 ^ 14) /\
  (exists d, farea exact_libm (f_norm 0 0) (f_norm 0 0) (f_norm 90 0) (f_norm 90 0) (f_norm 1 0) = Ok d /\
     Rabs (rval d - PI / 2) <= 3 / 10 ^ 14).
Proof.
  pose proof pi_bounds as PB. pose proof exact_libm_ok as K.
  assert (sphere_radius (f_norm 1 0)) as R1.
  { destruct (f_int 1) as (F & V & _); [lia|]. split; [exact F|rewrite V; lra]. }
  assert (radians 0 = 0) as Z0 by (unfold radians; ring). assert (radians 90 = PI / 2) as Z9 by (unfold radians; field).
  split; [|split].
  - destruct (C79_bearing exact_libm (f_norm 0 0) (f_norm 0 0) (f_norm 0 0) (f_norm 90 0) K) as (d & E & _ & _ & H);
      try (apply lat_int; lia); try (apply lon_int; lia).
    destruct (H 90 1) as [k Hk].
    + replace (10 ^ 12) with 1000000000000 by ring. lra.
    + rewrite !val_int by lia. unfold dot, sphere_point, east. rewrite Z0, Z9, cos_0, sin_0, cos_PI2, sin_PI2. ring.
    + rewrite !val_int by lia. unfold dot, sphere_point, north. rewrite Z0, Z9, cos_0, sin_0, cos_PI2. ring.
    + exists d, k. split; [exact E|]. eapply Rle_trans; [exact Hk|].
      replace (10 ^ 12) with 1000000000000 by ring. replace (10 ^ 13) with 10000000000000 by ring. lra.
  - destruct (C79_planar exact_libm (f_norm 0 0) (f_norm 0 0) (f_norm 0 0) (f_norm 90 0) (f_norm 1 0) (PI / 2) K) as (d & E & _ & _ & H);
      try (apply lat_int; lia); try (apply lon_int; lia); try assumption; try lra.
    + rewrite !val_int by lia. rewrite Rminus_0_r, Rminus_0_r, Z0, Z9, cos_0. ring.
    + exists d. split; [exact E|]. rewrite !val_int, !Rmult_1_l in H by lia. exact H.
  - destruct (C79_area exact_libm (f_norm 0 0) (f_norm 0 0) (f_norm 90 0) (f_norm 90 0) (f_norm 1 0) K) as (d & E & _ & _ & H);
      try (apply lat_int; lia); try (apply lon_int; lia); try assumption.
    exists d. split; [exact E|]. rewrite !val_int in H by lia. rewrite Z0, Z9, sin_0, sin_PI2 in H.
    rewrite !Rminus_0_l, !Rabs_Ropp, Rabs_R1, (Rabs_pos_eq (PI / 2)), pow1, !Rmult_1_l in H by lra. exact H.
Qed.
