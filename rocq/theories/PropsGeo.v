(* C62-C64: the spherical and ellipsoidal helpers, over the real numbers (see
   Geo.v for what that idealisation leaves out). *)
From Coq Require Import Reals Lra Lia Psatz.
From Coquelicot Require Import Coquelicot.
From Verif Require Import PyBase Geo GeoSpec GeoProofs.
Open Scope R_scope.

(* ------------------------------------------------------------------ *)
(* C62: area *)

(* area is the surface integral of radius^2 cos(latitude) over the rectangle of
   latitudes and longitudes: the area of that patch of the sphere *)
Theorem C62_area_is_surface : forall lat1 lon1 lat2 lon2 radius,
  -90 <= lat1 <= lat2 -> lat2 <= 90 -> lon1 <= lon2 ->
  is_RInt (fun _ => RInt (fun phi => radius * radius * cos phi) (radians lat1) (radians lat2))
          (radians lon1) (radians lon2)
          (area lat1 lon1 lat2 lon2 radius).
Proof.
  intros lat1 lon1 lat2 lon2 radius L1 L2 L3.
  assert (I : is_RInt (fun phi => radius * radius * cos phi) (radians lat1) (radians lat2)
                      (minus (radius * radius * sin (radians lat2))
                             (radius * radius * sin (radians lat1)))).
  { apply (is_RInt_derive (fun p => radius * radius * sin p)).
    - intros x _. auto_derive; [exact I|ring].
    - intros x _. apply (ex_derive_continuous (fun p => radius * radius * cos p)).
      auto_derive. exact I. }
  rewrite (is_RInt_unique _ _ _ _ I).
  replace (area lat1 lon1 lat2 lon2 radius)
    with (scal (radians lon2 - radians lon1)
               (minus (radius * radius * sin (radians lat2))
                      (radius * radius * sin (radians lat1)))).
  - apply @is_RInt_const.
  - unfold scal, minus, plus, opp; simpl; unfold mult; simpl.
    unfold area; cbv zeta. rewrite !to_rad_radians.
    assert (M : sin (radians lat1) <= sin (radians lat2)).
    { apply sin_incr_1.
      - rewrite <- radians_90, <- radians_opp. apply radians_le; lra.
      - rewrite <- radians_90. apply radians_le; lra.
      - rewrite <- radians_90, <- radians_opp. apply radians_le; lra.
      - rewrite <- radians_90. apply radians_le; lra.
      - apply radians_le; lra. }
    rewrite Rabs_minus_sym, (Rabs_minus_sym lon1).
    rewrite !Rabs_pos_eq by lra.
    unfold radians at 1 2. field.
Qed.

(* the order of the corners does not matter *)
Theorem C62_area_symmetric : forall lat1 lon1 lat2 lon2 radius,
  area lat1 lon1 lat2 lon2 radius = area lat2 lon2 lat1 lon1 radius /\
  area lat1 lon1 lat2 lon2 radius = area lat2 lon1 lat1 lon2 radius.
Proof.
  intros; unfold area; cbv zeta.
  rewrite (Rabs_minus_sym (sin (to_rad lat1)) (sin (to_rad lat2))), (Rabs_minus_sym lon1 lon2).
  split; reflexivity.
Qed.

Theorem C62_area_nonnegative : forall lat1 lon1 lat2 lon2 radius,
  0 <= area lat1 lon1 lat2 lon2 radius.
Proof.
  intros; unfold area; cbv zeta. pose proof PI_RGT_0.
  unfold Rdiv. apply Rmult_le_pos; [|lra].
  apply Rmult_le_pos; [|apply Rabs_pos]. apply Rmult_le_pos; [|apply Rabs_pos].
  apply Rmult_le_pos; [apply pow2_ge_0|lra].
Qed.

(* within the latitudes -90..90 and for a real sphere, the area is 0 exactly on
   degenerate rectangles *)
Theorem C62_area_zero : forall lat1 lon1 lat2 lon2 radius,
  -90 <= lat1 <= 90 -> -90 <= lat2 <= 90 -> radius <> 0 ->
  (area lat1 lon1 lat2 lon2 radius = 0 <-> lat1 = lat2 \/ lon1 = lon2).
Proof.
  intros lat1 lon1 lat2 lon2 radius L1 L2 Rn; unfold area; cbv zeta.
  rewrite !to_rad_radians. pose proof PI_RGT_0. split.
  - intros H0. assert (Q : Rabs (sin (radians lat1) - sin (radians lat2)) * Rabs (lon1 - lon2) = 0).
    { assert (K : radius ^ 2 * PI <> 0).
      { apply Rmult_integral_contrapositive_currified; [|lra].
        simpl. rewrite Rmult_1_r. apply Rmult_integral_contrapositive_currified; assumption. }
      apply Rmult_eq_reg_l with (radius ^ 2 * PI); [|exact K].
      rewrite Rmult_0_r. unfold Rdiv in H0. rewrite <- Rmult_assoc.
      apply Rmult_eq_reg_r with (/ 180); [|lra]. rewrite H0. ring. }
    apply Rmult_integral in Q. destruct Q as [Q|Q].
    + left. apply radians_inj.
      assert (E : sin (radians lat1) = sin (radians lat2)).
      { destruct (Req_dec (sin (radians lat1) - sin (radians lat2)) 0); [lra|].
        exfalso; eapply Rabs_no_R0; eassumption. }
      destruct (Rtotal_order lat1 lat2) as [T|[T|T]].
      * apply radians_lt in T.
        assert (sin (radians lat1) < sin (radians lat2)); [|lra].
        apply sin_increasing_1; try assumption;
          rewrite <- ?radians_90, <- ?radians_opp; apply radians_le; lra.
      * rewrite T; reflexivity.
      * apply radians_lt in T.
        assert (sin (radians lat2) < sin (radians lat1)); [|lra].
        apply sin_increasing_1; try assumption;
          rewrite <- ?radians_90, <- ?radians_opp; apply radians_le; lra.
    + right. destruct (Req_dec (lon1 - lon2) 0); [lra|].
      exfalso; eapply Rabs_no_R0; eassumption.
  - intros [->| ->].
    + rewrite Rminus_eq_0, Rabs_R0. field.
    + rewrite Rminus_eq_0, Rabs_R0. field.
Qed.

Theorem C62_area_turn : forall lat1 lon1 lat2 lon2 radius t,
  area lat1 (lon1 + t) lat2 (lon2 + t) radius = area lat1 lon1 lat2 lon2 radius.
Proof.
  intros; unfold area; cbv zeta.
  replace (lon1 + t - (lon2 + t)) with (lon1 - lon2) by ring. reflexivity.
Qed.

(* ... but turning only one longitude by 360 degrees does change it: the
   rectangle is taken the way the numbers say, not the short way round *)
Theorem C62_area_one_turn_refuted :
  exists lat1 lon1 lat2 lon2 radius, 0 < radius /\
    area lat1 (lon1 + 360) lat2 lon2 radius <> area lat1 lon1 lat2 lon2 radius.
Proof.
  exists 0, 0, 90, 0, 1. split; [lra|].
  intro H. assert (Z0 : area 0 0 90 0 1 = 0) by (apply C62_area_zero; try lra; right; reflexivity).
  rewrite Z0 in H. apply C62_area_zero in H; lra.
Qed.

(* the whole sphere, and splitting a rectangle at an inner meridian or parallel *)
Theorem C62_area_sphere : forall radius,
  area (-90) (-180) 90 180 radius = 4 * PI * (radius * radius).
Proof.
  intros; unfold area; cbv zeta. rewrite !to_rad_radians.
  replace (-90) with (Ropp 90) by lra. rewrite radians_opp, radians_90, sin_neg, sin_PI2.
  rewrite Rabs_left, Rabs_left by lra. field.
Qed.
Theorem C62_area_additive : forall lat1 lat lat2 lon1 lon lon2 radius,
  -90 <= lat1 <= lat -> lat <= lat2 <= 90 -> lon1 <= lon <= lon2 ->
  area lat1 lon1 lat2 lon2 radius
  = area lat1 lon1 lat lon radius + area lat1 lon lat lon2 radius
    + area lat lon1 lat2 lon radius + area lat lon lat2 lon2 radius.
Proof.
  intros lat1 lat lat2 lon1 lon lon2 radius A B C. unfold area; cbv zeta.
  rewrite !to_rad_radians.
  assert (M : forall p q, -90 <= p <= q -> q <= 90 -> sin (radians p) <= sin (radians q)).
  { intros p q P Q. apply sin_incr_1; rewrite <- ?radians_90, <- ?radians_opp;
      apply radians_le; lra. }
  pose proof (M lat1 lat ltac:(lra) ltac:(lra)). pose proof (M lat lat2 ltac:(lra) ltac:(lra)).
  rewrite !Rabs_left1 by lra. field.
Qed.

(* ------------------------------------------------------------------ *)
(* C62: haversine *)

(* haversine never raises; its result is the radius times the angle between the
   two points of the sphere *)
Theorem C62_haversine_great_circle : forall lat1 lon1 lat2 lon2 radius,
  exists angle,
    haversine lat1 lon1 lat2 lon2 radius = Ok (radius * angle) /\
    0 <= angle <= PI /\
    cos angle = dot (sphere_point lat1 lon1) (sphere_point lat2 lon2).
Proof.
  intros. eexists; split; [apply haversine_eq|]. split; [apply acos_bound|].
  apply cos_acos. apply dot_bound; apply unit_point.
Qed.

Theorem C62_haversine_symmetric : forall lat1 lon1 lat2 lon2 radius,
  haversine lat1 lon1 lat2 lon2 radius = haversine lat2 lon2 lat1 lon1 radius.
Proof.
  intros. rewrite !haversine_eq. do 3 f_equal. unfold dot, sphere_point; ring.
Qed.

(* for a real sphere: between 0 and half a circumference, and 0 exactly when
   the coordinates name the same point *)
Theorem C62_haversine_range : forall lat1 lon1 lat2 lon2 radius, 0 < radius ->
  exists d, haversine lat1 lon1 lat2 lon2 radius = Ok d /\
    0 <= d <= PI * radius /\
    (d = 0 <-> sphere_point lat1 lon1 = sphere_point lat2 lon2).
Proof.
  intros lat1 lon1 lat2 lon2 radius Rp. rewrite haversine_eq.
  eexists; split; [reflexivity|].
  pose proof (acos_bound (dot (sphere_point lat1 lon1) (sphere_point lat2 lon2))) as B.
  split; [split; nra|]. split.
  - intro H. assert (A : acos (dot (sphere_point lat1 lon1) (sphere_point lat2 lon2)) = 0) by nra.
    apply dot_one; try apply unit_point.
    rewrite <- (cos_acos (dot (sphere_point lat1 lon1) (sphere_point lat2 lon2)))
      by (apply dot_bound; apply unit_point).
    rewrite A. apply cos_0.
  - intros ->. rewrite unit_point, acos_1. ring.
Qed.

Theorem C62_haversine_triangle : forall lat1 lon1 lat2 lon2 lat3 lon3 radius, 0 <= radius ->
  exists d12 d23 d13,
    haversine lat1 lon1 lat2 lon2 radius = Ok d12 /\
    haversine lat2 lon2 lat3 lon3 radius = Ok d23 /\
    haversine lat1 lon1 lat3 lon3 radius = Ok d13 /\
    d13 <= d12 + d23.
Proof.
  intros. rewrite !haversine_eq. do 3 eexists. do 3 (split; [reflexivity|]).
  pose proof (acos_triangle _ (sphere_point lat2 lon2) _
                (unit_point lat1 lon1) (unit_point lat2 lon2) (unit_point lat3 lon3)).
  nra.
Qed.

(* only the points matter: a full turn of either longitude changes nothing *)
Lemma sphere_point_turn : forall lat lon, sphere_point lat (lon + 360) = sphere_point lat lon.
Proof.
  intros; unfold sphere_point. rewrite radians_add, radians_360, cos_2pi, sin_2pi. reflexivity.
Qed.
Theorem C62_haversine_turn : forall lat1 lon1 lat2 lon2 radius,
  haversine lat1 (lon1 + 360) lat2 lon2 radius = haversine lat1 lon1 lat2 lon2 radius /\
  haversine lat1 lon1 lat2 (lon2 + 360) radius = haversine lat1 lon1 lat2 lon2 radius.
Proof. intros. rewrite !haversine_eq, !sphere_point_turn. split; reflexivity. Qed.

(* a quarter turn along the equator, and pole to pole *)
Example C62_example : haversine 0 10 0 100 1 = Ok (1 * (PI / 2)).
Proof.
  rewrite haversine_eq. do 2 f_equal. rewrite <- acos_0. f_equal.
  unfold dot, sphere_point. rewrite radians_0, cos_0, sin_0.
  replace (radians 100) with (PI / 2 + radians 10)
    by (rewrite <- radians_90, <- radians_add; f_equal; lra).
  rewrite cos_plus, sin_plus, cos_PI2, sin_PI2. ring.
Qed.
Example C62_example_poles : haversine 90 0 (-90) 77 6371 = Ok (6371 * PI).
Proof.
  rewrite haversine_eq. do 2 f_equal. replace (-90) with (Ropp 90) by lra.
  replace (dot _ _) with (Ropp 1).
  - rewrite acos_opp, acos_1. ring.
  - unfold dot, sphere_point. rewrite radians_opp, radians_90, cos_neg, sin_neg, cos_PI2, sin_PI2.
    ring.
Qed.

(* ------------------------------------------------------------------ *)
(* C62: planar *)

(* planar never raises and is the flat distance with the longitude difference
   shortened by the cosine of the FIRST latitude *)
Theorem C62_planar_flat : forall lat1 lon1 lat2 lon2 radius, 0 <= radius ->
  exists d, planar lat1 lon1 lat2 lon2 radius = Ok d /\ 0 <= d /\
    d * d = (radius * radians (lat2 - lat1)) * (radius * radians (lat2 - lat1))
            + (radius * cos (radians lat1) * radians (lon2 - lon1))
              * (radius * cos (radians lat1) * radians (lon2 - lon1)).
Proof.
  intros lat1 lon1 lat2 lon2 radius Rp. unfold planar. cbv zeta. rewrite !to_rad_radians.
  assert (P : 0 <= (radians lon2 - radians lon1) * cos (radians lat1) *
     ((radians lon2 - radians lon1) * cos (radians lat1)) +
     (radians lat2 - radians lat1) * (radians lat2 - radians lat1)).
  { pose proof (Rle_0_sqr ((radians lon2 - radians lon1) * cos (radians lat1))).
    pose proof (Rle_0_sqr (radians lat2 - radians lat1)). unfold Rsqr in *. lra. }
  rewrite m_sqrt_ok by exact P. cbn [bind].
  eexists; split; [reflexivity|]. split.
  - apply Rmult_le_pos; [lra|apply sqrt_pos].
  - match goal with |- radius * sqrt ?q * (radius * sqrt ?q) = _ =>
      replace (radius * sqrt q * (radius * sqrt q)) with (radius * radius * (sqrt q * sqrt q)) by ring;
      rewrite (sqrt_sqrt q) by exact P end.
    rewrite !radians_sub. ring.
Qed.

Lemma planar_value : forall lat1 lon1 lat2 lon2 radius d, 0 <= radius -> 0 <= d ->
  d * d = (radius * radians (lat2 - lat1)) * (radius * radians (lat2 - lat1))
            + (radius * cos (radians lat1) * radians (lon2 - lon1))
              * (radius * cos (radians lat1) * radians (lon2 - lon1)) ->
  planar lat1 lon1 lat2 lon2 radius = Ok d.
Proof.
  intros. destruct (C62_planar_flat lat1 lon1 lat2 lon2 radius H) as (e & -> & E & Q).
  f_equal. apply Rsqr_inj; try assumption. unfold Rsqr. lra.
Qed.

Theorem C62_planar_zero : forall lat lon radius, 0 <= radius ->
  planar lat lon lat lon radius = Ok 0.
Proof.
  intros. apply planar_value; [assumption|lra|].
  rewrite !Rminus_eq_0, radians_0. ring.
Qed.

(* for points with |latitude| below 90, only coincident coordinates have
   distance 0 *)
Theorem C62_planar_zero_only : forall lat1 lon1 lat2 lon2 radius, 0 < radius ->
  -90 < lat1 < 90 -> planar lat1 lon1 lat2 lon2 radius = Ok 0 -> lat1 = lat2 /\ lon1 = lon2.
Proof.
  intros lat1 lon1 lat2 lon2 radius Rp L H.
  destruct (C62_planar_flat lat1 lon1 lat2 lon2 radius ltac:(lra)) as (e & H1 & E & Q).
  rewrite H in H1. injection H1 as <-.
  pose proof (Rle_0_sqr (radius * radians (lat2 - lat1))) as S1.
  pose proof (Rle_0_sqr (radius * cos (radians lat1) * radians (lon2 - lon1))) as S2.
  unfold Rsqr in S1, S2.
  assert (A : radius * radians (lat2 - lat1) = 0) by (apply Rsqr_0_uniq; unfold Rsqr; lra).
  assert (B : radius * cos (radians lat1) * radians (lon2 - lon1) = 0)
    by (apply Rsqr_0_uniq; unfold Rsqr; lra).
  assert (C : 0 < cos (radians lat1)).
  { apply cos_gt_0; rewrite <- radians_90, <- ?radians_opp; apply radians_lt; lra. }
  assert (A' : radians (lat2 - lat1) = radians 0).
  { rewrite radians_0. apply Rmult_eq_reg_l with radius; lra. }
  assert (B' : radians (lon2 - lon1) = radians 0).
  { rewrite radians_0. apply Rmult_eq_reg_l with (radius * cos (radians lat1)); [lra|].
    apply Rmult_integral_contrapositive_currified; lra. }
  apply radians_inj in A'. apply radians_inj in B'. lra.
Qed.

Theorem C62_planar_turn : forall lat1 lon1 lat2 lon2 radius t,
  planar lat1 (lon1 + t) lat2 (lon2 + t) radius = planar lat1 lon1 lat2 lon2 radius.
Proof.
  intros. unfold planar. cbv zeta. rewrite !to_rad_radians, !radians_add.
  replace (radians lon2 + radians t - (radians lon1 + radians t))
    with (radians lon2 - radians lon1) by ring. reflexivity.
Qed.

(* symmetric between points of equal (or opposite) latitude ... *)
Theorem C62_planar_symmetric : forall lat1 lon1 lat2 lon2 radius,
  lat2 = lat1 \/ lat2 = - lat1 ->
  planar lat1 lon1 lat2 lon2 radius = planar lat2 lon2 lat1 lon1 radius.
Proof.
  intros lat1 lon1 lat2 lon2 radius H. unfold planar. cbv zeta. rewrite !to_rad_radians.
  assert (C : cos (radians lat2) = cos (radians lat1))
    by (destruct H as [-> | ->]; [reflexivity|rewrite radians_opp; apply cos_neg]).
  rewrite C.
  match goal with |- bind (m_sqrt ?a) _ = bind (m_sqrt ?b) _ => replace a with b by ring end.
  reflexivity.
Qed.

(* ... and not in general *)
Theorem C62_planar_symmetric_refuted :
  exists lat1 lon1 lat2 lon2 radius, 0 < radius /\
    planar lat1 lon1 lat2 lon2 radius <> planar lat2 lon2 lat1 lon1 radius.
Proof.
  exists 0, 0, 90, 90, 1. split; [lra|]. intro H.
  destruct (C62_planar_flat 0 0 90 90 1 ltac:(lra)) as (d & D1 & D2 & D3).
  destruct (C62_planar_flat 90 90 0 0 1 ltac:(lra)) as (e & E1 & E2 & E3).
  rewrite D1, E1 in H. injection H as ->.
  rewrite radians_90, cos_PI2 in E3. rewrite radians_0, cos_0 in D3.
  replace (90 - 0) with 90 in * by ring. replace (0 - 90) with (Ropp 90) in * by lra.
  rewrite radians_opp in E3. rewrite radians_90 in *. pose proof PI_RGT_0. nra.
Qed.

(* it agrees with the great-circle distance along a meridian and along the
   equator *)
Theorem C62_planar_meridian : forall lat1 lat2 lon radius, 0 <= radius ->
  -180 <= lat2 - lat1 <= 180 ->
  planar lat1 lon lat2 lon radius = haversine lat1 lon lat2 lon radius.
Proof.
  intros lat1 lat2 lon radius Rp L. rewrite haversine_eq.
  assert (E : acos (dot (sphere_point lat1 lon) (sphere_point lat2 lon))
              = Rabs (radians (lat2 - lat1))).
  { replace (dot (sphere_point lat1 lon) (sphere_point lat2 lon))
      with (cos (Rabs (radians (lat2 - lat1)))).
    - apply acos_cos. split; [apply Rabs_pos|].
      rewrite <- radians_180. apply Rabs_le. rewrite <- radians_opp.
      split; apply radians_le; lra.
    - replace (cos (Rabs (radians (lat2 - lat1)))) with (cos (radians (lat2 - lat1)))
        by (unfold Rabs; destruct (Rcase_abs _); rewrite ?cos_neg; reflexivity).
      rewrite radians_sub, cos_minus. unfold dot, sphere_point.
      pose proof (sc1 (radians lon)).
      replace (cos (radians lat1) * cos (radians lon) * (cos (radians lat2) * cos (radians lon)) +
        cos (radians lat1) * sin (radians lon) * (cos (radians lat2) * sin (radians lon)) +
        sin (radians lat1) * sin (radians lat2))
        with (cos (radians lat1) * cos (radians lat2) *
          (sin (radians lon) * sin (radians lon) + cos (radians lon) * cos (radians lon))
          + sin (radians lat1) * sin (radians lat2)) by ring.
      rewrite H. ring. }
  rewrite E. apply planar_value; [assumption| |].
  - apply Rmult_le_pos; [assumption|apply Rabs_pos].
  - replace (lon - lon) with 0 by ring. rewrite radians_0.
    pose proof (Rsqr_abs (radians (lat2 - lat1))) as A. unfold Rsqr in A.
    replace (radius * Rabs (radians (lat2 - lat1)) * (radius * Rabs (radians (lat2 - lat1))))
      with (radius * radius * (Rabs (radians (lat2 - lat1)) * Rabs (radians (lat2 - lat1)))) by ring.
    rewrite <- A. ring.
Qed.
Theorem C62_planar_equator : forall lon1 lon2 radius, 0 <= radius ->
  -180 <= lon2 - lon1 <= 180 ->
  planar 0 lon1 0 lon2 radius = haversine 0 lon1 0 lon2 radius.
Proof.
  intros lon1 lon2 radius Rp L. rewrite haversine_eq.
  assert (E : acos (dot (sphere_point 0 lon1) (sphere_point 0 lon2))
              = Rabs (radians (lon2 - lon1))).
  { replace (dot (sphere_point 0 lon1) (sphere_point 0 lon2))
      with (cos (Rabs (radians (lon2 - lon1)))).
    - apply acos_cos. split; [apply Rabs_pos|].
      rewrite <- radians_180. apply Rabs_le. rewrite <- radians_opp.
      split; apply radians_le; lra.
    - replace (cos (Rabs (radians (lon2 - lon1)))) with (cos (radians (lon2 - lon1)))
        by (unfold Rabs; destruct (Rcase_abs _); rewrite ?cos_neg; reflexivity).
      rewrite radians_sub, cos_minus. unfold dot, sphere_point.
      rewrite radians_0, cos_0, sin_0. ring. }
  rewrite E. apply planar_value; [assumption| |].
  - apply Rmult_le_pos; [assumption|apply Rabs_pos].
  - rewrite radians_0, cos_0. replace (0 - 0) with 0 by ring. rewrite radians_0.
    pose proof (Rsqr_abs (radians (lon2 - lon1))) as A. unfold Rsqr in A.
    replace (radius * Rabs (radians (lon2 - lon1)) * (radius * Rabs (radians (lon2 - lon1))))
      with (radius * radius * (Rabs (radians (lon2 - lon1)) * Rabs (radians (lon2 - lon1)))) by ring.
    rewrite <- A. ring.
Qed.

(* ------------------------------------------------------------------ *)
(* C63: bearing *)

Theorem C63_range : forall lat1 lon1 lat2 lon2, 0 <= bearing lat1 lon1 lat2 lon2 < 360.
Proof. intros. rewrite bearing_eq. apply m_mod360_range. Qed.

(* the bearing is the compass direction in which the second point is seen from
   the first: the component of the second point's vector towards the local east
   is rho sin b, the one towards the local north rho cos b, with rho the sine of
   the angular distance *)
Theorem C63_direction : forall lat1 lon1 lat2 lon2,
  let b := radians (bearing lat1 lon1 lat2 lon2) in
  exists rho, 0 <= rho /\
    dot (sphere_point lat2 lon2) (east lat1 lon1) = rho * sin b /\
    dot (sphere_point lat2 lon2) (north lat1 lon1) = rho * cos b /\
    exists angle, haversine lat1 lon1 lat2 lon2 1 = Ok (1 * angle) /\ rho = sin angle.
Proof.
  intros lat1 lon1 lat2 lon2 b. unfold b. rewrite bearing_eq, sin_mod, cos_mod.
  set (y := dot (sphere_point lat2 lon2) (east lat1 lon1)).
  set (x := dot (sphere_point lat2 lon2) (north lat1 lon1)).
  destruct (m_atan2_polar x y) as (_ & X & Y & _).
  exists (sqrt (x * x + y * y)). split; [apply sqrt_pos|].
  split; [exact Y|]. split; [exact X|].
  rewrite haversine_eq. eexists; split; [reflexivity|].
  rewrite sin_acos by (apply dot_bound; apply unit_point). f_equal.
  unfold Rsqr.
  assert (U : x * x + y * y +
     dot (sphere_point lat1 lon1) (sphere_point lat2 lon2) *
     dot (sphere_point lat1 lon1) (sphere_point lat2 lon2) = 1); [|lra].
  rewrite <- (unit_point lat2 lon2). unfold x, y, dot, sphere_point, east, north.
  pose proof (sc1 (radians lat1)) as A. pose proof (sc1 (radians lon1)) as B.
  set (s1 := sin (radians lat1)) in *. set (c1 := cos (radians lat1)) in *.
  set (s := sin (radians lon1)) in *. set (c := cos (radians lon1)) in *.
  set (u := cos (radians lat2) * cos (radians lon2)).
  set (v := cos (radians lat2) * sin (radians lon2)).
  set (w := sin (radians lat2)).
  (* the three vectors are an orthonormal frame *)
  transitivity ((s1 * s1 + c1 * c1) * (u * c + v * s) * (u * c + v * s)
                + (u * s - v * c) * (u * s - v * c) + (s1 * s1 + c1 * c1) * w * w).
  - ring.
  - rewrite A. transitivity ((s * s + c * c) * (u * u + v * v) + w * w).
    + ring.
    + rewrite B. ring.
Qed.

(* towards a point of the same meridian: 0 or 180 *)
Theorem C63_north : forall lat1 lat2 lon, 0 < lat2 - lat1 < 180 ->
  bearing lat1 lon lat2 lon = 0.
Proof.
  intros lat1 lat2 lon L. unfold bearing; cbv zeta. rewrite !to_rad_radians, Rminus_eq_0.
  rewrite sin_0, cos_0.
  replace (cos (radians lat1) * sin (radians lat2) - sin (radians lat1) * cos (radians lat2) * 1)
    with (sin (radians (lat2 - lat1))) by (rewrite radians_sub, sin_minus; ring).
  assert (0 < sin (radians (lat2 - lat1))).
  { apply sin_gt_0; [rewrite <- radians_0|rewrite <- radians_180]; apply radians_lt; lra. }
  unfold m_atan2. destruct (Rlt_dec 0 _); [|contradiction].
  replace (0 * cos (radians lat2) / sin (radians (lat2 - lat1))) with 0 by (field; lra).
  rewrite atan_0, mod_nonneg by (pose proof PI_RGT_0; lra). unfold Rdiv; ring.
Qed.
Theorem C63_south : forall lat1 lat2 lon, 0 < lat1 - lat2 < 180 ->
  bearing lat1 lon lat2 lon = 180.
Proof.
  intros lat1 lat2 lon L. unfold bearing; cbv zeta. rewrite !to_rad_radians, Rminus_eq_0.
  rewrite sin_0, cos_0.
  replace (cos (radians lat1) * sin (radians lat2) - sin (radians lat1) * cos (radians lat2) * 1)
    with (- sin (radians (lat1 - lat2))) by (rewrite radians_sub, sin_minus; ring).
  assert (0 < sin (radians (lat1 - lat2))).
  { apply sin_gt_0; [rewrite <- radians_0|rewrite <- radians_180]; apply radians_lt; lra. }
  unfold m_atan2. destruct (Rlt_dec 0 _); [lra|]. destruct (Rlt_dec _ 0); [|lra].
  destruct (Rle_dec 0 (0 * cos (radians lat2))); [|lra].
  replace (0 * cos (radians lat2) / - sin (radians (lat1 - lat2))) with 0 by (field; lra).
  pose proof PI_RGT_0. rewrite atan_0, mod_nonneg by lra. field. lra.
Qed.
(* along the equator: 90 or 270 *)
Theorem C63_east : forall lon1 lon2, 0 < lon2 - lon1 < 180 -> bearing 0 lon1 0 lon2 = 90.
Proof.
  intros lon1 lon2 L. unfold bearing; cbv zeta. rewrite !to_rad_radians, radians_0, sin_0, cos_0.
  rewrite <- radians_sub.
  assert (0 < sin (radians (lon2 - lon1))).
  { apply sin_gt_0; [rewrite <- radians_0|rewrite <- radians_180]; apply radians_lt; lra. }
  unfold m_atan2. destruct (Rlt_dec 0 (1 * 0 - _)); [lra|].
  destruct (Rlt_dec _ 0); [lra|]. destruct (Rlt_dec 0 _); [|lra].
  pose proof PI_RGT_0. rewrite mod_nonneg by lra. field. lra.
Qed.
Theorem C63_west : forall lon1 lon2, 0 < lon1 - lon2 < 180 -> bearing 0 lon1 0 lon2 = 270.
Proof.
  intros lon1 lon2 L. unfold bearing; cbv zeta. rewrite !to_rad_radians, radians_0, sin_0, cos_0.
  replace (radians lon2 - radians lon1) with (- radians (lon1 - lon2))
    by (rewrite radians_sub; ring). rewrite sin_neg.
  assert (0 < sin (radians (lon1 - lon2))).
  { apply sin_gt_0; [rewrite <- radians_0|rewrite <- radians_180]; apply radians_lt; lra. }
  unfold m_atan2. destruct (Rlt_dec 0 (1 * 0 - _)); [lra|].
  destruct (Rlt_dec (1 * 0 - _) 0); [lra|]. destruct (Rlt_dec 0 _); [lra|].
  destruct (Rlt_dec _ 0); [|lra].
  pose proof PI_RGT_0. rewrite mod_neg by lra. field. lra.
Qed.
(* from a point to itself: 0 *)
Theorem C63_same : forall lat lon, bearing lat lon lat lon = 0.
Proof.
  intros. unfold bearing; cbv zeta. rewrite !to_rad_radians, Rminus_eq_0, sin_0, cos_0.
  replace (cos (radians lat) * sin (radians lat) - sin (radians lat) * cos (radians lat) * 1)
    with 0 by ring.
  replace (0 * cos (radians lat)) with 0 by ring.
  unfold m_atan2. destruct (Rlt_dec 0 0); [lra|].
  rewrite mod_nonneg by (pose proof PI_RGT_0; lra). unfold Rdiv; ring.
Qed.
(* full turns of either longitude change nothing *)
Lemma east_turn : forall lat lon, east lat (lon + 360) = east lat lon.
Proof. intros; unfold east. rewrite radians_add, radians_360, cos_2pi, sin_2pi. reflexivity. Qed.
Lemma north_turn : forall lat lon, north lat (lon + 360) = north lat lon.
Proof. intros; unfold north. rewrite radians_add, radians_360, cos_2pi, sin_2pi. reflexivity. Qed.
Example C63_example : bearing 10 5 40 5 = 0 /\ bearing 0 5 0 (-20) = 270 /\ haversine 10 5 40 5 1 = haversine 40 5 10 5 1.
Proof. repeat split; [apply C63_north; lra|apply C63_west; lra|apply C62_haversine_symmetric]. Qed.
Theorem C63_turn : forall lat1 lon1 lat2 lon2,
  bearing lat1 (lon1 + 360) lat2 lon2 = bearing lat1 lon1 lat2 lon2 /\
  bearing lat1 lon1 lat2 (lon2 + 360) = bearing lat1 lon1 lat2 lon2.
Proof.
  intros. rewrite !bearing_eq, !sphere_point_turn, east_turn, north_turn. split; reflexivity.
Qed.

(* ------------------------------------------------------------------ *)
(* C64: llh2ecef, for every ellipsoid (a: equatorial semi-axis, f: inverse
   flattening, so that the polar semi-axis is a (1 - 1/f)) *)

Theorem C64_on_ellipsoid : forall lat lon a f, a <> 0 -> f <> 0 -> f <> 1 ->
  exists v, llh2ecef lat lon 0 a f = Ok v /\ on_ellipsoid a (a * (1 - 1 / f)) v.
Proof.
  intros lat lon a f A F F1.
  destruct (llh2ecef_eq lat lon 0 a f A F F1) as [P ->].
  destruct (ellipse_root f (sin (radians lat)) (cos (radians lat)) F F1 (sc1 _)) as [Pr Q].
  set (q := sqrt _) in *.
  assert (Hq : q * q = cos (radians lat) * cos (radians lat)
               + (1 - 1 / f) * (1 - 1 / f) * (sin (radians lat) * sin (radians lat))).
  { unfold q. rewrite sqrt_sqrt by lra. exact Q. }
  eexists; split; [reflexivity|]. unfold on_ellipsoid.
  pose proof (sc1 (radians lon)) as B.
  assert (G : 1 - 1 / f <> 0).
  { intro K. apply F1. apply Rmult_eq_reg_r with (1 / f).
    - unfold Rdiv. rewrite Rmult_1_l, Rinv_r by assumption. lra.
    - unfold Rdiv. rewrite Rmult_1_l. apply Rinv_neq_0_compat. assumption. }
  assert (Qn : q * q <> 0) by (apply Rmult_integral_contrapositive_currified; lra).
  set (g := 1 - 1 / f) in *. clearbody g.
  transitivity ((cos (radians lat) * cos (radians lat) *
      (sin (radians lon) * sin (radians lon) + cos (radians lon) * cos (radians lon))
     + g * g * (sin (radians lat) * sin (radians lat))) / (q * q)).
  - field. repeat split; try assumption; lra.
  - rewrite B, Rmult_1_r, <- Hq. field. lra.
Qed.

(* the height is measured along the outward unit normal of the ellipsoid there *)
Theorem C64_height : forall lat lon height a f, a <> 0 -> f <> 0 -> f <> 1 ->
  exists v, llh2ecef lat lon 0 a f = Ok v /\
    llh2ecef lat lon height a f = Ok (vadd v (vscale height (sphere_point lat lon))).
Proof.
  intros lat lon height a f A F F1.
  destruct (llh2ecef_eq lat lon 0 a f A F F1) as [P ->].
  destruct (llh2ecef_eq lat lon height a f A F F1) as [_ ->].
  eexists; split; [reflexivity|]. unfold vadd, vscale, sphere_point.
  f_equal. f_equal; [f_equal|]; ring.
Qed.
(* that vector is the outward normal: a positive multiple of the gradient
   (x/a^2, y/a^2, z/b^2) of the ellipsoid's equation; and it has length 1 *)
Theorem C64_normal : forall lat lon a f, 0 < a -> f <> 0 -> f <> 1 ->
  let b := a * (1 - 1 / f) in
  exists x y z k, llh2ecef lat lon 0 a f = Ok (x, y, z) /\ 0 < k /\
    (x / (a * a), y / (a * a), z / (b * b)) = vscale k (sphere_point lat lon) /\
    dot (sphere_point lat lon) (sphere_point lat lon) = 1.
Proof.
  intros lat lon a f A F F1 b.
  destruct (llh2ecef_eq lat lon 0 a f ltac:(lra) F F1) as [P ->]. set (q := sqrt _) in *.
  assert (G : 1 - 1 / f <> 0).
  { intro K. apply F1. apply Rmult_eq_reg_r with (1 / f).
    - unfold Rdiv. rewrite Rmult_1_l, Rinv_r by assumption. lra.
    - unfold Rdiv. rewrite Rmult_1_l. apply Rinv_neq_0_compat. assumption. }
  do 3 eexists. exists (/ (a * q)). split; [reflexivity|].
  split; [apply Rinv_0_lt_compat; nra|]. split; [|apply unit_point].
  unfold vscale, sphere_point, b. set (g := 1 - 1 / f) in *. clearbody g.
  f_equal; [f_equal|]; field; repeat split; try assumption; lra.
Qed.

(* the longitude is the polar angle of (x, y), off the axis and above the
   centre of curvature *)
Theorem C64_longitude : forall lat lon height a f, 0 < a -> 1 < f -> - a < height ->
  -90 < lat < 90 -> -180 < lon <= 180 ->
  exists x y z, llh2ecef lat lon height a f = Ok (x, y, z) /\
    polar_angle x y (radians lon).
Proof.
  intros lat lon height a f A F Hh L1 L2.
  destruct (llh2ecef_eq lat lon height a f ltac:(lra) ltac:(lra) ltac:(lra)) as [P ->].
  set (q := sqrt _) in *. do 3 eexists. split; [reflexivity|].
  assert (C : 0 < cos (radians lat)).
  { apply cos_gt_0; rewrite <- radians_90, <- ?radians_opp; apply radians_lt; lra. }
  assert (Q1 : q <= 1).
  { unfold q. apply Rle_trans with (sqrt 1); [|rewrite sqrt_1; lra]. apply sqrt_le_1_alt.
    assert (0 < 1 / f < 1).
    { split; [apply Rdiv_lt_0_compat; lra|]. apply Rmult_lt_reg_r with f; [lra|].
      unfold Rdiv. rewrite Rmult_assoc, Rinv_l by lra. lra. }
    assert (0 <= sin (radians lat) ^ 2) by (simpl; nra).
    assert (0 < 1 / f * (2 - 1 / f)) by nra.
    pose proof (Rmult_le_pos _ _ (Rlt_le _ _ H1) H0). lra. }
  assert (K : 0 < (a / q + height) * cos (radians lat)).
  { apply Rmult_lt_0_compat; [|exact C].
    assert (a <= a / q); [|lra]. apply Rmult_le_reg_r with q; [exact P|].
    unfold Rdiv. rewrite Rmult_assoc, Rinv_l by lra. nra. }
  set (k := (a / q + height) * cos (radians lat)) in *.
  rewrite <- (m_atan2_of_polar k (radians lon)) at 3.
  - apply m_atan2_polar.
  - exact K.
  - rewrite <- radians_180, <- radians_opp. split; [apply radians_lt|apply radians_le]; lra.
Qed.

(* a zero inverse flattening or a zero axis is a ZeroDivisionError *)
Theorem C64_zero : forall lat lon height a,
  llh2ecef lat lon height a 0 = Raise ZeroDivisionError.
Proof.
  intros. unfold llh2ecef. cbv zeta. unfold m_div at 1.
  destruct (Req_EM_T 0 0); [reflexivity|lra].
Qed.
Theorem C64_zero_axis : forall lat lon height f, f <> 0 -> f <> 1 ->
  llh2ecef lat lon height 0 f = Raise ZeroDivisionError.
Proof.
  intros lat lon height f F F1.
  destruct (ellipse_root f (sin (radians lat)) (cos (radians lat)) F F1 (sc1 _)) as [Pr _].
  unfold llh2ecef. cbv zeta. rewrite !to_rad_radians, m_div_ok by assumption. cbn [bind].
  rewrite m_sqrt_ok by lra. cbn [bind].
  rewrite m_div_ok by (apply Rgt_not_eq, sqrt_lt_R0; exact Pr). cbn [bind].
  unfold m_div. destruct (Req_EM_T (0 ^ 2) 0); [reflexivity|simpl in *; lra].
Qed.

(* WGS84 meets the hypotheses *)
Example wgs84_ellipsoid : 0 < WGS84_SMAJ_AXIS /\ 1 < WGS84_FLATTENING.
Proof. unfold WGS84_SMAJ_AXIS, WGS84_FLATTENING. lra. Qed.
Example C64_example : exists b, llh2ecef 90 0 0 WGS84_SMAJ_AXIS WGS84_FLATTENING = Ok (0, 0, b)
  /\ b = WGS84_SMAJ_AXIS * (1 - 1 / WGS84_FLATTENING).
Proof.
  destruct wgs84_ellipsoid as [A F].
  destruct (llh2ecef_eq 90 0 0 WGS84_SMAJ_AXIS WGS84_FLATTENING ltac:(lra) ltac:(lra) ltac:(lra)) as [P ->].
  eexists; split; [|reflexivity].
  set (f := WGS84_FLATTENING) in *. set (a := WGS84_SMAJ_AXIS) in *. clearbody a f.
  rewrite radians_90, sin_PI2, cos_PI2 in *.
  replace (1 - 1 / f * (2 - 1 / f) * 1 ^ 2) with ((1 - 1 / f) * (1 - 1 / f)) in * by (field; lra).
  assert (0 < 1 - 1 / f).
  { apply Rmult_lt_reg_r with f; [lra|]. replace ((1 - 1 / f) * f) with (f - 1) by (field; lra). lra. }
  rewrite sqrt_square in * by lra.
  f_equal. f_equal; [f_equal|]; field; repeat split; lra.
Qed.
