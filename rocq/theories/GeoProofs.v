From Coq Require Import Reals Lra Lia Psatz.
From Flocq Require Import Core.Raux.
From Verif Require Import PyBase Geo GeoSpec.
Open Scope R_scope.

Lemma to_rad_radians : forall d, to_rad d = radians d.
Proof. intros; unfold to_rad, radians; field. Qed.

Lemma m_sqrt_ok : forall x, 0 <= x -> m_sqrt x = Ok (sqrt x).
Proof. intros; unfold m_sqrt; destruct (Rlt_dec x 0); [lra|reflexivity]. Qed.
Lemma m_div_ok : forall x y, y <> 0 -> m_div x y = Ok (x / y).
Proof. intros; unfold m_div; destruct (Req_EM_T y 0); [contradiction|reflexivity]. Qed.
Lemma m_acos_ok : forall x, -1 <= x <= 1 -> m_acos x = Ok (acos x).
Proof. intros; unfold m_acos; destruct (Rle_dec (-1) x); [destruct (Rle_dec x 1)|]; (reflexivity || lra). Qed.
Lemma m_asin_ok : forall x, -1 <= x <= 1 -> m_asin x = Ok (asin x).
Proof. intros; unfold m_asin; destruct (Rle_dec (-1) x); [destruct (Rle_dec x 1)|]; (reflexivity || lra). Qed.

Lemma sc1 : forall x, sin x * sin x + cos x * cos x = 1.
Proof. intros; pose proof (sin2_cos2 x) as H; unfold Rsqr in H; exact H. Qed.

Lemma sin_2pi : forall x, sin (x + 2 * PI) = sin x.
Proof. intros. rewrite <- (sin_period x 1). f_equal. simpl. ring. Qed.
Lemma cos_2pi : forall x, cos (x + 2 * PI) = cos x.
Proof. intros. rewrite <- (cos_period x 1). f_equal. simpl. ring. Qed.
Lemma sin_2pi_m : forall x, sin (x - 2 * PI) = sin x.
Proof. intros. rewrite <- (sin_2pi (x - 2 * PI)). f_equal. ring. Qed.
Lemma cos_2pi_m : forall x, cos (x - 2 * PI) = cos x.
Proof. intros. rewrite <- (cos_2pi (x - 2 * PI)). f_equal. ring. Qed.

Lemma radians_add : forall a b, radians (a + b) = radians a + radians b.
Proof. intros; unfold radians; ring. Qed.
Lemma radians_360 : radians 360 = 2 * PI.
Proof. unfold radians; field. Qed.
Lemma radians_180 : radians 180 = PI.
Proof. unfold radians; field. Qed.
Lemma radians_90 : radians 90 = PI / 2.
Proof. unfold radians; field. Qed.
Lemma radians_0 : radians 0 = 0.
Proof. unfold radians; ring. Qed.
Lemma radians_sub : forall a b, radians (a - b) = radians a - radians b.
Proof. intros; unfold radians; ring. Qed.
Lemma radians_opp : forall a, radians (- a) = - radians a.
Proof. intros; unfold radians; ring. Qed.
Lemma radians_le : forall a b, a <= b -> radians a <= radians b.
Proof. intros; unfold radians. pose proof PI_RGT_0. nra. Qed.
Lemma radians_lt : forall a b, a < b -> radians a < radians b.
Proof. intros; unfold radians. pose proof PI_RGT_0. nra. Qed.
Lemma radians_inj : forall a b, radians a = radians b -> a = b.
Proof.
  intros a b H; unfold radians in H; pose proof PI_RGT_0.
  apply Rmult_eq_reg_r in H; [exact H|lra].
Qed.

(* ------------------------------------------------------------------ *)
(* the argument of the haversine arc cosine is the dot product *)
Lemma dot_points : forall p1 l1 p2 l2 : R,
  cos (p2 - p1) - cos p1 * cos p2 * (1 - cos (l2 - l1))
  = (cos p1 * cos l1) * (cos p2 * cos l2) + (cos p1 * sin l1) * (cos p2 * sin l2)
    + sin p1 * sin p2.
Proof. intros. rewrite !cos_minus. ring. Qed.

Lemma unit_point : forall lat lon, dot (sphere_point lat lon) (sphere_point lat lon) = 1.
Proof.
  intros; unfold dot, sphere_point.
  pose proof (sc1 (radians lat)). pose proof (sc1 (radians lon)).
  replace (cos (radians lat) * cos (radians lon) * (cos (radians lat) * cos (radians lon)) +
    cos (radians lat) * sin (radians lon) * (cos (radians lat) * sin (radians lon)) +
    sin (radians lat) * sin (radians lat))
  with (cos (radians lat) * cos (radians lat) *
        (sin (radians lon) * sin (radians lon) + cos (radians lon) * cos (radians lon))
        + sin (radians lat) * sin (radians lat)) by ring.
  rewrite H0. lra.
Qed.

(* Cauchy-Schwarz for unit vectors *)
Lemma dot_bound : forall p q, dot p p = 1 -> dot q q = 1 -> -1 <= dot p q <= 1.
Proof.
  intros [[a b] c] [[d e] f]; unfold dot; intros.
  pose proof (Rle_0_sqr (a-d)). pose proof (Rle_0_sqr (b-e)). pose proof (Rle_0_sqr (c-f)).
  pose proof (Rle_0_sqr (a+d)). pose proof (Rle_0_sqr (b+e)). pose proof (Rle_0_sqr (c+f)).
  unfold Rsqr in *. split; lra.
Qed.

Lemma dot_one : forall p q, dot p p = 1 -> dot q q = 1 -> dot p q = 1 -> p = q.
Proof.
  intros [[a b] c] [[d e] f]; unfold dot; intros.
  assert (E : (a-d)*(a-d)+(b-e)*(b-e)+(c-f)*(c-f) = 0) by lra.
  pose proof (Rle_0_sqr (a-d)) as S1. pose proof (Rle_0_sqr (b-e)) as S2.
  pose proof (Rle_0_sqr (c-f)) as S3. unfold Rsqr in S1, S2, S3.
  assert (a - d = 0) by (apply Rsqr_0_uniq; unfold Rsqr; lra).
  assert (b - e = 0) by (apply Rsqr_0_uniq; unfold Rsqr; lra).
  assert (c - f = 0) by (apply Rsqr_0_uniq; unfold Rsqr; lra).
  replace d with a by lra. replace e with b by lra. replace f with c by lra. reflexivity.
Qed.

Lemma haversine_eq : forall lat1 lon1 lat2 lon2 radius,
  haversine lat1 lon1 lat2 lon2 radius
  = Ok (radius * acos (dot (sphere_point lat1 lon1) (sphere_point lat2 lon2))).
Proof.
  intros. unfold haversine. cbv zeta. rewrite !to_rad_radians, dot_points.
  change (cos (radians lat1) * cos (radians lon1) * (cos (radians lat2) * cos (radians lon2)) +
    cos (radians lat1) * sin (radians lon1) * (cos (radians lat2) * sin (radians lon2)) +
    sin (radians lat1) * sin (radians lat2))
  with (dot (sphere_point lat1 lon1) (sphere_point lat2 lon2)).
  rewrite m_acos_ok by (apply dot_bound; apply unit_point). reflexivity.
Qed.

(* Gram determinant of three unit vectors is non-negative *)
Lemma gram : forall p q r, dot p p = 1 -> dot q q = 1 -> dot r r = 1 ->
  0 <= 1 + 2 * dot p q * dot q r * dot p r
       - dot p q * dot p q - dot q r * dot q r - dot p r * dot p r.
Proof.
  intros [[a b] c] [[d e] f] [[g h] i] P Q Rr.
  set (X := a * (e * i - f * h) - b * (d * i - f * g) + c * (d * h - e * g)).
  assert (E : dot (a,b,c) (a,b,c) * dot (d,e,f) (d,e,f) * dot (g,h,i) (g,h,i)
     + 2 * dot (a,b,c) (d,e,f) * dot (d,e,f) (g,h,i) * dot (a,b,c) (g,h,i)
     - dot (g,h,i) (g,h,i) * (dot (a,b,c) (d,e,f) * dot (a,b,c) (d,e,f))
     - dot (a,b,c) (a,b,c) * (dot (d,e,f) (g,h,i) * dot (d,e,f) (g,h,i))
     - dot (d,e,f) (d,e,f) * (dot (a,b,c) (g,h,i) * dot (a,b,c) (g,h,i)) = X * X)
    by (unfold dot, X; ring).
  rewrite P, Q, Rr in E.
  replace (1 + 2 * dot (a, b, c) (d, e, f) * dot (d, e, f) (g, h, i) * dot (a, b, c) (g, h, i) -
    dot (a, b, c) (d, e, f) * dot (a, b, c) (d, e, f) -
    dot (d, e, f) (g, h, i) * dot (d, e, f) (g, h, i) -
    dot (a, b, c) (g, h, i) * dot (a, b, c) (g, h, i)) with (X * X) by (rewrite <- E; ring).
  nra.
Qed.

Lemma acos_le : forall x t, -1 <= x <= 1 -> 0 <= t <= PI -> cos t <= x -> acos x <= t.
Proof.
  intros x t Hx Ht C. rewrite <- (cos_acos x Hx) in C.
  apply cos_decr_0; try (apply acos_bound); lra.
Qed.

Lemma acos_triangle : forall p q r, dot p p = 1 -> dot q q = 1 -> dot r r = 1 ->
  acos (dot p r) <= acos (dot p q) + acos (dot q r).
Proof.
  intros p q r P Q Rr.
  pose proof (dot_bound p q P Q). pose proof (dot_bound q r Q Rr).
  pose proof (dot_bound p r P Rr). pose proof (gram p q r P Q Rr) as G.
  pose proof (acos_bound (dot p q)). pose proof (acos_bound (dot q r)).
  pose proof (acos_bound (dot p r)).
  destruct (Rle_dec PI (acos (dot p q) + acos (dot q r))); [lra|].
  apply acos_le; [assumption|lra|].
  rewrite cos_plus, !cos_acos, !sin_acos by assumption.
  set (A := dot p q) in *. set (B := dot q r) in *. set (C := dot p r) in *.
  rewrite <- sqrt_mult_alt by (unfold Rsqr; nra).
  destruct (Rle_dec (A * B) C); [pose proof (sqrt_pos ((1 - A²) * (1 - B²))); lra|].
  assert (A * B - C <= sqrt ((1 - A²) * (1 - B²))); [|lra].
  apply Rsqr_incr_0_var; [|apply sqrt_pos].
  rewrite Rsqr_sqrt by (unfold Rsqr; apply Rmult_le_pos; nra).
  unfold Rsqr. nra.
Qed.

(* ------------------------------------------------------------------ *)
(* atan2 is the polar angle *)
Lemma atan_polar : forall x y, 0 < x ->
  x = sqrt (x * x + y * y) * cos (atan (y / x)) /\
  y = sqrt (x * x + y * y) * sin (atan (y / x)).
Proof.
  intros x y Hx.
  assert (E : sqrt (x * x + y * y) = x * sqrt (1 + (y / x)²)).
  { replace (x * x + y * y) with ((x * x) * (1 + (y / x)²)) by (unfold Rsqr; field; lra).
    rewrite sqrt_mult_alt by nra. f_equal. apply sqrt_square. lra. }
  assert (P : 0 < sqrt (1 + (y / x)²)).
  { apply sqrt_lt_R0. pose proof (Rle_0_sqr (y / x)). lra. }
  rewrite cos_atan, sin_atan, E. split; field; repeat split; lra.
Qed.

Lemma m_atan2_polar : forall x y, polar_angle x y (m_atan2 y x).
Proof.
  intros x y. unfold m_atan2, polar_angle.
  pose proof PI_RGT_0 as Pi.
  destruct (Rlt_dec 0 x) as [X|X].
  { pose proof (atan_bound (y / x)). destruct (atan_polar x y X) as [C Sn].
    repeat split; try assumption; lra. }
  destruct (Rlt_dec x 0) as [X'|X'].
  { pose proof (atan_bound (y / x)) as B.
    destruct (atan_polar (- x) (- y)) as [C Sn]; [lra|].
    replace (- y / - x) with (y / x) in * by (field; lra).
    replace (- x * - x + - y * - y) with (x * x + y * y) in * by ring.
    destruct (Rle_dec 0 y) as [Y|Y].
    - assert (T : atan (y / x) <= 0).
      { destruct Y as [Y|Y].
        - left. rewrite <- atan_0. apply atan_increasing.
          unfold Rdiv. assert (/ x < 0) by (apply Rinv_lt_0_compat; lra). nra.
        - subst y. replace (0 / x) with 0 by (field; lra). rewrite atan_0. lra. }
      rewrite neg_cos, neg_sin. repeat split; lra.
    - assert (T : 0 < atan (y / x)).
      { rewrite <- atan_0. apply atan_increasing.
        unfold Rdiv. assert (/ x < 0) by (apply Rinv_lt_0_compat; lra). nra. }
      replace (atan (y / x) - PI) with (atan (y / x) + PI - 2 * PI) by ring.
      rewrite cos_2pi_m, sin_2pi_m, neg_cos, neg_sin. repeat split; lra. }
  assert (x = 0) by lra. subst x.
  replace (0 * 0 + y * y) with (Rsqr y) by (unfold Rsqr; ring). rewrite sqrt_Rsqr_abs.
  destruct (Rlt_dec 0 y) as [Y|Y].
  { rewrite cos_PI2, sin_PI2, Rabs_pos_eq by lra. repeat split; lra. }
  destruct (Rlt_dec y 0) as [Y'|Y'].
  { rewrite cos_neg, sin_neg, cos_PI2, sin_PI2, Rabs_left by lra. repeat split; lra. }
  assert (y = 0) by lra. subst y. rewrite cos_0, sin_0, Rabs_R0. repeat split; lra.
Qed.

(* an angle is determined by its sine and cosine *)
Lemma angle_unique : forall s t, - PI < s <= PI -> - PI < t <= PI ->
  cos s = cos t -> sin s = sin t -> s = t.
Proof.
  intros s t A B C D. pose proof PI_RGT_0.
  destruct (Rle_dec 0 s) as [P|P]; destruct (Rle_dec 0 t) as [Q|Q].
  - apply cos_inj; try lra.
  - pose proof (sin_ge_0 s P (proj2 A)). assert (sin t < 0) by (apply sin_lt_0_var; lra). lra.
  - pose proof (sin_ge_0 t Q (proj2 B)). assert (sin s < 0) by (apply sin_lt_0_var; lra). lra.
  - assert (- s = - t); [|lra]. apply cos_inj; [lra|lra|rewrite !cos_neg; exact C].
Qed.

Lemma polar_unique : forall x y s t, polar_angle x y s -> polar_angle x y t -> s = t.
Proof.
  intros x y s t (A1 & A2 & A3 & A4) (B1 & B2 & B3 & B4).
  destruct (Req_EM_T x 0) as [X|X]; [destruct (Req_EM_T y 0) as [Y|Y]|].
  - rewrite A4, B4 by assumption. reflexivity.
  - assert (P : 0 < sqrt (x * x + y * y)) by (apply sqrt_lt_R0; nra).
    apply angle_unique; try assumption.
    + apply Rmult_eq_reg_l with (sqrt (x * x + y * y)); lra.
    + apply Rmult_eq_reg_l with (sqrt (x * x + y * y)); lra.
  - assert (P : 0 < sqrt (x * x + y * y)) by (apply sqrt_lt_R0; nra).
    apply angle_unique; try assumption.
    + apply Rmult_eq_reg_l with (sqrt (x * x + y * y)); lra.
    + apply Rmult_eq_reg_l with (sqrt (x * x + y * y)); lra.
Qed.

(* a point given in polar form *)
Lemma m_atan2_of_polar : forall k t, 0 < k -> - PI < t <= PI ->
  m_atan2 (k * sin t) (k * cos t) = t.
Proof.
  intros k t K T. apply (polar_unique (k * cos t) (k * sin t)); [apply m_atan2_polar|].
  assert (E : sqrt (k * cos t * (k * cos t) + k * sin t * (k * sin t)) = k).
  { replace (k * cos t * (k * cos t) + k * sin t * (k * sin t)) with (k * k).
    - apply sqrt_square; lra.
    - pose proof (sc1 t). replace (k * cos t * (k * cos t) + k * sin t * (k * sin t))
        with (k * k * (sin t * sin t + cos t * cos t)) by ring. rewrite H; ring. }
  split; [exact T|]. rewrite E. repeat split.
  intros X Y. exfalso. pose proof (sc1 t).
  assert (cos t = 0) by (apply Rmult_eq_reg_l with k; lra).
  assert (sin t = 0) by (apply Rmult_eq_reg_l with k; lra). nra.
Qed.

(* ------------------------------------------------------------------ *)
(* % 360 *)
Lemma m_mod360_range : forall r, 0 <= m_mod360 r < 360.
Proof.
  intros; unfold m_mod360. pose proof (Zfloor_lb (r / 360)). pose proof (Zfloor_ub (r / 360)).
  lra.
Qed.
Lemma m_mod360_turns : forall r, exists k : Z, m_mod360 r = r - 360 * IZR k.
Proof. intros; exists (Zfloor (r / 360)); reflexivity. Qed.
Lemma m_mod360_val : forall r (k : Z), 0 <= r - 360 * IZR k < 360 ->
  m_mod360 r = r - 360 * IZR k.
Proof.
  intros r k H. unfold m_mod360. replace (Zfloor (r / 360)) with k; [reflexivity|].
  symmetry. apply Zfloor_imp. rewrite plus_IZR. lra.
Qed.

Lemma cos_turns : forall t (k : Z), cos (t - 2 * PI * IZR k) = cos t.
Proof.
  intros t k. destruct (Z_le_dec 0 k) as [K|K].
  - rewrite <- (cos_period (t - 2 * PI * IZR k) (Z.to_nat k)). f_equal.
    rewrite INR_IZR_INZ, Z2Nat.id by lia. ring.
  - rewrite <- (cos_period t (Z.to_nat (- k))). f_equal.
    rewrite INR_IZR_INZ, Z2Nat.id by lia. rewrite opp_IZR. ring.
Qed.
Lemma sin_turns : forall t (k : Z), sin (t - 2 * PI * IZR k) = sin t.
Proof.
  intros t k. destruct (Z_le_dec 0 k) as [K|K].
  - rewrite <- (sin_period (t - 2 * PI * IZR k) (Z.to_nat k)). f_equal.
    rewrite INR_IZR_INZ, Z2Nat.id by lia. ring.
  - rewrite <- (sin_period t (Z.to_nat (- k))). f_equal.
    rewrite INR_IZR_INZ, Z2Nat.id by lia. rewrite opp_IZR. ring.
Qed.

Lemma radians_mod : forall t, exists k : Z,
  radians (m_mod360 (t * 180 / PI + 360)) = t - 2 * PI * IZR k.
Proof.
  intros t. destruct (m_mod360_turns (t * 180 / PI + 360)) as [k E]. rewrite E.
  exists (k - 1)%Z. rewrite minus_IZR. unfold radians. pose proof PI_RGT_0. field. lra.
Qed.
Lemma cos_mod : forall t, cos (radians (m_mod360 (t * 180 / PI + 360))) = cos t.
Proof. intros t. destruct (radians_mod t) as [k ->]. apply cos_turns. Qed.
Lemma sin_mod : forall t, sin (radians (m_mod360 (t * 180 / PI + 360))) = sin t.
Proof. intros t. destruct (radians_mod t) as [k ->]. apply sin_turns. Qed.

(* the angle handed to % 360 lies in (-pi, pi]: the result is the angle in
   degrees, with 360 added when it is negative *)
Lemma mod_nonneg : forall t, 0 <= t <= PI -> m_mod360 (t * 180 / PI + 360) = t * 180 / PI.
Proof.
  intros t T. pose proof PI_RGT_0.
  assert (0 <= t / PI) by (apply Rmult_le_pos; [lra|left; apply Rinv_0_lt_compat; lra]).
  assert (t / PI <= 1) by (apply Rmult_le_reg_r with PI; [lra|]; unfold Rdiv; rewrite Rmult_assoc, Rinv_l by lra; lra).
  rewrite (m_mod360_val _ 1); [lra|]. 
  replace (t * 180 / PI) with (180 * (t / PI)) by (field; lra). lra.
Qed.
Lemma mod_neg : forall t, - PI < t < 0 -> m_mod360 (t * 180 / PI + 360) = t * 180 / PI + 360.
Proof.
  intros t T. pose proof PI_RGT_0.
  assert (t / PI < 0).
  { apply Rmult_lt_reg_r with PI; [lra|]; unfold Rdiv; rewrite Rmult_assoc, Rinv_l by lra; lra. }
  assert (-1 < t / PI).
  { apply Rmult_lt_reg_r with PI; [lra|]; unfold Rdiv; rewrite Rmult_assoc, Rinv_l by lra; lra. }
  rewrite (m_mod360_val _ 0); [simpl; ring|].
  replace (t * 180 / PI) with (180 * (t / PI)) by (field; lra). simpl. lra.
Qed.

Lemma bearing_eq : forall lat1 lon1 lat2 lon2,
  bearing lat1 lon1 lat2 lon2 =
  m_mod360 (m_atan2 (dot (sphere_point lat2 lon2) (east lat1 lon1))
                    (dot (sphere_point lat2 lon2) (north lat1 lon1)) * 180 / PI + 360).
Proof.
  intros. unfold bearing. cbv zeta. rewrite !to_rad_radians.
  match goal with |- m_mod360 (m_atan2 ?a ?b * _ / _ + _) = m_mod360 (m_atan2 ?c ?d * _ / _ + _) =>
    replace c with a; [replace d with b; [reflexivity|]|] end;
  unfold dot, sphere_point, east, north; rewrite ?sin_minus, ?cos_minus; ring.
Qed.

(* ------------------------------------------------------------------ *)
(* ellipsoid *)
Lemma ellipse_root : forall f s c, f <> 0 -> f <> 1 -> s * s + c * c = 1 ->
  0 < 1 - 1 / f * (2 - 1 / f) * s ^ 2 /\
  1 - 1 / f * (2 - 1 / f) * s ^ 2 = c * c + (1 - 1 / f) * (1 - 1 / f) * (s * s).
Proof.
  intros f s c F F1 E.
  assert (Q : 1 - 1 / f * (2 - 1 / f) * s ^ 2 = c * c + (1 - 1 / f) * (1 - 1 / f) * (s * s)).
  { replace (c * c) with (1 - s * s) by lra. ring. }
  split; [|exact Q]. rewrite Q.
  assert (G : 1 - 1 / f <> 0).
  { intro K. apply F1. apply Rmult_eq_reg_r with (1 / f).
    - unfold Rdiv. rewrite Rmult_1_l, Rinv_r by assumption. lra.
    - unfold Rdiv. rewrite Rmult_1_l. apply Rinv_neq_0_compat. assumption. }
  assert (0 < (1 - 1 / f) * (1 - 1 / f)) by nra.
  destruct (Req_EM_T s 0); [subst; nra|].
  assert (0 < s * s) by nra. assert (0 <= c * c) by nra.
  pose proof (Rmult_lt_0_compat _ _ H H0). lra.
Qed.

Lemma llh2ecef_eq : forall lat lon height a f, a <> 0 -> f <> 0 -> f <> 1 ->
  let q := sqrt (1 - 1 / f * (2 - 1 / f) * sin (radians lat) ^ 2) in
  0 < q /\
  llh2ecef lat lon height a f =
  Ok ((a / q + height) * cos (radians lat) * cos (radians lon),
      (a / q + height) * cos (radians lat) * sin (radians lon),
      (a * ((1 - 1 / f) * (1 - 1 / f)) / q + height) * sin (radians lat)).
Proof.
  intros lat lon height a f A F F1 q.
  destruct (ellipse_root f (sin (radians lat)) (cos (radians lat)) F F1 (sc1 _)) as [P Q].
  assert (Pq : 0 < q) by (apply sqrt_lt_R0; exact P).
  split; [exact Pq|].
  unfold llh2ecef. cbv zeta. rewrite !to_rad_radians, m_div_ok by assumption. cbn [bind].
  rewrite m_sqrt_ok by lra. cbn [bind]. fold q.
  rewrite m_div_ok by lra. cbn [bind].
  rewrite m_div_ok by (simpl; nra). cbn [bind].
  do 2 f_equal. field. repeat split; try assumption; try lra.
Qed.
