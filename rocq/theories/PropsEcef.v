(* C65: ecef2llh over the real numbers (see Geo.v for what that leaves out).
   a is the equatorial semi-axis, f the inverse flattening; "6300000 <= a <=
   6400000, 290 <= f" holds for every geodetic datum (WGS84: 6378137,
   298.257...). *)
From Coq Require Import Reals Lra Lia Psatz.
From Verif Require Import PyBase Geo GeoSpec GeoProofs EcefProofs EcefAccuracy.
Open Scope R_scope.

Example wgs84_datum : 6300000 <= WGS84_SMAJ_AXIS <= 6400000 /\ 290 <= WGS84_FLATTENING.
Proof. unfold WGS84_SMAJ_AXIS, WGS84_FLATTENING. lra. Qed.

(* distance of a point from the centre *)
Definition from_centre (x y z : R) : R := sqrt (x * x + y * y + z * z).

(* within 100 km of the centre the nominal position is returned *)
Theorem C65_core : forall x y z a f, f <> 0 -> from_centre x y z < 100000 ->
  ecef2llh x y z a f = Ok (0, 0, -10000000).
Proof.
  intros x y z a f F H. rewrite ecef2llh_eq by assumption. cbv zeta.
  unfold from_centre in H. destruct (Rlt_dec _ 100000); [reflexivity|contradiction].
Qed.

(* a zero inverse flattening is a ZeroDivisionError *)
Theorem C65_zero : forall x y z a, ecef2llh x y z a 0 = Raise ZeroDivisionError.
Proof.
  intros. unfold ecef2llh.
  assert (K : m_div 1 0 = Raise ZeroDivisionError)
    by (unfold m_div; destruct (Req_EM_T 0 0); [reflexivity|lra]).
  rewrite K. reflexivity.
Qed.

Lemma plane_setup : forall x y z,
  let w := sqrt (x * x + y * y) in
  0 <= w /\ 0 <= Rabs z /\
  w * w + Rabs z * Rabs z = from_centre x y z * from_centre x y z.
Proof.
  intros x y z w. pose proof (sq_nonneg x). pose proof (sq_nonneg y). pose proof (sq_nonneg z).
  split; [apply sqrt_pos|]. split; [apply Rabs_pos|].
  unfold w, from_centre. rewrite !sqrt_sqrt by lra. rewrite <- (sq_abs z). reflexivity.
Qed.

Lemma degrees_radians : forall t, radians (t * 180 / PI) = t.
Proof. intros. unfold radians. pose proof PI_RGT_0. field. lra. Qed.
Lemma radians_degrees : forall t, radians t * 180 / PI = t.
Proof. intros. unfold radians. pose proof PI_RGT_0. field. lra. Qed.
Lemma radians_le_inv : forall a b, radians a <= radians b -> a <= b.
Proof.
  intros. apply Rnot_lt_le. intro K. apply radians_lt in K. lra.
Qed.

(* Everywhere else ecef2llh succeeds, with a latitude between -90 and 90 on the
   point's side of the equator, the point's own longitude, and a height above
   -6400 km, so never the nominal one *)
Theorem C65_total : forall x y z a f, 6300000 <= a <= 6400000 -> 290 <= f ->
  100000 <= from_centre x y z ->
  exists lat lon height, ecef2llh x y z a f = Ok (lat, lon, height) /\
    -90 <= lat <= 90 /\ (0 <= z -> 0 <= lat) /\ (z < 0 -> lat <= 0) /\
    polar_angle x y (radians lon) /\ -6400000 < height.
Proof.
  intros x y z a f A F Rr.
  pose proof (earth_flattening f F) as E. rewrite ecef2llh_eq by lra. cbv zeta in *.
  set (e2 := 1 / f * (2 - 1 / f)) in *. fold (from_centre x y z).
  destruct (Rlt_dec (from_centre x y z) 100000); [lra|].
  destruct (plane_setup x y z) as (W & Zp & Pl).
  set (w := sqrt (x * x + y * y)) in *. set (zp := Rabs z) in *. set (r := from_centre x y z) in *.
  destruct (ecef_plane_eq a e2 w zp z (m_atan2 y x) r (conj A E) W Zp Pl Rr)
    as (s & c & lat & S0 & C0 & SC & L & Ls & Lc & D & G & ->).
  rewrite ecef_tail_eq by (try (split; assumption); lra). cbv zeta.
  do 3 eexists. split; [reflexivity|].
  pose proof (tail_d_pos a e2 w zp s c (conj A E) SC) as TD.
  assert (AE : a * e2 <= 44160).
  { pose proof (mul_bound a e2 6400000 (69/10000) ltac:(lra) ltac:(lra)). lra. }
  set (dd := tail_d a e2 w zp s c) in *. set (m := tail_m a e2 w zp s c) in *.
  assert (Dp : 0 < dd) by lra.
  (* direction of the point *)
  assert (Rs : 0 < r) by lra.
  set (sp := zp / r) in *. set (cp := w / r) in *.
  assert (Sp : 0 <= sp) by (apply Rmult_le_pos; [assumption|left; apply Rinv_0_lt_compat; lra]).
  assert (Cp : 0 <= cp) by (apply Rmult_le_pos; [assumption|left; apply Rinv_0_lt_compat; lra]).
  assert (Es : zp * zp / (r * r) = sp * sp) by (unfold sp; field; lra).
  assert (Ec : w * w / (r * r) = cp * cp) by (unfold cp; field; lra).
  assert (Ew : w = cp * r) by (unfold cp; field; lra).
  assert (Ez : zp = sp * r) by (unfold sp; field; lra).
  assert (Spc : sp * sp + cp * cp = 1).
  { rewrite <- Es, <- Ec. replace (zp * zp / (r * r) + w * w / (r * r))
      with ((w * w + zp * zp) / (r * r)) by (field; lra). rewrite Pl. field. lra. }
  rewrite Es, Ec in G. cbv zeta in G.
  assert (Er : 0 < a * e2 / r <= 4416 / 10000).
  { split; [apply Rdiv_lt_0_compat; [apply Rmult_lt_0_compat|]; lra|]. apply div_le; lra. }
  pose proof (sq_nonneg sp). pose proof (sq_nonneg cp).
  assert (Lo : - (s * dd) <= m /\ sp <= s).
  { destruct G as [[B Gs]|[B Gc]].
    - pose proof (corr1_bounds (a * e2 / r) e2 (sp * sp) ltac:(lra) E ltac:(lra)) as KB.
      destruct (guess1_ok sp cp _ Sp Cp Spc ltac:(lra) KB) as (S1 & S2 & Cc & C1 & _).
      pose proof (lat_lower1 a e2 w zp r sp cp _ (conj A E) Rr Ew Ez Sp Cp Spc B KB) as LL.
      cbv zeta in *. rewrite <- Gs in *.
      replace (sqrt (1 - s * s)) with c in LL by (symmetry; apply sqrt_lem_1; lra).
      split; assumption.
    - pose proof (corr2_bounds (a * e2 / r) e2 (cp * cp) ltac:(lra) E ltac:(lra)) as KB.
      destruct (guess2_ok sp cp _ Sp Cp Spc ltac:(lra) KB) as (C1 & C2 & _).
      pose proof (lat_lower2 a e2 w zp r sp cp _ (conj A E) Rr Ew Ez Sp Cp Spc ltac:(lra) KB) as LL.
      cbv zeta in *. rewrite <- Gc in *.
      replace (sqrt (1 - c * c)) with s in LL by (symmetry; apply sqrt_lem_1; lra).
      split; [assumption|]. apply sq_le; [assumption|].
      pose proof (mul_bound c c cp cp ltac:(lra) ltac:(lra)). lra. }
  destruct Lo as [Lo Sps].
  assert (Ccp : c <= cp).
  { apply sq_le; [assumption|]. pose proof (mul_bound sp sp s s ltac:(lra) ltac:(lra)). lra. }
  assert (Up : m <= c * dd).
  { apply (lat_upper a e2 w zp r s c (conj A E)); try assumption.
    - rewrite Ew. apply Rmult_le_compat_r; lra.
    - rewrite Ez. apply Rmult_le_compat_r; lra. }
  set (p := m / dd) in *.
  assert (P1 : p <= c) by (apply div_le; assumption).
  assert (P2 : - s <= p) by (apply le_div; [assumption|lra]).
  pose proof PI_RGT_0 as Pi.
  assert (T1 : c <= PI / 2 - lat).
  { rewrite <- Lc, <- sin_shift. apply sin_high. lra. }
  assert (T2 : s <= lat) by (rewrite <- Ls; apply sin_high; lra).
  assert (Q : 0 <= lat + p <= PI / 2) by lra.
  assert (Deg : 0 <= (lat + p) * 180 / PI <= 90).
  { split; apply radians_le_inv; rewrite ?radians_0, ?radians_90, degrees_radians; lra. }
  split; [|split; [|split; [|split]]].
  - destruct (Rlt_dec z 0); [|lra].
    replace (- (lat + p) * 180 / PI) with (- ((lat + p) * 180 / PI)) by (field; lra). lra.
  - intros. destruct (Rlt_dec z 0); lra.
  - intros. destruct (Rlt_dec z 0); [|lra].
    replace (- (lat + p) * 180 / PI) with (- ((lat + p) * 180 / PI)) by (field; lra). lra.
  - rewrite degrees_radians. apply m_atan2_polar.
  - assert (Mp : 0 <= m * p / 2).
    { replace (m * p / 2) with (dd * (p * p) / 2) by (unfold p; field; lra).
      assert (0 <= dd * (p * p)) by (apply Rmult_le_pos; [lra|apply sq_nonneg]). lra. }
    unfold tail_f. destruct (root_bounds e2 s c E SC) as (_ & Qb & _).
    cbv zeta in Qb. set (q := sqrt (1 - e2 * (s * s))) in *.
    assert (a * q <= 6400000) by (pose proof (mul_bound a q 6400000 1 ltac:(lra) ltac:(lra)); lra).
    lra.
Qed.

(* so the nominal position is returned exactly within 100 km of the centre *)
Theorem C65_nominal_iff : forall x y z a f, 6300000 <= a <= 6400000 -> 290 <= f ->
  (ecef2llh x y z a f = Ok (0, 0, -10000000) <-> from_centre x y z < 100000).
Proof.
  intros x y z a f A F. split.
  - intro H. apply Rnot_le_lt. intro K.
    destruct (C65_total x y z a f A F K) as (lat & lon & h & H1 & _ & _ & _ & _ & H2).
    rewrite H in H1. injection H1 as <- <- <-. lra.
  - apply C65_core. lra.
Qed.

(* reflection in the equatorial plane negates the latitude and changes nothing
   else; for any parameters, also when an exception is raised *)
Definition mirror (r : result (R * R * R)) : result (R * R * R) :=
  match r with
  | Ok (lat, lon, height) => Ok (- lat, lon, height)
  | Raise e => Raise e
  end.
Lemma tail_mirror : forall a e2 a6 w zp z lat lon s c ss, z <> 0 ->
  ecef_tail a e2 a6 w zp (- z) lat lon s c ss = mirror (ecef_tail a e2 a6 w zp z lat lon s c ss).
Proof.
  intros. unfold ecef_tail. cbv zeta. destruct (m_sqrt _); [|reflexivity]. cbn [bind].
  destruct (m_div a _); [|reflexivity]. cbn [bind].
  destruct (m_div (a6 * _) _); [|reflexivity]. cbn [bind].
  destruct (m_div _ _); [|reflexivity]. cbn [bind mirror].
  destruct (Rlt_dec (- z) 0); destruct (Rlt_dec z 0); try lra; unfold Rdiv; repeat f_equal; ring.
Qed.
Lemma mirror_bind : forall A (r : result A) k,
  mirror (bind r k) = bind r (fun a => mirror (k a)).
Proof. intros. destruct r; reflexivity. Qed.
Lemma ecef_off_plane : forall x y z a f, z <> 0 ->
  ecef2llh x y (- z) a f = mirror (ecef2llh x y z a f).
Proof.
  intros x y z a f Z0. destruct (Req_EM_T f 0) as [->|F].
  { rewrite !C65_zero. reflexivity. }
  rewrite !ecef2llh_eq by assumption. cbv zeta.
  rewrite Rabs_Ropp. replace (- z * - z) with (z * z) by ring.
  destruct (Rlt_dec _ 100000).
  { cbn [mirror]. rewrite Ropp_0. reflexivity. }
  unfold ecef_plane. cbv zeta.
  destruct (Rlt_dec (3 / 10) _).
  - rewrite mirror_bind. destruct (m_asin _); [|reflexivity]. cbn [bind].
    rewrite mirror_bind. destruct (m_sqrt _); [|reflexivity]. cbn [bind].
    apply tail_mirror; assumption.
  - rewrite mirror_bind. destruct (m_acos _); [|reflexivity]. cbn [bind].
    rewrite mirror_bind. destruct (m_sqrt _); [|reflexivity]. cbn [bind].
    apply tail_mirror; assumption.
Qed.

(* points of the equatorial plane: latitude 0, height measured from the equator *)
Theorem C65_equator : forall x y a f, 6300000 <= a <= 6400000 -> 290 <= f ->
  100000 <= sqrt (x * x + y * y) ->
  exists lon, ecef2llh x y 0 a f = Ok (0, lon, sqrt (x * x + y * y) - a) /\
    polar_angle x y (radians lon).
Proof.
  intros x y a f A F Rr.
  pose proof (earth_flattening f F) as E. rewrite ecef2llh_eq by lra. cbv zeta in *.
  set (e2 := 1 / f * (2 - 1 / f)) in *.
  replace (x * x + y * y + 0 * 0) with (x * x + y * y) by ring.
  set (w := sqrt (x * x + y * y)) in *.
  destruct (Rlt_dec w 100000); [lra|]. rewrite Rabs_R0.
  exists (m_atan2 y x * 180 / PI). split; [|rewrite degrees_radians; apply m_atan2_polar].
  unfold ecef_plane. cbv zeta.
  replace (w * w / (w * w)) with 1 by (field; lra).
  destruct (Rlt_dec (3 / 10) 1); [|lra].
  replace (0 / w * _) with 0 by (unfold Rdiv; ring).
  rewrite m_asin_ok by lra. cbn [bind]. rewrite m_sqrt_ok by lra. cbn [bind].
  rewrite ecef_tail_eq; [|split; assumption| |].
  - unfold tail_m, tail_f. rewrite asin_0.
    replace (sqrt (1 - 0 * 0)) with 1 by (rewrite Rmult_0_r, Rminus_0_r, sqrt_1; reflexivity).
    replace (sqrt (1 - e2 * (0 * 0))) with 1
      by (rewrite !Rmult_0_r, Rminus_0_r, sqrt_1; reflexivity).
    destruct (Rlt_dec 0 0); [lra|].
    replace (1 * 0 - 0 * w + a * e2 * (0 * 1) / 1) with 0 by field.
    unfold Rdiv. rewrite !Rmult_0_l.
    pose proof PI_RGT_0. do 2 f_equal; [f_equal; ring|ring].
  - replace (sqrt (1 - 0 * 0)) with 1 by (rewrite Rmult_0_r, Rminus_0_r, sqrt_1; reflexivity). ring.
  - replace (sqrt (1 - 0 * 0)) with 1 by (rewrite Rmult_0_r, Rminus_0_r, sqrt_1; reflexivity). lra.
Qed.

Theorem C65_reflection : forall x y z a f, 6300000 <= a <= 6400000 -> 290 <= f ->
  exists lat lon height,
    ecef2llh x y z a f = Ok (lat, lon, height) /\
    ecef2llh x y (- z) a f = Ok (- lat, lon, height).
Proof.
  intros x y z a f A F.
  destruct (Rlt_dec (from_centre x y z) 100000) as [C|C].
  { exists 0, 0, (-10000000). rewrite Ropp_0. split; apply C65_core; try lra.
    unfold from_centre in *. replace (- z * - z) with (z * z) by ring. assumption. }
  destruct (Req_EM_T z 0) as [->|Z0].
  - assert (K : 100000 <= sqrt (x * x + y * y)).
    { unfold from_centre in C. replace (x * x + y * y + 0 * 0) with (x * x + y * y) in C by ring. lra. }
    destruct (C65_equator x y a f A F K) as (lon & H & _).
    exists 0, lon, (sqrt (x * x + y * y) - a). rewrite Ropp_0. split; exact H.
  - destruct (C65_total x y z a f A F ltac:(lra)) as (lat & lon & h & H & _).
    exists lat, lon, h. split; [exact H|]. rewrite ecef_off_plane by assumption. rewrite H. reflexivity.
Qed.

(* rotation about the polar axis changes neither latitude nor height; for any
   parameters, also when an exception is raised *)
Definition lat_height (r : result (R * R * R)) : result (R * R) :=
  match r with
  | Ok (lat, _, height) => Ok (lat, height)
  | Raise e => Raise e
  end.
Lemma tail_lon : forall a e2 a6 w zp z lat lon lon' s c ss,
  lat_height (ecef_tail a e2 a6 w zp z lat lon s c ss)
  = lat_height (ecef_tail a e2 a6 w zp z lat lon' s c ss).
Proof.
  intros. unfold ecef_tail. cbv zeta. destruct (m_sqrt _); [|reflexivity]. cbn [bind].
  destruct (m_div a _); [|reflexivity]. cbn [bind].
  destruct (m_div (a6 * _) _); [|reflexivity]. cbn [bind].
  destruct (m_div _ _); reflexivity.
Qed.
Theorem C65_rotation : forall x y x' y' z a f, x * x + y * y = x' * x' + y' * y' ->
  lat_height (ecef2llh x y z a f) = lat_height (ecef2llh x' y' z a f).
Proof.
  intros x y x' y' z a f H. destruct (Req_EM_T f 0) as [->|F].
  { rewrite !C65_zero. reflexivity. }
  rewrite !ecef2llh_eq by assumption. cbv zeta. rewrite H.
  destruct (Rlt_dec _ 100000); [reflexivity|].
  unfold ecef_plane. cbv zeta. destruct (Rlt_dec (3 / 10) _).
  - destruct (m_asin _); [|reflexivity]. cbn [bind].
    destruct (m_sqrt _); [|reflexivity]. cbn [bind]. apply tail_lon.
  - destruct (m_acos _); [|reflexivity]. cbn [bind].
    destruct (m_sqrt _); [|reflexivity]. cbn [bind]. apply tail_lon.
Qed.

(* points of the polar axis: latitude 90 or -90, height measured from the pole *)
Theorem C65_poles : forall z a f, 6300000 <= a <= 6400000 -> 290 <= f -> 100000 <= z ->
  ecef2llh 0 0 z a f = Ok (90, 0, z - a * (1 - 1 / f)) /\
  ecef2llh 0 0 (- z) a f = Ok (-90, 0, z - a * (1 - 1 / f)).
Proof.
  intros z a f A F Rr.
  assert (Main : ecef2llh 0 0 z a f = Ok (90, 0, z - a * (1 - 1 / f))).
  { pose proof (earth_flattening f F) as E. rewrite ecef2llh_eq by lra. cbv zeta in *.
    assert (Ff : 0 < 1 / f <= 1 / 290).
    { split; [apply Rdiv_lt_0_compat; lra|]. apply div_le; [lra|]. lra. }
    assert (Root : sqrt (1 - 1 / f * (2 - 1 / f) * (1 * 1)) = 1 - 1 / f).
    { replace (1 - 1 / f * (2 - 1 / f) * (1 * 1)) with ((1 - 1 / f) * (1 - 1 / f)) by (field; lra).
      apply sqrt_square. lra. }
    set (e2 := 1 / f * (2 - 1 / f)) in *.
    replace (0 * 0 + 0 * 0) with 0 by ring. rewrite Rplus_0_l, sqrt_0, sqrt_square by lra.
    destruct (Rlt_dec z 100000); [lra|]. rewrite (Rabs_pos_eq z) by lra.
    assert (At : m_atan2 0 0 = 0) by (unfold m_atan2; destruct (Rlt_dec 0 0); [lra|reflexivity]).
    rewrite At. unfold ecef_plane. cbv zeta.
    replace (0 * 0 / (z * z)) with 0 by (field; lra).
    destruct (Rlt_dec (3 / 10) 0); [lra|].
    replace (0 / z * _) with 0 by (unfold Rdiv; ring).
    rewrite m_acos_ok by lra. cbn [bind]. rewrite m_sqrt_ok by lra. cbn [bind].
    replace (1 - 0 * 0) with 1 by ring. rewrite sqrt_1.
    replace 1 with (1 * 1) at 3 by ring.
    rewrite ecef_tail_eq; [|split; assumption|ring|lra].
    unfold tail_m, tail_f. rewrite acos_0, Root.
    destruct (Rlt_dec z 0); [lra|].
    replace (0 * z - 1 * 0 + a * e2 * (1 * 0) / (1 - 1 / f)) with 0 by (unfold Rdiv; ring).
    pose proof PI_RGT_0. unfold Rdiv at 3 5. rewrite !Rmult_0_l.
    do 2 f_equal; [f_equal; field; lra|]. unfold Rdiv; ring. }
  split; [exact Main|]. rewrite ecef_off_plane by lra. rewrite Main. cbn [mirror].
  replace (-90) with (Ropp 90) by lra. reflexivity.
Qed.

(* ------------------------------------------------------------------ *)
(* converting a geodetic position to ECEF and back *)

(* northern hemisphere, by the plane of the meridian *)
Lemma round_trip_plane : forall lat h a f lon z,
  6300000 <= a <= 6400000 -> 290 <= f -> 0 <= lat <= 90 -> -200000 <= h ->
  let e2 := 1 / f * (2 - 1 / f) in
  let q := sqrt (1 - e2 * (sin (radians lat) * sin (radians lat))) in
  let w := (a / q + h) * cos (radians lat) in
  let zp := (a * (1 - e2) / q + h) * sin (radians lat) in
  let r := sqrt (w * w + zp * zp) in
  0 <= w /\ 0 <= zp /\ 6000000 <= r /\
  exists lat' h', ecef_plane a e2 w zp z lon r =
     Ok ((if Rlt_dec z 0 then - lat' else lat') * 180 / PI, lon * 180 / PI, h') /\
     Rabs (lat' - radians lat) <= 3 / 10000000000 /\ Rabs (h' - h) <= 2 / 1000.
Proof.
  intros lat h a f lon z A F L Hh e2 q w zp r.
  pose proof (earth_flattening f F) as E. cbv zeta in E. fold e2 in E.
  set (ph := radians lat) in *.
  assert (Ph : 0 <= ph <= PI / 2).
  { unfold ph. rewrite <- radians_0, <- radians_90. split; apply radians_le; lra. }
  pose proof PI_RGT_0 as Pi.
  assert (Sf : 0 <= sin ph <= 1) by (split; [apply sin_ge_0; lra|apply SIN_bound]).
  assert (Cf : 0 <= cos ph <= 1) by (split; [apply cos_ge_0; lra|apply COS_bound]).
  pose proof (sc1 ph) as SC.
  pose proof (q_low e2 (sin ph) (cos ph) E SC) as Q. fold q in Q.
  assert (QQ : q * q = 1 - e2 * (sin ph * sin ph)) by (apply (root_bounds e2 (sin ph) (cos ph) E SC)).
  pose proof (inv_q q Q) as Iq.
  assert (AE : 0 < a * e2 <= 44160).
  { pose proof (mul_bound a e2 6400000 (69/10000) ltac:(lra) ltac:(lra)).
    split; [apply Rmult_lt_0_compat; lra|lra]. }
  assert (Aq : a <= a / q).
  { apply le_div; [lra|]. pose proof (Rmult_le_compat_l a q 1 ltac:(lra) ltac:(lra)). lra. }
  assert (Zq : a * (1 - e2) / q = a / q - a * e2 / q) by (field; lra).
  assert (Eq : 0 <= a * e2 / q <= 44400).
  { unfold Rdiv. pose proof (mul_bound (a * e2) (/ q) 44160 (10036/10000) ltac:(lra) ltac:(lra)). lra. }
  assert (W : 0 <= w) by (unfold w; apply Rmult_le_pos; lra).
  assert (Zp : 0 <= zp) by (unfold zp; rewrite Zq; apply Rmult_le_pos; lra).
  pose proof (sq_nonneg w) as Ww. pose proof (sq_nonneg zp) as Zz.
  assert (Rr : r * r = w * w + zp * zp) by (apply sqrt_sqrt; lra).
  assert (R0 : 0 <= r) by apply sqrt_pos.
  (* the point is at least a q + h from the centre *)
  assert (Far : cos ph * w + sin ph * zp = a * q + h).
  { unfold w, zp. rewrite Zq.
    replace (cos ph * ((a / q + h) * cos ph) + sin ph * ((a / q - a * e2 / q + h) * sin ph))
      with ((a / q + h) * (sin ph * sin ph + cos ph * cos ph) - a * e2 * (sin ph * sin ph) / q)
      by (field; lra).
    rewrite SC. replace ((a / q + h) * 1 - a * e2 * (sin ph * sin ph) / q)
      with (a * (1 - e2 * (sin ph * sin ph)) / q + h) by (field; lra).
    rewrite <- QQ. field. lra. }
  assert (Aq2 : 9965/10000 * 6300000 <= a * q).
  { rewrite (Rmult_comm a). apply Rmult_le_compat; lra. }
  assert (Rf : 6000000 <= r).
  { apply sq_le; [assumption|].
    (* Cauchy-Schwarz *)
    assert (CS : (cos ph * w + sin ph * zp) * (cos ph * w + sin ph * zp) <= r * r).
    { rewrite Rr. pose proof (sq_nonneg (cos ph * zp - sin ph * w)) as N.
      assert (Id : (cos ph * w + sin ph * zp) * (cos ph * w + sin ph * zp)
         + (cos ph * zp - sin ph * w) * (cos ph * zp - sin ph * w)
         = (sin ph * sin ph + cos ph * cos ph) * (w * w + zp * zp)) by ring.
      rewrite SC in Id. lra. }
    rewrite Far in CS.
    pose proof (Rmult_le_compat 6000000 (a * q + h) 6000000 (a * q + h)
       ltac:(lra) ltac:(lra) ltac:(lra) ltac:(lra)). lra. }
  split; [exact W|]. split; [exact Zp|]. split; [exact Rf|].
  destruct (ecef_plane_eq a e2 w zp z lon r (conj A E) W Zp (eq_sym Rr) ltac:(lra))
    as (s & c & th & S0 & C0 & SC2 & Th & Ls & Lc & D & G & ->).
  rewrite ecef_tail_eq by (try (split; assumption); lra). cbv zeta.
  (* residual *)
  assert (Small : Rabs (tail_m a e2 w zp s c) <= 2 / 100 * (a * e2)).
  { set (sp := zp / r) in *. set (cp := w / r) in *.
    assert (Sp : 0 <= sp) by (apply Rmult_le_pos; [assumption|left; apply Rinv_0_lt_compat; lra]).
    assert (Cp : 0 <= cp) by (apply Rmult_le_pos; [assumption|left; apply Rinv_0_lt_compat; lra]).
    assert (Es : zp * zp / (r * r) = sp * sp) by (unfold sp; field; lra).
    assert (Ec : w * w / (r * r) = cp * cp) by (unfold cp; field; lra).
    assert (Ew : w = cp * r) by (unfold cp; field; lra).
    assert (Ez : zp = sp * r) by (unfold sp; field; lra).
    assert (Spc : sp * sp + cp * cp = 1).
    { rewrite <- Es, <- Ec. replace (zp * zp / (r * r) + w * w / (r * r))
        with ((w * w + zp * zp) / (r * r)) by (field; lra). rewrite <- Rr. field. lra. }
    rewrite Es, Ec in G. cbv zeta in G.
    set (eps := a * e2 / r) in *.
    assert (Er : 0 < eps <= 736 / 100000).
    { unfold eps. split; [apply Rdiv_lt_0_compat; lra|]. apply div_le; lra. }
    pose proof (q_low e2 s c E SC2) as Qs. pose proof (inv_q _ Qs) as Is.
    assert (Et : tail_m a e2 w zp s c
       = r * (c * sp - s * cp + eps * (s * c) * / sqrt (1 - e2 * (s * s)))).
    { unfold tail_m, eps. rewrite Ew, Ez at 1. field. split; lra. }
    assert (Res : Rabs (c * sp - s * cp + eps * (s * c) * / sqrt (1 - e2 * (s * s))) <= 2 / 100 * eps).
    { pose proof (sq_nonneg s). pose proof (sq_nonneg c). destruct G as [[B Gs]|[B Gc]].
      - pose proof (guess1_residual eps e2 sp cp _ Er E Sp Cp Spc ltac:(lra) Is) as GR.
        cbv zeta in GR. rewrite <- Gs in GR.
        replace (sqrt (1 - s * s)) with c in GR by (symmetry; apply sqrt_lem_1; lra). exact GR.
      - pose proof (guess2_residual eps e2 sp cp _ Er E Sp Cp Spc ltac:(lra) Is) as GR.
        cbv zeta in GR. rewrite <- Gc in GR.
        replace (sqrt (1 - c * c)) with s in GR by (symmetry; apply sqrt_lem_1; lra). exact GR. }
    rewrite Et. pose proof (b_mul r _ r _ (b_pos r r ltac:(lra)) Res) as Fb.
    replace (r * (2 / 100 * eps)) with (2 / 100 * (a * e2)) in Fb by (unfold eps; field; lra).
    exact Fb. }
  assert (Zp2 : zp = (a / q + h - a * e2 / q) * sin ph) by (unfold zp; rewrite Zq; ring).
  pose proof (step_result a e2 ph th h (conj A E) Ph Th) as SR.
  rewrite Ls, Lc in SR. fold q in SR. fold w in SR. rewrite <- Zp2 in SR.
  destruct (SR ltac:(lra) ltac:(lra)) as [SR1 SR2].
  exists (th + tail_m a e2 w zp s c / tail_d a e2 w zp s c). eexists.
  split; [reflexivity|]. split; [|lra].
  replace (th + tail_m a e2 w zp s c / tail_d a e2 w zp s c - ph)
    with (tail_m a e2 w zp s c / tail_d a e2 w zp s c - (ph - th)) by ring.
  exact SR1.
Qed.

Lemma axis_distance_pos : forall lat lon h a f,
  6300000 <= a <= 6400000 -> 290 <= f -> -200000 <= h -> -90 < lat < 90 -> -180 < lon <= 180 ->
  let e2 := 1 / f * (2 - 1 / f) in
  let q := sqrt (1 - e2 * sin (radians lat) ^ 2) in
  0 < (a / q + h) * cos (radians lat).
Proof.
  intros lat lon h a f A F Hh L1 L2 e2 q.
  pose proof (earth_flattening f F) as E. cbv zeta in E. fold e2 in E.
  pose proof (q_low e2 (sin (radians lat)) (cos (radians lat)) E (sc1 _)) as Q.
  replace (e2 * (sin (radians lat) * sin (radians lat))) with (e2 * sin (radians lat) ^ 2) in Q by ring.
  fold q in Q.
  apply Rmult_lt_0_compat.
  - assert (6000000 <= a / q); [|lra]. apply le_div; lra.
  - apply cos_gt_0; rewrite <- radians_90, <- ?radians_opp; apply radians_lt; lra.
Qed.

(* For every latitude, every longitude, and every height above -200 km (no
   upper limit): the latitude comes back within 2e-8 degrees, the height within
   2 mm, and the longitude exactly unless the point is a pole *)
Theorem C65_round_trip : forall lat lon h a f,
  6300000 <= a <= 6400000 -> 290 <= f -> -90 <= lat <= 90 -> -200000 <= h ->
  exists x y z lat' lon' h',
    llh2ecef lat lon h a f = Ok (x, y, z) /\
    ecef2llh x y z a f = Ok (lat', lon', h') /\
    Rabs (lat' - lat) <= 2 / 100000000 /\
    Rabs (h' - h) <= 2 / 1000 /\
    (-90 < lat < 90 -> -180 < lon <= 180 -> lon' = lon).
Proof.
  intros lat lon h a f A F L Hh.
  destruct (llh2ecef_eq lat lon h a f ltac:(lra) ltac:(lra) ltac:(lra)) as [Q0 LE].
  cbv zeta in Q0, LE.
  set (e2 := 1 / f * (2 - 1 / f)) in *.
  replace (e2 * sin (radians lat) ^ 2) with (e2 * (sin (radians lat) * sin (radians lat))) in * by ring.
  set (q := sqrt (1 - e2 * (sin (radians lat) * sin (radians lat)))) in *.
  replace ((1 - 1 / f) * (1 - 1 / f)) with (1 - e2) in LE by (unfold e2; field; lra).
  set (lat0 := Rabs lat).
  assert (L0 : 0 <= lat0 <= 90) by (split; [apply Rabs_pos|apply b_le; lra]).
  set (x := (a / q + h) * cos (radians lat) * cos (radians lon)) in *.
  set (y := (a / q + h) * cos (radians lat) * sin (radians lon)) in *.
  set (z := (a * (1 - e2) / q + h) * sin (radians lat)) in *.
  assert (Cabs : cos (radians lat0) = cos (radians lat)).
  { unfold lat0, Rabs. destruct (Rcase_abs lat); [rewrite radians_opp; apply cos_neg|reflexivity]. }
  assert (Sabs : sin (radians lat0) * sin (radians lat0) = sin (radians lat) * sin (radians lat)).
  { unfold lat0, Rabs. destruct (Rcase_abs lat); [rewrite radians_opp, sin_neg; ring|reflexivity]. }
  destruct (round_trip_plane lat0 h a f (m_atan2 y x) z A F L0 Hh)
    as (W & Zp & Rf & lat' & h' & EP & E1 & E2).
  cbv zeta in *. fold e2 in W, Zp, Rf, EP. rewrite Sabs, Cabs in *. fold q in W, Zp, Rf, EP.
  set (w := (a / q + h) * cos (radians lat)) in *.
  set (zp := (a * (1 - e2) / q + h) * sin (radians lat0)) in *.
  assert (Wxy : sqrt (x * x + y * y) = w).
  { replace (x * x + y * y) with (w * w * (sin (radians lon) * sin (radians lon) + cos (radians lon) * cos (radians lon)))
      by (unfold x, y; fold w; ring).
    rewrite sc1, Rmult_1_r. apply sqrt_square. exact W. }
  pose proof (sq_nonneg x). pose proof (sq_nonneg y).
  assert (Wsq : x * x + y * y = w * w) by (rewrite <- Wxy; rewrite sqrt_sqrt by lra; reflexivity).
  assert (Zabs : Rabs z = zp).
  { unfold zp, z, lat0, Rabs at 2. unfold zp, lat0, Rabs in Zp.
    destruct (Rcase_abs lat).
    - rewrite radians_opp, sin_neg in *.
      rewrite Rabs_left1 by lra. ring.
    - apply Rabs_pos_eq. exact Zp. }
  assert (Zsq : z * z = zp * zp) by (rewrite <- Zabs; apply sq_abs).
  exists x, y, z, ((if Rlt_dec z 0 then - lat' else lat') * 180 / PI), (m_atan2 y x * 180 / PI), h'.
  split; [exact LE|].
  split.
  - rewrite ecef2llh_eq by lra. cbv zeta. fold e2.
    rewrite Zabs, Wxy, Zsq, Wsq.
    destruct (Rlt_dec (sqrt (w * w + zp * zp)) 100000) as [K|K]; [|exact EP].
    exfalso. lra.
  - pose proof PI_RGT_0 as Pi. pose proof PI2_3_2 as Pi3.
    assert (Deg : Rabs (lat' * 180 / PI - lat0) <= 2 / 100000000).
    { replace (lat' * 180 / PI - lat0) with ((lat' - radians lat0) * (180 / PI))
        by (unfold radians; field; lra).
      pose proof (b_mul _ _ _ _ E1 (b_pos (180 / PI) 60
        (conj (Rlt_le _ _ (Rdiv_lt_0_compat 180 PI ltac:(lra) Pi))
              (div_le 180 PI 60 Pi ltac:(lra))))). lra. }
    split; [|split; [exact E2|]].
    + (* the sign of the latitude *)
      unfold lat0, Rabs in Deg, Zp. unfold zp, lat0, Rabs in Zp.
      destruct (Rlt_dec z 0) as [N|N].
      * assert (lat < 0).
        { apply Rnot_le_lt. intro K. destruct (Rcase_abs lat); [lra|].
          unfold z in N. lra. }
        destruct (Rcase_abs lat); [|lra].
        rewrite <- Rabs_Ropp.
        replace (- (- lat' * 180 / PI - lat)) with (lat' * 180 / PI - - lat) by (field; lra).
        exact Deg.
      * destruct (Rcase_abs lat) as [K|K]; [|exact Deg].
        (* z >= 0 with a negative latitude is impossible *)
        exfalso. apply N. unfold z.
        assert (Sn : 0 < sin (radians (- lat))).
        { apply sin_gt_0; [rewrite <- radians_0; apply radians_lt; lra|].
          rewrite <- radians_180. apply radians_lt. lra. }
        rewrite radians_opp, sin_neg in Sn.
        assert (Pos : 0 < a * (1 - e2) / q + h).
        { pose proof (earth_flattening f F) as E. cbv zeta in E. fold e2 in E.
          pose proof (q_low e2 (sin (radians lat)) (cos (radians lat)) E (sc1 _)) as Q. fold q in Q.
          assert (6000000 <= a * (1 - e2) / q); [|lra]. apply le_div; [lra|].
          pose proof (mul_bound a e2 6400000 (69/10000) ltac:(lra) ltac:(lra)). lra. }
        pose proof (Rmult_lt_0_compat _ _ Pos Sn). lra.
    + (* longitude *)
      intros L1 L2.
      pose proof (axis_distance_pos lat lon h a f A F Hh L1 L2) as K. 
      cbv zeta in K. fold e2 in K.
      replace (e2 * sin (radians lat) ^ 2) with (e2 * (sin (radians lat) * sin (radians lat))) in K by ring.
      fold q in K. fold w in K. 
      unfold x, y. fold w. rewrite (m_atan2_of_polar w (radians lon) K).
      * apply radians_degrees.
      * rewrite <- radians_180, <- radians_opp. split; [apply radians_lt|apply radians_le]; lra.
Qed.
