(* C65, the other way round: ECEF to geodetic and back to ECEF *)
From Coq Require Import Reals Lra Lia Psatz.
From Coquelicot Require Import Coquelicot.
From Verif Require Import PyBase Geo GeoSpec GeoProofs EcefProofs EcefAccuracy PropsEcef.
Open Scope R_scope.

Lemma sin_lip : forall x y, Rabs (sin x - sin y) <= Rabs (x - y).
Proof.
  intros x y. replace (sin x - sin y) with (2 * (sin ((x - y) / 2) * cos ((x + y) / 2))).
  - pose proof (sin_abs ((x - y) / 2)) as S.
    pose proof (b_mul _ _ _ 1 S (b_le (cos ((x + y) / 2)) 1 (COS_bound _))) as B.
    replace (Rabs ((x - y) / 2)) with (Rabs (x - y) / 2) in B.
    + rewrite Rabs_mult, (Rabs_pos_eq 2) by lra. lra.
    + unfold Rdiv. rewrite Rabs_mult, (Rabs_pos_eq (/ 2)) by lra. reflexivity.
  - replace x with ((x + y) / 2 + (x - y) / 2) at 3 by field. replace y with ((x + y) / 2 - (x - y) / 2) at 5 by field.
    rewrite sin_plus, sin_minus. ring.
Qed.
Lemma cos_lip : forall x y, Rabs (cos x - cos y) <= Rabs (x - y).
Proof.
  intros x y. rewrite <- !sin_shift. pose proof (sin_lip (PI / 2 - x) (PI / 2 - y)) as H.
  replace (PI / 2 - x - (PI / 2 - y)) with (- (x - y)) in H by ring. rewrite Rabs_Ropp in H. exact H.
Qed.

(* every point of the quarter plane that is not deep inside the Earth has a
   geodetic latitude and height *)
Lemma geodetic_exists : forall a e2 w zp, 6300000 <= a <= 6400000 -> 0 < e2 <= 69 / 10000 -> 0 <= w -> 0 <= zp ->
  exists ph h, 0 <= ph <= PI / 2 /\
    let q := sqrt (1 - e2 * (sin ph * sin ph)) in
    w = (a / q + h) * cos ph /\ zp = (a * (1 - e2) / q + h) * sin ph.
Proof.
  intros a e2 w zp A E W Zp. pose proof PI_RGT_0 as Pi.
  set (G := fun t => zp * cos t - w * sin t + a * e2 * sin t * cos t / sqrt (1 - e2 * (sin t * sin t))).
  assert (forall t, 9965 / 10000 <= sqrt (1 - e2 * (sin t * sin t)) <= 1) as Q by (intros t; apply (q_low e2 (sin t) (cos t) E (sc1 t))).
  assert (forall t, 0 < 1 - e2 * (sin t * sin t)) as Qp.
  { intros t. pose proof (sq_nonneg (sin t)). pose proof (sq_nonneg (cos t)). pose proof (sc1 t).
    pose proof (mul_bound e2 (sin t * sin t) (69/10000) 1 ltac:(lra) ltac:(lra)). lra. }
  assert (continuity G) as Ct.
  { intros t. apply derivable_continuous_pt, ex_derive_Reals_0. unfold G. auto_derive.
    split; [exact (Qp t)|]. split; [|exact I]. specialize (Q t). unfold Rminus in Q. lra. }
  destruct (IVT_cor G 0 (PI / 2) Ct ltac:(lra)) as (ph & Ph & G0).
  { unfold G. rewrite sin_0, cos_0, sin_PI2, cos_PI2.
    replace (zp * 1 - w * 0 + a * e2 * 0 * 1 / sqrt (1 - e2 * (0 * 0))) with zp by (field; pose proof (Q 0) as K; rewrite sin_0 in K; lra).
    replace (zp * 0 - w * 1 + a * e2 * 1 * 0 / sqrt (1 - e2 * (1 * 1))) with (- w) by (field; pose proof (Q (PI / 2)) as K; rewrite sin_PI2 in K; lra).
    pose proof (Rmult_le_pos zp w Zp W). lra. }
  specialize (Q ph). set (q := sqrt (1 - e2 * (sin ph * sin ph))) in *. pose proof (sc1 ph) as SC. unfold G in G0. fold q in G0.
  set (u := w - a / q * cos ph). set (v := zp - a * (1 - e2) / q * sin ph).
  assert (cos ph * v - sin ph * u = 0) as T.
  { unfold u, v. rewrite <- G0. field. lra. }
  exists ph, (cos ph * u + sin ph * v). split; [exact Ph|]. cbv zeta. fold q.
  assert ((cos ph * u + sin ph * v) * cos ph = u) as Eu.
  { replace ((cos ph * u + sin ph * v) * cos ph)
      with (u * (sin ph * sin ph + cos ph * cos ph) + sin ph * (cos ph * v - sin ph * u)) by ring. rewrite SC, T. ring. }
  assert ((cos ph * u + sin ph * v) * sin ph = v) as Ev.
  { replace ((cos ph * u + sin ph * v) * sin ph)
      with (v * (sin ph * sin ph + cos ph * cos ph) - cos ph * (cos ph * v - sin ph * u)) by ring. rewrite SC, T. ring. }
  split.
  - replace w with (u + a / q * cos ph) by (unfold u; ring). rewrite <- Eu at 1. ring.
  - replace zp with (v + a * (1 - e2) / q * sin ph) by (unfold v; ring). rewrite <- Ev at 1. ring.
Qed.

(* the height is at least the distance from the centre less the radius of curvature *)
Lemma geodetic_height : forall a e2 ph h r, 6300000 <= a <= 6400000 -> 0 < e2 <= 69 / 10000 -> 0 <= ph <= PI / 2 -> 0 <= r ->
  let q := sqrt (1 - e2 * (sin ph * sin ph)) in
  let w := (a / q + h) * cos ph in let zp := (a * (1 - e2) / q + h) * sin ph in
  0 <= w -> 0 <= zp -> w * w + zp * zp = r * r -> r - a / q <= h /\ h <= r - a * q.
Proof.
  intros a e2 ph h r A E Ph R0 q w zp W Zp Er. pose proof PI_RGT_0 as Pi.
  assert (Sf : 0 <= sin ph <= 1) by (split; [apply sin_ge_0; lra|apply SIN_bound]).
  assert (Cf : 0 <= cos ph <= 1) by (split; [apply cos_ge_0; lra|apply COS_bound]).
  pose proof (sc1 ph) as SC. pose proof (q_low e2 (sin ph) (cos ph) E SC) as Q. fold q in Q.
  assert (QQ : q * q = 1 - e2 * (sin ph * sin ph)) by (apply (root_bounds e2 (sin ph) (cos ph) E SC)).
  assert (0 <= a * e2 / q) as AE.
  { apply Rmult_le_pos; [apply Rmult_le_pos; lra|left; apply Rinv_0_lt_compat; lra]. }
  assert (Zq : a * (1 - e2) / q = a / q - a * e2 / q) by (field; lra).
  assert (0 <= a / q + h) as N.
  { apply Rnot_lt_le. intros K. destruct (Req_dec (cos ph) 0) as [C0|C0].
    - assert (sin ph = 1) as S1 by (rewrite C0 in SC; nra). unfold zp in Zp. rewrite S1, Zq in Zp. lra.
    - assert (w < 0); [|lra]. unfold w. assert (0 < cos ph) by lra. pose proof (Rmult_lt_0_compat (- (a / q + h)) (cos ph) ltac:(lra) ltac:(lra)). lra. }
  split.
  - assert (zp <= (a / q + h) * sin ph) as Zl.
    { unfold zp. rewrite Zq. pose proof (Rmult_le_pos _ _ AE (proj1 Sf)). lra. }
    assert (zp * zp <= ((a / q + h) * sin ph) * ((a / q + h) * sin ph)) as Z2 by (apply Rmult_le_compat; lra).
    assert (r <= a / q + h); [|lra]. apply sq_le; [exact N|]. rewrite <- Er. unfold w.
    replace ((a / q + h) * (a / q + h)) with ((a / q + h) * (a / q + h) * (sin ph * sin ph + cos ph * cos ph)) by (rewrite SC; ring). lra.
  - assert (Far : cos ph * w + sin ph * zp = a * q + h).
    { unfold w, zp. rewrite Zq.
      replace (cos ph * ((a / q + h) * cos ph) + sin ph * ((a / q - a * e2 / q + h) * sin ph))
        with ((a / q + h) * (sin ph * sin ph + cos ph * cos ph) - a * e2 * (sin ph * sin ph) / q) by (field; lra).
      rewrite SC. replace ((a / q + h) * 1 - a * e2 * (sin ph * sin ph) / q)
        with (a * (1 - e2 * (sin ph * sin ph)) / q + h) by (field; lra).
      rewrite <- QQ. field. lra. }
    assert (cos ph * w + sin ph * zp <= r); [|lra]. apply sq_le; [exact R0|]. rewrite <- Er.
    pose proof (sq_nonneg (cos ph * zp - sin ph * w)) as Nn.
    assert (Id : (cos ph * w + sin ph * zp) * (cos ph * w + sin ph * zp)
       + (cos ph * zp - sin ph * w) * (cos ph * zp - sin ph * w)
       = (sin ph * sin ph + cos ph * cos ph) * (w * w + zp * zp)) by ring.
    rewrite SC in Id. lra.
Qed.

(* a small change of latitude and height moves the point little *)
Lemma inv_q_lip : forall e2 t t', 0 < e2 <= 69 / 10000 ->
  let q := sqrt (1 - e2 * (sin t * sin t)) in let q' := sqrt (1 - e2 * (sin t' * sin t')) in
  Rabs (/ q' - / q) <= 71 / 10000 * Rabs (t' - t).
Proof.
  intros e2 t t' E q q'. pose proof (q_low e2 (sin t) (cos t) E (sc1 t)) as Q. pose proof (q_low e2 (sin t') (cos t') E (sc1 t')) as Q'.
  fold q in Q. fold q' in Q'.
  assert (QQ : q * q = 1 - e2 * (sin t * sin t)) by (apply (root_bounds e2 (sin t) (cos t) E (sc1 t))).
  assert (QQ' : q' * q' = 1 - e2 * (sin t' * sin t')) by (apply (root_bounds e2 (sin t') (cos t') E (sc1 t'))).
  assert (/ q' - / q = e2 * ((sin t' + sin t) * (sin t' - sin t)) * / (q * q' * (q + q'))) as ->.
  { replace (e2 * ((sin t' + sin t) * (sin t' - sin t))) with ((q - q') * (q + q')).
    2:{ replace ((q - q') * (q + q')) with (q * q - q' * q') by ring. rewrite QQ, QQ'. ring. }
    field. repeat split; lra. }
  pose proof (sin_lip t' t) as L.
  assert (Rabs (sin t' + sin t) <= 2) as S2.
  { apply b_le. pose proof (SIN_bound t). pose proof (SIN_bound t'). lra. }
  pose proof (b_mul _ _ _ _ S2 L) as B1. pose proof (b_mul e2 _ (69/10000) _ (b_pos e2 (69/10000) ltac:(lra)) B1) as B2.
  assert (197 / 100 <= q * q' * (q + q')) as D.
  { assert (9930 / 10000 <= q * q') by nra. assert (1993/1000 <= q + q') by lra.
    pose proof (Rmult_le_compat (9930/10000) (q * q') (1993/1000) (q + q') ltac:(lra) ltac:(lra) ltac:(lra) ltac:(lra)). lra. }
  assert (0 < / (q * q' * (q + q')) <= 100 / 197) as I.
  { split; [apply Rinv_0_lt_compat; lra|]. replace (100 / 197) with (/ (197 / 100)) by field. apply Rinv_le_contravar; lra. }
  pose proof (b_mul _ _ _ _ B2 (b_pos _ (100 / 197) (conj (Rlt_le _ _ (proj1 I)) (proj2 I)))) as B3.
  pose proof (Rabs_pos (t' - t)). lra.
Qed.

Lemma plane_lip : forall a e2 t t' h h' D Dh, 6300000 <= a <= 6400000 -> 0 < e2 <= 69 / 10000 ->
  Rabs (t' - t) <= D -> Rabs (h' - h) <= Dh ->
  let q := sqrt (1 - e2 * (sin t * sin t)) in let q' := sqrt (1 - e2 * (sin t' * sin t')) in
  Rabs ((a / q' + h') * cos t' - (a / q + h) * cos t) <= (1011 / 1000 * a + Rabs h) * D + Dh
  /\ Rabs ((a * (1 - e2) / q' + h') * sin t' - (a * (1 - e2) / q + h) * sin t) <= (1011 / 1000 * a + Rabs h) * D + Dh.
Proof.
  intros a e2 t t' h h' D Dh A E HD HDh q q'.
  pose proof (q_low e2 (sin t) (cos t) E (sc1 t)) as Q. pose proof (q_low e2 (sin t') (cos t') E (sc1 t')) as Q'.
  fold q in Q. fold q' in Q'. pose proof (inv_q q' Q') as I'.
  pose proof (inv_q_lip e2 t t' E) as L. cbv zeta in L. fold q q' in L.
  assert (0 <= D) as D0 by (pose proof (Rabs_pos (t' - t)); lra).
  assert (forall g g' k, 0 <= k <= 1 -> Rabs g <= 1 -> Rabs g' <= 1 -> Rabs (g' - g) <= D ->
    Rabs ((a * k / q' + h') * g' - (a * k / q + h) * g) <= (1011 / 1000 * a + Rabs h) * D + Dh) as K.
  { intros g g' k Hk G1 G2 G3.
    replace ((a * k / q' + h') * g' - (a * k / q + h) * g)
      with (a * (k * ((g' - g) * / q' + g * (/ q' - / q))) + (h * (g' - g) + (h' - h) * g')) by (field; lra).
    pose proof (b_mul _ _ _ _ G3 (b_pos (/ q') (10036/10000) ltac:(lra))) as B1.
    pose proof (b_mul _ _ _ _ G1 L) as B2. pose proof (b_add _ _ _ _ B1 B2) as B3.
    pose proof (b_mul k _ 1 _ (b_pos k 1 Hk) B3) as B4. pose proof (b_mul a _ a _ (b_pos a a ltac:(lra)) B4) as B5.
    pose proof (b_mul h _ _ _ (Rle_refl _) G3) as B6. pose proof (b_mul _ _ _ _ HDh G2) as B7.
    pose proof (b_add _ _ _ _ B6 B7) as B8. pose proof (b_add _ _ _ _ B5 B8) as B9.
    eapply Rle_trans; [exact B9|].
    assert (a * (1 * (D * (10036 / 10000) + 1 * (71 / 10000 * Rabs (t' - t)))) <= a * (D * (1011 / 1000))) as X
      by (apply Rmult_le_compat_l; lra).
    lra. }
  pose proof (cos_lip t' t) as Cl. pose proof (sin_lip t' t) as Sl.
  assert (forall x, Rabs (cos x) <= 1) as Cb by (intros; apply b_le, COS_bound).
  assert (forall x, Rabs (sin x) <= 1) as Sb by (intros; apply b_le, SIN_bound).
  split.
  - pose proof (K (cos t) (cos t') 1 ltac:(lra) (Cb t) (Cb t') ltac:(lra)) as X. rewrite Rmult_1_r in X. exact X.
  - apply K; auto; lra.
Qed.

(* Every position at least a - 150 km from the centre of the Earth (no upper
   limit): converting it to latitude, longitude and height and back moves each
   coordinate by no more than 2 mm plus half a millimetre per thousand
   kilometres of distance from the centre. *)
Theorem C65_inverse : forall x y z a f,
  6300000 <= a <= 6400000 -> 290 <= f -> a - 150000 <= from_centre x y z ->
  exists lat lon h x' y' z',
    ecef2llh x y z a f = Ok (lat, lon, h) /\
    llh2ecef lat lon h a f = Ok (x', y', z') /\
    Rabs (x' - x) <= 2 / 1000 + 5 / 10000000000 * from_centre x y z /\
    Rabs (y' - y) <= 2 / 1000 + 5 / 10000000000 * from_centre x y z /\
    Rabs (z' - z) <= 2 / 1000 + 5 / 10000000000 * from_centre x y z.
Proof.
  intros x y z a f A F Rr. pose proof PI_RGT_0 as Pi. pose proof PI_4 as Pi4.
  pose proof (earth_flattening f F) as E. cbv zeta in E.
  destruct (C65_total x y z a f A F ltac:(lra)) as (lat & lon & h & CE & L & L1 & L2 & Pa & _).
  destruct (plane_setup x y z) as (W & Zp & Pl).
  set (w := sqrt (x * x + y * y)) in *. set (r := from_centre x y z) in *.
  set (e2 := 1 / f * (2 - 1 / f)) in *.
  destruct (geodetic_exists a e2 w (Rabs z) A E W Zp) as (ph & h0 & Ph & Ew & Ez). cbv zeta in Ew, Ez.
  pose proof (geodetic_height a e2 ph h0 r A E Ph ltac:(lra)) as GH. cbv zeta in GH.
  rewrite <- Ew, <- Ez in GH. specialize (GH W Zp Pl).
  pose proof (q_low e2 (sin ph) (cos ph) E (sc1 ph)) as Q. pose proof (inv_q _ Q) as Iq.
  set (q := sqrt (1 - e2 * (sin ph * sin ph))) in *.
  assert (a / q <= a * (10036 / 10000)) as Aq by (apply Rmult_le_compat_l; lra).
  assert (a * (9965 / 10000) <= a * q) as Aq' by (apply Rmult_le_compat_l; lra).
  assert (-200000 <= h0) as Hh by lra.
  (* the geodetic latitude with the sign of z *)
  set (sg := if Rle_dec 0 z then 1 else -1).
  assert (sg * sg = 1 /\ sg * Rabs z = z) as (Sg1 & Sg2).
  { unfold sg. destruct (Rle_dec 0 z); split; try ring.
    - rewrite Rabs_pos_eq by assumption. ring.
    - rewrite Rabs_left by lra. ring. }
  set (t := sg * ph). set (lat0 := t * 180 / PI).
  assert (radians lat0 = t) as Rt by apply degrees_radians.
  assert (cos t = cos ph /\ sin t = sg * sin ph) as (Ct & St).
  { unfold t, sg. destruct (Rle_dec 0 z).
    - rewrite !Rmult_1_l. split; reflexivity.
    - replace (-1 * ph) with (- ph) by ring. rewrite cos_neg, sin_neg. split; [reflexivity|ring]. }
  assert (e2 * (sin t * sin t) = e2 * (sin ph * sin ph)) as Stt.
  { rewrite St. replace (sg * sin ph * (sg * sin ph)) with (sg * sg * (sin ph * sin ph)) by ring. rewrite Sg1. ring. }
  assert (-90 <= lat0 <= 90) as L0.
  { assert (- (PI / 2) <= t <= PI / 2) as T by (unfold t, sg; destruct (Rle_dec 0 z); lra).
    split; apply radians_le_inv; rewrite Rt, ?radians_opp, ?radians_90; try lra.
    replace (-90) with (- (90)) by ring. rewrite radians_opp, radians_90. lra. }
  destruct (llh2ecef_eq lat0 lon h0 a f ltac:(lra) ltac:(lra) ltac:(lra)) as [_ LE]. cbv zeta in LE.
  assert ((1 - 1 / f) * (1 - 1 / f) = 1 - e2) as Om by (unfold e2; field; lra).
  rewrite Om, Rt in LE. fold e2 in LE.
  replace (e2 * sin t ^ 2) with (e2 * (sin t * sin t)) in LE by ring. rewrite Stt in LE. fold q in LE.
  rewrite Ct, <- Ew in LE.
  destruct Pa as (_ & Px & Py & _). fold w in Px, Py. rewrite <- Px, <- Py in LE.
  rewrite St in LE. replace ((a * (1 - e2) / q + h0) * (sg * sin ph)) with z in LE.
  2:{ rewrite <- Sg2, Ez. ring. }
  destruct (C65_round_trip lat0 lon h0 a f A F L0 Hh) as (x1 & y1 & z1 & lat1 & lon1 & h1 & RT & RE & D1 & D2 & _).
  rewrite LE in RT. injection RT as <- <- <-. rewrite CE in RE. injection RE as <- <- <-.
  destruct (llh2ecef_eq lat lon h a f ltac:(lra) ltac:(lra) ltac:(lra)) as [_ LE'].
  rewrite Om in LE'. fold e2 in LE'.
  replace (e2 * sin (radians lat) ^ 2) with (e2 * (sin (radians lat) * sin (radians lat))) in LE' by ring.
  assert (Rabs (radians lat - t) <= 45 / 100000000000) as Dr.
  { rewrite <- Rt. unfold radians. replace (lat * (PI / 180) - lat0 * (PI / 180)) with ((lat - lat0) * (PI / 180)) by ring.
    pose proof (b_mul _ _ _ _ D1 (b_pos (PI / 180) (4 / 180) ltac:(lra))). lra. }
  destruct (plane_lip a e2 t (radians lat) h0 h _ _ A E Dr D2) as (P1 & P2). cbv zeta in P1, P2, LE'.
  rewrite Stt in P1, P2. fold q in P1, P2.
  set (q' := sqrt (1 - e2 * (sin (radians lat) * sin (radians lat)))) in *.
  rewrite Ct, <- Ew in P1. rewrite St in P2.
  replace ((a * (1 - e2) / q + h0) * (sg * sin ph)) with z in P2 by (rewrite <- Sg2, Ez; ring).
  assert (1011 / 1000 * a + Rabs h0 <= 11 / 10 * r) as B.
  { unfold Rabs. destruct (Rcase_abs h0); lra. }
  assert ((1011 / 1000 * a + Rabs h0) * (45 / 100000000000) + 2 / 1000 <= 2 / 1000 + 5 / 10000000000 * r) as B2 by lra.
  set (w' := (a / q' + h) * cos (radians lat)) in *.
  exists lat, lon, h, (w' * cos (radians lon)), (w' * sin (radians lon)), ((a * (1 - e2) / q' + h) * sin (radians lat)).
  split; [exact CE|]. split; [exact LE'|].
  assert (forall g, Rabs g <= 1 -> Rabs (w' * g - w * g) <= 2 / 1000 + 5 / 10000000000 * r) as K.
  { intros g G. replace (w' * g - w * g) with ((w' - w) * g) by ring.
    pose proof (b_mul _ _ _ _ P1 G). lra. }
  split; [|split].
  - rewrite Px at 1. apply K, b_le, COS_bound.
  - rewrite Py at 1. apply K, b_le, SIN_bound.
  - lra.
Qed.

(* the hypotheses are met by WGS84 and a point near the surface *)
Example C65_inverse_example :
  6300000 <= 6378137 <= 6400000 /\ 290 <= 298257223563 / 1000000000 /\
  6378137 - 150000 <= from_centre 4000000 3000000 4000000.
Proof.
  split; [lra|]. split; [lra|]. unfold from_centre.
  apply sq_le; [apply sqrt_pos|]. rewrite sqrt_sqrt; lra.
Qed.
