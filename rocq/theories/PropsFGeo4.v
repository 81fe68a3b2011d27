(* C81: ecef2llh as CPython computes it, in binary64. *)
From Coq Require Import Reals Lia Lra Psatz.
From Flocq Require Import Core BinarySingleNaN.
From Verif Require Import PyFloat FloatProofs PiBounds FloatErr FGeo FGeoSpec LibmExact GeoSpec Geo GeoProofs EcefProofs EcefAccuracy PropsEcef PropsEcef2 FGeoProofs FGeoProofs2 FGeoProofs3 FGeoProofs4 FGeoProofs5 FGeoProofs6 FGeoProofs7 FGeoProofs8 FGeoProofs9 PropsFGeo PropsFGeo3.
Local Open Scope R_scope.

(* distances of a position from the centre of the Earth and from its axis *)
Definition centre_distance (q : vec) : R := sqrt (dot q q).
Definition axis_distance (q : vec) : R := let '(x, y, _) := q in sqrt (x * x + y * y).
(* the position at geodetic latitude lat, longitude lon and height h above the
   ellipsoid (a, b) is q *)
Definition geodetic_position (a b lat lon h : R) (q : vec) : Prop :=
  exists v, surface_point a b lat lon v /\ q = vadd v (vscale h (sphere_point lat lon)).
(* the real numbers three floats stand for *)
Definition reals3 (p : fl * fl * fl) : vec := let '(x, y, z) := p in (rval x, rval y, rval z).

(* Less than 99,999.999 m from the centre: the nominal result *)
Theorem C81_core : forall L x y z a f, fdata x -> fdata y -> fdata z -> geodetic_datum a f ->
  centre_distance (reals3 (x, y, z)) <= 99999999 / 1000 ->
  fecef2llh L x y z a f = Ok (fzero, fzero, f_norm (-10000000) 0).
Proof.
  intros L x y z a f FX FY FZ (FA & BA & FF & BF) B. apply fecef_near; try assumption. unfold centre_distance, reals3, dot in B. lra.
Qed.

(* From 100,000.001 m up to 2e10 m: three finite numbers, the height above
   -6400 km (so not the nominal one), the longitude the direction of (x, y) *)
Theorem C81_total : forall L x y z a f, libm_ok L -> fdata x -> fdata y -> fdata z -> geodetic_datum a f ->
  100000001 / 1000 <= centre_distance (reals3 (x, y, z)) <= 2 * 10 ^ 10 ->
  exists lat lon h, fecef2llh L x y z a f = Ok (lat, lon, h) /\ fdata lat /\ fdata lon /\ fdata h /\ -6400000 < rval h /\
    exists t, -180 <= t <= 180 /\ Rabs (rval lon - t) <= 1 / 10 ^ 13 /\
      rval x = axis_distance (reals3 (x, y, z)) * cos (radians t) /\ rval y = axis_distance (reals3 (x, y, z)) * sin (radians t).
Proof.
  intros L x y z a f K FX FY FZ (FA & BA & FF & BF) B. unfold centre_distance, axis_distance, reals3, dot in *.
  replace (10 ^ 10) with 10000000000 in B by ring. replace (10 ^ 13) with 10000000000000 by ring.
  pose proof (dist_outside x y z FX FY FZ ltac:(lra) ltac:(lra)) as T.
  destruct (fecef_far L x y z a f K FX FY FZ FA BA FF BF ltac:(lra) T) as (lat & lon & h & E & F1 & F2 & F3 & HB & t & TB & TX & TY & TL).
  exists lat, lon, h. do 5 (split; [assumption|]). exists (t * 180 / PI). rewrite degrees_radians. pose proof PI_RGT_0.
  split; [|split; [exact TL|split; assumption]].
  split; [apply le_div|apply div_le]; lra.
Qed.

(* in between it is one or the other: at any distance up to 2e10 m ecef2llh
   returns three finite numbers *)
Theorem C81_never_raises : forall L x y z a f, libm_ok L -> fdata x -> fdata y -> fdata z -> geodetic_datum a f ->
  centre_distance (reals3 (x, y, z)) <= 2 * 10 ^ 10 ->
  exists lat lon h, fecef2llh L x y z a f = Ok (lat, lon, h) /\ fdata lat /\ fdata lon /\ fdata h.
Proof.
  intros L x y z a f K FX FY FZ (FA & BA & FF & BF) B. unfold centre_distance, reals3, dot in *.
  replace (10 ^ 10) with 10000000000 in B by ring.
  assert (sqrt (rval x * rval x + rval y * rval y + rval z * rval z) <= 20000000000) as BR by lra.
  destruct (fltb (fsq (fr2 x y z)) (f_norm 100000 0)) eqn:T.
  - exists fzero, fzero, (f_norm (-10000000) 0). split; [|repeat split; reflexivity].
    destruct (dist_w x y z FX FY FZ BR) as (E1 & _). destruct (dist_r_ok x y z FX FY FZ BR) as (E2 & _).
    destruct (ecc_result f FF BF) as (E3 & _). unfold fecef2llh. rewrite E3. cbn [bind]. cbv zeta.
    fold (fw2 x y). rewrite E1. cbn [bind]. fold (fr2 x y z). rewrite E2. cbn [bind]. rewrite T. reflexivity.
  - destruct (fecef_far L x y z a f K FX FY FZ FA BA FF BF BR T) as (lat & lon & h & E & F1 & F2 & F3 & _).
    exists lat, lon, h. repeat split; try assumption; try apply F1; try apply F2; apply F3.
Qed.

Lemma position_eq a F lat lon h q : 0 < a -> 0 <= F <= 345 / 100000 -> geodetic_position a (a * (1 - F)) lat lon h q ->
  let e2 := F * (2 - F) in let N := a / sqrt (1 - e2 * (sin (radians lat) * sin (radians lat))) in
  q = ((N + h) * cos (radians lat) * cos (radians lon), (N + h) * cos (radians lat) * sin (radians lon), ((1 - e2) * N + h) * sin (radians lat)).
Proof.
  intros A BF (v & V & ->) e2 N. pose proof (surface_radius a F lat lon v A BF V) as E. cbv zeta in E. fold e2 in E. fold N in E. rewrite E.
  unfold vadd, vscale, sphere_point. f_equal; [f_equal|]; ring.
Qed.
Lemma position_exists a F lat lon h : 0 < a -> 0 <= F <= 345 / 100000 -> exists q, geodetic_position a (a * (1 - F)) lat lon h q.
Proof.
  intros A BF. set (s := sin (radians lat)). set (c := cos (radians lat)). set (sl := sin (radians lon)). set (cl := cos (radians lon)).
  set (e2 := F * (2 - F)). set (q := sqrt (1 - e2 * (s * s))). set (N := a / q).
  pose proof (sc1 (radians lat)) as SC. fold s c in SC. pose proof (sc1 (radians lon)) as SL. fold sl cl in SL.
  assert (0 <= e2 <= 69 / 10000) as E by (unfold e2; split; [apply Rmult_le_pos; lra|nra]).
  pose proof (sq_nonneg s). pose proof (sq_nonneg c).
  assert (0 < 1 - e2 * (s * s)) as G by (pose proof (mul_bound e2 (s * s) (69 / 10000) 1 ltac:(lra) ltac:(lra)); lra).
  assert (q * q = 1 - e2 * (s * s)) as QQ by (apply sqrt_sqrt; lra). assert (0 < q) as Q by (apply sqrt_lt_R0, G).
  exists (vadd (N * c * cl, N * c * sl, (1 - e2) * N * s) (vscale h (sphere_point lat lon))).
  exists (N * c * cl, N * c * sl, (1 - e2) * N * s). split; [|reflexivity].
  assert (a * (1 - F) * (a * (1 - F)) = a * a * (1 - e2)) as BB by (unfold e2; ring).
  split.
  - unfold on_ellipsoid. rewrite BB.
    replace (N * c * cl * (N * c * cl) + N * c * sl * (N * c * sl)) with (N * N * (c * c) * (sl * sl + cl * cl)) by ring. rewrite SL.
    unfold N. transitivity ((s * s + c * c - e2 * (s * s)) / (q * q)); [field; lra|]. rewrite SC, <- QQ. field. lra.
  - exists (N / (a * a)). split; [apply Rdiv_lt_0_compat; [apply Rdiv_lt_0_compat; lra|apply Rmult_lt_0_compat; lra]|].
    unfold vscale, sphere_point. fold s c sl cl. rewrite BB. f_equal; [f_equal|]; unfold N; field; lra.
Qed.

Lemma abs_deg t : Rabs (t * 180 / PI) <= 573 / 10 * Rabs t.
Proof.
  pose proof pi_bounds as PB. unfold Rdiv. rewrite !Rabs_mult, (Rabs_pos_eq 180), Rabs_inv, (Rabs_pos_eq PI) by lra.
  pose proof (Rabs_pos t). apply div_le; [lra|]. assert (Rabs t * (573 / 10 * PI - 180) >= 0) by (apply Rle_ge, Rmult_le_pos; lra). lra.
Qed.

(* Let q be the position with latitude lat, longitude lon and height h (from
   -200 km to 1e10 m).  If x, y and z are the coordinates of q up to an error
   d of at most 20 cm each, the latitude returned is within
   1.8e-8 + 800 d/R degrees, the height within 1.5 mm + 5 d, and the longitude
   within 1e-13 + 413 d/rho degrees (up to whole turns), where R and rho are the
   distances of q from the centre and from the axis and 4 d <= rho. *)
Theorem C81_accuracy : forall L x y z a f lat lon h q d, libm_ok L -> geodetic_datum a f -> rval f <= 1000 ->
  -90 <= lat <= 90 -> -200000 <= h <= 10 ^ 10 -> geodetic_position (rval a) (rval a * (1 - 1 / rval f)) lat lon h q ->
  0 <= d <= 1 / 5 -> within d (x, y, z) q ->
  exists lat' lon' h', fecef2llh L x y z a f = Ok (lat', lon', h') /\ fdata lat' /\ fdata lon' /\ fdata h' /\
    Rabs (rval lat' - lat) <= 18 / 10 ^ 9 + 800 * (d / centre_distance q) /\
    Rabs (rval h' - h) <= 15 / 10 ^ 4 + 5 * d /\
    (0 < axis_distance q -> 4 * d <= axis_distance q ->
     exists k : Z, Rabs (rval lon' - lon - 360 * IZR k) <= 1 / 10 ^ 13 + 413 * (d / axis_distance q)).
Proof.
  intros L x y z a f lat lon h q d K (FA & BA & FF & BF) BF2 LB HB P DB V.
  replace (10 ^ 10) with 10000000000 in HB by ring. replace (10 ^ 9) with 1000000000 by ring. replace (10 ^ 4) with 10000 by ring. replace (10 ^ 13) with 10000000000000 by ring.
  destruct (ecc_result f FF BF) as (_ & BF1 & _).
  pose proof (position_eq (rval a) (1 / rval f) lat lon h q ltac:(lra) BF1 P) as EQ. cbv zeta in EQ.
  pose proof pi_bounds as PB. pose proof PI_RGT_0 as Pi.
  set (ph := Rabs (radians lat)).
  assert (0 <= ph <= PI / 2) as HP.
  { unfold ph. split; [apply Rabs_pos|]. apply Rabs_le. unfold radians. split; [|].
    - assert (-90 * (PI / 180) <= lat * (PI / 180)) by (apply Rmult_le_compat_r; lra). lra.
    - assert (lat * (PI / 180) <= 90 * (PI / 180)) by (apply Rmult_le_compat_r; lra). lra. }
  assert (cos (radians lat) = cos ph) as EC by (unfold ph, Rabs; destruct (Rcase_abs _); [symmetry; apply cos_neg|reflexivity]).
  assert (sin (radians lat) * sin (radians lat) = sin ph * sin ph) as ES.
  { unfold ph, Rabs; destruct (Rcase_abs _); [rewrite sin_neg; ring|reflexivity]. }
  assert (0 <= sin ph <= 1) as SB by (split; [apply sin_ge_0; lra|apply SIN_bound]).
  assert (0 <= cos ph <= 1) as CB by (split; [apply cos_ge_0; lra|apply COS_bound]).
  assert (Rabs (sin (radians lat)) = sin ph) as EA.
  { rewrite <- (Rabs_pos_eq (sin ph)) by lra. apply Rsqr_eq_abs_0. unfold Rsqr. exact ES. }
  rewrite EC, ES in EQ. pose proof (datum_e2 f BF) as E2.
  set (e2 := 1 / rval f * (2 - 1 / rval f)) in *. set (qf := sqrt (1 - e2 * (sin ph * sin ph))) in *.
  pose proof (q_low e2 (sin ph) (cos ph) E2 (sc1 ph)) as QB. fold qf in QB.
  assert (6300000 <= rval a / qf <= 6430000) as AQ by (split; [apply le_div; lra|apply div_le; lra]).
  pose proof (datum_a1 a f BA BF) as A1. fold e2 in A1.
  assert (0 <= rval a * e2 / qf <= 44320) as EB by (split; [apply le_div; lra|apply div_le; lra]).
  set (G := rval a / qf + h - rval a * e2 / qf).
  assert ((1 - e2) * (rval a / qf) + h = G) as EG by (unfold G; field; lra).
  rewrite EG in EQ. set (Hh := rval a / qf + h) in *.
  assert (6000000 <= G) as GB by (unfold G, Hh; lra). assert (6000000 <= Hh) as HHB by (unfold Hh; lra).
  set (Wt := Hh * cos ph) in *. assert (0 <= Wt) as W0 by (apply Rmult_le_pos; lra).
  subst q. unfold within in V. destruct V as ((FX & VX) & (FY & VY) & (FZ & VZ)).
  pose proof (sc1 (radians lon)) as SL.
  assert (axis_distance (Wt * cos (radians lon), Wt * sin (radians lon), G * sin (radians lat)) = Wt) as AD.
  { unfold axis_distance. replace (Wt * cos (radians lon) * (Wt * cos (radians lon)) + Wt * sin (radians lon) * (Wt * sin (radians lon)))
      with (Wt * Wt * (sin (radians lon) * sin (radians lon) + cos (radians lon) * cos (radians lon))) by ring.
    rewrite SL, Rmult_1_r. apply sqrt_square, W0. }
  rewrite AD.
  set (W := sqrt (rval x * rval x + rval y * rval y)).
  assert (Rabs (W - Wt) <= 2 * d) as DW.
  { unfold axis_distance in AD. pose proof (norm_lip _ _ _ _ d d VX VY) as N1.
    pose proof (norm_lip (rval x) (rval y) (Wt * cos (radians lon)) (Wt * sin (radians lon)) d d) as N2.
    rewrite (Rabs_minus_sym _ (rval x)), (Rabs_minus_sym _ (rval y)) in N2. specialize (N2 VX VY). fold W in N1, N2. rewrite AD in N1, N2. apply Rabs_le. lra. }
  assert (Rabs (Rabs (rval z) - G * sin ph) <= d) as DZ.
  { rewrite <- EA. rewrite <- (Rabs_pos_eq G) by lra. rewrite <- Rabs_mult.
    eapply Rle_trans; [apply Rabs_triang_inv2|exact VZ]. }
  destruct (acc_far x y z a f BA (conj BF BF2) ph h d HP HB DB) as (RB & _ & _ & _ & _ & _ & RG & _); try assumption.
  destruct (acc_plane L x y z a f K FX FY FZ FA BA FF (conj BF BF2) ph h d HP HB DB) as (la & lr & h' & E & AL & DL & AH); try assumption.
  fold e2 in RG. fold qf in RG. fold Hh in RG. fold G in RG.
  set (Ro := sqrt (rval x * rval x + rval y * rval y + rval z * rval z)) in *.
  destruct (lon_result L x y K FX FY) as (t & TB & TX & TY & TL).
  set (eta := d / Ro) in *. assert (eta * Ro = d) as EE by (unfold eta; field; lra).
  assert (0 <= eta) as E0 by (apply Rmult_le_pos; [lra|left; apply Rinv_0_lt_compat; lra]).
  assert (eta <= d / 6000000) as E1.
  { unfold eta. apply Rmult_le_compat_l; [lra|]. apply Rinv_le_contravar; lra. }
  set (b := fltb z fzero) in *.
  assert (approx (if b then fopp la else la) (if b then - lr else lr) (67 / 1000000000000000 + 94 / 10 * eta)) as AS.
  { destruct b; [apply approx_opp|]; exact AL. }
  apply b_inv in DL as DL'.
  pose proof (approx_rad2deg _ _ _ (16 / 10) AS ltac:(destruct b; rewrite ?Rabs_Ropp; apply Rabs_le; lra) ltac:(lra) ltac:(lra)) as AR.
  exists (rad2deg (if b then fopp la else la)), (rad2deg (l_atan2 L y x)), h'.
  split; [exact E|]. split; [apply AR|]. split; [apply TL|]. split; [apply AH|]. split; [|split].
  - (* latitude *)
    assert (Rabs (rval (rad2deg (if b then fopp la else la)) - (if b then - Rabs lat else Rabs lat)) <= 172 / 10000000000 + 546 * eta) as S1.
    { assert (Rabs lat = ph * 180 / PI) as EL.
      { unfold ph. rewrite <- (radians_degrees lat) at 1. unfold Rdiv. rewrite !Rabs_mult, (Rabs_pos_eq 180), (Rabs_pos_eq (/ PI)) by (try lra; left; apply Rinv_0_lt_compat; lra). reflexivity. }
      replace (rval (rad2deg (if b then fopp la else la)) - (if b then - Rabs lat else Rabs lat)) with
        ((rval (rad2deg (if b then fopp la else la)) - (if b then - lr else lr) * 180 / PI) + (if b then - (lr - ph) else lr - ph) * 180 / PI)
        by (rewrite EL; destruct b; field; lra).
      eapply Rle_trans; [apply Rabs_triang|]. pose proof (proj2 AR) as AR2.
      pose proof (abs_deg (if b then - (lr - ph) else lr - ph)) as AD2. replace (Rabs (if b then - (lr - ph) else lr - ph)) with (Rabs (lr - ph)) in AD2 by (destruct b; rewrite ?Rabs_Ropp; reflexivity).
      lra. }
    assert (Rabs ((if b then - Rabs lat else Rabs lat) - lat) <= 205 * eta) as S2.
    { destruct (Req_dec ((if b then - Rabs lat else Rabs lat) - lat) 0) as [Q|Q].
      { rewrite Q, Rabs_R0. lra. }
      (* the rounded point is on the other side of the equator *)
      assert (G * sin ph <= d) as SM.
      { assert (b = true -> rval z < 0) as BZ.
        { intros HB1. unfold b in HB1. rewrite fltb_correct in HB1 by (exact FZ || (split; reflexivity)).
          revert HB1. destruct (Rlt_bool_spec (rval z) (rval fzero)) as [Q1|Q1]; [intros _; exact Q1|discriminate]. }
        assert (b = false -> 0 <= rval z) as BZ2.
        { intros HB1. unfold b in HB1. rewrite fltb_correct in HB1 by (exact FZ || (split; reflexivity)).
          revert HB1. destruct (Rlt_bool_spec (rval z) (rval fzero)) as [Q1|Q1]; [discriminate|intros _; exact Q1]. }
        apply b_inv in VZ. destruct b.
        - assert (0 <= lat) as L0. { destruct (Rle_or_lt 0 lat) as [?|Q2]; [assumption|]. rewrite Rabs_left in Q by exact Q2. exfalso. apply Q. ring. }
          assert (sin (radians lat) = sin ph) as SE. { unfold ph. rewrite Rabs_pos_eq; [reflexivity|]. unfold radians. apply Rmult_le_pos; lra. }
          rewrite SE in VZ. specialize (BZ eq_refl). lra.
        - assert (lat < 0) as L0. { destruct (Rlt_or_le lat 0) as [?|Q2]; [assumption|]. rewrite Rabs_pos_eq in Q by exact Q2. exfalso. apply Q. ring. }
          assert (sin (radians lat) = - sin ph) as SE. { unfold ph. rewrite Rabs_left; [rewrite sin_neg; ring|]. unfold radians. assert (0 < - lat * (PI / 180)) by (apply Rmult_lt_0_compat; lra). lra. }
          rewrite SE in VZ. specialize (BZ2 eq_refl). lra. }
      assert (sin ph <= 1009 / 1000 * eta) as SP.
      { apply Rmult_le_reg_l with G; [lra|]. eapply Rle_trans; [exact SM|]. rewrite <- EE.
        replace (G * (1009 / 1000 * eta)) with (eta * (1009 / 1000 * G)) by ring. apply Rmult_le_compat_l; [exact E0|lra]. }
      pose proof (sin_low ph ltac:(lra)) as SLw.
      assert (ph * ph <= 16 / 10 * (16 / 10)) as PP by (apply Rmult_le_compat; lra).
      assert (ph * ph * ph <= 256 / 100 * ph) as PPP by (apply Rmult_le_compat_r; lra).
      assert (Rabs lat <= 573 / 10 * ph) as LP.
      { rewrite <- (radians_degrees lat) at 1. unfold ph. apply abs_deg. }
      assert (Rabs ((if b then - Rabs lat else Rabs lat) - lat) <= 2 * Rabs lat) as TT.
      { destruct b; unfold Rabs; destruct (Rcase_abs lat); repeat (destruct (Rcase_abs _)); lra. }
      lra. }
    assert (eta <= 1001 / 1000 * (d / centre_distance (Wt * cos (radians lon), Wt * sin (radians lon), G * sin (radians lat)))) as ER.
    { set (R := centre_distance _).
      assert (R = sqrt (Wt * Wt + (G * sin ph) * (G * sin ph))) as R1.
      { unfold R, centre_distance, dot. f_equal.
        replace (Wt * cos (radians lon) * (Wt * cos (radians lon)) + Wt * sin (radians lon) * (Wt * sin (radians lon)))
          with (Wt * Wt * (sin (radians lon) * sin (radians lon) + cos (radians lon) * cos (radians lon))) by ring.
        replace (G * sin ph * (G * sin ph)) with (G * G * (sin ph * sin ph)) by ring. rewrite SL, <- ES. ring. }
      assert (Ro = sqrt (W * W + Rabs (rval z) * Rabs (rval z))) as R2.
      { unfold Ro, W. rewrite sqrt_sqrt by (pose proof (sq_nonneg (rval x)); pose proof (sq_nonneg (rval y)); lra). rewrite <- sq_abs. reflexivity. }
      assert (Ro <= R + 3 * d) as N1.
      { rewrite R1, R2. replace (3 * d) with (2 * d + d) by ring. apply norm_lip; assumption. }
      assert (R <= Ro + 3 * d) as N2.
      { rewrite R1, R2. replace (3 * d) with (2 * d + d) by ring. apply norm_lip; rewrite Rabs_minus_sym; assumption. }
      apply Rmult_le_reg_r with R; [lra|]. replace (1001 / 1000 * (d / R) * R) with (1001 / 1000 * d) by (field; lra).
      assert (eta * R <= eta * (1001 / 1000 * Ro)) by (apply Rmult_le_compat_l; lra). lra. }
    set (dr := d / centre_distance _) in *.
    set (sg := if b then - Rabs lat else Rabs lat) in *.
    replace (rval (rad2deg (if b then fopp la else la)) - lat) with ((rval (rad2deg (if b then fopp la else la)) - sg) + (sg - lat)) by ring.
    eapply Rle_trans; [apply Rabs_triang|]. lra.
  - apply AH.
  - intros WP D4. fold W in TX, TY.
    assert (0 <= W) as W1 by apply sqrt_pos.
    destruct (direction_error (Wt * cos (radians lon)) (Wt * sin (radians lon)) (rval x) (rval y) d d Wt (radians lon) t W VX VY eq_refl eq_refl TX TY W1 ltac:(lra)) as [k Hk].
    exists k. replace (rval (rad2deg (l_atan2 L y x)) - lon - 360 * IZR k) with
      ((rval (rad2deg (l_atan2 L y x)) - t * 180 / PI) + (t - radians lon - 2 * PI * IZR k) * 180 / PI)
      by (unfold radians; field; lra).
    eapply Rle_trans; [apply Rabs_triang|]. apply Rplus_le_compat; [apply TL|].
    eapply Rle_trans; [apply abs_deg|].
    assert ((d + d) / (Wt - (d + d)) <= 4 * (d / Wt)) as DD.
    { apply div_le; [lra|]. replace (4 * (d / Wt) * (Wt - (d + d))) with (4 * d - 8 * d * (d / Wt)) by (field; lra).
      assert (d / Wt <= 1 / 4) by (apply div_le; lra). assert (8 * d * (d / Wt) <= 8 * d * (1 / 4)) by (apply Rmult_le_compat_l; lra). lra. }
    assert (0 <= d / Wt) by (apply le_div; lra). lra.
Qed.

Lemma position_distance a f lat lon h q : 6300000 <= a <= 6400000 -> 290 <= f -> -90 <= lat <= 90 -> -200000 <= h ->
  geodetic_position a (a * (1 - 1 / f)) lat lon h q ->
  a - 50000 + h <= centre_distance q /\ (a + h) * cos (radians lat) <= axis_distance q /\ 0 <= cos (radians lat).
Proof.
  intros A F LB HB P. pose proof (earth_flattening f F) as E. cbv zeta in E.
  assert (0 <= 1 / f <= 345 / 100000) as BF1.
  { split; [apply le_div; lra|apply div_le; lra]. }
  rewrite (position_eq a (1 / f) lat lon h q ltac:(lra) BF1 P). cbv zeta. set (e2 := 1 / f * (2 - 1 / f)) in *.
  set (s := sin (radians lat)). set (c := cos (radians lat)). pose proof (sc1 (radians lat)) as SC. fold s c in SC.
  pose proof (q_low e2 s c E SC) as Q. set (qf := sqrt (1 - e2 * (s * s))) in *.
  assert (a <= a / qf <= 6430000) as AQ by (split; [apply le_div; nra|apply div_le; lra]).
  set (N := a / qf) in *. pose proof (mul_bound e2 N (69 / 10000) 6430000 ltac:(lra) ltac:(lra)) as EN.
  assert (0 <= c) as C0.
  { unfold c. pose proof PI_RGT_0. apply cos_ge_0; unfold radians.
    - assert (-90 * (PI / 180) <= lat * (PI / 180)) by (apply Rmult_le_compat_r; lra). lra.
    - assert (lat * (PI / 180) <= 90 * (PI / 180)) by (apply Rmult_le_compat_r; lra). lra. }
  pose proof (sc1 (radians lon)) as SL. set (sl := sin (radians lon)) in *. set (cl := cos (radians lon)) in *.
  split; [|split; [|exact C0]].
  - unfold centre_distance, dot. apply le_sqrt_of_sq; [lra|].
    replace ((N + h) * c * cl * ((N + h) * c * cl) + (N + h) * c * sl * ((N + h) * c * sl) + ((1 - e2) * N + h) * s * (((1 - e2) * N + h) * s))
      with ((N + h) * (N + h) * (c * c) * (sl * sl + cl * cl) + ((1 - e2) * N + h) * ((1 - e2) * N + h) * (s * s)) by ring.
    rewrite SL, Rmult_1_r. set (g := (1 - e2) * N + h). assert (a - 50000 + h <= g) as G by (unfold g; lra).
    assert ((a - 50000 + h) * (a - 50000 + h) <= g * g) as G1 by (apply Rmult_le_compat; lra).
    assert ((a - 50000 + h) * (a - 50000 + h) <= (N + h) * (N + h)) as G2 by (apply Rmult_le_compat; lra).
    set (k := (a - 50000 + h) * (a - 50000 + h)) in *.
    pose proof (Rmult_le_compat_r (s * s) _ _ (sq_nonneg s) G1). pose proof (Rmult_le_compat_r (c * c) _ _ (sq_nonneg c) G2).
    assert (k = k * (s * s) + k * (c * c)) by (rewrite <- Rmult_plus_distr_l, SC; ring). lra.
  - unfold axis_distance.
    replace ((N + h) * c * cl * ((N + h) * c * cl) + (N + h) * c * sl * ((N + h) * c * sl))
      with ((N + h) * c * ((N + h) * c) * (sl * sl + cl * cl)) by ring.
    rewrite SL, Rmult_1_r, sqrt_square by (apply Rmult_le_pos; lra). apply Rmult_le_compat_r; lra.
Qed.

(* Converting a position to ECEF coordinates and back: the latitude comes back
   within 2e-8 degrees, the height within 2 mm, and, away from the poles, the
   longitude within 1e-13 + 2e-12/cos(latitude) degrees (up to whole turns) *)
Theorem C81_round_trip : forall L lat lon h a f, libm_ok L -> latitude lat -> longitude lon ->
  fdata h -> -200000 <= rval h <= 10 ^ 10 -> geodetic_datum a f -> rval f <= 1000 ->
  exists x y z lat' lon' h', fllh2ecef L lat lon h a f = Ok (x, y, z) /\
    fecef2llh L x y z a f = Ok (lat', lon', h') /\ fdata lat' /\ fdata lon' /\ fdata h' /\
    Rabs (rval lat' - rval lat) <= 2 / 10 ^ 8 /\ Rabs (rval h' - rval h) <= 2 / 10 ^ 3 /\
    (1 / 10 ^ 12 <= cos (radians (rval lat)) ->
     exists k : Z, Rabs (rval lon' - rval lon - 360 * IZR k) <= 1 / 10 ^ 13 + 2 / 10 ^ 12 / cos (radians (rval lat))).
Proof.
  intros L lat lon h a f K P M FH BH D BF2.
  replace (10 ^ 10) with 10000000000 in BH by ring. replace (10 ^ 8) with 100000000 by ring. replace (10 ^ 3) with 1000 by ring.
  replace (10 ^ 12) with 1000000000000 by ring.
  destruct D as (FA & BA & FF & BF) eqn:HD. clear HD. destruct (ecc_result f FF BF) as (_ & BF1 & _).
  destruct (position_exists (rval a) (1 / rval f) (rval lat) (rval lon) (rval h) ltac:(lra) BF1) as (q & Q).
  destruct Q as (v & V & QE) eqn:HQ. clear HQ.
  assert (Rabs (rval h) <= 10000000000) as HA by (apply Rabs_le; lra).
  destruct (C80_llh2ecef L lat lon h a f v K P M FH) as (p & E & WI); try assumption.
  { replace (10 ^ 12) with 1000000000000 by ring. lra. }
  rewrite <- QE in WI. replace (10 ^ 16) with 10000000000000000 in WI by ring.
  set (d := (6430000 + Rabs (rval h)) * (25 / 10000000000000000)) in *. pose proof (Rabs_pos (rval h)) as H0.
  assert (0 <= d <= 26 / 1000000) as DB by (unfold d; lra).
  destruct p as [[x y] z].
  destruct (position_distance (rval a) (rval f) (rval lat) (rval lon) (rval h) q BA BF (proj2 P) ltac:(lra) Q) as (RD & AD & CP).
  destruct (C81_accuracy L x y z a f (rval lat) (rval lon) (rval h) q d K) as (lat' & lon' & h' & E' & F1 & F2 & F3 & DL & DH & DN); try assumption; try lra.
  { apply P. }
  exists x, y, z, lat', lon', h'. do 5 (split; [assumption|]).
  assert (d <= 3 / 1000000000000000 * (rval a - 50000 + rval h)) as DR.
  { unfold d, Rabs. destruct (Rcase_abs (rval h)); lra. }
  split; [|split].
  - eapply Rle_trans; [exact DL|]. replace (10 ^ 9) with 1000000000 by ring.
    assert (d / centre_distance q <= 3 / 1000000000000000) by (apply div_le; lra). lra.
  - eapply Rle_trans; [exact DH|]. replace (10 ^ 4) with 10000 by ring. lra.
  - intros CL. set (c := cos (radians (rval lat))) in *.
    assert (6000000 * (1 / 1000000000000) <= (rval a + rval h) * c) by (apply Rmult_le_compat; lra).
    assert (d <= 3 / 1000000000000000 * (rval a + rval h)) as DR2 by lra.
    assert ((rval a + rval h) * (1 / 1000000000000) <= (rval a + rval h) * c) as DC by (apply Rmult_le_compat_l; lra).
    destruct (DN ltac:(lra) ltac:(lra)) as [k Hk]. exists k. eapply Rle_trans; [exact Hk|].
    apply Rplus_le_compat_l. 
    assert (d / axis_distance q <= 3 / 1000000000000000 / c) as DQ.
    { apply div_le; [lra|]. assert (3 / 1000000000000000 / c * ((rval a + rval h) * c) <= 3 / 1000000000000000 / c * axis_distance q) as U.
      { apply Rmult_le_compat_l; [apply le_div; lra|exact AD]. }
      replace (3 / 1000000000000000 / c * ((rval a + rval h) * c)) with (3 / 1000000000000000 * (rval a + rval h)) in U by (field; lra). lra. }
    replace (2 / 1000000000000 / c) with (2000 / 3 * (3 / 1000000000000000 / c)) by (field; lra).
    assert (0 <= 3 / 1000000000000000 / c) by (apply le_div; lra). lra.
Qed.

(* Every position from 150 km below the equator's radius to 1e10 m out has
   geodetic coordinates, and ecef2llh finds them *)
Theorem C81_position : forall L x y z a f, libm_ok L -> fdata x -> fdata y -> fdata z -> geodetic_datum a f -> rval f <= 1000 ->
  rval a - 150000 <= centre_distance (reals3 (x, y, z)) <= 10 ^ 10 ->
  exists lat lon h lat' lon' h', -90 <= lat <= 90 /\ -180 <= lon <= 180 /\ -200000 <= h <= 10 ^ 10 /\
    geodetic_position (rval a) (rval a * (1 - 1 / rval f)) lat lon h (reals3 (x, y, z)) /\
    fecef2llh L x y z a f = Ok (lat', lon', h') /\ fdata lat' /\ fdata lon' /\ fdata h' /\
    Rabs (rval lat' - lat) <= 18 / 10 ^ 9 /\ Rabs (rval h' - h) <= 15 / 10 ^ 4 /\
    Rabs (rval lon' - lon) <= 1 / 10 ^ 13.
Proof.
  intros L x y z a f K FX FY FZ D BF2 B. replace (10 ^ 10) with 10000000000 in B by ring.
  destruct D as (FA & BA & FF & BF) eqn:HD. clear HD. destruct (ecc_result f FF BF) as (_ & BF1 & _).
  destruct (C81_total L x y z a f K FX FY FZ D) as (lat1 & lon1 & h1 & E1 & _ & _ & _ & _ & t & TB & TL & TX & TY).
  { replace (10 ^ 10) with 10000000000 by ring. lra. }
  change (axis_distance (reals3 (x, y, z))) with (sqrt (rval x * rval x + rval y * rval y)) in TX, TY.
  change (centre_distance (reals3 (x, y, z))) with (from_centre (rval x) (rval y) (rval z)) in B.
  destruct (plane_setup (rval x) (rval y) (rval z)) as (W & Zp & Pl).
  set (w := sqrt (rval x * rval x + rval y * rval y)) in *. set (r := from_centre (rval x) (rval y) (rval z)) in *.
  pose proof (datum_e2 f BF) as E2. set (e2 := 1 / rval f * (2 - 1 / rval f)) in *.
  destruct (geodetic_exists (rval a) e2 w (Rabs (rval z)) BA E2 W Zp) as (ph & h0 & Ph & Ew & Ez). cbv zeta in Ew, Ez.
  pose proof (geodetic_height (rval a) e2 ph h0 r BA E2 Ph ltac:(lra)) as GH. cbv zeta in GH.
  rewrite <- Ew, <- Ez in GH. specialize (GH W Zp Pl).
  pose proof (q_low e2 (sin ph) (cos ph) E2 (sc1 ph)) as Q. pose proof (inv_q _ Q) as Iq.
  set (q := sqrt (1 - e2 * (sin ph * sin ph))) in *.
  assert (rval a / q <= rval a * (10036 / 10000)) as Aq by (apply Rmult_le_compat_l; lra).
  assert (rval a * (9965 / 10000) <= rval a * q) as Aq' by (apply Rmult_le_compat_l; lra).
  assert (-200000 <= h0 <= 10000000000) as Hh by lra.
  set (sg := if Rle_dec 0 (rval z) then 1 else -1).
  assert (sg * sg = 1 /\ sg * Rabs (rval z) = rval z) as (Sg1 & Sg2).
  { unfold sg. destruct (Rle_dec 0 (rval z)); split; try ring.
    - rewrite Rabs_pos_eq by assumption. ring.
    - rewrite Rabs_left by lra. ring. }
  set (lat0 := sg * ph * 180 / PI).
  assert (radians lat0 = sg * ph) as Rt by apply degrees_radians.
  assert (cos (sg * ph) = cos ph /\ sin (sg * ph) = sg * sin ph) as (Ct & St).
  { unfold sg. destruct (Rle_dec 0 (rval z)).
    - rewrite !Rmult_1_l. split; reflexivity.
    - replace (-1 * ph) with (- ph) by ring. rewrite cos_neg, sin_neg. split; [reflexivity|ring]. }
  pose proof PI_RGT_0 as Pi.
  assert (-90 <= lat0 <= 90) as L0.
  { assert (- (PI / 2) <= sg * ph <= PI / 2) as T by (unfold sg; destruct (Rle_dec 0 (rval z)); lra).
    split; apply radians_le_inv; rewrite Rt, ?radians_opp, ?radians_90; try lra.
    replace (-90) with (- (90)) by ring. rewrite radians_opp, radians_90. lra. }
  destruct (position_exists (rval a) (1 / rval f) lat0 t h0 ltac:(lra) BF1) as (p & P).
  assert (p = reals3 (x, y, z)) as EP.
  { rewrite (position_eq (rval a) (1 / rval f) lat0 t h0 p ltac:(lra) BF1 P). cbv zeta. fold e2. rewrite Rt, Ct, St.
    replace (sg * sin ph * (sg * sin ph)) with (sin ph * sin ph) by (replace (sg * sin ph * (sg * sin ph)) with (sg * sg * (sin ph * sin ph)) by ring; rewrite Sg1; ring).
    fold q. unfold reals3. f_equal; [f_equal|].
    - rewrite <- Ew. symmetry. exact TX.
    - rewrite <- Ew. symmetry. exact TY.
    - rewrite <- Sg2, Ez. field. lra. }
  rewrite EP in P.
  destruct (C81_accuracy L x y z a f lat0 t h0 (reals3 (x, y, z)) 0 K D BF2 L0) as (lat' & lon' & h' & E' & F1 & F2 & F3 & DL & DH & _); try assumption; try lra.
  { unfold reals3, within. repeat split; try apply FX; try apply FY; try apply FZ; rewrite Rminus_diag_eq, Rabs_R0 by reflexivity; lra. }
  exists lat0, t, h0, lat', lon', h'. split; [exact L0|]. split; [exact TB|]. split; [replace (10 ^ 10) with 10000000000 by ring; exact Hh|]. split; [exact P|]. split; [exact E'|].
  split; [exact F1|]. split; [exact F2|]. split; [exact F3|].
  match type of DL with context [0 / ?r] => replace (0 / r) with 0 in DL by (unfold Rdiv; ring) end. split; [lra|]. split; [lra|].
  rewrite E1 in E'. injection E' as <- <- <-. exact TL.
Qed.

(* the hypotheses are met: with a correctly rounding library and WGS84, a point
   1000 m above 0N 0E, and the centre of the Earth *)
Theorem C81_example :
  (exists lat lon h, fecef2llh exact_libm (f_norm 6379137 0) (f_norm 0 0) (f_norm 0 0) f_SMAJ_AXIS f_FLATTENING = Ok (lat, lon, h) /\
    Rabs (rval lat) <= 18 / 10 ^ 9 /\ Rabs (rval h - 1000) <= 15 / 10 ^ 4) /\
  (exists x y z lat lon h, fllh2ecef exact_libm (f_norm 45 0) (f_norm 90 0) (f_norm 1000 0) f_SMAJ_AXIS f_FLATTENING = Ok (x, y, z) /\
    fecef2llh exact_libm x y z f_SMAJ_AXIS f_FLATTENING = Ok (lat, lon, h) /\ Rabs (rval lat - 45) <= 2 / 10 ^ 8 /\ Rabs (rval h - 1000) <= 2 / 10 ^ 3) /\
  fecef2llh exact_libm (f_norm 0 0) (f_norm 0 0) (f_norm 1000 0) f_SMAJ_AXIS f_FLATTENING = Ok (fzero, fzero, f_norm (-10000000) 0).
Proof.
  destruct wgs84_values as [A B]. pose proof (approx_bounds _ _ _ A) as BA. pose proof (approx_bounds _ _ _ B) as BB.
  assert (rval f_SMAJ_AXIS = 6378137) as VA by lra.
  split; [|split].
  - destruct (C80_example) as [V _]. rewrite !val_int in V by lia.
    destruct (C81_accuracy exact_libm (f_norm 6379137 0) (f_norm 0 0) (f_norm 0 0) f_SMAJ_AXIS f_FLATTENING 0 0 1000 (6379137, 0, 0) 0 exact_libm_ok wgs84_datum)
      as (lat & lon & h & E & _ & _ & _ & DL & DH & _); try lra.
    + exists (6378137, 0, 0). split; [exact V|]. unfold vadd, vscale, sphere_point, radians. replace (0 * (PI / 180)) with 0 by ring. rewrite cos_0, sin_0.
      f_equal; [f_equal|]; ring.
    + unfold within. rewrite !val_int by lia. rewrite !Rminus_diag_eq, Rabs_R0 by reflexivity.
      repeat split; try lra; try (vm_compute; reflexivity).
    + exists lat, lon, h. split; [exact E|]. match type of DL with context [0 / ?r] => replace (0 / r) with 0 in DL by (unfold Rdiv; ring) end. rewrite Rminus_0_r in DL. split; lra.
  - destruct (C81_round_trip exact_libm (f_norm 45 0) (f_norm 90 0) (f_norm 1000 0) f_SMAJ_AXIS f_FLATTENING exact_libm_ok)
      as (x & y & z & lat & lon & h & E & E' & _ & _ & _ & DL & DH & _).
    + apply lat_int; lia.
    + apply lon_int; lia.
    + destruct (f_int 1000) as (F & _); [lia|exact F].
    + rewrite val_int by lia. lra.
    + apply wgs84_datum.
    + lra.
    + exists x, y, z, lat, lon, h. rewrite !val_int in DL, DH by lia. repeat split; assumption.
  - apply C81_core; try (vm_compute; split; reflexivity); [apply wgs84_datum|].
    unfold centre_distance, dot, reals3. rewrite !val_int by lia.
    replace (0 * 0 + 0 * 0 + 1000 * 1000) with (1000 * 1000) by ring. rewrite sqrt_square; lra.
Qed.
