(* ecef2llh: the latitude guess, the correction step, and their bounds. *)
From Coq Require Import Reals Lra Lia Psatz.
From Verif Require Import PyBase Geo GeoSpec GeoProofs.
Open Scope R_scope.

Lemma div_mul : forall x y, y <> 0 -> x / y * y = x.
Proof. intros; field; assumption. Qed.
Lemma div_le : forall x y z, 0 < y -> x <= z * y -> x / y <= z.
Proof. intros. apply Rmult_le_reg_r with y; [assumption|]. rewrite div_mul by lra. assumption. Qed.
Lemma le_div : forall x y z, 0 < y -> z * y <= x -> z <= x / y.
Proof. intros. apply Rmult_le_reg_r with y; [assumption|]. rewrite div_mul by lra. assumption. Qed.
Lemma sq_nonneg : forall x, 0 <= x * x.
Proof. intros; apply (Rle_0_sqr x). Qed.
Lemma sqrt_le_of_sq : forall x y, 0 <= y -> x <= y * y -> sqrt x <= y.
Proof.
  intros. apply Rle_trans with (sqrt (y * y)); [apply sqrt_le_1_alt; assumption|].
  rewrite sqrt_square by assumption; lra.
Qed.
Lemma le_sqrt_of_sq : forall x y, 0 <= y -> y * y <= x -> y <= sqrt x.
Proof.
  intros. apply Rle_trans with (sqrt (y * y)); [rewrite sqrt_square by assumption; lra|].
  apply sqrt_le_1_alt; assumption.
Qed.
Lemma sq_le : forall x y, 0 <= y -> x * x <= y * y -> x <= y.
Proof. intros. apply Rsqr_incr_0_var; [unfold Rsqr; assumption|assumption]. Qed.
Lemma sq_lt : forall x y, 0 <= y -> x * x < y * y -> x < y.
Proof. intros. apply Rsqr_incrst_0_alt || (destruct (Rlt_dec x y); [assumption|nra]). Qed.

(* ecef2llh with its divisions and square roots carried out *)
Definition ecef_plane (a e2 w zp z lon r : R) : result (R * R * R) :=
  let a1 := a * e2 in
  let s2 := zp * zp / (r * r) in
  let c2 := w * w / (r * r) in
  let u := a1 * a1 / r in
  let v := a1 * e2 / 2 - 5 / 2 * (a1 * a1) / r in
  if Rlt_dec (3 / 10) c2 then
    let s := zp / r * (1 + c2 * (a1 + u + s2 * v) / r) in
    let! lat := m_asin s in
    let! c := m_sqrt (1 - s * s) in
    ecef_tail a e2 (1 - e2) w zp z lat lon s c (s * s)
  else
    let c := w / r * (1 - s2 * (a1 + a1 * e2 / 2 - u - c2 * v) / r) in
    let! lat := m_acos c in
    let! s := m_sqrt (1 - c * c) in
    ecef_tail a e2 (1 - e2) w zp z lat lon s c (1 - c * c).

Lemma ecef2llh_eq : forall x y z a f, f <> 0 ->
  let e2 := 1 / f * (2 - 1 / f) in
  let w := sqrt (x * x + y * y) in
  let r := sqrt (x * x + y * y + z * z) in
  ecef2llh x y z a f =
  if Rlt_dec r 100000 then Ok (0, 0, -10000000)
  else ecef_plane a e2 w (Rabs z) z (m_atan2 y x) r.
Proof.
  intros x y z a f F e2 w r.
  pose proof (sq_nonneg x). pose proof (sq_nonneg y). pose proof (sq_nonneg z).
  assert (W : w * w = x * x + y * y) by (apply sqrt_sqrt; lra).
  assert (Rr : r * r = x * x + y * y + z * z) by (apply sqrt_sqrt; lra).
  assert (Zz : Rabs z * Rabs z = z * z) by (symmetry; apply (Rsqr_abs z)).
  unfold ecef2llh. cbv zeta. rewrite m_div_ok by assumption. cbn [bind].
  rewrite m_sqrt_ok by lra. cbn [bind]. fold w.
  rewrite m_sqrt_ok by lra. cbn [bind]. fold r.
  destruct (Rlt_dec r 100000) as [L|L]; [reflexivity|].
  assert (R0 : r <> 0) by lra.
  assert (R2 : r * r <> 0) by (apply Rmult_integral_contrapositive_currified; assumption).
  rewrite <- Rr, <- W, <- Zz.
  rewrite m_div_ok by assumption. cbn [bind]. rewrite m_div_ok by assumption. cbn [bind].
  rewrite m_div_ok by assumption. cbn [bind]. rewrite m_div_ok by assumption. cbn [bind].
  unfold ecef_plane. cbv zeta. fold e2.
  destruct (Rlt_dec (3 / 10) (w * w / (r * r))).
  - rewrite m_div_ok by assumption. cbn [bind]. rewrite m_div_ok by assumption. cbn [bind].
    reflexivity.
  - rewrite m_div_ok by assumption. cbn [bind]. rewrite m_div_ok by assumption. cbn [bind].
    reflexivity.
Qed.

(* ------------------------------------------------------------------ *)
(* The class of ellipsoids the algorithm is used with: every geodetic datum *)
Definition earth_like (a e2 : R) : Prop :=
  6300000 <= a <= 6400000 /\ 0 < e2 <= 69 / 10000.

Lemma earth_flattening : forall f, 290 <= f ->
  let e2 := 1 / f * (2 - 1 / f) in 0 < e2 <= 69 / 10000.
Proof.
  intros f F e2.
  assert (P : 0 < 1 / f) by (apply Rdiv_lt_0_compat; lra).
  assert (Q : 1 / f <= 1 / 290).
  { apply div_le; [lra|]. apply Rmult_le_reg_l with 290; [lra|].
    replace (290 * (1 / 290 * f)) with f by field. lra. }
  unfold e2. split; nra.
Qed.

(* what the rest of ecef2llh needs to know about the guess *)
Record guess (a e2 w zp r s c lat : R) : Prop := {
  g_s : 0 <= s; g_c : 0 <= c; g_sc : s * s + c * c = 1;
  g_lat : 0 <= lat <= PI / 2; g_sin : sin lat = s; g_cos : cos lat = c;
  g_dot : 45000 <= c * w + s * zp
}.

(* the tail, with the divisions carried out *)
Definition tail_m (a e2 w zp s c : R) : R :=
  c * zp - s * w + a * e2 * (s * c) / sqrt (1 - e2 * (s * s)).
Definition tail_f (a e2 w zp s c : R) : R :=
  c * w + s * zp - a * sqrt (1 - e2 * (s * s)).
Definition tail_d (a e2 w zp s c : R) : R :=
  a * (1 - e2) / sqrt (1 - e2 * (s * s)) / (1 - e2 * (s * s)) + tail_f a e2 w zp s c.

Lemma root_bounds : forall e2 s c, 0 < e2 <= 69 / 10000 -> s * s + c * c = 1 ->
  let g := 1 - e2 * (s * s) in
  1 - e2 <= g <= 1 /\ 0 < sqrt g <= 1 /\ sqrt g * sqrt g = g.
Proof.
  intros e2 s c E S g. pose proof (sq_nonneg s). pose proof (sq_nonneg c).
  assert (G : 1 - e2 <= g <= 1) by (unfold g; split; nra).
  split; [exact G|]. split.
  - split; [apply sqrt_lt_R0; lra|]. apply sqrt_le_of_sq; lra.
  - apply sqrt_sqrt; lra.
Qed.

Lemma tail_d_pos : forall a e2 w zp s c, earth_like a e2 -> s * s + c * c = 1 ->
  c * w + s * zp - a * e2 <= tail_d a e2 w zp s c.
Proof.
  intros a e2 w zp s c [A E] S. unfold tail_d, tail_f.
  destruct (root_bounds e2 s c E S) as (G & Q & QQ).
  set (g := 1 - e2 * (s * s)) in *. set (q := sqrt g) in *.
  assert (L : a * (1 - e2) <= a * (1 - e2) / q / g).
  { assert (K : 0 < a * (1 - e2)) by nra.
    apply Rle_trans with (a * (1 - e2) / q).
    - apply le_div; [lra|]. nra.
    - assert (0 < a * (1 - e2) / q) by (apply Rdiv_lt_0_compat; lra).
      apply le_div; [lra|]. nra. }
  assert (a * q <= a) by nra. lra.
Qed.

Lemma ecef_tail_eq : forall a e2 w zp z lat lon s c,
  earth_like a e2 -> s * s + c * c = 1 -> 45000 <= c * w + s * zp ->
  let m := tail_m a e2 w zp s c in
  let f := tail_f a e2 w zp s c in
  let p := m / tail_d a e2 w zp s c in
  ecef_tail a e2 (1 - e2) w zp z lat lon s c (s * s)
  = Ok ((if Rlt_dec z 0 then - (lat + p) else lat + p) * 180 / PI, lon * 180 / PI,
        f + m * p / 2).
Proof.
  intros a e2 w zp z lat lon s c Hearth S D m f p.
  destruct Hearth as [A E] eqn:EH.
  destruct (root_bounds e2 s c E S) as (G & Q & QQ).
  pose proof (tail_d_pos a e2 w zp s c (conj A E) S) as TD.
  unfold ecef_tail. cbv zeta.
  unfold p, m, f, tail_m, tail_f, tail_d in *. unfold tail_f in *.
  set (g := 1 - e2 * (s * s)) in *. set (q := sqrt g) in *.
  rewrite m_sqrt_ok by lra. cbn [bind]. fold q.
  rewrite m_div_ok by lra. cbn [bind].
  rewrite m_div_ok by lra. cbn [bind].
  assert (Ef : c * (w - a / q * c) + s * (zp - (1 - e2) * (a / q) * s) = c * w + s * zp - a * q).
  { replace (c * (w - a / q * c) + s * (zp - (1 - e2) * (a / q) * s))
      with (c * w + s * zp - a * ((s * s + c * c) - e2 * (s * s)) / q) by (field; lra).
    rewrite S. fold g. rewrite <- QQ. field. lra. }
  assert (Em : c * (zp - (1 - e2) * (a / q) * s) - s * (w - a / q * c)
               = c * zp - s * w + a * e2 * (s * c) / q) by (field; lra).
  rewrite Ef, Em.
  replace ((1 - e2) * (a / q) / g) with (a * (1 - e2) / q / g) by (field; lra).
  rewrite m_div_ok by nra. cbn [bind]. reflexivity.
Qed.

(* ------------------------------------------------------------------ *)
(* the two guesses, in terms of eps = a e2 / r and the direction (cp, sp) *)
Definition corr1 (eps e2 s2 : R) : R := eps + eps * eps + s2 * (eps * e2 / 2 - 5 / 2 * (eps * eps)).
Definition corr2 (eps e2 c2 : R) : R :=
  eps + eps * e2 / 2 - eps * eps - c2 * (eps * e2 / 2 - 5 / 2 * (eps * eps)).

Lemma corr1_bounds : forall eps e2 s2, 0 < eps <= 4417 / 10000 -> 0 < e2 <= 69 / 10000 ->
  0 <= s2 <= 7001 / 10000 -> 0 <= corr1 eps e2 s2 <= 638 / 1000.
Proof.
  intros eps e2 s2 H E S. unfold corr1.
  assert (P : 0 <= eps * e2 <= 69 / 10000 * eps) by nra.
  assert (Q : 0 <= eps * eps <= 4417 / 10000 * eps) by nra.
  set (x := eps * e2) in *. set (y := eps * eps) in *.
  assert (0 <= s2 * x <= 7001 / 10000 * x) by nra.
  assert (0 <= s2 * y <= 7001 / 10000 * y) by nra.
  split; lra.
Qed.

Lemma corr2_bounds : forall eps e2 c2, 0 < eps <= 4417 / 10000 -> 0 < e2 <= 69 / 10000 ->
  0 <= c2 <= 3001 / 10000 -> 0 <= corr2 eps e2 c2 <= 45 / 100.
Proof.
  intros eps e2 c2 H E S. unfold corr2.
  assert (P : 0 <= eps * e2 <= 69 / 10000 * eps) by nra.
  assert (Q : 0 <= eps * eps <= 4417 / 10000 * eps) by nra.
  set (x := eps * e2) in *. set (y := eps * eps) in *.
  assert (0 <= c2 * x <= 3001 / 10000 * x) by nra.
  assert (0 <= c2 * y <= 3001 / 10000 * y) by nra.
  split; lra.
Qed.

(* (1 - x)(1 + k x)^2 falls for x >= 0.3 when k <= 0.638 *)
Lemma guess1_sq : forall x x0 k, 2999 / 10000 <= x0 <= x -> x <= 1 -> 0 <= k <= 638 / 1000 ->
  (1 - x) * ((1 + x * k) * (1 + x * k)) <= (1 - x0) * ((1 + x0 * (638 / 1000)) * (1 + x0 * (638 / 1000))).
Proof.
  intros x x0 k X0 X K.
  apply Rle_trans with ((1 - x) * ((1 + x * (638 / 1000)) * (1 + x * (638 / 1000)))).
  - assert (0 <= x * k <= x * (638 / 1000)) by nra.
    apply Rmult_le_compat_l; [lra|]. apply Rmult_le_compat; lra.
  - assert (E : (1 - x0) * ((1 + x0 * (638 / 1000)) * (1 + x0 * (638 / 1000)))
       - (1 - x) * ((1 + x * (638 / 1000)) * (1 + x * (638 / 1000)))
       = (x - x0) * ((1 - 2 * (638 / 1000)) + (2 * (638/1000) - (638/1000) * (638/1000)) * (x + x0)
          + (638/1000) * (638/1000) * (x * x + x * x0 + x0 * x0))) by field.
    assert (0 <= x * x) by nra. assert (0 <= x * x0) by nra. assert (0 <= x0 * x0) by nra.
    assert (0 <= (1 - 2 * (638 / 1000)) + (2 * (638/1000) - (638/1000) * (638/1000)) * (x + x0)
          + (638/1000) * (638/1000) * (x * x + x * x0 + x0 * x0)) by nra.
    pose proof (Rmult_le_pos (x - x0) _ ltac:(lra) H2). lra.
Qed.

Lemma guess1_ok : forall sp cp k, 0 <= sp -> 0 <= cp -> sp * sp + cp * cp = 1 ->
  2999 / 10000 < cp * cp -> 0 <= k <= 638 / 1000 ->
  let s := sp * (1 + cp * cp * k) in
  let c := sqrt (1 - s * s) in
  sp <= s /\ s * s < 1 /\ c * c = 1 - s * s /\ 0 <= c /\ 45 / 100 <= c * cp + s * sp.
Proof.
  intros sp cp k Sp Cp Spc C2 K s c.
  assert (X : 0 <= sp * sp) by apply sq_nonneg.
  assert (M : 0 <= cp * cp * k) by nra.
  assert (S1 : sp <= s) by (unfold s; nra).
  assert (Ss : s * s = (1 - cp * cp) * ((1 + cp * cp * k) * (1 + cp * cp * k)))
    by (unfold s; replace (1 - cp * cp) with (sp * sp) by lra; ring).
  assert (S2 : s * s < 1).
  { rewrite Ss. pose proof (guess1_sq (cp * cp) (2999 / 10000) k ltac:(lra) ltac:(lra) K). lra. }
  assert (Cc : c * c = 1 - s * s) by (apply sqrt_sqrt; lra).
  assert (C0 : 0 <= c) by apply sqrt_pos.
  split; [exact S1|]. split; [exact S2|]. split; [exact Cc|]. split; [exact C0|].
  assert (SS : sp * sp <= s * sp) by nra.
  assert (CC : 0 <= c * cp) by nra.
  destruct (Rle_dec (45 / 100) (sp * sp)); [lra|].
  destruct (Rle_dec (20 / 100) (sp * sp)).
  - assert (25 / 100 <= c * cp); [|lra]. apply sq_le; [exact CC|].
    replace (c * cp * (c * cp)) with (c * c * (cp * cp)) by ring.
    pose proof (guess1_sq (cp * cp) (55 / 100) k ltac:(lra) ltac:(lra) K) as B.
    rewrite <- Ss in B. assert (17 / 100 <= c * c) by lra. nra.
  - assert (45 / 100 <= c * cp); [|lra]. apply sq_le; [exact CC|].
    replace (c * cp * (c * cp)) with (c * c * (cp * cp)) by ring.
    pose proof (guess1_sq (cp * cp) (80 / 100) k ltac:(lra) ltac:(lra) K) as B.
    rewrite <- Ss in B. assert (45 / 100 <= c * c) by lra. nra.
Qed.

Lemma guess2_ok : forall sp cp k, 0 <= sp -> 0 <= cp -> sp * sp + cp * cp = 1 ->
  cp * cp <= 3001 / 10000 -> 0 <= k <= 45 / 100 ->
  let c := cp * (1 - sp * sp * k) in
  let s := sqrt (1 - c * c) in
  0 <= c <= cp /\ c * c < 1 /\ s * s = 1 - c * c /\ 0 <= s /\ 69 / 100 <= c * cp + s * sp.
Proof.
  intros sp cp k Sp Cp Spc C2 K c s.
  assert (X : 0 <= sp * sp <= 1) by (pose proof (sq_nonneg sp); pose proof (sq_nonneg cp); lra).
  assert (M : 0 <= sp * sp * k <= 45 / 100) by nra.
  assert (C1 : 0 <= c <= cp) by (unfold c; nra).
  assert (Cc : c * c <= cp * cp) by nra.
  assert (Ss : s * s = 1 - c * c) by (apply sqrt_sqrt; lra).
  assert (S0 : 0 <= s) by apply sqrt_pos.
  split; [exact C1|]. split; [lra|]. split; [exact Ss|]. split; [exact S0|].
  assert (CC : 0 <= c * cp) by nra.
  assert (69 / 100 <= s * sp); [|lra]. apply sq_le; [nra|].
  replace (s * sp * (s * sp)) with (s * s * (sp * sp)) by ring. nra.
Qed.

(* the guess, for any point at least 100 km from the centre: sine and cosine of
   an angle between 0 and pi/2, from which the tail is entered *)
Lemma ecef_plane_eq : forall a e2 w zp z lon r,
  earth_like a e2 -> 0 <= w -> 0 <= zp -> w * w + zp * zp = r * r -> 100000 <= r ->
  exists s c lat,
    0 <= s /\ 0 <= c /\ s * s + c * c = 1 /\ 0 <= lat <= PI / 2 /\
    sin lat = s /\ cos lat = c /\ 45 / 100 * r <= c * w + s * zp /\
    (let eps := a * e2 / r in
     (3 / 10 < w * w / (r * r) /\
        s = zp / r * (1 + w * w / (r * r) * corr1 eps e2 (zp * zp / (r * r)))) \/
     (w * w / (r * r) <= 3 / 10 /\
        c = w / r * (1 - zp * zp / (r * r) * corr2 eps e2 (w * w / (r * r))))) /\
    ecef_plane a e2 w zp z lon r = ecef_tail a e2 (1 - e2) w zp z lat lon s c (s * s).
Proof.
  intros a e2 w zp z lon r [A E] W Zp Rr R0.
  assert (Er : 0 < a * e2 / r <= 4416 / 10000).
  { split; [apply Rdiv_lt_0_compat; nra|]. apply div_le; [lra|]. nra. }
  set (eps := a * e2 / r) in *. set (sp := zp / r). set (cp := w / r).
  assert (Sp : 0 <= sp) by (apply Rmult_le_pos; [assumption|left; apply Rinv_0_lt_compat; lra]).
  assert (Cp : 0 <= cp) by (apply Rmult_le_pos; [assumption|left; apply Rinv_0_lt_compat; lra]).
  assert (Es : zp * zp / (r * r) = sp * sp) by (unfold sp; field; lra).
  assert (Ec : w * w / (r * r) = cp * cp) by (unfold cp; field; lra).
  assert (Spc : sp * sp + cp * cp = 1).
  { rewrite <- Es, <- Ec. replace (zp * zp / (r * r) + w * w / (r * r))
      with ((w * w + zp * zp) / (r * r)) by (field; lra). rewrite Rr. field. lra. }
  assert (Ew : w = cp * r) by (unfold cp; field; lra).
  assert (Ez : zp = sp * r) by (unfold sp; field; lra).
  pose proof (sq_nonneg sp). pose proof (sq_nonneg cp). pose proof PI_RGT_0 as Pi.
  unfold ecef_plane. cbv zeta. rewrite Es, Ec.
  destruct (Rlt_dec (3 / 10) (cp * cp)) as [B|B].
  - assert (K : cp * cp * (a * e2 + a * e2 * (a * e2) / r +
        sp * sp * (a * e2 * e2 / 2 - 5 / 2 * (a * e2 * (a * e2)) / r)) / r
        = cp * cp * corr1 eps e2 (sp * sp)) by (unfold corr1, eps; field; lra).
    rewrite K.
    pose proof (corr1_bounds eps e2 (sp * sp) ltac:(lra) E ltac:(lra)) as KB.
    destruct (guess1_ok sp cp (corr1 eps e2 (sp * sp)) Sp Cp Spc ltac:(lra) KB) as (S1 & S2 & Cc & C0 & D).
    fold sp. set (s := sp * (1 + cp * cp * corr1 eps e2 (sp * sp))) in *.
    set (c := sqrt (1 - s * s)) in *.
    assert (S3 : s <= 1) by (apply sq_le; lra).
    exists s, c, (asin s). split; [lra|]. split; [exact C0|]. split; [lra|].
    assert (AB := asin_bound s).
    assert (AN : sin (asin s) = s) by (apply sin_asin; lra).
    split.
    { split; [|lra]. destruct (Rle_dec 0 (asin s)); [assumption|].
      assert (sin (asin s) < 0) by (apply sin_lt_0_var; lra). lra. }
    split; [exact AN|]. split.
    { rewrite cos_asin by lra. unfold c, Rsqr. reflexivity. }
    split; [rewrite Ew, Ez; nra|].
    split; [left; split; [assumption|reflexivity]|].
    rewrite m_asin_ok by lra. cbn [bind]. rewrite m_sqrt_ok by lra. cbn [bind]. reflexivity.
  - assert (K : sp * sp * (a * e2 + a * e2 * e2 / 2 - a * e2 * (a * e2) / r -
        cp * cp * (a * e2 * e2 / 2 - 5 / 2 * (a * e2 * (a * e2)) / r)) / r
        = sp * sp * corr2 eps e2 (cp * cp)) by (unfold corr2, eps; field; lra).
    rewrite K.
    pose proof (corr2_bounds eps e2 (cp * cp) ltac:(lra) E ltac:(lra)) as KB.
    destruct (guess2_ok sp cp (corr2 eps e2 (cp * cp)) Sp Cp Spc ltac:(lra) KB)
      as (C1 & C2 & Ss & S0 & D).
    fold cp. set (c := cp * (1 - sp * sp * corr2 eps e2 (cp * cp))) in *.
    set (s := sqrt (1 - c * c)) in *.
    assert (C3 : c <= 1) by (apply sq_le; lra).
    exists s, c, (acos c). split; [exact S0|]. split; [lra|]. split; [lra|].
    split.
    { split; [apply acos_bound|]. rewrite <- acos_0.
      destruct (Req_EM_T c 0) as [C|C]; [rewrite C; lra|].
      rewrite acos_0. apply acos_le; [lra|lra|rewrite cos_PI2; lra]. }
    split. { rewrite sin_acos by lra. unfold s, Rsqr. reflexivity. }
    split; [apply cos_acos; lra|].
    split; [rewrite Ew, Ez; nra|].
    split; [right; split; [lra|reflexivity]|].
    rewrite m_acos_ok by lra. cbn [bind]. rewrite m_sqrt_ok by lra. cbn [bind].
    fold s. rewrite <- Ss. reflexivity.
Qed.

(* ------------------------------------------------------------------ *)
(* the corrected latitude stays between the equator and the pole *)

(* radius of curvature minus a q: a e2 s^2 / q - a e2 c^2 / q^3 *)
Lemma curvature : forall a e2 s c q, 0 < q -> q * q = 1 - e2 * (s * s) -> s * s + c * c = 1 ->
  a * (1 - e2) / q / (q * q) - a * q
  = a * e2 * (s * s) / q - a * e2 * (c * c) / (q * q * q).
Proof.
  intros a e2 s c q Q G S.
  apply Rmult_eq_reg_r with (q * q * q).
  - replace ((a * (1 - e2) / q / (q * q) - a * q) * (q * q * q))
      with (a * (1 - e2) - a * ((q * q) * (q * q))) by (field; lra).
    replace ((a * e2 * (s * s) / q - a * e2 * (c * c) / (q * q * q)) * (q * q * q))
      with (a * e2 * (s * s) * (q * q) - a * e2 * (c * c)) by (field; lra).
    rewrite G. replace (c * c) with (1 - s * s) by lra. ring.
  - apply Rmult_integral_contrapositive_currified; [|lra].
    apply Rmult_integral_contrapositive_currified; lra.
Qed.

Lemma q_low : forall e2 s c, 0 < e2 <= 69 / 10000 -> s * s + c * c = 1 ->
  9965 / 10000 <= sqrt (1 - e2 * (s * s)) <= 1.
Proof.
  intros e2 s c E S. destruct (root_bounds e2 s c E S) as (G & Q & QQ).
  split; [|lra]. apply le_sqrt_of_sq; lra.
Qed.

Lemma tail_d_eq : forall a e2 w zp s c, 0 < e2 <= 69 / 10000 -> s * s + c * c = 1 ->
  let q := sqrt (1 - e2 * (s * s)) in
  tail_d a e2 w zp s c = c * w + s * zp + a * e2 * (s * s) / q - a * e2 * (c * c) / (q * q * q).
Proof.
  intros a e2 w zp s c E S q. destruct (root_bounds e2 s c E S) as (G & Q & QQ).
  fold q in Q, QQ. unfold tail_d, tail_f. fold q.
  rewrite <- QQ at 1. pose proof (curvature a e2 s c q ltac:(lra) QQ S). lra.
Qed.

Lemma inv_q : forall q, 9965 / 10000 <= q <= 1 -> 1 <= / q <= 10036 / 10000.
Proof.
  intros q Q. assert (Iq : / q * q = 1) by (apply Rinv_l; lra).
  assert (0 < / q) by (apply Rinv_0_lt_compat; lra). split; nra.
Qed.
Lemma inv_q3 : forall q, 9965 / 10000 <= q <= 1 -> 1 <= / (q * q * q) <= 1011 / 1000.
Proof.
  intros q Q.
  assert (B : 9895 / 10000 <= q * q * q <= 1).
  { assert (993 / 1000 <= q * q <= 1) by nra. split; nra. }
  set (t := q * q * q) in *.
  assert (I : / t * t = 1) by (apply Rinv_l; lra).
  assert (0 < / t) by (apply Rinv_0_lt_compat; lra). split; nra.
Qed.

Lemma lat_upper : forall a e2 w zp r s c, earth_like a e2 -> 0 <= w -> 0 <= zp -> 100000 <= r ->
  0 <= s -> 0 <= c -> s * s + c * c = 1 -> c * r <= w -> zp <= s * r ->
  tail_m a e2 w zp s c <= c * tail_d a e2 w zp s c.
Proof.
  intros a e2 w zp r s c [A E] W Zp Rr S0 C0 S Hw Hz.
  rewrite tail_d_eq by assumption. cbv zeta. unfold tail_m.
  pose proof (q_low e2 s c E S) as Q. set (q := sqrt _) in *.
  pose proof (inv_q q Q) as I1. pose proof (inv_q3 q Q) as I3.
  unfold Rdiv. set (i := / q) in *. set (j := / (q * q * q)) in *.
  assert (A1 : 0 < a * e2 <= 44160) by nra. set (a1 := a * e2) in *.
  assert (S1 : s <= 1) by (apply sq_le; nra). assert (C1 : c <= 1) by (apply sq_le; nra).
  assert (K : c * zp - s * w - c * (c * w + s * zp) <= - c * r).
  { assert (c * zp * (1 - s) <= c * (s * r) * (1 - s)).
    { apply Rmult_le_compat_r; [lra|]. apply Rmult_le_compat_l; lra. }
    assert (0 <= s + c * c) by nra.
    assert ((s + c * c) * (c * r) <= (s + c * c) * w) by (apply Rmult_le_compat_l; lra).
    replace (- c * r) with (c * (s * r) * (1 - s) - (s + c * c) * (c * r)
              + c * r * (s * s + c * c - 1)) by ring. rewrite S. lra. }
  assert (U1 : a1 * (s * c) * i <= c * (44160 * (10036 / 10000))).
  { replace (a1 * (s * c) * i) with (c * (a1 * (s * i))) by ring.
    apply Rmult_le_compat_l; [lra|]. apply Rmult_le_compat; nra. }
  assert (U2 : 0 <= a1 * (s * s) * i) by (repeat apply Rmult_le_pos; lra).
  assert (U3 : a1 * (c * c) * j <= 44160 * (1011 / 1000)).
  { rewrite Rmult_assoc. apply Rmult_le_compat; try nra. }
  assert (c * (a1 * (c * c) * j) <= c * (44160 * (1011 / 1000))) by (apply Rmult_le_compat_l; lra).
  assert (0 <= c * (a1 * (s * s) * i)) by (apply Rmult_le_pos; lra).
  assert (c * 100000 <= c * r) by (apply Rmult_le_compat_l; lra).
  lra.
Qed.

Lemma sq_le_self : forall x, 0 <= x <= 1 -> x * x <= x.
Proof. intros; nra. Qed.
Lemma le_mul_ge1 : forall x i, 0 <= x -> 1 <= i -> x <= x * i.
Proof. intros; nra. Qed.
Lemma mul_bound : forall x y m n, 0 <= x <= m -> 0 <= y <= n -> 0 <= x * y <= m * n.
Proof. intros; split; [apply Rmult_le_pos; lra|apply Rmult_le_compat; lra]. Qed.

Lemma lat_lower1 : forall a e2 w zp r sp cp k, earth_like a e2 -> 100000 <= r ->
  w = cp * r -> zp = sp * r ->
  0 <= sp -> 0 <= cp -> sp * sp + cp * cp = 1 -> 3 / 10 < cp * cp -> 0 <= k <= 638 / 1000 ->
  let s := sp * (1 + cp * cp * k) in
  let c := sqrt (1 - s * s) in
  - (s * tail_d a e2 w zp s c) <= tail_m a e2 w zp s c.
Proof.
  intros a e2 w zp r sp cp k [A E] Rr Hw Hz Sp Cp Spc C2 K s c.
  destruct (guess1_ok sp cp k Sp Cp Spc ltac:(lra) K) as (S1 & S2 & Cc & C0 & D).
  fold s in S1, S2, Cc, C0, D. fold c in Cc, C0, D.
  assert (S : s * s + c * c = 1) by lra.
  rewrite tail_d_eq by assumption. cbv zeta. unfold tail_m.
  pose proof (q_low e2 s c E S) as Q. set (q := sqrt (1 - e2 * (s * s))) in *.
  pose proof (inv_q q Q) as I1. pose proof (inv_q3 q Q) as I3.
  unfold Rdiv. set (i := / q) in *. set (j := / (q * q * q)) in *.
  assert (A1 : 0 < a * e2 <= 44160) by nra. set (a1 := a * e2) in *.
  set (t := 1 + cp * cp * k) in *.
  assert (Cp1 : cp <= 1) by (apply sq_le; nra).
  assert (C1 : c <= 1) by (apply sq_le; nra).
  assert (T : 1 <= t <= 1638 / 1000).
  { pose proof (mul_bound cp cp 1 1 ltac:(lra) ltac:(lra)).
    pose proof (mul_bound (cp * cp) k 1 (638/1000) ltac:(lra) ltac:(lra)). unfold t; lra. }
  assert (X : cp * (1 - c) * t - (c + s * s) + (c * c - s * s - c) * (45 / 100) <= 0 /\
              cp * (1 - c) * t - (c + s * s) <= 0).
  { replace (s * s) with (1 - c * c) by lra.
    assert (Y : 0 <= c * (1 - c)) by nra.
    assert (CT : 0 <= cp * t <= 1638 / 1000) by nra.
    destruct (Rle_dec (7 / 10) c) as [L|L].
    - assert (cp * (1 - c) * t <= 3 / 10 * (1638 / 1000)).
      { replace (cp * (1 - c) * t) with ((1 - c) * (cp * t)) by ring.
        apply Rmult_le_compat; lra. }
      split; nra.
    - assert (cp * (1 - c) * t <= 1).
      { replace (cp * (1 - c) * t) with ((1 - c) * (cp * t)) by ring.
        assert (K2 : cp * cp * k <= cp * cp * (638 / 1000)) by (apply Rmult_le_compat_l; nra).
        destruct (Rle_dec cp (7 / 10)) as [M|M].
        - pose proof (mul_bound cp cp (7/10) (7/10) ltac:(lra) ltac:(lra)) as M2.
          assert (t <= 1 + 49 / 100 * (638 / 1000)) by (unfold t; lra).
          pose proof (mul_bound cp t (7/10) (1 + 49 / 100 * (638 / 1000)) ltac:(lra) ltac:(lra)).
          pose proof (mul_bound (1 - c) (cp * t) 1 1 ltac:(lra) ltac:(lra)). lra.
        - assert (G49 : 49 / 100 <= cp * cp) by (apply Rlt_le in C2; clear - M; nra).
          assert (F : 1 - (1 - 49/100) * ((1 + 49/100 * (638 / 1000)) * (1 + 49/100 * (638 / 1000))) <= c * c).
          { rewrite Cc. pose proof (guess1_sq (cp * cp) (49 / 100) k) as G.
            assert (cp * cp <= 1) by (clear - Cp Cp1; nra).
            specialize (G ltac:(lra) ltac:(lra) K).
            replace (s * s) with ((1 - cp * cp) * ((1 + cp * cp * k) * (1 + cp * cp * k)))
              by (unfold s, t; replace (1 - cp * cp) with (sp * sp) by lra; ring).
            lra. }
          assert (34 / 100 <= c) by (apply sq_le; [assumption|]; lra).
          assert (cp <= 92 / 100).
          { assert (Es : s * s = sp * sp * (t * t)) by (unfold s, t; ring).
            pose proof (mul_bound t t (1638/1000) (1638/1000) ltac:(lra) ltac:(lra)).
            pose proof (mul_bound c c (7/10) (7/10) ltac:(lra) ltac:(lra)).
            assert (sp * sp * (t * t) <= sp * sp * (27 / 10))
              by (apply Rmult_le_compat_l; [apply sq_nonneg|lra]).
            apply sq_le; lra. }
          pose proof (mul_bound cp t (92/100) (1638/1000) ltac:(lra) ltac:(lra)).
          pose proof (mul_bound (1 - c) (cp * t) (66/100) (92/100 * (1638/1000)) ltac:(lra) ltac:(lra)).
          lra. }
      split; lra. }
  destruct X as [X1 X2].
  (* scale by r sp *)
  assert (Ts : t * sp = s) by (unfold s; ring).
  assert (V : s * w - c * zp - s * (c * w + s * zp) = r * sp * (cp * (1 - c) * t - (c + s * s))).
  { rewrite Hw, Hz. replace (r * sp * (cp * (1 - c) * t - (c + s * s)))
      with (r * (cp * (1 - c) * (t * sp) - (c + s * s) * sp)) by ring.
    rewrite Ts. ring. }
  assert (S0 : 0 <= s) by lra.
  assert (Pc : 0 <= c * c) by apply sq_nonneg. assert (Ps : 0 <= s * s) by apply sq_nonneg.
  assert (G : (c * c * j - s * s * i - c * i) * (44160 / 100000) * t <=
     - (cp * (1 - c) * t - (c + s * s))).
  { destruct (Rle_dec (c * c * j - s * s * i - c * i) 0) as [N|N].
    - assert ((c * c * j - s * s * i - c * i) * (44160 / 100000) * t <= 0) by nra. lra.
    - assert (c * c * j <= c * c * (1011 / 1000)) by (apply Rmult_le_compat_l; lra).
      pose proof (le_mul_ge1 (s * s) i Ps ltac:(lra)).
      pose proof (le_mul_ge1 c i C0 ltac:(lra)).
      pose proof (sq_le_self c ltac:(lra)).
      set (X := c * c * j - s * s * i - c * i) in *.
      assert (Bd : X <= c * c * (11 / 1000)) by (unfold X; lra).
      pose proof (mul_bound (X * (44160 / 100000)) t (11/1000 * (44160/100000)) (1638/1000)
                    ltac:(lra) ltac:(lra)).
      assert (Sm : s * s <= 11/1000) by (unfold X in N; lra).
      assert (98/100 <= c) by (apply sq_le; [assumption|lra]).
      pose proof (mul_bound cp t 1 (1638/1000) ltac:(lra) ltac:(lra)).
      pose proof (mul_bound (1 - c) (cp * t) (2/100) (1 * (1638/1000)) ltac:(lra) ltac:(lra)).
      replace (cp * (1 - c) * t) with ((1 - c) * (cp * t)) by ring.
      lra. }
  assert (W1 : a1 * (c * c * j - s * s * i - c * i) * s <=
               r * (sp * (- (cp * (1 - c) * t - (c + s * s))))).
  { apply Rle_trans with (100000 * (sp * (- (cp * (1 - c) * t - (c + s * s))))).
    - destruct (Rle_dec (c * c * j - s * s * i - c * i) 0) as [N|N].
      + assert (a1 * (c * c * j - s * s * i - c * i) * s <= 0).
        { assert (a1 * (c * c * j - s * s * i - c * i) <= 0) by nra. nra. }
        assert (0 <= sp * (- (cp * (1 - c) * t - (c + s * s)))) by (apply Rmult_le_pos; lra). lra.
      + apply Rle_trans with (44160 * (c * c * j - s * s * i - c * i) * s).
        { apply Rmult_le_compat_r; [lra|]. apply Rmult_le_compat_r; lra. }
        replace (44160 * (c * c * j - s * s * i - c * i) * s)
          with (100000 * (sp * ((c * c * j - s * s * i - c * i) * (44160 / 100000) * t))).
        2:{ replace (100000 * (sp * ((c * c * j - s * s * i - c * i) * (44160 / 100000) * t)))
              with (44160 * (c * c * j - s * s * i - c * i) * (t * sp)) by field.
            rewrite Ts. reflexivity. }
        apply Rmult_le_compat_l; [lra|]. apply Rmult_le_compat_l; lra.
    - apply Rmult_le_compat_r; [apply Rmult_le_pos; lra|lra]. }
  replace (s * (c * w + s * zp + a1 * (s * s) * i - a1 * (c * c) * j))
    with (s * (c * w + s * zp) - s * (a1 * (c * c * j - s * s * i))) by ring.
  replace (r * (sp * - (cp * (1 - c) * t - (c + s * s))))
    with (- (r * sp * (cp * (1 - c) * t - (c + s * s)))) in W1 by ring.
  rewrite <- V in W1.
  replace (a1 * (c * c * j - s * s * i - c * i) * s)
    with (s * (a1 * (c * c * j - s * s * i)) - a1 * (s * c) * i) in W1 by ring.
  lra.
Qed.

Lemma lat_lower2 : forall a e2 w zp r sp cp k, earth_like a e2 -> 100000 <= r ->
  w = cp * r -> zp = sp * r ->
  0 <= sp -> 0 <= cp -> sp * sp + cp * cp = 1 -> cp * cp <= 3 / 10 -> 0 <= k <= 45 / 100 ->
  let c := cp * (1 - sp * sp * k) in
  let s := sqrt (1 - c * c) in
  - (s * tail_d a e2 w zp s c) <= tail_m a e2 w zp s c.
Proof.
  intros a e2 w zp r sp cp k [A E] Rr Hw Hz Sp Cp Spc C2 K c s.
  destruct (guess2_ok sp cp k Sp Cp Spc ltac:(lra) K) as (C1 & C3 & Ss & S0 & D).
  fold c in C1, C3, Ss, S0, D. fold s in Ss, S0, D.
  assert (S : s * s + c * c = 1) by lra.
  rewrite tail_d_eq by assumption. cbv zeta. unfold tail_m.
  pose proof (q_low e2 s c E S) as Q. set (q := sqrt (1 - e2 * (s * s))) in *.
  pose proof (inv_q q Q) as I1. pose proof (inv_q3 q Q) as I3.
  unfold Rdiv. set (i := / q) in *. set (j := / (q * q * q)) in *.
  assert (A1 : 0 < a * e2 <= 44160) by nra. set (a1 := a * e2) in *.
  assert (Cc : c * c <= 3 / 10) by nra.
  assert (P1 : 0 <= a1 * (s * s) * i - a1 * (c * c) * j).
  { replace (a1 * (s * s) * i - a1 * (c * c) * j) with (a1 * (s * s * i - c * c * j)) by ring.
    apply Rmult_le_pos; [lra|]. pose proof (sq_nonneg c).
    assert (c * c * j <= c * c * (1011/1000)) by (apply Rmult_le_compat_l; lra).
    assert (s * s <= s * s * i) by nra. lra. }
  assert (P2 : 0 <= a1 * (s * c) * i) by (apply Rmult_le_pos; [apply Rmult_le_pos; [lra|apply Rmult_le_pos; lra]|lra]).
  assert (P3 : s * w <= c * zp + s * (c * w + s * zp)).
  { rewrite Hw, Hz.
    assert (Sl : s <= 1) by (apply sq_le; nra).
    assert (cp <= 6/10) by (apply sq_le; lra). assert (8/10 <= sp) by (apply sq_le; lra).
    assert (s * cp <= c * sp + s * (c * cp + s * sp)).
    { assert (0 <= c * sp) by nra. assert (0 <= c * cp) by nra.
      assert (7/10 <= s * s) by lra. assert (8/10 <= s) by (apply sq_le; lra).
      assert (64/100 <= s * sp) by nra.
      assert (c * cp + s * sp >= 64/100) by lra. 
      assert (s * cp <= s * (6/10)) by nra.
      assert (s * (64/100) <= s * (c * cp + s * sp)) by (apply Rmult_le_compat_l; lra). lra. }
    replace (s * (cp * r)) with (r * (s * cp)) by ring.
    replace (c * (sp * r) + s * (c * (cp * r) + s * (sp * r)))
      with (r * (c * sp + s * (c * cp + s * sp))) by ring.
    apply Rmult_le_compat_l; lra. }
  assert (0 <= s * (a1 * (s * s) * i - a1 * (c * c) * j)) by (apply Rmult_le_pos; lra).
  lra.
Qed.
