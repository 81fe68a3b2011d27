(* ecef2llh against llh2ecef: how far the result is from the coordinates the
   point came from. *)
From Coq Require Import Reals Lra Lia Psatz.
From Verif Require Import PyBase Geo GeoSpec GeoProofs EcefProofs.
Open Scope R_scope.

(* |x| <= m *)
Lemma b_mul : forall x y m n, Rabs x <= m -> Rabs y <= n -> Rabs (x * y) <= m * n.
Proof.
  intros. rewrite Rabs_mult. apply Rmult_le_compat; try apply Rabs_pos; assumption.
Qed.
Lemma b_add : forall x y m n, Rabs x <= m -> Rabs y <= n -> Rabs (x + y) <= m + n.
Proof. intros. eapply Rle_trans; [apply Rabs_triang|lra]. Qed.
Lemma b_sub : forall x y m n, Rabs x <= m -> Rabs y <= n -> Rabs (x - y) <= m + n.
Proof. intros. unfold Rminus. apply b_add; [assumption|rewrite Rabs_Ropp; assumption]. Qed.
Lemma b_pos : forall x m, 0 <= x <= m -> Rabs x <= m.
Proof. intros. rewrite Rabs_pos_eq; lra. Qed.
Lemma b_le : forall x m, - m <= x <= m -> Rabs x <= m.
Proof. intros. apply Rabs_le; assumption. Qed.
Lemma b_inv : forall x m, Rabs x <= m -> - m <= x <= m.
Proof.
  intros x m H. unfold Rabs in H. destruct (Rcase_abs x); lra.
Qed.

(* ------------------------------------------------------------------ *)
(* sine and cosine near 0 *)
Lemma sin_low : forall x, 0 <= x <= 4 -> x - x * x * x / 6 <= sin x.
Proof.
  intros x [X0 X4]. destruct (pre_sin_bound x 0 X0 X4) as [L _].
  eapply Rle_trans; [|exact L].
  unfold sin_approx, sum_f_R0, sin_term. simpl. lra.
Qed.
Lemma sin_high : forall x, 0 <= x -> sin x <= x.
Proof.
  intros x X. destruct X as [X|X]; [left; apply sin_lt_x; assumption|].
  subst; rewrite sin_0; lra.
Qed.
Lemma sin_abs : forall x, Rabs (sin x) <= Rabs x.
Proof.
  intros x. destruct (Rle_dec 1 (Rabs x)) as [H|H].
  - pose proof (SIN_bound x). apply Rle_trans with 1; [apply b_le; lra|exact H].
  - destruct (Rle_dec 0 x) as [X|X].
    + rewrite (Rabs_pos_eq x) in * by assumption.
      pose proof (sin_high x X). rewrite Rabs_pos_eq; [assumption|].
      apply sin_ge_0; [assumption|]. pose proof PI2_1. lra.
    + rewrite (Rabs_left x) in * by lra.
      pose proof (sin_high (- x) ltac:(lra)). rewrite sin_neg in *.
      assert (0 <= sin (- x)) by (apply sin_ge_0; pose proof PI2_1; lra).
      rewrite sin_neg in *. rewrite Rabs_left1 by lra. assumption.
Qed.
Lemma sin_odd_bounds : forall d b, Rabs d = b -> b <= 1 -> Rabs (sin d - d) <= b * b * b / 6.
Proof.
  assert (P : forall d, 0 <= d <= 1 -> Rabs (sin d - d) <= d * d * d / 6).
  { intros d D. pose proof (sin_low d ltac:(lra)). pose proof (sin_high d ltac:(lra)).
    apply b_le. split; [lra|]. assert (0 <= d * d * d) by (repeat apply Rmult_le_pos; lra). lra. }
  intros d b E B. destruct (Rle_dec 0 d).
  - rewrite Rabs_pos_eq in E by assumption. subst. apply P; lra.
  - rewrite Rabs_left in E by lra. subst.
    specialize (P (- d) ltac:(lra)). rewrite sin_neg in P.
    rewrite <- Rabs_Ropp. replace (- (sin d - d)) with (- sin d - - d) by ring. exact P.
Qed.
Lemma cos_half : forall d, 1 - cos d = 2 * (sin (d / 2) * sin (d / 2)).
Proof.
  intros. replace d with (2 * (d / 2)) at 1 by field. rewrite cos_2a_sin. ring.
Qed.
Lemma sq_abs : forall x, x * x = Rabs x * Rabs x.
Proof. intros; apply (Rsqr_abs x). Qed.
Lemma cos_bounds2 : forall d b, Rabs d = b -> b <= 1 ->
  b * b / 2 - b * b * b * b / 24 <= 1 - cos d <= b * b / 2.
Proof.
  intros d b E B. rewrite cos_half.
  rewrite (sq_abs (sin (d / 2))).
  assert (Hh : Rabs (d / 2) = b / 2).
  { unfold Rdiv. rewrite Rabs_mult, E, (Rabs_pos_eq (/ 2)) by lra. reflexivity. }
  assert (B0 : 0 <= b) by (rewrite <- E; apply Rabs_pos).
  pose proof (sin_abs (d / 2)) as U. rewrite Hh in U.
  assert (L : b / 2 - b * b * b / 48 <= Rabs (sin (d / 2))).
  { pose proof (sin_odd_bounds (d / 2) (b / 2) Hh ltac:(lra)) as S.
    pose proof (Rabs_triang_inv (d / 2) (d / 2 - sin (d / 2))) as T.
    replace (d / 2 - (d / 2 - sin (d / 2))) with (sin (d / 2)) in T by ring.
    rewrite (Rabs_minus_sym (sin (d / 2))) in S. rewrite Hh in T.
    replace (b * b * b / 48) with (b / 2 * (b / 2) * (b / 2) / 6) by field. lra. }
  set (t := Rabs (sin (d / 2))) in *.
  pose proof (Rabs_pos (sin (d / 2))) as T0. fold t in T0.
  split.
  - assert (Lp : 0 <= b / 2 - b * b * b / 48).
    { replace (b / 2 - b * b * b / 48) with (b / 2 * (1 - b * b / 24)) by field.
      apply Rmult_le_pos; [lra|]. nra. }
    pose proof (Rmult_le_compat _ _ _ _ Lp Lp L L) as M.
    assert (0 <= b * b * b * (b * b * b)) by nra.
    replace (b * b / 2 - b * b * b * b / 24)
      with (2 * ((b / 2 - b * b * b / 48) * (b / 2 - b * b * b / 48))
            - 2 * (b * b * b * (b * b * b)) / 2304) by field.
    lra.
  - pose proof (Rmult_le_compat _ _ _ _ T0 T0 U U). lra.
Qed.
Lemma cos_low : forall d, 1 - d * d / 2 <= cos d.
Proof.
  intros. pose proof (cos_half d) as C. pose proof (sin_abs (d / 2)) as S.
  pose proof (Rabs_pos (sin (d / 2))) as P. rewrite (sq_abs (sin (d / 2))) in C.
  pose proof (Rmult_le_compat _ _ _ _ P P S S) as M. rewrite <- (sq_abs (d / 2)) in M.
  replace (d / 2 * (d / 2)) with (d * d / 4) in M by field. lra.
Qed.

(* ------------------------------------------------------------------ *)
(* x / sqrt (1 - e2 x^2): difference quotient *)
Lemma quot_slope : forall e2 x y X Y, 0 < e2 <= 69 / 10000 ->
  0 <= x <= 1 -> 0 <= y <= 1 -> 9965 / 10000 <= X <= 1 -> 9965 / 10000 <= Y <= 1 ->
  X * X = 1 - e2 * (x * x) -> Y * Y = 1 - e2 * (y * y) ->
  exists eta, y / Y - x / X = eta * (y - x) /\ 1 <= eta <= 1011 / 1000 /\
    Rabs (/ (X * X * X) - eta) <= 23 / 10 * e2 * Rabs (y - x).
Proof.
  intros e2 x y X Y E Hx Hy HX HY EX EY.
  destruct (Req_EM_T (x + y) 0) as [Z0|Z0].
  - assert (x = 0) by lra. assert (y = 0) by lra. subst x y.
    exists 1. split; [unfold Rdiv; ring|]. split; [lra|].
    replace (0 * 0) with 0 in EX by ring. rewrite Rmult_0_r, Rminus_0_r in EX.
    assert (X = 1) by nra. subst X.
    replace (/ (1 * 1 * 1) - 1) with 0 by field. rewrite Rabs_R0.
    rewrite Rminus_0_r, Rabs_R0. lra.
  - assert (Sp : 0 < x + y) by lra.
    (* the weighted mean of X and Y *)
    set (q := (x * Y + y * X) / (x + y)).
    assert (Eq : q * (x + y) = x * Y + y * X) by (unfold q; field; lra).
    assert (Q1 : 9965 / 10000 <= q <= 1).
    { split.
      - apply le_div; [lra|].
        pose proof (Rmult_le_compat_l x _ _ (proj1 Hx) (proj1 HY)).
        pose proof (Rmult_le_compat_l y _ _ (proj1 Hy) (proj1 HX)). lra.
      - apply div_le; [lra|].
        pose proof (Rmult_le_compat_l x _ _ (proj1 Hx) (proj2 HY)).
        pose proof (Rmult_le_compat_l y _ _ (proj1 Hy) (proj2 HX)). lra. }
    assert (QX : Rabs (X - q) <= Rabs (X - Y)).
    { assert (Ex : X - q = (X - Y) * (x / (x + y))).
      { apply Rmult_eq_reg_r with (x + y); [|lra].
        rewrite Rmult_minus_distr_r, Eq.
        replace ((X - Y) * (x / (x + y)) * (x + y)) with ((X - Y) * x) by (field; lra). ring. }
      rewrite Ex. rewrite <- (Rmult_1_r (Rabs (X - Y))). apply b_mul; [lra|].
      apply b_pos. split; [apply Rmult_le_pos; [lra|left; apply Rinv_0_lt_compat; lra]|].
      apply div_le; lra. }
    assert (XY : Rabs (X - Y) <= 101 / 100 * e2 * Rabs (y - x)).
    { assert (Ex : X - Y = e2 * (y - x) * ((x + y) / (X + Y))).
      { apply Rmult_eq_reg_r with (X + Y); [|lra].
        replace (e2 * (y - x) * ((x + y) / (X + Y)) * (X + Y)) with (e2 * (y - x) * (x + y))
          by (field; lra).
        replace ((X - Y) * (X + Y)) with (X * X - Y * Y) by ring. rewrite EX, EY. ring. }
      rewrite Ex.
      replace (101 / 100 * e2 * Rabs (y - x)) with (e2 * Rabs (y - x) * (101 / 100)) by ring.
      apply b_mul; [apply b_mul; [apply b_pos; lra|lra]|].
      apply b_pos. split; [apply Rmult_le_pos; [lra|left; apply Rinv_0_lt_compat; lra]|].
      apply div_le; lra. }
    exists (/ (X * Y * q)).
    assert (B2 : 993 / 1000 <= X * Y <= 1) by nra.
    assert (B3 : 9895 / 10000 <= X * Y * q <= 1) by nra.
    split; [|split].
    + apply Rmult_eq_reg_r with (X * Y * q * (x + y)).
      * replace (/ (X * Y * q) * (y - x) * (X * Y * q * (x + y)))
          with (y * y - x * x) by (field; lra).
        replace ((y / Y - x / X) * (X * Y * q * (x + y)))
          with ((y * X - x * Y) * (q * (x + y))) by (field; lra).
        rewrite Eq. replace ((y * X - x * Y) * (x * Y + y * X))
          with (y * y * (X * X) - x * x * (Y * Y)) by ring. rewrite EX, EY. ring.
      * apply Rmult_integral_contrapositive_currified; lra.
    + set (t := X * Y * q) in *. assert (I : / t * t = 1) by (apply Rinv_l; lra).
      assert (0 < / t) by (apply Rinv_0_lt_compat; lra). split; nra.
    + pose proof (inv_q3 X HX) as J. 
      assert (Ex : / (X * X * X) - / (X * Y * q)
         = (Y * (q - X) + X * (Y - X)) * (/ (X * X) * / (X * Y * q))) by (field; lra).
      rewrite Ex. clear Ex.
      assert (I3 : 0 <= / (X * Y * q) <= 1011 / 1000).
      { set (t := X * Y * q) in *. assert (I : / t * t = 1) by (apply Rinv_l; lra).
        assert (0 < / t) by (apply Rinv_0_lt_compat; lra). split; nra. }
      assert (I2 : 0 <= / (X * X) <= 1011 / 1000).
      { assert (993 / 1000 <= X * X <= 1) by nra.
        set (t := X * X) in *. assert (I : / t * t = 1) by (apply Rinv_l; lra).
        assert (0 < / t) by (apply Rinv_0_lt_compat; lra). split; nra. }
      assert (D1 : Rabs (Y * (q - X) + X * (Y - X)) <= 1 * Rabs (X - Y) + 1 * Rabs (X - Y)).
      { apply b_add; apply b_mul; try (apply b_pos; lra).
        - rewrite Rabs_minus_sym. exact QX.
        - rewrite Rabs_minus_sym. lra. }
      pose proof (mul_bound _ _ _ _ I2 I3) as M.
      pose proof (b_mul _ _ _ _ D1 (b_pos _ _ M)) as F.
      eapply Rle_trans; [exact F|].
      pose proof (Rabs_pos (X - Y)).
      replace (23 / 10 * e2 * Rabs (y - x)) with (23 / 10 * (100 / 101) * (101 / 100 * e2 * Rabs (y - x))) by field.
      lra.
Qed.

(* ------------------------------------------------------------------ *)
(* how good the guess is: the tangential residual is below 2% of a e2 *)
Lemma sqrt1m : forall x, 0 <= x <= 1 -> 1 - x / 2 - x * x / 2 <= sqrt (1 - x) <= 1 - x / 2.
Proof.
  intros x X. split.
  - destruct (Rle_dec 0 (1 - x / 2 - x * x / 2)) as [P|P].
    + apply le_sqrt_of_sq; [assumption|].
      assert (E : 1 - x - (1 - x / 2 - x * x / 2) * (1 - x / 2 - x * x / 2)
        = x * x * ((1 - x) * (3 + x) / 4)) by field.
      assert (0 <= x * x * ((1 - x) * (3 + x) / 4)).
      { apply Rmult_le_pos; [apply sq_nonneg|]. unfold Rdiv. apply Rmult_le_pos; [|lra].
        apply Rmult_le_pos; lra. }
      lra.
    + pose proof (sqrt_pos (1 - x)). lra.
  - apply sqrt_le_of_sq; [lra|]. pose proof (sq_nonneg x). nra.
Qed.
Lemma sqrt1p : forall y, 0 <= y -> 1 + y / 2 - y * y / 8 <= sqrt (1 + y) <= 1 + y / 2.
Proof.
  intros y Y. split.
  - destruct (Rle_dec 0 (1 + y / 2 - y * y / 8)) as [P|P].
    + apply le_sqrt_of_sq; [assumption|].
      assert (E : 1 + y - (1 + y / 2 - y * y / 8) * (1 + y / 2 - y * y / 8)
        = y * y * y * (8 - y) / 64) by field.
      assert (y <= 8) by nra.
      assert (0 <= y * y * y * (8 - y) / 64).
      { unfold Rdiv. repeat apply Rmult_le_pos; lra. }
      lra.
    + pose proof (sqrt_pos (1 + y)). lra.
  - apply sqrt_le_of_sq; [lra|]. pose proof (sq_nonneg y). nra.
Qed.

Lemma half_product : forall s c, s * s + c * c = 1 -> 0 <= s -> 0 <= c -> 0 <= s * c <= 1 / 2.
Proof.
  intros s c S P Q. split; [apply Rmult_le_pos; lra|].
  pose proof (sq_nonneg (s - c)). lra.
Qed.

(* first branch *)
Lemma guess1_residual : forall eps e2 sp cp i,
  0 < eps <= 736 / 100000 -> 0 < e2 <= 69 / 10000 ->
  0 <= sp -> 0 <= cp -> sp * sp + cp * cp = 1 -> 2999 / 10000 < cp * cp ->
  1 <= i <= 10036 / 10000 ->
  let k := corr1 eps e2 (sp * sp) in
  let s := sp * (1 + cp * cp * k) in
  let c := sqrt (1 - s * s) in
  Rabs (c * sp - s * cp + eps * (s * c) * i) <= 2 / 100 * eps.
Proof.
  intros eps e2 sp cp i He E Sp Cp Spc C2 I k s c.
  assert (Pp : 0 <= sp * sp <= 7001 / 10000) by (split; [apply sq_nonneg|lra]).
  assert (Ee : 0 <= eps * eps <= 736 / 100000 * eps).
  { split; [apply sq_nonneg|]. apply Rmult_le_compat_r; lra. }
  assert (Ef : 0 <= eps * e2 <= 69 / 10000 * eps).
  { split; [apply Rmult_le_pos; lra|]. rewrite (Rmult_comm eps). apply Rmult_le_compat_r; lra. }
  assert (K : eps - 3 / 2 * (eps * eps) <= k <= eps + eps * eps + 1 / 400 * eps).
  { unfold k, corr1.
    pose proof (mul_bound _ _ _ _ Pp Ef) as M1. pose proof (mul_bound _ _ _ _ Pp Ee) as M2.
    pose proof (Rmult_le_compat_r (eps * eps) _ _ (proj1 Ee) (proj2 Pp)) as M3. 
    split; lra. }
  assert (Kp : 0 < k <= 102 / 100 * eps) by lra.
  set (kp := cp * cp * k) in *.
  assert (Kk : 0 <= kp <= k).
  { unfold kp. split; [apply Rmult_le_pos; lra|]. 
    pose proof (Rmult_le_compat_r k _ _ ltac:(lra) (ltac:(lra) : cp * cp <= 1)). lra. }
  set (x := sp * sp * k * (2 + kp)) in *.
  assert (SK : 0 <= sp * sp * k <= k).
  { split; [apply Rmult_le_pos; lra|].
    pose proof (Rmult_le_compat_r k _ _ ltac:(lra) (ltac:(lra) : sp * sp <= 1)). lra. }
  assert (X : 0 <= x <= 205 / 100 * eps).
  { unfold x. pose proof (mul_bound (sp * sp * k) (2 + kp) (102 / 100 * eps) (2008/1000)
        ltac:(lra) ltac:(lra)). lra. }
  assert (Ec : c = cp * sqrt (1 - x)).
  { unfold c. replace (1 - s * s) with (cp * cp * (1 - x)).
    - rewrite sqrt_mult_alt by lra. rewrite sqrt_square by assumption. reflexivity.
    - unfold s, x. fold kp.
      replace (cp * cp * (1 - sp * sp * k * (2 + kp)))
        with (cp * cp - sp * sp * (kp * (2 + kp))) by (unfold kp; ring).
      replace (cp * cp) with (1 - sp * sp) at 1 by lra. ring. }
  pose proof (sqrt1m x ltac:(lra)) as Sg. set (sg := sqrt (1 - x)) in *.
  assert (Em : c * sp - s * cp + eps * (s * c) * i
     = sp * cp * (sg * (1 + eps * (1 + kp) * i) - (1 + kp))).
  { rewrite Ec. unfold s. fold kp. ring. }
  rewrite Em.
  assert (Xx : 0 <= x * x <= 205/100 * eps * (205/100 * eps)) by (apply mul_bound; lra).
  assert (KK : 0 <= sp * sp * k * kp <= 102/100 * eps * (102/100 * eps)) by (apply mul_bound; lra).
  assert (Hx : x / 2 = sp * sp * k + sp * sp * k * kp / 2) by (unfold x; field).
  assert (Hk : kp + sp * sp * k = k) by (unfold kp; rewrite <- Rmult_plus_distr_r, Rplus_comm, Spc; ring).
  assert (V : Rabs (sg * (1 + eps * (1 + kp) * i) - (1 + kp)) <= 4 / 100 * eps).
  { assert (G : eps <= eps * (1 + kp) * i <= eps * (1 + 102/100 * eps) * (10036 / 10000)).
    { assert (eps <= eps * (1 + kp) <= eps * (1 + 102/100 * eps)).
      { split; [|apply Rmult_le_compat_l; lra].
        apply le_mul_ge1; lra. }
      split.
      - apply Rle_trans with (eps * (1 + kp)); [lra|]. apply le_mul_ge1; lra.
      - apply Rmult_le_compat; lra. }
    set (G0 := eps * (1 + kp) * i) in *.
    assert (Sg0 : 0 <= sg <= 1) by (split; [apply sqrt_pos|lra]).
    apply b_le. split.
    - (* lower *)
      assert (sg * eps <= sg * G0) by (apply Rmult_le_compat_l; lra).
      assert (eps * (1 - x / 2 - x * x / 2) <= eps * sg) by (apply Rmult_le_compat_l; lra).
      assert (eps * x <= eps * (205/100 * eps)) by (apply Rmult_le_compat_l; lra).
      assert (eps * (x * x) <= eps * (205/100 * eps * (205/100 * eps))) by (apply Rmult_le_compat_l; lra).
      assert (eps * (eps * eps) <= 736/100000 * (eps * eps)) by (apply Rmult_le_compat_r; lra).
      replace (eps * (205/100 * eps * (205/100 * eps))) with (205/100 * (205/100) * (eps * (eps * eps))) in * by ring.
      replace (205/100 * eps * (205/100 * eps)) with (205/100 * (205/100) * (eps * eps)) in * by ring.
      replace (102/100 * eps * (102/100 * eps)) with (102/100 * (102/100) * (eps * eps)) in * by ring.
      lra.
    - (* upper *)
      assert (sg * G0 <= 1 * G0) by (apply Rmult_le_compat_r; lra).
      assert (sg - 1 - kp <= - k).
      { assert (0 <= sp * sp * k * kp) by lra. lra. }
      replace (eps * (1 + 102/100 * eps) * (10036/10000))
        with (eps * (10036/10000) + 102/100 * (10036/10000) * (eps * eps)) in G by ring.
      lra. }
  pose proof (half_product sp cp Spc Sp Cp) as Hp.
  pose proof (b_mul _ _ _ _ (b_pos _ _ Hp) V). lra.
Qed.

(* second branch *)
Lemma guess2_residual : forall eps e2 sp cp i,
  0 < eps <= 736 / 100000 -> 0 < e2 <= 69 / 10000 ->
  0 <= sp -> 0 <= cp -> sp * sp + cp * cp = 1 -> cp * cp <= 3001 / 10000 ->
  1 <= i <= 10036 / 10000 ->
  let k := corr2 eps e2 (cp * cp) in
  let c := cp * (1 - sp * sp * k) in
  let s := sqrt (1 - c * c) in
  Rabs (c * sp - s * cp + eps * (s * c) * i) <= 2 / 100 * eps.
Proof.
  intros eps e2 sp cp i He E Sp Cp Spc C2 I k c s.
  assert (Pp : 0 <= cp * cp <= 3001 / 10000) by (split; [apply sq_nonneg|lra]).
  assert (Ee : 0 <= eps * eps <= 736 / 100000 * eps).
  { split; [apply sq_nonneg|]. apply Rmult_le_compat_r; lra. }
  assert (Ef : 0 <= eps * e2 <= 69 / 10000 * eps).
  { split; [apply Rmult_le_pos; lra|]. rewrite (Rmult_comm eps). apply Rmult_le_compat_r; lra. }
  assert (K : eps - eps * eps <= k <= eps + 35 / 10000 * eps).
  { unfold k, corr2.
    pose proof (mul_bound _ _ _ _ Pp Ef) as M1. pose proof (mul_bound _ _ _ _ Pp Ee) as M2.
    pose proof (Rmult_le_compat_r (eps * eps) _ _ (proj1 Ee) (proj2 Pp)) as M3.
    pose proof (Rmult_le_compat_r (eps * e2) _ _ (proj1 Ef) (proj2 Pp)) as M4.
    split; lra. }
  assert (Kp : 0 < k <= 101 / 100 * eps) by lra.
  set (kp := sp * sp * k) in *.
  assert (Ps : 0 <= sp * sp) by apply sq_nonneg.
  assert (Kk : 0 <= kp <= k).
  { unfold kp. split; [apply Rmult_le_pos; lra|].
    pose proof (Rmult_le_compat_r k _ _ ltac:(lra) (ltac:(lra) : sp * sp <= 1)). lra. }
  set (y := cp * cp * k * (2 - kp)) in *.
  assert (CK : 0 <= cp * cp * k <= k).
  { split; [apply Rmult_le_pos; lra|].
    pose proof (Rmult_le_compat_r k _ _ ltac:(lra) (ltac:(lra) : cp * cp <= 1)). lra. }
  assert (Y : 0 <= y <= 202 / 100 * eps).
  { unfold y. pose proof (mul_bound (cp * cp * k) (2 - kp) (101 / 100 * eps) 2
        ltac:(lra) ltac:(lra)). lra. }
  assert (Es : s = sp * sqrt (1 + y)).
  { unfold s. replace (1 - c * c) with (sp * sp * (1 + y)).
    - rewrite sqrt_mult_alt by lra. rewrite sqrt_square by assumption. reflexivity.
    - unfold c, y. fold kp.
      replace (sp * sp * (1 + cp * cp * k * (2 - kp)))
        with (sp * sp + cp * cp * (kp * (2 - kp))) by (unfold kp; ring).
      replace (sp * sp) with (1 - cp * cp) at 1 by lra. ring. }
  pose proof (sqrt1p y ltac:(lra)) as Sg. set (sg := sqrt (1 + y)) in *.
  assert (Em : c * sp - s * cp + eps * (s * c) * i
     = sp * cp * ((1 - kp) - sg + sg * (1 - kp) * (eps * i))).
  { rewrite Es. unfold c. fold kp. ring. }
  rewrite Em.
  assert (Yy : 0 <= y * y <= 202/100 * eps * (202/100 * eps)) by (apply mul_bound; lra).
  assert (KK : 0 <= cp * cp * k * kp <= 101/100 * eps * (101/100 * eps)) by (apply mul_bound; lra).
  assert (Hy : y / 2 = cp * cp * k - cp * cp * k * kp / 2) by (unfold y; field).
  assert (Hk : kp + cp * cp * k = k) by (unfold kp; rewrite <- Rmult_plus_distr_r, Spc; ring).
  assert (V : Rabs ((1 - kp) - sg + sg * (1 - kp) * (eps * i)) <= 4 / 100 * eps).
  { assert (G : eps <= eps * i <= eps * (10036 / 10000)).
    { split; [apply le_mul_ge1; lra|apply Rmult_le_compat_l; lra]. }
    set (G0 := eps * i) in *.
    replace (202/100 * eps * (202/100 * eps)) with (202/100 * (202/100) * (eps * eps)) in * by ring.
    replace (101/100 * eps * (101/100 * eps)) with (101/100 * (101/100) * (eps * eps)) in * by ring.
    assert (Sg1 : 1 <= sg <= 1 + 102/100 * eps).
    { split; [|lra]. assert (y * y <= 4 * y) by nra. lra. }
    assert (B : 1 - kp <= sg * (1 - kp) <= 1 + 102/100 * eps).
    { assert (0 <= 1 - kp) by lra. split.
      - rewrite (Rmult_comm sg). apply le_mul_ge1; lra.
      - pose proof (Rmult_le_compat_l sg _ _ ltac:(lra) (ltac:(lra) : 1 - kp <= 1)). lra. }
    assert (eps * kp <= eps * (101/100 * eps)) by (apply Rmult_le_compat_l; lra).
    assert (C : eps - eps * kp <= sg * (1 - kp) * G0 <=
       eps * (10036/10000) + 102/100 * (10036/10000) * (eps * eps)).
    { split.
      - replace (eps - eps * kp) with ((1 - kp) * eps) by ring. apply Rmult_le_compat; lra.
      - replace (eps * (10036/10000) + 102/100 * (10036/10000) * (eps * eps))
          with ((1 + 102/100 * eps) * (eps * (10036/10000))) by ring. apply Rmult_le_compat; lra. }
    apply b_le. split; lra. }
  pose proof (half_product sp cp Spc Sp Cp) as Hp.
  pose proof (b_mul _ _ _ _ (b_pos _ _ Hp) V). lra.
Qed.

(* ------------------------------------------------------------------ *)
(* one correction step from a latitude th with a small residual, for the point
   at geodetic latitude ph and height h *)
Section Step.
Variables a e2 ph th h : R.
Hypothesis earth : earth_like a e2.
Hypothesis Hph : 0 <= ph <= PI / 2.
Hypothesis Hth : 0 <= th <= PI / 2.

Let sf := sin ph. Let cf := cos ph. Let s := sin th. Let c := cos th.
Let qf := sqrt (1 - e2 * (sf * sf)).
Let q := sqrt (1 - e2 * (s * s)).
Let a1 := a * e2.
Let Hh := a / qf + h.
Let w := Hh * cf.
Let zp := (Hh - a1 / qf) * sf.
Let d := ph - th.
Let T := sf / qf - s / q.

Hypothesis far : 6000000 <= Hh.

Lemma step_s : 0 <= s <= 1. Proof. unfold s. pose proof PI_RGT_0. split; [apply sin_ge_0; lra|apply SIN_bound]. Qed.
Lemma step_c : 0 <= c <= 1. Proof. unfold c. split; [apply cos_ge_0; lra|apply COS_bound]. Qed.
Lemma step_sf : 0 <= sf <= 1. Proof. unfold sf. pose proof PI_RGT_0. split; [apply sin_ge_0; lra|apply SIN_bound]. Qed.
Lemma step_cf : 0 <= cf <= 1. Proof. unfold cf. split; [apply cos_ge_0; lra|apply COS_bound]. Qed.
Lemma step_sc : s * s + c * c = 1. Proof. apply sc1. Qed.
Lemma step_scf : sf * sf + cf * cf = 1. Proof. apply sc1. Qed.
Lemma step_q : 9965 / 10000 <= q <= 1. Proof. apply (q_low e2 s c (proj2 earth) step_sc). Qed.
Lemma step_qf : 9965 / 10000 <= qf <= 1. Proof. apply (q_low e2 sf cf (proj2 earth) step_scf). Qed.
Lemma step_qq : q * q = 1 - e2 * (s * s).
Proof. apply (root_bounds e2 s c (proj2 earth) step_sc). Qed.
Lemma step_qqf : qf * qf = 1 - e2 * (sf * sf).
Proof. apply (root_bounds e2 sf cf (proj2 earth) step_scf). Qed.
Lemma step_a1 : 0 < a1 <= 44160.
Proof. destruct earth as [A E]. unfold a1. split; [apply Rmult_lt_0_compat; lra|].
  pose proof (mul_bound a e2 6400000 (69/10000) ltac:(lra) ltac:(lra)). lra. Qed.
Lemma step_sind : sin d = sf * c - cf * s. Proof. unfold d. apply sin_minus. Qed.
Lemma step_cosd : cos d = cf * c + sf * s. Proof. unfold d. apply cos_minus. Qed.

Lemma step_m : tail_m a e2 w zp s c = Hh * sin d - a1 * c * T.
Proof.
  unfold tail_m. fold a1. fold q. rewrite step_sind. unfold w, zp, T.
  pose proof step_q. pose proof step_qf. field. lra.
Qed.

Lemma step_d : tail_d a e2 w zp s c = Hh * cos d - a1 * (c * c) * / (q * q * q) - a1 * s * T.
Proof.
  pose proof step_q. pose proof step_qf.
  rewrite (tail_d_eq a e2 w zp s c (proj2 earth) step_sc). cbv zeta. fold a1. fold q.
  rewrite step_cosd. unfold w, zp, T. field. lra.
Qed.

Lemma step_f : tail_f a e2 w zp s c - h
  = - (Hh * (1 - cos d)) + a1 * (sf - s) * T * (q / (q + qf)).
Proof.
  pose proof step_q as Q. pose proof step_qf as Qf. pose proof step_qq as QQ. pose proof step_qqf as QQf.
  unfold tail_f. fold q.
  (* a (qf - q) in terms of the sines *)
  assert (E1 : a * (qf - q) = - (a1 * (sf - s) * (sf + s) / (q + qf))).
  { apply Rmult_eq_reg_r with (q + qf); [|lra].
    replace (- (a1 * (sf - s) * (sf + s) / (q + qf)) * (q + qf))
      with (- (a1 * (sf - s) * (sf + s))) by (field; lra).
    replace (a * (qf - q) * (q + qf)) with (a * (qf * qf - q * q)) by ring.
    rewrite QQ, QQf. unfold a1. ring. }
  assert (E2 : Hh - a1 * (sf * sf) / qf - a * qf = h).
  { unfold Hh, a1. replace (a / qf + h - a * e2 * (sf * sf) / qf - a * qf)
      with (a * (1 - e2 * (sf * sf)) / qf - a * qf + h) by (field; lra).
    rewrite <- QQf. field. lra. }
  rewrite step_cosd. unfold w, zp, T.
  replace (c * (Hh * cf) + s * ((Hh - a1 / qf) * sf) - a * q - h)
    with (- (Hh * (1 - (cf * c + sf * s)))
          + (Hh - a1 * (sf * sf) / qf - a * qf - h) + a * (qf - q)
          + a1 * sf * (sf - s) / qf) by (field; lra).
  rewrite E2, E1. field. lra.
Qed.

Hypothesis small : Rabs (tail_m a e2 w zp s c) <= 201 / 10000 * a1.

Lemma step_slope : exists eta, T = eta * (sf - s) /\ 1 <= eta <= 1011 / 1000 /\
    Rabs (/ (q * q * q) - eta) <= 23 / 10 * e2 * Rabs (sf - s).
Proof.
  unfold T. apply quot_slope; [exact (proj2 earth)|exact step_s|exact step_sf|exact step_q|
    exact step_qf|exact step_qq|exact step_qqf].
Qed.

Lemma step_a1H : a1 <= 736 / 100000 * Hh.
Proof. pose proof step_a1. lra. Qed.

Lemma step_diff : sf - s = 2 * sin (d / 2) * cos (th + d / 2).
Proof.
  unfold sf, s. replace ph with (th + d / 2 + d / 2) by (unfold d; field).
  replace th with (th + d / 2 - d / 2) at 2 by ring.
  rewrite sin_plus, sin_minus. ring.
Qed.

Lemma step_sin_half : forall b, Rabs d = b -> b <= 2 ->
  b / 2 * (1 - b * b / 24) <= Rabs (sin (d / 2)).
Proof.
  intros b B B2.
  assert (Hd : Rabs (d / 2) = b / 2).
  { unfold Rdiv. rewrite Rabs_mult, B, (Rabs_pos_eq (/ 2)) by lra. reflexivity. }
  pose proof (sin_odd_bounds (d / 2) (b / 2) Hd ltac:(lra)) as S.
  pose proof (Rabs_triang_inv (d / 2) (d / 2 - sin (d / 2))) as V.
  replace (d / 2 - (d / 2 - sin (d / 2))) with (sin (d / 2)) in V by ring.
  rewrite (Rabs_minus_sym (sin (d / 2))) in S. rewrite Hd in V.
  replace (b / 2 * (1 - b * b / 24)) with (b / 2 - b / 2 * (b / 2) * (b / 2) / 6) by field. lra.
Qed.

(* the guess is within 1.5e-4 rad *)
Lemma step_near : Rabs d <= 15 / 100000 /\ Rabs d * Hh <= 203 / 10000 * a1.
Proof.
  destruct step_slope as (eta & Et & Eb & _).
  pose proof step_a1 as A1. pose proof step_a1H as AH. pose proof step_c as C.
  set (b := Rabs d). assert (B0 : 0 <= b) by apply Rabs_pos.
  assert (B2 : b <= 2).
  { unfold b. apply b_le. unfold d. pose proof PI_4. lra. }
  assert (Em : tail_m a e2 w zp s c
     = 2 * sin (d / 2) * (Hh * cos (d / 2) - a1 * c * eta * cos (th + d / 2))).
  { rewrite step_m, Et, step_diff.
    replace (sin d) with (2 * sin (d / 2) * cos (d / 2))
      by (rewrite <- sin_2a; f_equal; field). ring. }
  rewrite Em, Rabs_mult in small.
  assert (Ce : Rabs (a1 * c * eta * cos (th + d / 2)) <= a1 * 1 * (1011/1000) * 1).
  { pose proof (COS_bound (th + d / 2)).
    exact (b_mul _ _ _ _ (b_mul _ _ _ _ (b_mul a1 c a1 1 (b_pos a1 a1 ltac:(lra)) (b_pos c 1 C))
             (b_pos eta (1011/1000) ltac:(lra))) (b_le (cos (th + d / 2)) 1 ltac:(lra))). }
  apply b_inv in Ce.
  assert (S2 : Rabs (2 * sin (d / 2)) = 2 * Rabs (sin (d / 2)))
    by (rewrite Rabs_mult, Rabs_pos_eq by lra; reflexivity).
  rewrite S2 in small.
  pose proof (step_sin_half b eq_refl B2) as SH.
  assert (Dd : d / 2 * (d / 2) = b * b / 4).
  { rewrite (sq_abs (d / 2)). unfold Rdiv. rewrite Rabs_mult, (Rabs_pos_eq (/ 2)) by lra.
    fold b. field. }
  assert (CH : 1 - b * b / 8 <= cos (d / 2)).
  { pose proof (cos_low (d / 2)) as CL. rewrite Dd in CL. lra. }
  (* any bound on b gives a better one *)
  assert (Step : forall m, b <= m -> m * m <= 4 ->
     b * (1 - m * m / 24) * (Hh * (1 - m * m / 8 - 745 / 100000)) <= 201 / 10000 * a1).
  { intros m M M4.
    assert (bb : b * b <= m * m) by (apply Rmult_le_compat; lra).
    assert (P1 : Hh * (1 - m * m / 8 - 745 / 100000) <=
      Hh * cos (d / 2) - a1 * c * eta * cos (th + d / 2)).
    { assert (Hh * (1 - m * m / 8) <= Hh * cos (d / 2)) by (apply Rmult_le_compat_l; lra).
      replace (Hh * (1 - m * m / 8 - 745 / 100000))
        with (Hh * (1 - m * m / 8) - Hh * (745 / 100000)) by ring. lra. }
    assert (P0 : 0 <= Hh * (1 - m * m / 8 - 745 / 100000)) by (apply Rmult_le_pos; lra).
    assert (Q1 : b * (1 - m * m / 24) <= 2 * Rabs (sin (d / 2))).
    { assert (b / 2 * (1 - m * m / 24) <= b / 2 * (1 - b * b / 24))
        by (apply Rmult_le_compat_l; lra). lra. }
    assert (Q0 : 0 <= b * (1 - m * m / 24)) by (apply Rmult_le_pos; lra).
    pose proof (Rmult_le_compat _ _ _ _ Q0 P0 Q1 P1).
    rewrite (Rabs_pos_eq (Hh * cos (d / 2) - a1 * c * eta * cos (th + d / 2))) in small by lra.
    lra. }
  assert (BH : 0 <= b * Hh) by (apply Rmult_le_pos; lra).
  pose proof (Step 2 B2 ltac:(lra)) as K1.
  replace (b * (1 - 2 * 2 / 24) * (Hh * (1 - 2 * 2 / 8 - 745 / 100000)))
    with (b * Hh * ((1 - 4 / 24) * (1 - 4 / 8 - 745 / 100000))) in K1 by field.
  assert (K1' : b * Hh <= 49 / 1000 * a1) by lra.
  assert (b1 : b <= 4 / 10000).
  { apply Rmult_le_reg_r with Hh; lra. }
  pose proof (Step (4 / 10000) b1 ltac:(lra)) as K2.
  replace (b * (1 - 4/10000 * (4/10000) / 24) * (Hh * (1 - 4/10000 * (4/10000) / 8 - 745 / 100000)))
    with (b * Hh * ((1 - 4/10000 * (4/10000) / 24) * (1 - 4/10000 * (4/10000) / 8 - 745 / 100000)))
    in K2 by ring.
  assert (K2' : b * Hh <= 203 / 10000 * a1) by lra.
  split; [|exact K2']. apply Rmult_le_reg_r with Hh; lra.
Qed.

Lemma step_result :
  let p := tail_m a e2 w zp s c / tail_d a e2 w zp s c in
  Rabs (p - d) <= 3 / 10000000000 /\
  Rabs (tail_f a e2 w zp s c + tail_m a e2 w zp s c * p / 2 - h) <= 11 / 10000.
Proof.
  intros p.
  destruct step_slope as (eta & Et & Eb & Ed).
  destruct step_near as [B BH].
  pose proof step_a1 as A1. pose proof step_a1H as AH. pose proof step_c as C. pose proof step_s as Sb.
  pose proof step_q as Q. pose proof step_qf as Qf. pose proof (inv_q3 q Q) as J.
  destruct earth as [_ E].
  set (b := Rabs d) in *. assert (B0 : 0 <= b) by apply Rabs_pos.
  pose proof (sin_odd_bounds d b eq_refl ltac:(lra)) as SO.
  pose proof (cos_bounds2 d b eq_refl ltac:(lra)) as CB.
  assert (b2 : 0 <= b * b <= 15/100000 * b) by (split; [apply sq_nonneg|apply Rmult_le_compat_r; lra]).
  assert (b3 : 0 <= b * b * b <= 15/100000 * (b * b)).
  { split; [apply Rmult_le_pos; lra|]. rewrite (Rmult_comm (b * b)). apply Rmult_le_compat_r; lra. }
  assert (b4 : 0 <= b * b * b * b <= 15/100000 * (b * b * b)).
  { split; [apply Rmult_le_pos; lra|]. rewrite (Rmult_comm (b * b * b)). apply Rmult_le_compat_r; lra. }
  assert (Ab : 0 <= a1 * (b * b)) by (apply Rmult_le_pos; lra).
  (* the difference of the sines *)
  assert (Df : sf - s = c * d + (c * (sin d - d) - s * (1 - cos d))).
  { unfold sf, s, c. replace ph with (th + d) at 1 by (unfold d; ring). rewrite sin_plus. ring. }
  assert (D2 : Rabs (c * (sin d - d) - s * (1 - cos d)) <= 51 / 100 * (b * b)).
  { pose proof (b_sub _ _ _ _ (b_mul c (sin d - d) 1 _ (b_pos c 1 C) SO)
                 (b_mul s (1 - cos d) 1 (b * b / 2) (b_pos s 1 Sb) (b_pos (1 - cos d) (b * b / 2) ltac:(lra)))).
    lra. }
  assert (D1 : Rabs (sf - s) <= 1001 / 1000 * b).
  { rewrite Df. pose proof (b_add _ _ _ _ (b_mul c d 1 b (b_pos c 1 C) (Rle_refl _)) D2). lra. }
  assert (TB : Rabs T <= 1013 / 1000 * b).
  { rewrite Et. pose proof (b_mul eta (sf - s) (1011/1000) _ (b_pos eta (1011/1000) ltac:(lra)) D1). lra. }
  (* d c / q^3 - T *)
  assert (U : Rabs (c * d * / (q * q * q) - T) <= 54 / 100 * (b * b)).
  { replace (c * d * / (q * q * q) - T)
      with ((/ (q * q * q) - eta) * (sf - s)
            - / (q * q * q) * (c * (sin d - d) - s * (1 - cos d)))
      by (rewrite Et, Df; ring).
    assert (G : 23 / 10 * e2 * Rabs (sf - s) <= 16 / 1000 * b).
    { pose proof (mul_bound (23/10 * e2) (Rabs (sf - s)) (23/10 * (69/10000)) _
         ltac:(lra) (conj (Rabs_pos _) D1)). lra. }
    pose proof (b_sub _ _ _ _
      (b_mul _ _ _ _ (Rle_trans _ _ _ Ed G) D1)
      (b_mul _ _ _ _ (b_pos (/ (q * q * q)) (1011/1000) ltac:(lra)) D2)) as F.
    replace (16 / 1000 * b * (1001 / 1000 * b)) with (16/1000 * (1001/1000) * (b * b)) in F by ring.
    replace (1011 / 1000 * (51 / 100 * (b * b))) with (1011/1000 * (51/100) * (b * b)) in F by ring.
    lra. }
  (* m - d D *)
  assert (MD : tail_m a e2 w zp s c - d * tail_d a e2 w zp s c
    = Hh * ((sin d - d) + d * (1 - cos d)) + a1 * c * (c * d * / (q * q * q) - T) + d * a1 * s * T).
  { rewrite step_m, step_d. ring. }
  assert (HB2 : Hh * (b * b * b) <= 203/10000 * a1 * (b * b)).
  { replace (Hh * (b * b * b)) with (b * Hh * (b * b)) by ring. apply Rmult_le_compat_r; lra. }
  assert (MDb : Rabs (tail_m a e2 w zp s c - d * tail_d a e2 w zp s c) <= 158 / 100 * (a1 * (b * b))).
  { rewrite MD.
    assert (F1 : Rabs (Hh * ((sin d - d) + d * (1 - cos d))) <= 2/100 * (a1 * (b * b))).
    { pose proof (b_mul d (1 - cos d) b (b * b / 2) (Rle_refl _) (b_pos (1 - cos d) (b * b / 2) ltac:(lra))) as G.
      pose proof (b_mul Hh _ Hh _ (b_pos Hh Hh ltac:(lra)) (b_add _ _ _ _ SO G)) as G2.
      replace (Hh * (b * b * b / 6 + b * (b * b / 2))) with (2/3 * (Hh * (b * b * b))) in G2 by field.
      lra. }
    assert (F2 : Rabs (a1 * c * (c * d * / (q * q * q) - T)) <= 54/100 * (a1 * (b * b))).
    { pose proof (b_mul _ _ _ _ (b_mul a1 c a1 1 (b_pos a1 a1 ltac:(lra)) (b_pos c 1 C)) U) as G.
      lra. }
    assert (F3 : Rabs (d * a1 * s * T) <= 1013/1000 * (a1 * (b * b))).
    { pose proof (b_mul _ _ _ _ (b_mul _ _ _ _ (b_mul d a1 b a1 (Rle_refl _) (b_pos a1 a1 ltac:(lra)))
                    (b_pos s 1 Sb)) TB) as G.
      replace (b * a1 * 1 * (1013 / 1000 * b)) with (1013/1000 * (a1 * (b * b))) in G by ring.
      exact G. }
    pose proof (b_add _ _ _ _ (b_add _ _ _ _ F1 F2) F3).
    assert (0 <= a1 * (b * b)) by (apply Rmult_le_pos; lra). lra. }
  (* D against H *)
  assert (DH : Rabs (tail_d a e2 w zp s c - Hh) <= 102 / 100 * a1).
  { rewrite step_d.
    replace (Hh * cos d - a1 * (c * c) * / (q * q * q) - a1 * s * T - Hh)
      with (- (Hh * (1 - cos d)) - a1 * (c * c) * / (q * q * q) - a1 * s * T) by ring.
    assert (c2 : 0 <= c * c <= 1) by (split; [apply sq_nonneg|pose proof (sq_le_self c C); lra]).
    assert (G1 : Rabs (- (Hh * (1 - cos d))) <= 1 / 1000 * a1).
    { rewrite Rabs_Ropp. pose proof (b_mul Hh (1 - cos d) Hh (b * b / 2)
        (b_pos Hh Hh ltac:(lra)) (b_pos (1 - cos d) (b * b / 2) ltac:(lra))) as G.
      replace (Hh * (b * b / 2)) with (b * Hh * b / 2) in G by field.
      assert (b * Hh * b <= 203/10000 * a1 * (15/100000)) by (apply Rmult_le_compat; try lra; apply Rmult_le_pos; lra).
      lra. }
    pose proof (b_mul _ _ _ _ (b_mul a1 (c * c) a1 1 (b_pos a1 a1 ltac:(lra)) (b_pos _ _ c2))
                 (b_pos (/ (q * q * q)) (1011/1000) ltac:(lra))) as G2.
    pose proof (b_mul _ _ _ _ (b_mul a1 s a1 1 (b_pos a1 a1 ltac:(lra)) (b_pos s 1 Sb)) TB) as G3.
    pose proof (b_sub _ _ _ _ (b_sub _ _ _ _ G1 G2) G3) as G4.
    assert (a1 * 1 * (1013 / 1000 * b) <= 1/1000 * a1).
    { assert (a1 * b <= a1 * (15/100000)) by (apply Rmult_le_compat_l; lra). lra. }
    lra. }
  apply b_inv in DH.
  set (D := tail_d a e2 w zp s c) in *. set (m := tail_m a e2 w zp s c) in *.
  assert (Dp : 99 / 100 * Hh <= D <= 101 / 100 * Hh) by lra.
  assert (Ep : m = p * D) by (unfold p; field; lra).
  assert (PD : Rabs (p - d) * Hh <= 16 / 10 * (a1 * (b * b))).
  { rewrite Ep in MDb. replace (p * D - d * D) with ((p - d) * D) in MDb by ring.
    rewrite Rabs_mult, (Rabs_pos_eq D) in MDb by lra.
    pose proof (Rmult_le_compat_l (Rabs (p - d)) _ _ (Rabs_pos _) (proj1 Dp)) as G.
    assert (0 <= a1 * (b * b)) by (apply Rmult_le_pos; lra). lra. }
  assert (PD2 : Rabs (p - d) <= 12 / 1000 * (b * b)).
  { apply Rmult_le_reg_r with Hh; [lra|].
    assert (a1 * (b * b) <= 736/100000 * Hh * (b * b)) by (apply Rmult_le_compat_r; lra). lra. }
  split; [lra|].
  (* height *)
  pose proof step_f as Ef. fold m. rewrite Ep.
  replace (tail_f a e2 w zp s c + p * D * p / 2 - h)
    with (tail_f a e2 w zp s c - h + D * p * p / 2) by field.
  rewrite Ef.
  assert (Pp : Rabs (p * p - d * d) <= 25 / 1000 * (b * b * b)).
  { replace (p * p - d * d) with ((p - d) * (2 * d + (p - d))) by ring.
    assert (G : Rabs (2 * d + (p - d)) <= 2001/1000 * b).
    { pose proof (b_add _ _ _ _ (b_mul 2 d 2 b (b_pos 2 2 ltac:(lra)) (Rle_refl _)) PD2). lra. }
    pose proof (b_mul _ _ _ _ PD2 G) as F.
    replace (12 / 1000 * (b * b) * (2001 / 1000 * b)) with (12/1000 * (2001/1000) * (b * b * b)) in F by ring.
    lra. }
  replace (- (Hh * (1 - cos d)) + a1 * (sf - s) * T * (q / (q + qf)) + D * p * p / 2)
    with (Hh * (d * d / 2 - (1 - cos d)) + (D - Hh) * (d * d) / 2 + D * (p * p - d * d) / 2
          + a1 * (sf - s) * T * (q / (q + qf))) by (field; lra).
  assert (dd : d * d = b * b) by apply sq_abs. rewrite dd.
  assert (Z1 : Rabs (Hh * (b * b / 2 - (1 - cos d))) <= 1/1000 * (a1 * (b * b))).
  { pose proof (b_mul Hh (b * b / 2 - (1 - cos d)) Hh (b * b * b * b / 24)
       (b_pos Hh Hh ltac:(lra)) (b_pos (b * b / 2 - (1 - cos d)) (b * b * b * b / 24) ltac:(lra))) as G.
    assert (Hh * (b * b * b * b) <= Hh * (15/100000 * (b * b * b))) by (apply Rmult_le_compat_l; lra).
    assert (0 <= a1 * (b * b)) by (apply Rmult_le_pos; lra).
    lra. }
  assert (Z2 : Rabs ((D - Hh) * (b * b) / 2) <= 51/100 * (a1 * (b * b))).
  { unfold Rdiv. pose proof (b_mul _ _ _ _ (b_mul (D - Hh) (b * b) (102/100 * a1) (b * b)
       (b_le (D - Hh) (102/100 * a1) ltac:(lra)) (b_pos (b * b) (b * b) ltac:(lra))) (b_pos (/2) (/2) ltac:(lra))). lra. }
  rewrite dd in Pp.
  assert (Z3 : Rabs (D * (p * p - b * b) / 2) <= 1/1000 * (a1 * (b * b))).
  { unfold Rdiv. pose proof (b_mul _ _ _ _ (b_mul D _ (101/100 * Hh) _
       (b_pos D (101/100 * Hh) ltac:(lra)) Pp) (b_pos (/2) (/2) ltac:(lra))) as G.
    replace (101 / 100 * Hh * (25 / 1000 * (b * b * b)) * / 2)
      with (101/100 * (25/1000) / 2 * (Hh * (b * b * b))) in G by field.
    assert (0 <= a1 * (b * b)) by (apply Rmult_le_pos; lra). lra. }
  assert (Z4 : Rabs (a1 * (sf - s) * T * (q / (q + qf))) <= 52/100 * (a1 * (b * b))).
  { assert (G : Rabs (q / (q + qf)) <= 502/1000).
    { apply b_pos. split; [apply Rmult_le_pos; [lra|left; apply Rinv_0_lt_compat; lra]|].
      apply div_le; lra. }
    pose proof (b_mul _ _ _ _ (b_mul _ _ _ _ (b_mul a1 _ a1 _ (b_pos a1 a1 ltac:(lra)) D1) TB) G) as F.
    replace (a1 * (1001 / 1000 * b) * (1013 / 1000 * b) * (502 / 1000))
      with (1001/1000 * (1013/1000) * (502/1000) * (a1 * (b * b))) in F by ring.
    assert (0 <= a1 * (b * b)) by (apply Rmult_le_pos; lra). lra. }
  pose proof (b_add _ _ _ _ (b_add _ _ _ _ (b_add _ _ _ _ Z1 Z2) Z3) Z4) as Zt.
  assert (a1 * (b * b) <= 44160 * (15/100000 * (15/100000))).
  { apply Rmult_le_compat; lra. }
  lra.
Qed.
End Step.
