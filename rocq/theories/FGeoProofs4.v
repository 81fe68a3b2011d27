(* Error analysis of the binary64 geodesy, part 4: ecef2llh up to the latitude
   guess. *)
From Coq Require Import Reals Lia Lra Psatz.
From Flocq Require Import Core BinarySingleNaN.
From Verif Require Import PyFloat FloatProofs PiBounds FloatErr FGeo FGeoSpec GeoSpec Geo GeoProofs EcefProofs EcefAccuracy FGeoProofs FGeoProofs2 FGeoProofs3.
Local Open Scope R_scope.

(* quotients and roots with errors relative to a symbolic scale *)
Lemma approx_div_rel x y a b ka kb lo M e : 0 < lo -> approx x a (ka * lo) -> approx y b (kb * lo) ->
  lo <= Rabs b -> Rabs a <= M * lo -> 0 <= ka -> 0 <= kb <= 1 / 1000 -> 0 <= M ->
  M + (ka + M * kb) * (1002 / 1000) <= big ->
  (ka + M * kb) * (1002 / 1000) + (M + (ka + M * kb) * (1002 / 1000)) * u53 + tiny <= e ->
  approx (fdiv x y) (a / b) e /\ is_zero y = false.
Proof.
  intros L X Y B A KA KB M0 C E.
  assert (kb * lo <= 1 / 1000 * lo) as KL by (apply Rmult_le_compat_r; lra).
  assert ((ka * lo + M * (kb * lo)) / (lo - kb * lo) <= (ka + M * kb) * (1002 / 1000)) as D.
  { apply div_le; [lra|]. assert (0 <= M * kb) by (apply Rmult_le_pos; lra).
    replace (ka * lo + M * (kb * lo)) with ((ka + M * kb) * lo) by ring.
    replace ((ka + M * kb) * (1002 / 1000) * (lo - kb * lo)) with ((ka + M * kb) * (1002 / 1000 * (lo - kb * lo))) by ring.
    apply Rmult_le_compat_l; lra. }
  assert (0 < u53) by num.
  apply approx_div with (ea := ka * lo) (eb := kb * lo) (A := M * lo) (lo := lo) (M := M); try assumption; try lra.
  assert ((M + (ka * lo + M * (kb * lo)) / (lo - kb * lo)) * u53 <= (M + (ka + M * kb) * (1002 / 1000)) * u53)
    by (apply Rmult_le_compat_r; lra). lra.
Qed.
Lemma approx_sqrt_rel x k lo e : 0 < lo <= 1000000000000 -> approx x (lo * lo) (k * (lo * lo)) -> 0 <= k <= 1 / 1000 ->
  lo * (k + (1 + k) * u53) + tiny <= e ->
  approx (SFsqrt fprec femax x) lo e /\ math_sqrt x = Ok (SFsqrt fprec femax x).
Proof.
  intros L X K E. assert (0 < lo * lo) by (apply Rmult_lt_0_compat; lra).
  assert (k * (lo * lo) <= 1 / 1000 * (lo * lo)) by (apply Rmult_le_compat_r; lra).
  assert (k * (lo * lo) / lo = k * lo) as Q by (field; lra).
  assert (k * lo <= 1 / 1000 * lo) by (apply Rmult_le_compat_r; lra).
  destruct (approx_sqrt x (lo * lo) (k * (lo * lo)) lo lo e X) as [S1 S2]; try lra; rewrite ?Q; try num.
  rewrite sqrt_square in S1 by lra. split; assumption.
Qed.
Lemma sq_approx x : fdata x -> Rabs (rval x) <= 1000000000000 -> approx (fmul x x) (rval x * rval x) (rval x * rval x * u53 + tiny).
Proof.
  intros F B. pose proof (sq_nonneg (rval x)) as P.
  assert (rval x * rval x <= 1000000000000 * 1000000000000).
  { rewrite (sq_abs (rval x)). apply Rmult_le_compat; try apply Rabs_pos; assumption. }
  eapply approx_nearest with (d := 0) (M := rval x * rval x); [apply fmul_correct; apply F| | | |]; try num.
  - rewrite Rminus_diag_eq, Rabs_R0 by reflexivity. lra.
  - rewrite Rabs_pos_eq; lra.
Qed.
(* ------------------------------------------------- distances *)
Definition fw2 (x y : fl) : fl := fadd (fmul x x) (fmul y y).
Definition fr2 (x y z : fl) : fl := fadd (fw2 x y) (fmul z z).
Definition fsq (x : fl) : fl := SFsqrt fprec femax x.

Section Dist.
Variables x y z : fl.
Hypothesis FX : fdata x.
Hypothesis FY : fdata y.
Hypothesis FZ : fdata z.
Let X := rval x. Let Y := rval y. Let Z0 := rval z.
Let W := sqrt (X * X + Y * Y).
Let Ro := sqrt (X * X + Y * Y + Z0 * Z0).
Hypothesis BR : Ro <= 20000000000.

Lemma dist_facts : 0 <= W /\ W * W = X * X + Y * Y /\ 0 <= Ro /\ Ro * Ro = X * X + Y * Y + Z0 * Z0 /\ W <= Ro /\ Rabs Z0 <= Ro /\
  Rabs X <= Ro /\ Rabs Y <= Ro.
Proof.
  pose proof (sq_nonneg X). pose proof (sq_nonneg Y). pose proof (sq_nonneg Z0).
  assert (W * W = X * X + Y * Y) as WW by (apply sqrt_sqrt; lra).
  assert (Ro * Ro = X * X + Y * Y + Z0 * Z0) as RR by (apply sqrt_sqrt; lra).
  assert (0 <= W) by apply sqrt_pos. assert (0 <= Ro) by apply sqrt_pos.
  repeat split; try assumption; apply sq_le; try assumption; rewrite <- ?(sq_abs); lra.
Qed.
Lemma sq_sums : approx (fw2 x y) (W * W) (Ro * Ro * (3 * u53) + 4 * tiny) /\ approx (fmul z z) (Z0 * Z0) (Ro * Ro * u53 + tiny) /\
  approx (fr2 x y z) (Ro * Ro) (Ro * Ro * (5 * u53) + 10 * tiny) /\
  0 <= rval (fw2 x y) /\ 0 <= rval (fmul z z) /\ 0 <= rval (fr2 x y z).
Proof.
  destruct dist_facts as (W0 & WW & R0 & RR & WR & ZR & XR & YR).
  pose proof (sq_nonneg X) as SX. pose proof (sq_nonneg Y) as SY. pose proof (sq_nonneg Z0) as SZ.
  pose proof (sq_approx x FX ltac:(fold X; lra)) as QX. pose proof (sq_approx y FY ltac:(fold Y; lra)) as QY.
  pose proof (sq_approx z FZ ltac:(fold Z0; lra)) as QZ. fold X in QX. fold Y in QY. fold Z0 in QZ.
  assert (Ro * Ro <= 20000000000 * 20000000000) as RB by (apply Rmult_le_compat; lra).
  assert (approx (fw2 x y) (W * W) (Ro * Ro * (3 * u53) + 4 * tiny)) as QW.
  { rewrite WW. eapply approx_add with (M := Ro * Ro); [exact QX|exact QY| | |]; try num. rewrite Rabs_pos_eq; lra. }
  assert (approx (fmul z z) (Z0 * Z0) (Ro * Ro * u53 + tiny)) as QZ' by (eapply approx_weaken; [exact QZ|num]).
  assert (approx (fw2 x y) (W * W) (W * W * (2 * u53 + u53 * u53) + 4 * tiny)) as QW'.
  { rewrite WW. eapply approx_add with (M := X * X + Y * Y); [exact QX|exact QY| | |]; try num. rewrite Rabs_pos_eq; lra. }
  assert (approx (fr2 x y z) (Ro * Ro) (Ro * Ro * (5 * u53) + 10 * tiny)) as QR.
  { replace (Ro * Ro) with (W * W + Z0 * Z0) by lra.
    eapply approx_add with (M := Ro * Ro); [exact QW'|exact QZ| | |]; try num. rewrite Rabs_pos_eq; lra. }
  assert (0 <= rval (fmul x x)) as PX by (rewrite fmul_val; [apply rnd_pos; exact SX|exact FX|exact FX|apply QX]).
  assert (0 <= rval (fmul y y)) as PY by (rewrite fmul_val; [apply rnd_pos; exact SY|exact FY|exact FY|apply QY]).
  assert (0 <= rval (fmul z z)) as PZ by (rewrite fmul_val; [apply rnd_pos; exact SZ|exact FZ|exact FZ|apply QZ]).
  assert (0 <= rval (fw2 x y)) as PW.
  { unfold fw2. rewrite fadd_val; [apply rnd_pos; lra|apply QX|apply QY|apply QW]. }
  assert (0 <= rval (fr2 x y z)) as PR.
  { unfold fr2. rewrite fadd_val; [apply rnd_pos; lra|apply QW|apply QZ|apply QR]. }
  repeat split; try assumption; try apply QW; try apply QZ'; try apply QR.
Qed.
Lemma dist_w : math_sqrt (fw2 x y) = Ok (fsq (fw2 x y)) /\ approx (fsq (fw2 x y)) W (Ro * (6 * u53) + 3 / 1000000000000000) /\
  0 <= rval (fsq (fw2 x y)).
Proof.
  destruct dist_facts as (W0 & WW & R0 & RR & WR & ZR & XR & YR).
  destruct sq_sums as (QW & _ & _ & PW & _).
  split; [apply math_sqrt_ok; [apply QW|exact PW]|].
  destruct (approx_norm x y X Y 0 0 Ro (Ro * (6 * u53) + 3 / 1000000000000000) (approx_exact x FX) (approx_exact y FY)) as (_ & _ & N); try num.
  { fold W. exact WR. }
  split; [exact N|]. destruct (fsqrt_correct _ (proj1 QW) PW) as [_ V]. unfold fsq. rewrite V. apply rnd_pos, sqrt_pos.
Qed.
Lemma dist_r_ok : math_sqrt (fr2 x y z) = Ok (fsq (fr2 x y z)) /\ fdata (fsq (fr2 x y z)).
Proof.
  destruct sq_sums as (_ & _ & QR & _ & _ & PR). split; [apply math_sqrt_ok; [apply QR|exact PR]|].
  apply (fsqrt_correct _ (proj1 QR) PR).
Qed.
Lemma dist_r : 1 <= Ro -> approx (fsq (fr2 x y z)) Ro (Ro * (62 / 10 * u53)).
Proof.
  intros R1. destruct sq_sums as (_ & _ & QR & _ & _ & PR).
  assert (1 * 1 <= Ro * Ro) by (apply Rmult_le_compat; lra).
  apply (approx_sqrt_rel _ (51 / 10 * u53)); try num.
  eapply approx_weaken; [exact QR|]. num.
Qed.
(* the threshold *)
Lemma dist_core : Ro <= 99999999 / 1000 -> fltb (fsq (fr2 x y z)) (f_norm 100000 0) = true.
Proof.
  intros B. destruct sq_sums as (_ & _ & QR & _ & _ & PR). destruct dist_r_ok as [_ F].
  destruct (approx_int 100000 ltac:(lia)) as [F5 _]. destruct (f_int 100000 ltac:(lia)) as (_ & V5 & _).
  rewrite fltb_correct by assumption. apply Rlt_bool_true. rewrite V5.
  destruct (fsqrt_correct _ (proj1 QR) PR) as [_ V]. fold (fsq (fr2 x y z)) in V. rewrite V.
  pose proof (approx_bounds _ _ _ QR) as BQ.
  destruct dist_facts as (_ & _ & R0 & _).
  assert (Ro * Ro <= 99999999 / 1000 * (99999999 / 1000)) by (apply Rmult_le_compat; lra).
  assert (sqrt (rval (fr2 x y z)) <= 999999995 / 10000) as SB by (apply sqrt_le_of_sq; num).
  pose proof (rnd_rel (sqrt (rval (fr2 x y z)))) as RR. rewrite (Rabs_pos_eq (sqrt _)) in RR by apply sqrt_pos.
  apply Rabs_le_inv in RR. pose proof (sqrt_pos (rval (fr2 x y z))). num.
Qed.
Lemma dist_outside : 100000001 / 1000 <= Ro -> fltb (fsq (fr2 x y z)) (f_norm 100000 0) = false.
Proof.
  intros B. pose proof (dist_r ltac:(lra)) as A. pose proof (approx_bounds _ _ _ A) as BA.
  destruct (approx_int 100000 ltac:(lia)) as [F5 _]. destruct (f_int 100000 ltac:(lia)) as (_ & V5 & _).
  rewrite fltb_correct by (apply A || exact F5). apply Rlt_bool_false. rewrite V5. num.
Qed.
End Dist.

(* ------------------------------------------------- constants of the datum *)
Definition fe2 (f : fl) : fl := fmul (fdiv fone f) (fsub ftwo (fdiv fone f)).
Definition fa1 (a f : fl) : fl := fmul a (fe2 f).
Definition fa2 (a f : fl) : fl := fmul (fa1 a f) (fa1 a f).
Definition fa3 (a f : fl) : fl := fdiv (fmul (fa1 a f) (fe2 f)) ftwo.
Definition fa4 (a f : fl) : fl := fmul (f_norm 5 (-1)) (fa2 a f).
Definition fa5 (a f : fl) : fl := fadd (fa1 a f) (fa3 a f).
Definition fa6 (f : fl) : fl := fsub fone (fe2 f).

Lemma approx_2h : approx (f_norm 5 (-1)) (5 / 2) 0.
Proof.
  split; [split; reflexivity|]. assert (rval (f_norm 5 (-1)) = 5 / 2) as ->.
  { replace (f_norm 5 (-1)) with (S754_finite false 5629499534213120 (-51)) by (vm_compute; reflexivity).
    transitivity (5629499534213120 / 2251799813685248); [unfold rval; cbn [SF2R]; rewrite F2R_neg by lia; reflexivity|lra]. }
  rewrite Rminus_diag_eq, Rabs_R0 by reflexivity. lra.
Qed.

Section Datum.
Variables a f : fl.
Hypothesis FA : fdata a.
Hypothesis BA : 6300000 <= rval a <= 6400000.
Hypothesis FF : fdata f.
Hypothesis BF : 290 <= rval f.
Let e2 := 1 / rval f * (2 - 1 / rval f).
Let a1 := rval a * e2.

Lemma datum_e2 : 0 < e2 <= 69 / 10000. Proof. apply earth_flattening, BF. Qed.
Lemma datum_a1 : 0 < a1 <= 44160.
Proof. pose proof datum_e2 as E. unfold a1. split; [apply Rmult_lt_0_compat; lra|].
  pose proof (mul_bound (rval a) e2 6400000 (69/10000) ltac:(lra) ltac:(lra)). lra. Qed.
Lemma datum_fe2 : approx (fe2 f) e2 (24 / 10000000000000000000).
Proof. apply (ecc_result f FF BF). Qed.
Lemma datum_fa1 : approx (fa1 a f) a1 (21 / 1000000000000).
Proof.
  pose proof datum_e2. unfold fa1. eapply approx_mul with (A := 6400000) (B := 69 / 10000); [apply approx_exact, FA|exact datum_fe2| | | |]; try num; rewrite Rabs_pos_eq; lra.
Qed.
Lemma datum_fa2 : approx (fa2 a f) (a1 * a1) (21 / 10000000).
Proof.
  pose proof datum_a1. unfold fa2. eapply approx_mul with (A := 44160) (B := 44160); [exact datum_fa1|exact datum_fa1| | | |]; try num; rewrite Rabs_pos_eq; lra.
Qed.
Lemma datum_a1e2 : 0 <= a1 * e2 <= 3048 / 10.
Proof. pose proof datum_a1. pose proof datum_e2. pose proof (mul_bound a1 e2 44160 (69/10000) ltac:(lra) ltac:(lra)). lra. Qed.
Lemma datum_fa3 : approx (fa3 a f) (a1 * e2 / 2) (17 / 100000000000000).
Proof.
  pose proof datum_a1. pose proof datum_e2. pose proof datum_a1e2.
  assert (approx (fmul (fa1 a f) (fe2 f)) (a1 * e2) (3 / 10000000000000)) as A.
  { eapply approx_mul with (A := 44160) (B := 69 / 10000); [exact datum_fa1|exact datum_fe2| | | |]; try num; rewrite Rabs_pos_eq; lra. }
  unfold fa3. apply (approx_div _ _ _ _ _ 0 (3048 / 10) 2 (1524 / 10) _ A approx_two); try num; rewrite Rabs_pos_eq; lra.
Qed.
Lemma datum_fa4 : approx (fa4 a f) (5 / 2 * (a1 * a1)) (58 / 10000000).
Proof.
  pose proof datum_a1. pose proof (mul_bound a1 a1 44160 44160 ltac:(lra) ltac:(lra)).
  unfold fa4. eapply approx_mul with (A := 5 / 2) (B := 44160 * 44160); [exact approx_2h|exact datum_fa2| | | |]; try num; rewrite Rabs_pos_eq; lra.
Qed.
Lemma datum_fa5 : approx (fa5 a f) (a1 + a1 * e2 / 2) (27 / 1000000000000).
Proof.
  pose proof datum_a1. pose proof datum_a1e2.
  unfold fa5. eapply approx_add with (M := 45000); [exact datum_fa1|exact datum_fa3| | |]; try num; rewrite Rabs_pos_eq; lra.
Qed.
Lemma datum_fa6 : approx (fa6 f) (1 - e2) (12 / 100000000000000000).
Proof.
  pose proof datum_e2.
  unfold fa6. eapply approx_sub with (M := 1); [apply approx_one|exact datum_fe2| | |]; try num; rewrite Rabs_pos_eq; lra.
Qed.

(* ------------------------------------------------- the two guesses *)
Variables w zp w2 z2 r2 r : fl.
Variables W Zp Ro : R.
Hypothesis B0 : 99999999 / 1000 <= Ro <= 20000000000.
Hypothesis W0 : 0 <= W.
Hypothesis Z0 : 0 <= Zp.
Hypothesis WZ : W * W + Zp * Zp = Ro * Ro.
Hypothesis AW2 : approx w2 (W * W) (4 / 10000000000000000 * (Ro * Ro)).
Hypothesis AZ2 : approx z2 (Zp * Zp) (12 / 100000000000000000 * (Ro * Ro)).
Hypothesis AR2 : approx r2 (Ro * Ro) (6 / 10000000000000000 * (Ro * Ro)).
Hypothesis AR : approx r Ro (7 / 10000000000000000 * Ro).
Hypothesis AW : approx w W (7 / 10000000000000000 * Ro).
Hypothesis AZ : approx zp Zp 0.
Let cp := W / Ro. Let sp := Zp / Ro. Let eps := a1 / Ro.

Lemma RR0 : 0 < Ro * Ro. Proof. apply Rmult_lt_0_compat; lra. Qed.
Lemma guess_dir : 0 <= cp /\ 0 <= sp /\ sp * sp + cp * cp = 1 /\ W = cp * Ro /\ Zp = sp * Ro /\ cp <= 1 /\ sp <= 1 /\
  W * W / (Ro * Ro) = cp * cp /\ Zp * Zp / (Ro * Ro) = sp * sp /\ 0 < eps <= 4417 / 10000.
Proof.
  pose proof RR0. assert (0 <= / Ro) by (left; apply Rinv_0_lt_compat; lra).
  assert (0 <= cp) by (apply Rmult_le_pos; assumption). assert (0 <= sp) by (apply Rmult_le_pos; assumption).
  assert (sp * sp + cp * cp = 1) as S.
  { unfold sp, cp. replace (Zp / Ro * (Zp / Ro) + W / Ro * (W / Ro)) with ((W * W + Zp * Zp) / (Ro * Ro)) by (field; lra).
    rewrite WZ. field. lra. }
  pose proof (sq_nonneg sp). pose proof (sq_nonneg cp). pose proof datum_a1.
  repeat split; try assumption; try (unfold sp, cp; field; lra); try (apply sq_le; lra).
  - apply Rdiv_lt_0_compat; lra.
  - apply div_le; lra.
Qed.
Lemma guess_s2 : approx (fdiv z2 r2) (sp * sp) (88 / 100000000000000000) /\ is_zero r2 = false.
Proof.
  pose proof RR0. pose proof (sq_nonneg W). pose proof (sq_nonneg Zp). destruct guess_dir as (_ & _ & _ & _ & _ & _ & _ & _ & <- & _).
  apply approx_div_rel with (ka := 12 / 100000000000000000) (kb := 6 / 10000000000000000) (lo := Ro * Ro) (M := 1); try assumption; try num.
  - rewrite Rabs_pos_eq; lra.
  - rewrite Rabs_pos_eq; lra.
Qed.
Lemma guess_c2 : approx (fdiv w2 r2) (cp * cp) (116 / 100000000000000000).
Proof.
  pose proof RR0. pose proof (sq_nonneg W). pose proof (sq_nonneg Zp). destruct guess_dir as (_ & _ & _ & _ & _ & _ & _ & <- & _).
  apply approx_div_rel with (ka := 4 / 10000000000000000) (kb := 6 / 10000000000000000) (lo := Ro * Ro) (M := 1); try assumption; try num.
  - rewrite Rabs_pos_eq; lra.
  - rewrite Rabs_pos_eq; lra.
Qed.
Lemma guess_r : is_zero r = false.
Proof.
  apply (approx_div_rel zp r Zp Ro 0 (7 / 10000000000000000) Ro 1 1); try assumption; try num.
  - rewrite Rmult_0_l. exact AZ.
  - rewrite Rabs_pos_eq; lra.
  - pose proof (sq_nonneg W). rewrite Rabs_pos_eq; [|lra]. rewrite Rmult_1_l. apply sq_le; lra.
Qed.
Lemma guess_a1sq : 0 <= a1 * a1 <= 44160 * 44160.
Proof. pose proof datum_a1. apply (mul_bound a1 a1 44160 44160); lra. Qed.
Lemma guess_u : approx (fdiv (fa2 a f) r) (a1 * a1 / Ro) (4 / 100000000000).
Proof.
  pose proof guess_a1sq.
  apply approx_div_rel with (ka := 22 / 1000000000000) (kb := 7 / 10000000000000000) (lo := Ro) (M := 19502); try assumption; try num.
  - eapply approx_weaken; [exact datum_fa2|lra].
  - rewrite Rabs_pos_eq; lra.
  - rewrite Rabs_pos_eq; lra.
Qed.
Lemma guess_a4r : approx (fdiv (fa4 a f) r) (5 / 2 * (a1 * a1) / Ro) (10 / 100000000000).
Proof.
  pose proof guess_a1sq.
  apply approx_div_rel with (ka := 59 / 1000000000000) (kb := 7 / 10000000000000000) (lo := Ro) (M := 48760); try assumption; try num.
  - eapply approx_weaken; [exact datum_fa4|lra].
  - rewrite Rabs_pos_eq; lra.
  - rewrite Rabs_pos_eq; lra.
Qed.
Definition fv : fl := fsub (fa3 a f) (fdiv (fa4 a f) r).
Let v := a1 * e2 / 2 - 5 / 2 * (a1 * a1) / Ro.
Lemma v_bound : Rabs v <= 48760 /\ 0 <= a1 * a1 / Ro <= 19502.
Proof.
  pose proof guess_a1sq. pose proof datum_a1e2.
  assert (0 <= a1 * a1 / Ro <= 19502) as U.
  { split; [apply Rmult_le_pos; [lra|left; apply Rinv_0_lt_compat; lra]|apply div_le; lra]. }
  split; [|exact U]. apply Rabs_le. unfold v. replace (5 / 2 * (a1 * a1) / Ro) with (5 / 2 * (a1 * a1 / Ro)) by (field; lra). lra.
Qed.
Lemma guess_v : approx fv v (108 / 1000000000000).
Proof.
  destruct v_bound as [V _]. unfold fv. eapply approx_sub with (M := 48760); [exact datum_fa3|exact guess_a4r|exact V| |]; num.
Qed.
(* first branch: the relative correction and the sine *)
Definition fk1 : fl := fdiv (fmul (fdiv w2 r2) (fadd (fadd (fa1 a f) (fdiv (fa2 a f) r)) (fmul (fdiv z2 r2) fv))) r.
Definition fs1 : fl := fmul (fdiv zp r) (fadd fone fk1).
Lemma corr1_eq : cp * cp * (a1 + a1 * a1 / Ro + sp * sp * v) / Ro = cp * cp * corr1 eps e2 (sp * sp).
Proof. unfold corr1, eps, v. field. lra. Qed.
Lemma sp2_bound : Rabs (sp * sp) <= 1.
Proof. destruct guess_dir as (C & S & _ & _ & _ & C1 & S1 & _). rewrite Rabs_pos_eq by apply sq_nonneg. pose proof (mul_bound sp sp 1 1). lra. Qed.
Lemma cp2_bound : Rabs (cp * cp) <= 1.
Proof. destruct guess_dir as (C & S & _ & _ & _ & C1 & S1 & _). rewrite Rabs_pos_eq by apply sq_nonneg. pose proof (mul_bound cp cp 1 1). lra. Qed.
Lemma guess_k1 : approx fk1 (cp * cp * corr1 eps e2 (sp * sp)) (5 / 1000000000000000).
Proof.
  destruct v_bound as [V U]. pose proof datum_a1 as A1. pose proof sp2_bound as SB. pose proof cp2_bound as CB.
  assert (Rabs (a1 + a1 * a1 / Ro) <= 63662) as B1 by (rewrite Rabs_pos_eq; lra).
  assert (approx (fadd (fa1 a f) (fdiv (fa2 a f) r)) (a1 + a1 * a1 / Ro) (69 / 1000000000000)) as S1.
  { eapply approx_add with (M := 63662); [exact datum_fa1|exact guess_u|exact B1| |]; num. }
  assert (Rabs (sp * sp * v) <= 48760) as B2 by (pose proof (mul_abs_le _ _ _ _ SB V); lra).
  assert (approx (fmul (fdiv z2 r2) fv) (sp * sp * v) (158 / 1000000000000)) as S2.
  { eapply approx_mul with (A := 1) (B := 48760); [apply guess_s2|exact guess_v|exact SB|exact V| |]; num. }
  assert (Rabs (a1 + a1 * a1 / Ro + sp * sp * v) <= 112422) as B3 by (eapply Rle_trans; [apply Rabs_triang|]; lra).
  assert (approx (fadd (fadd (fa1 a f) (fdiv (fa2 a f) r)) (fmul (fdiv z2 r2) fv)) (a1 + a1 * a1 / Ro + sp * sp * v) (240 / 1000000000000)) as S3.
  { eapply approx_add with (M := 112422); [exact S1|exact S2|exact B3| |]; num. }
  assert (Rabs (cp * cp * (a1 + a1 * a1 / Ro + sp * sp * v)) <= 112422) as B4 by (pose proof (mul_abs_le _ _ _ _ CB B3); lra).
  assert (approx (fmul (fdiv w2 r2) (fadd (fadd (fa1 a f) (fdiv (fa2 a f) r)) (fmul (fdiv z2 r2) fv)))
            (cp * cp * (a1 + a1 * a1 / Ro + sp * sp * v)) (385 / 1000000000000)) as S4.
  { eapply approx_mul with (A := 1) (B := 112422); [exact guess_c2|exact S3|exact CB|exact B3| |]; num. }
  rewrite <- corr1_eq. unfold fk1.
  apply approx_div_rel with (ka := 386 / 100000000000000000) (kb := 7 / 10000000000000000) (lo := Ro) (M := 1125 / 1000); try assumption; try num.
  - eapply approx_weaken; [exact S4|lra].
  - rewrite Rabs_pos_eq; lra.
Qed.
Lemma guess_zr : approx (fdiv zp r) sp (9 / 10000000000000000) /\ 0 <= rval (fdiv zp r).
Proof.
  pose proof (sq_nonneg W).
  assert (approx (fdiv zp r) sp (9 / 10000000000000000)) as A.
  { apply approx_div_rel with (ka := 0) (kb := 7 / 10000000000000000) (lo := Ro) (M := 1); try assumption; try num.
    - rewrite Rmult_0_l. exact AZ.
    - rewrite Rabs_pos_eq; lra.
    - rewrite Rabs_pos_eq; [|lra]. rewrite Rmult_1_l. apply sq_le; lra. }
  split; [exact A|]. rewrite fdiv_val; [|apply AZ|apply AR|apply guess_r|apply A]. apply rnd_pos.
  pose proof (approx_bounds _ _ _ AZ). pose proof (approx_bounds _ _ _ AR). apply Rmult_le_pos; [lra|left; apply Rinv_0_lt_compat; lra].
Qed.
Let s1 := sp * (1 + cp * cp * corr1 eps e2 (sp * sp)).
Lemma guess_s1 : 2999 / 10000 < cp * cp -> approx fs1 s1 (8 / 1000000000000000) /\ 0 <= rval fs1.
Proof.
  intros B. destruct guess_dir as (C0 & S0 & SC & _ & _ & C1 & S1 & _ & _ & E).
  pose proof cp2_bound as CB. rewrite Rabs_pos_eq in CB by apply sq_nonneg.
  pose proof (corr1_bounds eps e2 (sp * sp) E datum_e2 ltac:(pose proof (sq_nonneg sp); lra)) as KB.
  pose proof (mul_bound (cp * cp) _ 1 _ ltac:(pose proof (sq_nonneg cp); lra) KB) as KB2.
  assert (approx (fadd fone fk1) (1 + cp * cp * corr1 eps e2 (sp * sp)) (52 / 10000000000000000)) as A1.
  { eapply approx_add with (M := 1638 / 1000); [apply approx_one|exact guess_k1| | |]; try num. rewrite Rabs_pos_eq; lra. }
  destruct guess_zr as [A2 P2].
  assert (approx fs1 s1 (8 / 1000000000000000)) as A3.
  { eapply approx_mul with (A := 1) (B := 1638 / 1000); [exact A2|exact A1| | | |]; try num; rewrite Rabs_pos_eq; lra. }
  split; [exact A3|]. unfold fs1. rewrite fmul_val; [|apply A2|apply A1|apply A3]. apply rnd_pos, Rmult_le_pos; [exact P2|].
  pose proof (approx_bounds _ _ _ A1). lra.
Qed.
(* second branch *)
Definition fk2 : fl := fdiv (fmul (fdiv z2 r2) (fsub (fsub (fa5 a f) (fdiv (fa2 a f) r)) (fmul (fdiv w2 r2) fv))) r.
Definition fc2 : fl := fmul (fdiv w r) (fsub fone fk2).
Lemma corr2_eq : sp * sp * (a1 + a1 * e2 / 2 - a1 * a1 / Ro - cp * cp * v) / Ro = sp * sp * corr2 eps e2 (cp * cp).
Proof. unfold corr2, eps, v. field. lra. Qed.
Lemma guess_k2 : approx fk2 (sp * sp * corr2 eps e2 (cp * cp)) (5 / 1000000000000000).
Proof.
  destruct v_bound as [V U]. pose proof datum_a1 as A1. pose proof datum_a1e2 as A1E. pose proof sp2_bound as SB. pose proof cp2_bound as CB.
  assert (Rabs (a1 + a1 * e2 / 2 - a1 * a1 / Ro) <= 44400) as B1 by (apply Rabs_le; lra).
  assert (approx (fsub (fa5 a f) (fdiv (fa2 a f) r)) (a1 + a1 * e2 / 2 - a1 * a1 / Ro) (75 / 1000000000000)) as S1.
  { eapply approx_sub with (M := 44400); [exact datum_fa5|exact guess_u|exact B1| |]; num. }
  assert (approx (fmul (fdiv w2 r2) fv) (cp * cp * v) (171 / 1000000000000)) as S2.
  { eapply approx_mul with (A := 1) (B := 48760); [apply guess_c2|exact guess_v|exact CB|exact V| |]; num. }
  assert (Rabs (cp * cp * v) <= 48760) as B2 by (pose proof (mul_abs_le _ _ _ _ CB V); lra).
  assert (Rabs (a1 + a1 * e2 / 2 - a1 * a1 / Ro - cp * cp * v) <= 93160) as B3 by (eapply abs_sub_le; [exact B1|exact B2|lra]).
  assert (approx (fsub (fsub (fa5 a f) (fdiv (fa2 a f) r)) (fmul (fdiv w2 r2) fv)) (a1 + a1 * e2 / 2 - a1 * a1 / Ro - cp * cp * v) (258 / 1000000000000)) as S3.
  { eapply approx_sub with (M := 93160); [exact S1|exact S2|exact B3| |]; num. }
  assert (Rabs (sp * sp * (a1 + a1 * e2 / 2 - a1 * a1 / Ro - cp * cp * v)) <= 93160) as B4 by (pose proof (mul_abs_le _ _ _ _ SB B3); lra).
  assert (approx (fmul (fdiv z2 r2) (fsub (fsub (fa5 a f) (fdiv (fa2 a f) r)) (fmul (fdiv w2 r2) fv)))
            (sp * sp * (a1 + a1 * e2 / 2 - a1 * a1 / Ro - cp * cp * v)) (352 / 1000000000000)) as S4.
  { eapply approx_mul with (A := 1) (B := 93160); [apply guess_s2|exact S3|exact SB|exact B3| |]; num. }
  rewrite <- corr2_eq. unfold fk2.
  apply approx_div_rel with (ka := 353 / 100000000000000000) (kb := 7 / 10000000000000000) (lo := Ro) (M := 1); try assumption; try num.
  - eapply approx_weaken; [exact S4|lra].
  - rewrite Rabs_pos_eq; lra.
Qed.
Hypothesis PW : 0 <= rval w.
Lemma guess_wr : approx (fdiv w r) cp (16 / 10000000000000000) /\ 0 <= rval (fdiv w r).
Proof.
  pose proof (sq_nonneg Zp).
  assert (approx (fdiv w r) cp (16 / 10000000000000000)) as A.
  { apply approx_div_rel with (ka := 7 / 10000000000000000) (kb := 7 / 10000000000000000) (lo := Ro) (M := 1); try assumption; try num.
    - rewrite Rabs_pos_eq; lra.
    - rewrite Rabs_pos_eq; [|lra]. rewrite Rmult_1_l. apply sq_le; lra. }
  split; [exact A|]. rewrite fdiv_val; [|apply AW|apply AR|apply guess_r|apply A]. apply rnd_pos.
  pose proof (approx_bounds _ _ _ AR). apply Rmult_le_pos; [lra|left; apply Rinv_0_lt_compat; lra].
Qed.
Let c2 := cp * (1 - sp * sp * corr2 eps e2 (cp * cp)).
Lemma guess_cos2 : cp * cp <= 3001 / 10000 -> approx fc2 c2 (8 / 1000000000000000) /\ 0 <= rval fc2.
Proof.
  intros B. destruct guess_dir as (C0 & S0 & SC & _ & _ & C1 & S1 & _ & _ & E).
  pose proof sp2_bound as SB. rewrite Rabs_pos_eq in SB by apply sq_nonneg.
  pose proof (corr2_bounds eps e2 (cp * cp) E datum_e2 ltac:(pose proof (sq_nonneg cp); lra)) as KB.
  pose proof (mul_bound (sp * sp) _ 1 _ ltac:(pose proof (sq_nonneg sp); lra) KB) as KB2.
  assert (approx (fsub fone fk2) (1 - sp * sp * corr2 eps e2 (cp * cp)) (52 / 10000000000000000)) as A1.
  { eapply approx_sub with (M := 1); [apply approx_one|exact guess_k2| | |]; try num. rewrite Rabs_pos_eq; lra. }
  destruct guess_wr as [A2 P2].
  assert (approx fc2 c2 (8 / 1000000000000000)) as A3.
  { eapply approx_mul with (A := 1) (B := 1); [exact A2|exact A1| | | |]; try num; rewrite Rabs_pos_eq; lra. }
  split; [exact A3|]. unfold fc2. rewrite fmul_val; [|apply A2|apply A1|apply A3]. apply rnd_pos, Rmult_le_pos; [exact P2|].
  pose proof (approx_bounds _ _ _ A1). lra.
Qed.
End Datum.
