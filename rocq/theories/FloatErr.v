(* Forward error analysis of the binary64 operations of PyFloat.v. *)
From Coq Require Import Reals Lia Lra Psatz.
From Flocq Require Import Core Operations BinarySingleNaN Relative.
From Verif Require Import Helpers FloatProofs PiBounds FGeo.
Local Open Scope R_scope.

(* half a unit in the last place of 1, and a number far below anything here
   but far above the smallest float *)
Definition u53 : R := / 9007199254740992.
Definition tiny : R := / 1000000000000000000000000000000.
Definition big : R := 1000000000000000000000000000000.

(* x is a finite float within e of r *)
Definition approx (x : fl) (r e : R) : Prop := fdata x /\ Rabs (rval x - r) <= e.

Lemma rnd_rel r : Rabs (rnd r - r) <= Rabs r * u53 + tiny.
Proof.
  destruct (error_N_FLT radix2 (-1074) 53 eq_refl (fun n => negb (Z.even n)) r) as (e & h & E & H & _ & R).
  change (rnd r) with (round radix2 (FLT_exp (-1074) 53) ZnearestE r). rewrite R.
  replace (r * (1 + e) + h - r) with (r * e + h) by ring.
  eapply Rle_trans; [apply Rabs_triang|]. rewrite Rabs_mult.
  apply Rplus_le_compat.
  - apply Rmult_le_compat_l; [apply Rabs_pos|]. eapply Rle_trans; [exact E|]. unfold u53. change (bpow radix2 (- (53) + 1)) with (/ 4503599627370496). lra.
  - eapply Rle_trans; [exact H|]. apply Rle_trans with (bpow radix2 (-100)).
    + apply Rle_trans with (bpow radix2 (-1074)); [pose proof (bpow_gt_0 radix2 (-1074)); lra|apply bpow_le; lia].
    + unfold tiny. change (bpow radix2 (-100)) with (/ 1267650600228229401496703205376). lra.
Qed.

Lemma big_huge : big + big < huge.
Proof. apply Rlt_trans with (bpow radix2 200); [unfold big|apply huge_big; lia].
  change (bpow radix2 200) with 1606938044258990275541962092341162602522202993782792835301376. lra. Qed.

Lemma approx_nearest s t x r d M e :
  nearest s t x -> Rabs (t - r) <= d -> Rabs r <= M -> M + d <= big -> d + (M + d) * u53 + tiny <= e -> approx x r e.
Proof.
  intros N D RM B E. assert (0 <= d) by (eapply Rle_trans; [apply Rabs_pos|exact D]).
  assert (Rabs t <= M + d) as T.
  { replace t with (r + (t - r)) by ring. eapply Rle_trans; [apply Rabs_triang|]. lra. }
  pose proof (rnd_rel t) as Q. assert (0 < u53) by (unfold u53; lra).
  assert (Rabs t * u53 <= (M + d) * u53) by (apply Rmult_le_compat_r; lra).
  assert (Rabs (rnd t) < huge) as HH.
  { apply Rle_lt_trans with (big + big); [|apply big_huge].
    replace (rnd t) with (t + (rnd t - t)) by ring. eapply Rle_trans; [apply Rabs_triang|].
    assert ((M + d) * u53 <= big * u53) by (apply Rmult_le_compat_r; lra).
    unfold big, u53, tiny in *. lra. }
  destruct (nearest_fdata _ _ _ N HH) as (F & V & _). split; [exact F|]. rewrite V.
  replace (rnd t - r) with ((rnd t - t) + (t - r)) by ring. eapply Rle_trans; [apply Rabs_triang|]. lra.
Qed.

Lemma approx_weaken x r e e' : approx x r e -> e <= e' -> approx x r e'.
Proof. intros [F H] L. split; [exact F|lra]. Qed.
Lemma approx_exact x : fdata x -> approx x (rval x) 0.
Proof. intros F. split; [exact F|]. rewrite Rminus_diag_eq, Rabs_R0 by reflexivity. lra. Qed.
Lemma approx_eq x r : fdata x -> rval x = r -> approx x r 0.
Proof. intros F <-. apply approx_exact, F. Qed.
Lemma approx_nonneg x r e : approx x r e -> 0 <= e.
Proof. intros [_ H]. eapply Rle_trans; [apply Rabs_pos|exact H]. Qed.
Lemma approx_int z : (Z.abs z <= 2 ^ 53)%Z -> approx (f_norm z 0) (IZR z) 0.
Proof. intros H. destruct (f_int z H) as (F & V & _). apply approx_eq; assumption. Qed.
Lemma approx_bounds x r e : approx x r e -> r - e <= rval x <= r + e.
Proof. intros [_ H]. apply Rabs_le_inv in H. lra. Qed.

Lemma mul_diff x y a b : x * y - a * b = a * (y - b) + (x - a) * b + (x - a) * (y - b).
Proof. ring. Qed.
Lemma approx_mul x y a b ea eb A B e :
  approx x a ea -> approx y b eb -> Rabs a <= A -> Rabs b <= B ->
  A * B + (A * eb + ea * B + ea * eb) <= big ->
  (A * eb + ea * B + ea * eb) + (A * B + (A * eb + ea * B + ea * eb)) * u53 + tiny <= e ->
  approx (fmul x y) (a * b) e.
Proof.
  intros X Y HA HB C E. pose proof (approx_nonneg _ _ _ X). pose proof (approx_nonneg _ _ _ Y).
  destruct X as [[Vx Fx] X], Y as [[Vy Fy] Y].
  eapply approx_nearest; [apply fmul_correct; assumption| | |exact C|exact E].
  - rewrite mul_diff. eapply Rle_trans; [apply Rabs_triang|]. rewrite Rabs_mult.
    apply Rplus_le_compat; [|apply Rmult_le_compat; try assumption; apply Rabs_pos].
    eapply Rle_trans; [apply Rabs_triang|]. rewrite !Rabs_mult.
    apply Rplus_le_compat; apply Rmult_le_compat; try assumption; apply Rabs_pos.
  - rewrite Rabs_mult. apply Rmult_le_compat; try assumption; apply Rabs_pos.
Qed.
Lemma approx_add x y a b ea eb M e :
  approx x a ea -> approx y b eb -> Rabs (a + b) <= M -> M + (ea + eb) <= big ->
  (ea + eb) + (M + (ea + eb)) * u53 + tiny <= e -> approx (fadd x y) (a + b) e.
Proof.
  intros [FX X] [FY Y] HM C E. destruct (fadd_correct x y FX FY) as [s N].
  eapply approx_nearest; [exact N| |exact HM|exact C|exact E].
  replace (rval x + rval y - (a + b)) with ((rval x - a) + (rval y - b)) by ring.
  eapply Rle_trans; [apply Rabs_triang|]. lra.
Qed.
Lemma approx_sub x y a b ea eb M e :
  approx x a ea -> approx y b eb -> Rabs (a - b) <= M -> M + (ea + eb) <= big ->
  (ea + eb) + (M + (ea + eb)) * u53 + tiny <= e -> approx (fsub x y) (a - b) e.
Proof.
  intros [FX X] [FY Y] HM C E. destruct (fsub_correct x y FX FY) as [s N].
  eapply approx_nearest; [exact N| |exact HM|exact C|exact E].
  replace (rval x - rval y - (a - b)) with ((rval x - a) + - (rval y - b)) by ring.
  eapply Rle_trans; [apply Rabs_triang|]. rewrite Rabs_Ropp. lra.
Qed.
Lemma fdata_zero x : fdata x -> is_zero x = true -> rval x = 0.
Proof. intros _ H. destruct x; try discriminate. reflexivity. Qed.
(* |b| >= lo > eb *)
Lemma approx_div x y a b ea eb A lo M e :
  approx x a ea -> approx y b eb -> Rabs a <= A -> lo <= Rabs b -> eb < lo -> A <= M * lo -> 
  M + (ea + M * eb) / (lo - eb) <= big ->
  (ea + M * eb) / (lo - eb) + (M + (ea + M * eb) / (lo - eb)) * u53 + tiny <= e ->
  approx (fdiv x y) (a / b) e /\ is_zero y = false.
Proof.
  intros X Y HA HB HE HM C E. pose proof (approx_nonneg _ _ _ X) as EA. pose proof (approx_nonneg _ _ _ Y) as EB.
  destruct X as [FX X], Y as [FY Y].
  assert (lo - eb <= Rabs (rval y)) as LY.
  { replace b with (rval y - (rval y - b)) in HB by ring. pose proof (Rabs_triang (rval y) (- (rval y - b))) as T.
    rewrite Rabs_Ropp in T. unfold Rminus at 1 in HB. lra. }
  assert (rval y <> 0) as Y0 by (intros Z0; rewrite Z0, Rabs_R0 in LY; lra).
  assert (b <> 0) as B0 by (intros Z0; rewrite Z0, Rabs_R0 in HB; lra).
  assert (is_zero y = false) as ZY.
  { destruct (is_zero y) eqn:Z0; [|reflexivity]. elim Y0. apply fdata_zero; assumption. }
  split; [|exact ZY]. destruct FX as [Vx Fx], FY as [Vy Fy].
  assert (Rabs (a / b) <= M) as AM.
  { unfold Rdiv. rewrite Rabs_mult, Rabs_inv. apply Rmult_le_reg_r with (Rabs b); [lra|].
    rewrite Rmult_assoc, Rinv_l, Rmult_1_r by (apply Rabs_no_R0; exact B0).
    assert (0 <= M).
    { apply Rmult_le_reg_r with lo; [lra|]. rewrite Rmult_0_l. pose proof (Rabs_pos a). lra. }
    assert (M * lo <= M * Rabs b) by (apply Rmult_le_compat_l; lra). lra. }
  eapply approx_nearest; [apply fdiv_correct; assumption| |exact AM|exact C|exact E].
  replace (rval x / rval y - a / b) with (((rval x - a) - (a / b) * (rval y - b)) / rval y) by (field; split; assumption).
  unfold Rdiv at 1. rewrite Rabs_mult, Rabs_inv. apply Rmult_le_compat.
  - apply Rabs_pos.
  - apply Rlt_le, Rinv_0_lt_compat. lra.
  - eapply Rle_trans; [apply (Rabs_triang _ (- _))|]. rewrite Rabs_Ropp, Rabs_mult.
    apply Rplus_le_compat; [exact X|]. apply Rmult_le_compat; try assumption; apply Rabs_pos.
  - apply Rinv_le_contravar; lra.
Qed.
Lemma approx_opp x a e : approx x a e -> approx (fopp x) (- a) e.
Proof.
  intros [F X]. destruct (fopp_correct x F) as [F' V]. split; [exact F'|]. rewrite V.
  replace (- rval x - - a) with (- (rval x - a)) by ring. rewrite Rabs_Ropp. exact X.
Qed.
Lemma approx_abs x a e : approx x a e -> approx (fabs x) (Rabs a) e.
Proof.
  intros [[V F] X]. destruct (fabs_correct x V) as (V' & E & F' & _). split; [split; [exact V'|congruence]|].
  rewrite E. eapply Rle_trans; [apply Rabs_triang_inv2|exact X].
Qed.

(* ------------------------------------------------------------------ sqrt *)
Lemma fsqrt_correct x : fdata x -> 0 <= rval x ->
  fdata (SFsqrt fprec femax x) /\ rval (SFsqrt fprec femax x) = rnd (sqrt (rval x)).
Proof.
  intros [V F] P. destruct x as [s|s| |s m e]; try discriminate.
  - cbn. rewrite sqrt_0, rnd_0. split; [split; reflexivity|reflexivity].
  - destruct s.
    + exfalso. cbn in P. pose proof (F2R_lt_0 radix2 (Float radix2 (Z.neg m) e) eq_refl). lra.
    + cbn [SFsqrt]. pose proof (Bsqrt_correct_aux fprec femax _ _ mode_NE m e V) as B. cbn zeta in B.
      destruct (SFsqrt_core_binary _ _ _ _) as [[mz ez] lz] eqn:S. rewrite binary_round_aux_equiv.
      destruct B as (B1 & B2 & B3 & _). rewrite is_fin_SF in B3. split; [split; assumption|exact B2].
Qed.
Lemma math_sqrt_ok x : fdata x -> 0 <= rval x -> math_sqrt x = Ok (SFsqrt fprec femax x).
Proof.
  intros F P. destruct (fsqrt_correct x F P) as [[_ G] _]. unfold math_sqrt, math1.
  destruct (SFsqrt fprec femax x); try discriminate; reflexivity.
Qed.
Lemma math1_ok f x : is_fin (f x) = true -> math1 f x = Ok (f x).
Proof. intros G. unfold math1. destruct (f x); try discriminate; reflexivity. Qed.
(* a >= lo^2, lo > 0 *)
Lemma approx_sqrt x a ea lo M e : approx x a ea -> 0 < lo -> lo * lo <= a -> a <= M * M -> 0 <= M -> ea <= lo * lo ->
  M + ea / lo <= big -> ea / lo + (M + ea / lo) * u53 + tiny <= e ->
  approx (SFsqrt fprec femax x) (sqrt a) e /\ math_sqrt x = Ok (SFsqrt fprec femax x).
Proof.
  intros X L LA AM M0 EL C E. pose proof (approx_nonneg _ _ _ X) as EA. pose proof (approx_bounds _ _ _ X) as BX.
  destruct X as [F X]. assert (0 <= rval x) as P by lra.
  split; [|apply math_sqrt_ok; assumption].
  destruct (fsqrt_correct x F P) as [G V]. split; [exact G|]. rewrite V.
  assert (lo <= sqrt a) as SL.
  { rewrite <- (sqrt_square lo) by lra. apply sqrt_le_1_alt, LA. }
  assert (Rabs (sqrt (rval x) - sqrt a) <= ea / lo) as D.
  { replace (sqrt (rval x) - sqrt a) with ((rval x - a) / (sqrt (rval x) + sqrt a)).
    - unfold Rdiv. rewrite Rabs_mult, Rabs_inv. pose proof (sqrt_pos (rval x)).
      rewrite (Rabs_pos_eq (sqrt _ + _)) by lra. apply Rmult_le_compat; [apply Rabs_pos| |exact X|].
      + apply Rlt_le, Rinv_0_lt_compat. lra.
      + apply Rinv_le_contravar; lra.
    - pose proof (sqrt_pos (rval x)). pose proof (sqrt_sqrt (rval x) P) as S1. pose proof (sqrt_sqrt a ltac:(pose proof (Rmult_lt_0_compat lo lo); lra)) as S2.
      rewrite <- S1 at 1. rewrite <- S2 at 1. field. lra. }
  assert (sqrt a <= M) as SM.
  { rewrite <- (sqrt_square M) by exact M0. apply sqrt_le_1_alt, AM. }
  pose proof (rnd_rel (sqrt (rval x))) as Q. rewrite (Rabs_pos_eq (sqrt (rval x))) in Q by apply sqrt_pos.
  assert (0 < u53) by (unfold u53; lra).
  assert (sqrt (rval x) <= M + ea / lo) as SX by (apply Rabs_le_inv in D; lra).
  assert (sqrt (rval x) * u53 <= (M + ea / lo) * u53) by (apply Rmult_le_compat_r; lra).
  replace (rnd _ - sqrt a) with ((rnd (sqrt (rval x)) - sqrt (rval x)) + (sqrt (rval x) - sqrt a)) by ring.
  eapply Rle_trans; [apply Rabs_triang|]. lra.
Qed.

(* ------------------------------------------------------------- constants *)
Lemma py_pi_data : fdata py_pi. Proof. split; reflexivity. Qed.
Lemma py_pi_val : rval py_pi = 7074237752028440 / 2251799813685248.
Proof. unfold rval, py_pi. cbn [SF2R]. rewrite F2R_neg by lia. reflexivity. Qed.
Lemma approx_pi : approx py_pi PI (123 / 1000000000000000000).
Proof.
  split; [apply py_pi_data|]. rewrite py_pi_val. pose proof pi_bounds. apply Rabs_le. lra.
Qed.
Lemma py_pi_lt : rval py_pi < PI.
Proof. rewrite py_pi_val. pose proof pi_bounds. lra. Qed.
Lemma approx_180 : approx f180 180 0. Proof. apply (approx_int 180). lia. Qed.
Lemma approx_360 : approx f360 360 0. Proof. apply (approx_int 360). lia. Qed.
Lemma approx_one : approx fone 1 0. Proof. apply (approx_int 1). lia. Qed.
Lemma approx_two : approx ftwo 2 0. Proof. apply (approx_int 2). lia. Qed.

Ltac num := unfold u53, tiny, big in *; lra.

(* degrees to radians *)
Lemma approx_deg2rad c D e : fdata c -> Rabs (rval c) <= D -> D <= 1000 ->
  D * (47 / 10000000000000000000) <= e -> tiny * 3 <= e / 100 -> approx (deg2rad c) (rval c * PI / 180) e.
Proof.
  intros F B D1 E T. assert (0 <= D) by (eapply Rle_trans; [apply Rabs_pos|exact B]). pose proof pi_bounds as P.
  assert (approx (fmul c py_pi) (rval c * PI) (D * (480 / 1000000000000000000) + 2 * tiny)) as M.
  { eapply approx_mul with (A := D) (B := 32 / 10); [apply approx_exact, F|apply approx_pi|exact B| | |]; try num.
    all: try (apply Rabs_le; lra). }
  unfold deg2rad. apply (approx_div _ _ _ _ _ _ (D * (32 / 10)) 180 (D * (32 / 1800)) e M approx_180); try num.
  - rewrite Rabs_mult. apply Rmult_le_compat; try apply Rabs_pos; [exact B|apply Rabs_le; lra].
  - rewrite Rabs_pos_eq; lra.
Qed.
