(* Error analysis of the binary64 geodesy, part 5: the latitude ecef2llh starts
   its correction from. *)
From Coq Require Import Reals Lia Lra Psatz.
From Flocq Require Import Core BinarySingleNaN.
From Verif Require Import PyFloat FloatProofs PiBounds FloatErr FGeo FGeoSpec GeoSpec Geo GeoProofs EcefProofs EcefAccuracy FGeoProofs FGeoProofs2 FGeoProofs3 FGeoProofs4.
Local Open Scope R_scope.

(* sine and cosine near each other *)
Lemma root_gap s s' c c' ds lo : s * s + c * c = 1 -> s' * s' + c' * c' = 1 -> 0 <= c -> 0 <= c' -> 0 <= s <= 1 -> 0 <= s' <= 1 ->
  0 < lo -> lo <= c + c' -> Rabs (s' - s) <= ds -> Rabs (c' - c) <= 2 * ds / lo.
Proof.
  intros H H' C C' S S' L LC D. assert (0 <= ds) by (eapply Rle_trans; [apply Rabs_pos|exact D]).
  replace (c' - c) with (- ((s' - s) * (s' + s)) / (c + c')).
  - unfold Rdiv at 1. rewrite Rabs_mult, Rabs_Ropp, Rabs_mult, Rabs_inv, (Rabs_pos_eq (s' + s)), (Rabs_pos_eq (c + c')) by lra.
    replace (2 * ds / lo) with (ds * 2 * / lo) by (field; lra). apply Rmult_le_compat.
    + apply Rmult_le_pos; [apply Rabs_pos|lra].
    + left. apply Rinv_0_lt_compat. lra.
    + apply Rmult_le_compat; try lra. apply Rabs_pos.
    + apply Rinv_le_contravar; lra.
  - apply Rmult_eq_reg_r with (c + c'); [|lra]. unfold Rdiv. rewrite Rmult_assoc, Rinv_l, Rmult_1_r by lra.
    replace (- ((s' - s) * (s' + s))) with (s * s - s' * s') by ring. replace (s * s) with (1 - c * c) by lra. replace (s' * s') with (1 - c' * c') by lra. ring.
Qed.
Lemma mul_gap c c' s s' dc ds : Rabs (c' - c) <= dc -> Rabs (s' - s) <= ds -> 0 <= c <= 1 -> 0 <= s <= 1 ->
  Rabs (s' * c' - s * c) <= dc + ds + ds * dc.
Proof.
  intros DC DS C S. replace (s' * c' - s * c) with (s * (c' - c) + (s' - s) * c + (s' - s) * (c' - c)) by ring.
  pose proof (b_mul _ _ _ _ (b_pos s 1 S) DC). pose proof (b_mul _ _ _ _ DS (b_pos c 1 C)). pose proof (b_mul _ _ _ _ DS DC).
  pose proof (b_add _ _ _ _ (b_add _ _ _ _ H H0) H1). lra.
Qed.
(* the residual and the projection change little *)
Lemma residual_gap eps i sp cp s c s' c' ds dc : 0 <= eps <= 736 / 100000 -> 1 <= i <= 10036 / 10000 -> 0 <= sp <= 1 -> 0 <= cp <= 1 ->
  0 <= s <= 1 -> 0 <= c <= 1 -> Rabs (s' - s) <= ds -> Rabs (c' - c) <= dc -> ds <= 1 / 1000 -> dc <= 1 / 1000 ->
  Rabs ((c' * sp - s' * cp + eps * (s' * c') * i) - (c * sp - s * cp + eps * (s * c) * i)) <= 102 / 100 * (ds + dc).
Proof.
  intros E I SP CP S C DS DC BS BC.
  assert (0 <= ds) by (eapply Rle_trans; [apply Rabs_pos|exact DS]). assert (0 <= dc) by (eapply Rle_trans; [apply Rabs_pos|exact DC]).
  replace ((c' * sp - s' * cp + eps * (s' * c') * i) - (c * sp - s * cp + eps * (s * c) * i))
    with ((c' - c) * sp - (s' - s) * cp + eps * i * (s' * c' - s * c)) by ring.
  pose proof (b_mul _ _ _ _ DC (b_pos sp 1 SP)) as G1. pose proof (b_mul _ _ _ _ DS (b_pos cp 1 CP)) as G2.
  pose proof (mul_bound eps i (736 / 100000) (10036 / 10000) ltac:(lra) ltac:(lra)) as EI.
  pose proof (mul_gap _ _ _ _ _ _ DC DS C S) as G3. pose proof (b_mul _ _ _ _ (b_pos _ _ EI) G3) as G4.
  pose proof (b_add _ _ _ _ (b_sub _ _ _ _ G1 G2) G4). assert (ds * dc <= 1 / 1000 * dc) by (apply Rmult_le_compat_r; lra). lra.
Qed.
Lemma dot_gap sp cp s c s' c' ds dc : 0 <= sp <= 1 -> 0 <= cp <= 1 -> Rabs (s' - s) <= ds -> Rabs (c' - c) <= dc ->
  c * cp + s * sp - (ds + dc) <= c' * cp + s' * sp.
Proof.
  intros SP CP DS DC. pose proof (b_mul _ _ _ _ DC (b_pos cp 1 CP)) as G1. pose proof (b_mul _ _ _ _ DS (b_pos sp 1 SP)) as G2.
  pose proof (b_add _ _ _ _ G1 G2) as G. apply b_inv in G. lra.
Qed.

Definition guessed (a e2 W Zp Ro : R) (lat s c ss : fl) (th : R) : Prop :=
  0 <= th <= PI / 2 /\ approx lat th (4 / 10000000000000000) /\
  approx s (sin th) (5 / 10000000000000000) /\ approx c (cos th) (4 / 1000000000000000) /\
  approx ss (sin th * sin th) (3 / 10000000000000000) /\
  449 / 1000 * Ro <= cos th * W + sin th * Zp /\
  (6000000 <= Ro -> Rabs (tail_m a e2 W Zp (sin th) (cos th)) <= 2 / 100 * (a * e2) + Ro * (3 / 10000000000000)).

Lemma tail_m_dir a e2 W Zp Ro s c cp sp : 0 < Ro -> W = cp * Ro -> Zp = sp * Ro -> 0 < e2 <= 69 / 10000 -> s * s + c * c = 1 ->
  tail_m a e2 W Zp s c = Ro * (c * sp - s * cp + a * e2 / Ro * (s * c) * / sqrt (1 - e2 * (s * s))).
Proof. intros P EW EZ E SC. pose proof (q_low e2 s c E SC). unfold tail_m. rewrite EW, EZ. field. lra. Qed.

Lemma branch1 L a e2 W Zp Ro cp sp eps fs : libm_ok L -> 0 < Ro -> W = cp * Ro -> Zp = sp * Ro -> 0 <= sp <= 1 -> 0 <= cp <= 1 ->
  sp * sp + cp * cp = 1 -> 2999 / 10000 < cp * cp -> eps = a * e2 / Ro -> 0 < eps <= 4417 / 10000 -> (6000000 <= Ro -> eps <= 736 / 100000) ->
  0 < e2 <= 69 / 10000 ->
  approx fs (sp * (1 + cp * cp * corr1 eps e2 (sp * sp))) (8 / 1000000000000000) -> 0 <= rval fs ->
  exists th, math1 (l_asin L) fs = Ok (l_asin L fs) /\ math_sqrt (fsub fone (fmul fs fs)) = Ok (fsq (fsub fone (fmul fs fs))) /\
    guessed a e2 W Zp Ro (l_asin L fs) fs (fsq (fsub fone (fmul fs fs))) (fmul fs fs) th.
Proof.
  intros K R0 EW EZ SP CP SC CB EP E1 E6 E A P.
  pose proof (sq_nonneg sp) as Ps. pose proof (sq_nonneg cp) as Pc.
  pose proof (corr1_bounds eps e2 (sp * sp) E1 E ltac:(lra)) as KB. set (k := corr1 eps e2 (sp * sp)) in *.
  destruct (guess1_ok sp cp k (proj1 SP) (proj1 CP) SC CB KB) as (S1 & S2 & Cc & C0 & D).
  set (s1 := sp * (1 + cp * cp * k)) in *. set (c1 := sqrt (1 - s1 * s1)) in *.
  assert (s1 * s1 <= 9937 / 10000) as SS.
  { pose proof (guess1_sq (cp * cp) (2999 / 10000) k ltac:(lra) ltac:(lra) KB) as G.
    replace (s1 * s1) with ((1 - cp * cp) * ((1 + cp * cp * k) * (1 + cp * cp * k))) by (unfold s1; replace (1 - cp * cp) with (sp * sp) by lra; ring). lra. }
  assert (0 <= s1) as S0 by lra.
  assert (s1 <= 99685 / 100000) as S3 by (apply sq_le; lra).
  pose proof (approx_bounds _ _ _ A) as BS. set (s := rval fs) in *.
  assert (0 <= s <= 9969 / 10000) as BS1 by lra.
  assert (s * s <= 9969 / 10000 * (9969 / 10000)) as BSS by (apply Rmult_le_compat; lra).
  set (th := asin s). set (c := sqrt (1 - s * s)).
  assert (sin th = s) as Es by (apply sin_asin; lra).
  assert (cos th = c) as Ec by (unfold th; rewrite cos_asin by lra; unfold c, Rsqr; reflexivity).
  assert (0 <= th <= PI / 2) as BT.
  { split; [|apply asin_bound]. destruct (Rle_or_lt 0 th) as [?|H]; [assumption|exfalso].
    assert (sin th < 0) by (apply sin_lt_0_var; [pose proof PI_RGT_0; pose proof (asin_bound s); unfold th; lra|exact H]). lra. }
  assert (c * c = 1 - s * s) as CC by (apply sqrt_sqrt; lra). assert (0 <= c) as C2 by apply sqrt_pos.
  assert (77 / 1000 <= c) as CL by (apply sq_le; lra).
  assert (c <= 1) as C3 by (apply sq_le; pose proof (sq_nonneg s); lra).
  pose proof (asin_ok L K fs (proj1 A) ltac:(fold s; lra)) as AF. fold s in AF. fold th in AF.
  pose proof pi_bounds as PB.
  exists th. split; [apply (math1_fin _ _ _ AF)|].
  assert (approx (fmul fs fs) (s * s) (12 / 100000000000000000)) as Q1.
  { eapply approx_weaken; [apply sq_approx; [apply A|fold s; rewrite Rabs_pos_eq; lra]|]. fold s. num. }
  assert (approx (fsub fone (fmul fs fs)) (1 - s * s) (24 / 100000000000000000)) as Q2.
  { eapply approx_sub with (M := 1); [apply approx_one|exact Q1| | |]; try num. rewrite Rabs_pos_eq; pose proof (sq_nonneg s); lra. }
  destruct (approx_sqrt _ _ _ (77 / 1000) 1 (4 / 1000000000000000) Q2) as [Q3 Q4]; try num; try (pose proof (sq_nonneg s); lra).
  split; [exact Q4|]. fold (fsq (fsub fone (fmul fs fs))) in Q3. fold c in Q3.
  assert (Rabs (c - c1) <= 2 * (8 / 1000000000000000) / (77 / 1000)) as DC.
  { apply root_gap with (s := s1) (s' := s); try lra. apply A. }
  assert (Rabs (s - s1) <= 8 / 1000000000000000) as DS by apply A.
  assert (c1 <= 1) as C1B by (apply sq_le; pose proof (sq_nonneg s1); lra).
  unfold guessed. rewrite Es, Ec. split; [exact BT|]. split.
  { eapply (faithful_approx _ _ (16 / 10)); [exact AF|rewrite Rabs_pos_eq; lra|num]. }
  split; [eapply approx_weaken; [apply approx_exact, A|lra]|]. split; [exact Q3|]. split; [eapply approx_weaken; [exact Q1|lra]|].
  split.
  - pose proof (dot_gap sp cp s1 c1 s c _ _ SP CP DS DC) as G. rewrite EW, EZ.
    replace (c * (cp * Ro) + s * (sp * Ro)) with ((c * cp + s * sp) * Ro) by ring. apply Rmult_le_compat_r; lra.
  - intros R6. pose proof (E6 R6) as E7. rewrite (tail_m_dir a e2 W Zp Ro s c cp sp) by (assumption || lra).
    pose proof (inv_q _ (q_low e2 s c E ltac:(lra))) as IQ. rewrite <- EP. set (i := / sqrt (1 - e2 * (s * s))) in *.
    pose proof (guess1_residual eps e2 sp cp i ltac:(lra) E (proj1 SP) (proj1 CP) SC CB IQ) as G. cbv zeta in G. fold k in G. fold s1 in G. fold c1 in G.
    pose proof (residual_gap eps i sp cp s1 c1 s c _ _ ltac:(lra) IQ SP CP ltac:(lra) ltac:(lra) DS DC ltac:(lra) ltac:(lra)) as G2.
    rewrite Rabs_mult, (Rabs_pos_eq Ro) by lra. replace (2 / 100 * (a * e2)) with (Ro * (2 / 100 * eps)) by (rewrite EP; field; lra).
    rewrite <- Rmult_plus_distr_l. apply Rmult_le_compat_l; [lra|].
    set (t1 := c1 * sp - s1 * cp + eps * (s1 * c1) * i) in *. set (t := c * sp - s * cp + eps * (s * c) * i) in *.
    replace t with (t1 + (t - t1)) by ring. eapply Rle_trans; [apply Rabs_triang|]. lra.
Qed.

Lemma branch2 L a e2 W Zp Ro cp sp eps fc : libm_ok L -> 0 < Ro -> W = cp * Ro -> Zp = sp * Ro -> 0 <= sp <= 1 -> 0 <= cp <= 1 ->
  sp * sp + cp * cp = 1 -> cp * cp <= 3001 / 10000 -> eps = a * e2 / Ro -> 0 < eps <= 4417 / 10000 -> (6000000 <= Ro -> eps <= 736 / 100000) ->
  0 < e2 <= 69 / 10000 ->
  approx fc (cp * (1 - sp * sp * corr2 eps e2 (cp * cp))) (8 / 1000000000000000) -> 0 <= rval fc ->
  exists th, math1 (l_acos L) fc = Ok (l_acos L fc) /\
    math_sqrt (fsub fone (fmul fc fc)) = Ok (fsq (fsub fone (fmul fc fc))) /\
    guessed a e2 W Zp Ro (l_acos L fc) (fsq (fsub fone (fmul fc fc))) fc (fsub fone (fmul fc fc)) th.
Proof.
  intros K R0 EW EZ SP CP SC CB EP E1 E6 E A P.
  pose proof (sq_nonneg sp) as Ps. pose proof (sq_nonneg cp) as Pc.
  pose proof (corr2_bounds eps e2 (cp * cp) E1 E ltac:(lra)) as KB. set (k := corr2 eps e2 (cp * cp)) in *.
  destruct (guess2_ok sp cp k (proj1 SP) (proj1 CP) SC CB KB) as (C1 & C2 & Ss & S0 & D).
  set (c1 := cp * (1 - sp * sp * k)) in *. set (s1 := sqrt (1 - c1 * c1)) in *.
  assert (cp <= 548 / 1000) as CP1 by (apply sq_le; lra).
  pose proof (approx_bounds _ _ _ A) as BS. set (c := rval fc) in *.
  assert (0 <= c <= 5481 / 10000) as BS1 by lra.
  assert (c * c <= 5481 / 10000 * (5481 / 10000)) as BSS by (apply Rmult_le_compat; lra).
  set (th := acos c). set (s := sqrt (1 - c * c)).
  assert (cos th = c) as Ec by (apply cos_acos; lra).
  assert (sin th = s) as Es by (unfold th; rewrite sin_acos by lra; unfold s, Rsqr; reflexivity).
  assert (0 <= th <= PI / 2) as BT.
  { pose proof PI_RGT_0. split; [apply acos_bound|]. destruct (Rle_or_lt th (PI / 2)) as [?|HH]; [assumption|exfalso].
    assert (cos th < 0) by (apply cos_lt_0; [exact HH|pose proof (acos_bound c); unfold th; lra]). lra. }
  assert (s * s = 1 - c * c) as CC by (apply sqrt_sqrt; lra). assert (0 <= s) as S2 by apply sqrt_pos.
  assert (83 / 100 <= s) as CL by (apply sq_le; lra).
  assert (s <= 1) as C3 by (apply sq_le; pose proof (sq_nonneg c); lra).
  pose proof (acos_ok L K fc (proj1 A) ltac:(fold c; lra)) as AF. fold c in AF. fold th in AF.
  pose proof pi_bounds as PB.
  exists th. split; [apply (math1_fin _ _ _ AF)|].
  assert (approx (fmul fc fc) (c * c) (12 / 100000000000000000)) as Q1.
  { eapply approx_weaken; [apply sq_approx; [apply A|fold c; rewrite Rabs_pos_eq; lra]|]. fold c. num. }
  assert (approx (fsub fone (fmul fc fc)) (1 - c * c) (24 / 100000000000000000)) as Q2.
  { eapply approx_sub with (M := 1); [apply approx_one|exact Q1| | |]; try num. rewrite Rabs_pos_eq; pose proof (sq_nonneg c); lra. }
  destruct (approx_sqrt _ _ _ (83 / 100) 1 (402 / 1000000000000000000) Q2) as [Q3 Q4]; try num; try (pose proof (sq_nonneg c); lra).
  split; [exact Q4|]. fold (fsq (fsub fone (fmul fc fc))) in Q3. fold s in Q3.
  assert (Rabs (s - s1) <= 2 * (8 / 1000000000000000) / (83 / 100)) as DS.
  { apply root_gap with (s := c1) (s' := c); try lra. apply A. }
  assert (Rabs (c - c1) <= 8 / 1000000000000000) as DC by apply A.
  assert (s1 <= 1) as S1B by (apply sq_le; pose proof (sq_nonneg c1); lra).
  unfold guessed. rewrite Es, Ec. split; [exact BT|]. split.
  { eapply (faithful_approx _ _ (16 / 10)); [exact AF|rewrite Rabs_pos_eq; lra|num]. }
  split; [eapply approx_weaken; [exact Q3|]; lra|]. split; [eapply approx_weaken; [apply approx_exact, A|lra]|].
  split; [rewrite CC; eapply approx_weaken; [exact Q2|lra]|].
  split.
  - pose proof (dot_gap sp cp s1 c1 s c _ _ SP CP DS DC) as G. rewrite EW, EZ.
    replace (c * (cp * Ro) + s * (sp * Ro)) with ((c * cp + s * sp) * Ro) by ring. apply Rmult_le_compat_r; lra.
  - intros R6. pose proof (E6 R6) as E7. rewrite (tail_m_dir a e2 W Zp Ro s c cp sp) by (assumption || lra).
    pose proof (inv_q _ (q_low e2 s c E ltac:(lra))) as IQ. rewrite <- EP. set (i := / sqrt (1 - e2 * (s * s))) in *.
    pose proof (guess2_residual eps e2 sp cp i ltac:(lra) E (proj1 SP) (proj1 CP) SC CB IQ) as G. cbv zeta in G. fold k in G. fold c1 in G. fold s1 in G.
    pose proof (residual_gap eps i sp cp s1 c1 s c _ _ ltac:(lra) IQ SP CP ltac:(lra) ltac:(lra) DS DC ltac:(lra) ltac:(lra)) as G2.
    rewrite Rabs_mult, (Rabs_pos_eq Ro) by lra. replace (2 / 100 * (a * e2)) with (Ro * (2 / 100 * eps)) by (rewrite EP; field; lra).
    rewrite <- Rmult_plus_distr_l. apply Rmult_le_compat_l; [lra|].
    set (t1 := c1 * sp - s1 * cp + eps * (s1 * c1) * i) in *. set (t := c * sp - s * cp + eps * (s * c) * i) in *.
    replace t with (t1 + (t - t1)) by ring. eapply Rle_trans; [apply Rabs_triang|]. lra.
Qed.
