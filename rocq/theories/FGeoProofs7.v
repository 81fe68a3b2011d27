(* Error analysis of the binary64 geodesy, part 7: the last correction of
   ecef2llh. *)
From Coq Require Import Reals Lia Lra Psatz.
From Flocq Require Import Core BinarySingleNaN.
From Verif Require Import PyFloat FloatProofs PiBounds FloatErr FGeo FGeoSpec GeoSpec Geo GeoProofs EcefProofs EcefAccuracy FGeoProofs FGeoProofs2 FGeoProofs3 FGeoProofs4 FGeoProofs5.
Local Open Scope R_scope.

Section Tail.
Variables a f w zp z lat lon s c ss : fl.
Hypothesis FA : fdata a.
Hypothesis BA : 6300000 <= rval a <= 6400000.
Hypothesis FF : fdata f.
Hypothesis BF : 290 <= rval f.
Variables W Zp Ro th d : R.
Let e2 := 1 / rval f * (2 - 1 / rval f).
Let A := rval a.
Hypothesis B0 : 99999999 / 1000 <= Ro <= 20000000000.
Hypothesis D0 : 0 <= d <= 1.
Hypothesis WB : 0 <= W <= Ro.
Hypothesis ZB : 0 <= Zp <= Ro.
Hypothesis AW : approx w W (7 / 10000000000000000 * Ro + d).
Hypothesis AZ : approx zp Zp d.
Hypothesis HT : 0 <= th <= PI / 2.
Hypothesis GS : approx s (sin th) (5 / 10000000000000000).
Hypothesis GC : approx c (cos th) (4 / 1000000000000000).
Hypothesis GSS : approx ss (sin th * sin th) (3 / 10000000000000000).
Let T := Ro + 6430000.
Let S1 := sin th. Let C1 := cos th.
Let q := sqrt (1 - e2 * (S1 * S1)).

Definition fg := fsub fone (fmul (fe2 f) ss).
Definition frg := fdiv a (fsq fg).
Definition frf := fmul (fa6 f) frg.
Definition fu := fsub w (fmul frg c).
Definition fvv := fsub zp (fmul frf s).
Definition ff := fadd (fmul c fu) (fmul s fvv).
Definition fm := fsub (fmul c fvv) (fmul s fu).
Definition fd := fadd (fdiv frf fg) ff.

Lemma tail_facts : 0 < e2 <= 69 / 10000 /\ 0 <= S1 <= 1 /\ 0 <= C1 <= 1 /\ S1 * S1 + C1 * C1 = 1 /\ 9965 / 10000 <= q <= 1 /\
  q * q = 1 - e2 * (S1 * S1) /\ 6300000 <= A / q <= 6430000 /\ 0 <= (1 - e2) * (A / q) <= 6430000 /\ 0 <= S1 * S1 <= 1 /\ 993 / 1000 <= q * q <= 1.
Proof.
  pose proof (datum_e2 f BF) as E. fold e2 in E. pose proof PI_RGT_0 as Pi.
  assert (0 <= S1 <= 1) as S by (split; [apply sin_ge_0; lra|apply SIN_bound]).
  assert (0 <= C1 <= 1) as C by (split; [apply cos_ge_0; lra|apply COS_bound]).
  pose proof (sc1 th) as SC. fold S1 C1 in SC.
  destruct (root_bounds e2 S1 C1 E SC) as (G & Q & QQ). fold q in Q, QQ. pose proof (q_low e2 S1 C1 E SC) as QL. fold q in QL.
  assert (6300000 <= A / q <= 6430000) as R.
  { split; [apply le_div; unfold A; lra|apply div_le; unfold A; lra]. }
  pose proof (mul_bound (1 - e2) (A / q) 1 6430000 ltac:(lra) ltac:(lra)). pose proof (mul_bound S1 S1 1 1 ltac:(lra) ltac:(lra)).
  repeat split; try lra.
Qed.

Lemma tail_g : approx fg (q * q) (13 / 100000000000000000) /\ math_sqrt fg = Ok (fsq fg) /\ approx (fsq fg) q (25 / 100000000000000000).
Proof.
  destruct tail_facts as (E & S & C & SC & Q & QQ & RG & RF & SS & Q2).
  assert (approx (fmul (fe2 f) ss) (e2 * (S1 * S1)) (54 / 10000000000000000000)) as M1.
  { eapply approx_mul with (A := 69 / 10000) (B := 1); [apply (datum_fe2 f FF BF)|exact GSS| | | |]; try num; rewrite Rabs_pos_eq; (fold e2; fold S1; lra). }
  assert (approx fg (q * q) (13 / 100000000000000000)) as G.
  { rewrite QQ. eapply approx_sub with (M := 1); [apply approx_one|exact M1| | |]; try num. rewrite <- QQ, Rabs_pos_eq; lra. }
  split; [exact G|].
  destruct (approx_sqrt _ _ _ (9965 / 10000) 1 (25 / 100000000000000000) G) as [G1 G2]; try num.
  - apply Rmult_le_compat; lra.
  - split; [exact G2|]. rewrite sqrt_square in G1 by lra. exact G1.
Qed.

Lemma tail_rg : approx frg (A / q) (24 / 10000000000) /\ is_zero (fsq fg) = false.
Proof.
  destruct tail_facts as (E & S & C & SC & Q & QQ & RG & RF & SS & Q2). destruct tail_g as (_ & _ & G).
  unfold frg. apply approx_div with (ea := 0) (eb := 25 / 100000000000000000) (A := 6400000) (lo := 9965 / 10000) (M := 6430000); try num.
  - apply approx_exact, FA.
  - exact G.
  - rewrite Rabs_pos_eq; unfold A; lra.
  - rewrite Rabs_pos_eq; lra.
Qed.
Lemma tail_rf : approx frf ((1 - e2) * (A / q)) (4 / 1000000000).
Proof.
  destruct tail_facts as (E & S & C & SC & Q & QQ & RG & RF & SS & Q2). destruct tail_rg as (G & _).
  eapply approx_mul with (A := 1) (B := 6430000); [apply (datum_fa6 f FF BF)|exact G| | | |]; try num; rewrite Rabs_pos_eq; (fold e2; lra).
Qed.
Let u := W - A / q * C1.
Let v := Zp - (1 - e2) * (A / q) * S1.
Lemma uv_bound : Rabs u <= T /\ Rabs v <= T.
Proof.
  destruct tail_facts as (E & S & C & SC & Q & QQ & RG & RF & SS & Q2).
  pose proof (mul_bound (A / q) C1 6430000 1 ltac:(lra) ltac:(lra)). pose proof (mul_bound ((1 - e2) * (A / q)) S1 6430000 1 ltac:(lra) ltac:(lra)).
  unfold T, u, v. split; apply Rabs_le; lra.
Qed.
Lemma tail_u : approx fu u (T * (6 / 1000000000000000) + 1001 / 1000 * d).
Proof.
  destruct tail_facts as (E & S & C & SC & Q & QQ & RG & RF & SS & Q2). destruct tail_rg as (G & _). destruct uv_bound as [UB _].
  assert (approx (fmul frg c) (A / q * C1) (29 / 1000000000)) as M1.
  { eapply approx_mul with (A := 6430000) (B := 1); [exact G|exact GC| | | |]; try num; rewrite Rabs_pos_eq; (fold C1; lra). }
  eapply approx_sub with (M := T); [exact AW|exact M1|exact UB| |]; unfold T; num.
Qed.
Lemma tail_v : approx fvv v (T * (15 / 10000000000000000) + 1001 / 1000 * d).
Proof.
  destruct tail_facts as (E & S & C & SC & Q & QQ & RG & RF & SS & Q2). pose proof tail_rf as G. destruct uv_bound as [_ UB].
  assert (approx (fmul frf s) ((1 - e2) * (A / q) * S1) (8 / 1000000000)) as M1.
  { eapply approx_mul with (A := 6430000) (B := 1); [exact G|exact GS| | | |]; try num; rewrite Rabs_pos_eq; (fold S1; lra). }
  eapply approx_sub with (M := T); [exact AZ|exact M1|exact UB| |]; unfold T; num.
Qed.
Lemma f_eq : C1 * u + S1 * v = tail_f A e2 W Zp S1 C1.
Proof.
  destruct tail_facts as (E & S & C & SC & Q & QQ & _). unfold tail_f, u, v. fold q.
  replace (C1 * (W - A / q * C1) + S1 * (Zp - (1 - e2) * (A / q) * S1))
      with (C1 * W + S1 * Zp - A * ((S1 * S1 + C1 * C1) - e2 * (S1 * S1)) / q) by (field; lra).
  rewrite SC, <- QQ. field. lra.
Qed.
Lemma m_eq : C1 * v - S1 * u = tail_m A e2 W Zp S1 C1.
Proof.
  destruct tail_facts as (E & S & C & SC & Q & QQ & _). unfold tail_m, u, v. fold q. field. lra.
Qed.
Lemma fm_bound : Rabs (tail_f A e2 W Zp S1 C1) <= 2 * T /\ Rabs (tail_m A e2 W Zp S1 C1) <= 2 * T.
Proof.
  destruct tail_facts as (E & S & C & SC & Q & QQ & _). destruct uv_bound as [UB VB]. rewrite <- f_eq, <- m_eq.
  pose proof (b_pos _ _ S) as PS. pose proof (b_pos _ _ C) as PC. split.
  - pose proof (b_add _ _ _ _ (b_mul _ _ _ _ PC UB) (b_mul _ _ _ _ PS VB)). lra.
  - pose proof (b_sub _ _ _ _ (b_mul _ _ _ _ PC VB) (b_mul _ _ _ _ PS UB)). lra.
Qed.
Lemma tail_ff : approx ff (tail_f A e2 W Zp S1 C1) (T * (13 / 1000000000000000) + 201 / 100 * d).
Proof.
  destruct tail_facts as (E & S & C & SC & Q & QQ & _). destruct uv_bound as [UB VB]. destruct fm_bound as [FB _].
  pose proof (b_pos _ _ S) as PS. pose proof (b_pos _ _ C) as PC.
  assert (approx (fmul c fu) (C1 * u) (T * (102 / 10000000000000000) + 10011 / 10000 * d)) as M1.
  { eapply approx_mul with (A := 1) (B := T); [exact GC|exact tail_u|exact PC|exact UB| |]; unfold T; num. }
  assert (approx (fmul s fvv) (S1 * v) (T * (22 / 10000000000000000) + 10011 / 10000 * d)) as M2.
  { eapply approx_mul with (A := 1) (B := T); [exact GS|exact tail_v|exact PS|exact VB| |]; unfold T; num. }
  rewrite <- f_eq in *. eapply approx_add with (M := 2 * T); [exact M1|exact M2|exact FB| |]; unfold T; num.
Qed.
Lemma tail_fm : approx fm (tail_m A e2 W Zp S1 C1) (T * (13 / 1000000000000000) + 201 / 100 * d).
Proof.
  destruct tail_facts as (E & S & C & SC & Q & QQ & _). destruct uv_bound as [UB VB]. destruct fm_bound as [_ FB].
  pose proof (b_pos _ _ S) as PS. pose proof (b_pos _ _ C) as PC.
  assert (approx (fmul c fvv) (C1 * v) (T * (57 / 10000000000000000) + 10011 / 10000 * d)) as M1.
  { eapply approx_mul with (A := 1) (B := T); [exact GC|exact tail_v|exact PC|exact VB| |]; unfold T; num. }
  assert (approx (fmul s fu) (S1 * u) (T * (67 / 10000000000000000) + 10011 / 10000 * d)) as M2.
  { eapply approx_mul with (A := 1) (B := T); [exact GS|exact tail_u|exact PS|exact UB| |]; unfold T; num. }
  rewrite <- m_eq in *. eapply approx_sub with (M := 2 * T); [exact M1|exact M2|exact FB| |]; unfold T; num.
Qed.
Lemma tail_fd : approx fd (tail_d A e2 W Zp S1 C1) (T * (15 / 1000000000000000) + 202 / 100 * d) /\ is_zero fg = false.
Proof.
  destruct tail_facts as (E & S & C & SC & Q & QQ & RG & RF & SS & Q2). destruct fm_bound as [FB _]. destruct tail_g as (G & _).
  assert (Rabs (A * (1 - e2) / q / (q * q)) <= 6480000) as RB.
  { replace (A * (1 - e2) / q / (q * q)) with ((1 - e2) * (A / q) / (q * q)) by (field; lra).
    rewrite Rabs_pos_eq; [apply div_le; lra|]. apply Rmult_le_pos; [lra|left; apply Rinv_0_lt_compat; lra]. }
  destruct (approx_div frf fg ((1 - e2) * (A / q)) (q * q) (4 / 1000000000) (13 / 100000000000000000) 6430000 (993 / 1000) 6480000 (6 / 1000000000)) as [D1 N]; try num.
  - exact tail_rf.
  - exact G.
  - rewrite Rabs_pos_eq; lra.
  - rewrite Rabs_pos_eq; lra.
  - split; [|exact N]. unfold tail_d. fold q. rewrite <- QQ.
    replace ((1 - e2) * (A / q) / (q * q)) with (A * (1 - e2) / q / (q * q)) in D1 by (field; lra).
    unfold fd. eapply approx_add with (M := 4 * T); [exact D1|exact tail_ff| | |].
    + eapply Rle_trans; [apply Rabs_triang|]. unfold T in *. lra.
    + unfold T; num.
    + unfold T; num.
Qed.

Lemma tail_run L : fecef_tail L a (fe2 f) (fa6 f) w zp z lat lon s c ss =
  let! p := fdivide fm fd in
  Ok (rad2deg (if fltb z fzero then fopp (fadd lat p) else fadd lat p), rad2deg lon, fadd ff (fdiv (fmul fm p) ftwo)).
Proof.
  destruct tail_g as (_ & E1 & _). destruct tail_rg as (_ & N1). destruct tail_fd as (_ & N2).
  unfold fecef_tail. cbv zeta. fold fg. rewrite E1. cbn [bind]. rewrite (fdivide_ok _ _ N1). cbn [bind]. fold frg. fold frf. fold fu. fold fvv. fold ff. fold fm.
  rewrite (fdivide_ok _ _ N2). cbn [bind]. fold fd. reflexivity.
Qed.
End Tail.
