(* Rational bounds on pi, from the Machin-like formula of the standard library. *)
From Coq Require Import Reals QArith Qreals Lra Lia Machin Ratan Qpower.
Local Open Scope R_scope.

Definition qseq (x : Q) (n : nat) : Q := (x ^ Z.of_nat (2 * n + 1) / inject_Z (Z.of_nat (2 * n + 1)))%Q.
Definition qterm (n : nat) : Q :=
  ((if Nat.even n then 1 else -1) * (2 * qseq (1 # 3) n + qseq (1 # 7) n))%Q.
Fixpoint qsum (n : nat) : Q :=
  match n with O => Qred (qterm 0) | S k => Qred (qsum k + qterm (S k)) end.

Lemma Q2R_pow x n : Q2R (x ^ Z.of_nat n) = (Q2R x) ^ n.
Proof.
  induction n as [|n IH]; [cbn; apply RMicromega.Q2R_1|].
  rewrite <- tech_pow_Rmult, <- IH, <- Q2R_mult. apply Qeq_eqR.
  rewrite Nat2Z.inj_succ. unfold Z.succ. rewrite Z.add_comm.
  rewrite Qpower_plus' by lia. reflexivity.
Qed.
Lemma Q2R_seq x n : Q2R (qseq x n) = Ratan_seq (Q2R x) n.
Proof.
  unfold qseq, Ratan_seq. rewrite Q2R_div.
  - rewrite Q2R_pow. f_equal. unfold Q2R, inject_Z. cbn [Qnum Qden]. rewrite <- INR_IZR_INZ. field.
  - unfold Qeq, inject_Z. cbn [Qnum Qden]. lia.
Qed.
Lemma Q2R_term n : Q2R (qterm n) = tg_alt PI_2_3_7_tg n.
Proof.
  unfold qterm, tg_alt, PI_2_3_7_tg. rewrite Q2R_mult, Q2R_plus, Q2R_mult, !Q2R_seq.
  replace (Q2R (1 # 3)) with (/ 3) by (unfold Q2R; cbn; lra).
  replace (Q2R (1 # 7)) with (/ 7) by (unfold Q2R; cbn; lra).
  replace (Q2R 2) with 2 by (unfold Q2R; cbn; lra). f_equal.
  destruct (Nat.even n) eqn:E.
  - apply Nat.even_spec in E as [k ->]. rewrite pow_1_even. unfold Q2R; cbn; lra.
  - assert (Nat.odd n = true) as O by (unfold Nat.odd; rewrite E; reflexivity).
    apply Nat.odd_spec in O as [k ->]. rewrite Nat.add_1_r, pow_1_odd. unfold Q2R; cbn; lra.
Qed.
Lemma Q2R_sum n : Q2R (qsum n) = sum_f_R0 (tg_alt PI_2_3_7_tg) n.
Proof.
  induction n as [|n IH]; cbn [qsum sum_f_R0].
  - rewrite (Qeq_eqR _ _ (Qred_correct _)). apply Q2R_term.
  - rewrite (Qeq_eqR _ _ (Qred_correct _)), Q2R_plus, IH, Q2R_term. reflexivity.
Qed.

Lemma pi_bounds : 3.14159265358979323846 < PI < 3.14159265358979323847.
Proof.
  destruct (PI_2_3_7_ineq 11) as [A B]. rewrite <- !Q2R_sum in A, B.
  assert (Q2R (314159265358979323846 # 400000000000000000000) < Q2R (qsum (S (2 * 11)))) as L
    by (apply Qlt_Rlt; vm_compute; reflexivity).
  assert (Q2R (qsum (2 * 11)) < Q2R (314159265358979323847 # 400000000000000000000)) as U
    by (apply Qlt_Rlt; vm_compute; reflexivity).
  assert (Q2R (314159265358979323846 # 400000000000000000000) = 314159265358979323846 / 400000000000000000000) as EL by reflexivity.
  assert (Q2R (314159265358979323847 # 400000000000000000000) = 314159265358979323847 / 400000000000000000000) as EU by reflexivity.
  rewrite EL in L. rewrite EU in U. lra.
Qed.
