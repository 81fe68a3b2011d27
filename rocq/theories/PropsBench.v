(* C119: the benchmark program *)
From Coq Require Import Lia QArith.
From Verif Require Import Message Reader BaseLemmas Spec Benchmark.
Local Open Scope Z_scope.

(* the progress bar at k twentieths: "05% " and 20 blocks, k of them dark *)
Definition bar_text (k : Z) (s : pystr) : Prop :=
  0 <= k < 20 /\ exists a b, s = [a; b; 37; 32]%N ++ repeat 9619%N (Z.to_nat k) ++ repeat 9617%N (20 - Z.to_nat k)
  /\ (48 <= a <= 57)%N /\ (48 <= b <= 57)%N /\ Z.of_N ((a - 48) * 10 + (b - 48))%N = 5 * k.
(* 0, 1, ..., n - 1 *)
Definition upto (n : Z) : list Z := map Z.of_nat (seq 0 (Z.to_nat n)).
(* the number of cycles that is asked for *)
Definition asked (arg : option pystr) (n : Z) : Prop := arg = None /\ n = 10000 \/ exists t, arg = Some t /\ int_of_str t = Ok n.

Lemma parse_each_shift ms : forall d l a b e d' l',
  parse_each ms d l = (d + a, l + b, e) -> parse_each ms d' l' = (d' + a, l' + b, e).
Proof.
  induction ms as [|m r IH]; intros d l a b e d' l' H; cbn [parse_each] in *.
  - injection H as H1 H2 <-. replace a with 0 by lia. replace b with 0 by lia. rewrite !Z.add_0_r. reflexivity.
  - destruct (parse (MBytes m) 0 1 []).
    + replace (d + a) with (d + 1 + (a - 1)) in H by lia. replace (l + b) with (l + Z.of_nat (length m) + (b - Z.of_nat (length m))) in H by lia.
      rewrite (IH _ _ _ _ _ (d' + 1) (l' + Z.of_nat (length m)) H). f_equal. f_equal; lia.
    + injection H as H1 H2 <-. replace a with 0 by lia. replace b with (Z.of_nat (length m)) by lia. rewrite Z.add_0_r. reflexivity.
Qed.
Lemma all_parse d l : parse_each NMEAMESSAGES d l = (d + 30, l + 1889, None).
Proof. apply (parse_each_shift NMEAMESSAGES 0 0). vm_compute. reflexivity. Qed.

Definition at_bar (n i : Z) : bool := i mod (n / 20) =? 0.
Lemma cycles_run n : 20 <= n -> forall k i d l, 0 <= i -> i + Z.of_nat k = n ->
  cycles k i n d l = (map (fun i => bar (i * 20 / n)) (filter (at_bar n) (map (fun j => i + Z.of_nat j) (seq 0 k))), d + 30 * Z.of_nat k, l + 1889 * Z.of_nat k, None).
Proof.
  intros Hn. induction k as [|k IH]; intros i d l I E; [cbn; rewrite !Z.add_0_r; reflexivity|]. cbn [cycles]. unfold progbar.
  rewrite (Z.min_l i n) by lia. rewrite (proj2 (Z.eqb_neq n 0)) by lia. cbv zeta.
  assert (1 <= n / 20) as Q by (apply Z.div_le_lower_bound; lia). rewrite (proj2 (Z.eqb_neq (n / 20) 0)) by lia.
  assert (map (fun j => i + Z.of_nat j) (seq 0 (Datatypes.S k)) = i :: map (fun j => (i + 1) + Z.of_nat j) (seq 0 k)) as Sq.
  { cbn [seq map]. rewrite Z.add_0_r. f_equal. rewrite <- seq_shift, map_map. apply map_ext. intros j. lia. }
  rewrite Sq. cbn [filter]. unfold at_bar at 1. rewrite all_parse. specialize (IH (i + 1) (d + 30) (l + 1889) ltac:(lia) ltac:(lia)).
  destruct (i mod (n / 20) =? 0); cbn [negb]; rewrite IH; cbn [map app]; (match goal with |- (?a, ?b, ?c, ?e) = (_, ?b2, ?c2, _) => replace b with b2 by lia; replace c with c2 by lia; reflexivity end).
Qed.

Lemma benchmark_eq arg n duration : asked arg n -> benchmark arg duration = match cycles (Z.to_nat n) 0 n 0 0 with
      | (ts, done, len, Some e) => (ts, done, Raise e)
      | (ts, done, len, None) =>
          if duration =? 0 then (ts, done, Raise ZeroDivisionError)
          else (ts, done, Ok (inject_Z (30 * n * 1000000000) / inject_Z duration, inject_Z (len * 1000000000) / inject_Z duration / inject_Z 1024)%Q) end.
Proof. intros A. unfold benchmark. change (Z.of_nat (length NMEAMESSAGES)) with 30. destruct A as [(-> & ->)|(t & -> & ->)]; reflexivity. Qed.

(* ------------------------------------------------------------------ C119 *)
(* All thirty messages of the benchmark are read, and are what serialize() gives back. *)
Theorem C119_messages : length NMEAMESSAGES = 30%nat
  /\ Forall (fun b => exists m, parse (MBytes b) 0 1 [] = Ok (Some m) /\ serialize m = Ok (b ++ [cr; lf])) NMEAMESSAGES.
Proof.
  split; [reflexivity|]. apply Forall_forall.
  assert (forallb (fun b => match parse (MBytes b) 0 1 [] with Ok (Some m) => match serialize m with Ok s => str_eqb s (b ++ [cr; lf]) | _ => false end | _ => false end) NMEAMESSAGES = true) as H by (vm_compute; reflexivity).
  intros b B. pose proof (proj1 (forallb_forall _ _) H b B) as E. cbn beta in E. clear H B.
  destruct (parse (MBytes b) 0 1 []) as [[m|]|]; try discriminate E. exists m. split; [reflexivity|].
  destruct (serialize m) as [s|]; [|discriminate E]. apply str_eqb_eq in E. rewrite E. reflexivity.
Qed.
(* From 20 cycles on the program ends with its two figures: every message of every cycle is
   read, and in the course of it the progress bar is printed at each multiple of n/20. *)
Theorem C119_runs arg n duration : asked arg n -> 20 <= n -> 0 < duration ->
  exists bars txs kbs, benchmark arg duration = (bars, 30 * n, Ok (txs, kbs))
    /\ (txs == inject_Z (30 * n) * inject_Z 1000000000 / inject_Z duration)%Q
    /\ (kbs == inject_Z (1889 * n) * inject_Z 1000000000 / inject_Z duration / inject_Z 1024)%Q
    /\ Forall2 (fun i s => bar_text (20 * i / n) s) (filter (fun i => i mod (n / 20) =? 0) (upto n)) bars.
Proof.
  intros A N D. rewrite (benchmark_eq arg n duration A).
  rewrite (cycles_run n N _ 0 0 0 (Z.le_refl 0)) by lia. rewrite (proj2 (Z.eqb_neq duration 0)) by lia.
  rewrite !Z.add_0_l, Z2Nat.id by lia. do 3 eexists. split; [reflexivity|]. split; [rewrite inject_Z_mult; reflexivity|]. split; [rewrite inject_Z_mult; reflexivity|].
  assert (map (fun j => 0 + Z.of_nat j) (seq 0 (Z.to_nat n)) = upto n) as -> by (apply map_ext; intros j; reflexivity).
  change (filter (fun i : Z => i mod (n / 20) =? 0) (upto n)) with (filter (at_bar n) (upto n)).
  assert (Forall (fun i => 0 <= i < n) (filter (at_bar n) (upto n))) as F.
  { apply Forall_forall. intros i H. apply filter_In in H as [H _]. unfold upto in H. apply in_map_iff in H as (j & <- & J). apply in_seq in J. lia. }
  revert F. generalize (filter (at_bar n) (upto n)). induction l as [|i l IH]; intros F; [apply Forall2_nil|]. inversion F; subst. cbn [map]. apply Forall2_cons; [|apply IH; assumption].
  rewrite (Z.mul_comm 20 i). assert (0 <= i * 20 / n < 20) as K by (split; [apply Z.div_pos; lia|apply Z.div_lt_upper_bound; lia]).
  revert K. generalize (i * 20 / n). intros k K. split; [exact K|].
  assert (In k (map Z.of_nat (seq 0 20))) as J by (apply in_map_iff; exists (Z.to_nat k); split; [lia|apply in_seq; lia]).
  cbn in J. repeat (destruct J as [<-|J]; [do 2 eexists; split; [vm_compute; reflexivity|]; vm_compute; repeat split; discriminate|]). destruct J.
Qed.

Lemma seq_from a k : map Z.of_nat (seq a k) = map (fun j => Z.of_nat a + Z.of_nat j) (seq 0 k).
Proof.
  induction k as [|k IH]; [reflexivity|]. rewrite !seq_S, !map_app, IH. cbn [map]. rewrite Nat2Z.inj_add. reflexivity.
Qed.
Lemma filter_none {A} (p : A -> bool) l : (forall x, In x l -> p x = false) -> filter p l = [].
Proof. induction l as [|x l IH]; intros H; [reflexivity|]. cbn [filter]. rewrite (H x (or_introl eq_refl)). apply IH. intros y Y. apply H. right. exact Y. Qed.
Lemma multiples n m : 1 <= n -> filter (fun i => i mod n =? 0) (upto (Z.of_nat m * n)) = map (fun k => k * n) (upto (Z.of_nat m)).
Proof.
  intros N. induction m as [|m IH]; [reflexivity|].
  assert (upto (Z.of_nat (Datatypes.S m) * n) = upto (Z.of_nat m * n) ++ map (fun j => Z.of_nat m * n + Z.of_nat j) (seq 0 (Z.to_nat n))) as ->.
  { unfold upto. replace (Z.to_nat (Z.of_nat (Datatypes.S m) * n)) with (Z.to_nat (Z.of_nat m * n) + Z.to_nat n)%nat by nia.
    rewrite seq_app, map_app. f_equal. rewrite seq_from. apply map_ext. intros j. rewrite Nat.add_0_l, Z2Nat.id by nia. reflexivity. }
  rewrite filter_app, IH. unfold upto. rewrite !Nat2Z.id, seq_S, !map_app. f_equal. cbn [map Nat.add].
  destruct (Z.to_nat n) as [|k] eqn:K; [lia|]. cbn [seq map filter]. rewrite Z.add_0_r, Z_mod_mult. change (0 =? 0) with true. cbv iota. f_equal. apply filter_none.
  intros x H. apply in_map_iff in H as (j & <- & J). apply in_seq in J. rewrite Z.add_comm, Z_mod_plus_full, Z.mod_small by lia. apply Z.eqb_neq. lia.
Qed.
(* When 20 divides the number of cycles, it is printed twenty times: 0%, 5%, ..., 95%. *)
Theorem C119_bars arg n duration bars done r : asked arg (20 * n) -> 1 <= n -> 0 < duration ->
  benchmark arg duration = (bars, done, r) -> Forall2 bar_text (upto 20) bars.
Proof.
  intros A N D E. destruct (C119_runs arg (20 * n) duration A ltac:(lia) D) as (b & t & k & E2 & _ & _ & F). rewrite E in E2. injection E2 as -> _ _.
  replace (20 * n / 20) with n in F by (rewrite Z.mul_comm, Z.div_mul by lia; reflexivity).
  change (20 * n) with (Z.of_nat 20 * n) in F at 2. rewrite (multiples n 20 N) in F. change (Z.of_nat 20) with 20 in F.
  clear E t k. revert F. generalize (upto 20). intros l. revert b. induction l as [|i l IH]; intros b F; inversion F; subst; [apply Forall2_nil|]. apply Forall2_cons; [|apply IH; assumption].
  match goal with H : bar_text _ _ |- _ => replace (20 * (i * n) / (20 * n)) with i in H; [exact H|] end. replace (20 * (i * n)) with (i * (20 * n)) by lia. rewrite Z.div_mul by lia. reflexivity.
Qed.
(* With less than 20 cycles, but at least one, it fails before any message is read; with none, it
   reads nothing; and if the clock has not advanced, it fails at the end. *)
Theorem C119_few_refuted arg n duration : asked arg n -> 1 <= n < 20 -> benchmark arg duration = ([], 0, Raise ZeroDivisionError).
Proof.
  intros A N. assert (In n (map Z.of_nat (seq 1 19))) as J by (apply in_map_iff; exists (Z.to_nat n); split; [lia|apply in_seq; lia]).
  unfold benchmark. destruct A as [(_ & ->)|(t & -> & ->)]; [lia|]. cbn in J. repeat (destruct J as [<-|J]; [reflexivity|]). destruct J.
Qed.
Theorem C119_none arg n duration : asked arg n -> n <= 0 -> 0 < duration ->
  exists txs kbs, benchmark arg duration = ([], 0, Ok (txs, kbs)) /\ (kbs == 0)%Q /\ (txs <= 0)%Q.
Proof.
  intros A N D. unfold benchmark. destruct A as [(_ & ->)|(t & -> & ->)]; [lia|]. replace (Z.to_nat n) with 0%nat by lia. cbn [cycles]. rewrite (proj2 (Z.eqb_neq duration 0)) by lia.
  do 2 eexists. split; [reflexivity|]. split; [reflexivity|]. change (Z.of_nat (length NMEAMESSAGES)) with 30.
  apply Qle_shift_div_r; [unfold Qlt; cbn; lia|]. unfold Qle; cbn. lia.
Qed.
Theorem C119_clock arg n : asked arg n -> (n <= 0 \/ 20 <= n) -> exists bars done, benchmark arg 0 = (bars, done, Raise ZeroDivisionError).
Proof.
  intros A H. rewrite (benchmark_eq arg n 0 A). clear A. destruct H as [N|N].
  - replace (Z.to_nat n) with 0%nat by lia. do 2 eexists. reflexivity.
  - rewrite (cycles_run n N _ 0 0 0 (Z.le_refl 0)) by lia. do 2 eexists. reflexivity.
Qed.

Example C119_example : asked (Some (u "40")) (20 * 2) /\ asked (Some (u " 1_9 ")) 19 /\ asked None 10000 /\ asked (Some (u "-3")) (-3)
  /\ length (fst (fst (benchmark (Some (u "25")) 1000000000))) = 25%nat
  /\ nth 7 (fst (fst (benchmark (Some (u "25")) 1000000000))) [] = u "25% " ++ repeat 9619%N 5 ++ repeat 9617%N 15.
Proof.
  split; [right; eexists; split; reflexivity|]. split; [right; eexists; split; reflexivity|]. split; [left; split; reflexivity|]. split; [right; eexists; split; reflexivity|]. split; vm_compute; reflexivity.
Qed.
