(* Theorems about when the network is asked for more data: C87. *)
From Verif Require Import Message Reader Socket BaseLemmas Spec ReaderSpec ReaderProofs SocketSpec SocketProofs PropsReader PropsSocket PropsWaiting.
From Coq Require Import Lia.
Local Open Scope nat_scope.

(* [used]: the results of recv() between two states of a plain wrapper.  Either there were
   none, or the last one was data of which not all is left, or (a failure) less than N bytes
   are left *)
Definition thrifty (N : nat) (k : sock) (used : list recv_result) (k' : sock) : Prop :=
  (used = [] /\ length (k_buffer k') <= length (k_buffer k))
  \/ (exists u d, used = u ++ [RData d] /\ length (k_buffer k') < length d)
  \/ (used <> [] /\ length (k_buffer k') < N).
Lemma thrifty_trans N k u1 k1 u2 k2 : thrifty N k u1 k1 -> thrifty N k1 u2 k2 -> thrifty N k (u1 ++ u2) k2.
Proof.
  intros T1 [[-> L]|[(u & d & -> & L)|[NE L]]].
  - rewrite app_nil_r. destruct T1 as [[-> L1]|[(u & d & -> & L1)|[NE L1]]]; [left; split; [reflexivity|lia]|right; left; exists u, d; split; [reflexivity|lia]|right; right; split; [exact NE|lia]].
  - right. left. exists (u1 ++ u), d. rewrite app_assoc. auto.
  - right. right. split; [|exact L]. intros E. apply app_eq_nil in E as [_ E]. contradiction.
Qed.

Lemma read_loop_thrifty fuel : forall n k r k',
  plain_sock k -> (length (k_pending k) < fuel) -> sock_read_loop fuel n k = (r, k') ->
  exists used, k_pending k = used ++ k_pending k' /\ k_buffer k ++ data used = got r ++ k_buffer k' /\ plain_sock k'
    /\ ((exists x, r = Ok x /\ length x = n /\ ((used = [] /\ length (k_buffer k') <= length (k_buffer k)) \/ exists u d, used = u ++ [RData d] /\ length (k_buffer k') < length d))
        \/ (r = Ok [] /\ length (k_buffer k') < n)).
Proof.
  induction fuel as [|f IH]; intros n k r k' P L H; [lia|]. cbn [sock_read_loop] in H.
  destruct (Nat.ltb_spec (length (k_buffer k)) n) as [Lt|Ge].
  - destruct (sock_recv k) as [ok k1] eqn:E. destruct (recv_spec _ _ _ E) as (used & Q & B & _ & En & _ & Ht & _ & Hr).
    rewrite received_plain in B by exact P. cbn [fst] in B.
    assert (plain_sock k1) as P1 by (unfold plain_sock; rewrite En; exact P).
    destruct ok as [[|]|e].
    + destruct (Ht eq_refl) as (x & Nx & ->). rewrite Q in L. cbn in L, B. rewrite app_nil_r in B.
      destruct (IH n k1 r k' P1 ltac:(lia) H) as (u2 & Q2 & B2 & P2 & C).
      exists ([RData x] ++ u2). split; [rewrite Q, Q2; reflexivity|].
      split; [unfold data in *; rewrite flat_map_app; cbn; rewrite app_nil_r, app_assoc, <- B; exact B2|]. split; [exact P2|].
      destruct C as [(y & -> & Ly & C)|C]; [left|right; exact C]. exists y. split; [reflexivity|]. split; [exact Ly|]. right.
      destruct C as [[-> Lk]|(u & d & -> & Ld)].
      * exists [], x. split; [reflexivity|]. apply (f_equal (@length _)) in B2. cbn [got data flat_map] in B2. rewrite !app_length, B, app_length in B2. cbn [length] in B2. lia.
      * exists (RData x :: u), d. split; [reflexivity|exact Ld].
    + injection H as <- <-. exists used. split; [exact Q|]. split; [cbn; symmetry; exact B|]. split; [exact P1|]. right. split; [reflexivity|].
      destruct used as [|q used]; [rewrite B; cbn; rewrite app_nil_r; exact Lt|].
      destruct (recv_spec _ _ _ E) as (used' & Q' & _ & _ & _ & _ & _ & Hf & _).
      assert (used' = q :: used) as -> by (rewrite Q in Q'; apply app_inv_tail in Q'; symmetry; exact Q').
      destruct (Hf eq_refl) as [[X _]|(s & X & F)]; [discriminate X|]. injection X as -> ->.
      assert (data [s] = []) as D by (destruct F as [->| ->]; reflexivity). rewrite B, D, app_nil_r. exact Lt.
    + destruct (Hr e eq_refl) as [X _]. unfold plain_sock in P. congruence.
  - injection H as <- <-. exists []. cbn [k_pending k_buffer got]. split; [reflexivity|]. split; [cbn; rewrite app_nil_r; symmetry; apply firstn_skipn|]. split; [exact P|].
    left. eexists. split; [reflexivity|]. split; [apply firstn_length_le, Ge|]. left. split; [reflexivity|]. rewrite skipn_length. lia.
Qed.
Lemma read_thrifty N n k r k' : plain_sock k -> n <= N -> sock_read n k = (r, k') ->
  exists used, k_pending k = used ++ k_pending k' /\ k_buffer k ++ data used = got r ++ k_buffer k' /\ plain_sock k' /\ thrifty N k used k'
    /\ (exists x, r = Ok x /\ (length x = n \/ x = []))
    /\ (forall x, r = Ok x -> x <> [] -> thrifty 0 k used k').
Proof.
  intros P L E. destruct (read_loop_thrifty _ _ _ _ _ P (Nat.lt_succ_diag_r _) E) as (used & Q & B & P' & C).
  exists used. split; [exact Q|]. split; [exact B|]. split; [exact P'|].
  destruct C as [(x & -> & Lx & C)|(-> & Lb)].
  - assert (thrifty N k used k' /\ thrifty 0 k used k') as [T T0] by (split; destruct C as [C|C]; [left|right; left|left|right; left]; exact C).
    split; [exact T|]. split; [exists x; auto|]. intros; exact T0.
  - split; [|split; [exists []; auto|intros x X NE; congruence]].
    destruct used as [|q used]; [left; split; [reflexivity|]|right; right; split; [discriminate|lia]].
    apply (f_equal (@length _)) in B. cbn in B. rewrite app_nil_r in B. lia.
Qed.

Lemma readline_loop_thrifty fuel : forall line k r k',
  plain_sock k -> sock_readline_loop fuel line k = Some (r, k') ->
  exists used d, k_pending k = used ++ k_pending k' /\ r = Ok (line ++ d) /\ k_buffer k ++ data used = d ++ k_buffer k' /\ plain_sock k' /\ thrifty 1 k used k'
    /\ (ends_crlf line = false -> ends_crlf (line ++ d) = true -> thrifty 0 k used k').
Proof.
  induction fuel as [|f IH]; intros line k r k' P H; [discriminate|]. cbn [sock_readline_loop] in H.
  destruct (sock_read 1 k) as [rd k1] eqn:E. destruct (read_thrifty 1 1 _ _ _ P ltac:(lia) E) as (u1 & Q1 & B1 & P1 & T1 & (x & -> & Lx) & T0).
  destruct x as [|x [|y z]]; [| |cbn in Lx; destruct Lx; [lia|discriminate]].
  - injection H as <- <-. exists u1, []. rewrite app_nil_r. split; [exact Q1|]. split; [reflexivity|]. split; [exact B1|]. split; [exact P1|]. split; [exact T1|]. congruence.
  - specialize (T0 _ eq_refl ltac:(discriminate)). cbv zeta in H. destruct (ends_crlf (line ++ [x])) eqn:C.
    + injection H as <- <-. exists u1, [x]. split; [exact Q1|]. split; [reflexivity|]. split; [exact B1|]. split; [exact P1|]. split; [exact T1|]. intros; exact T0.
    + destruct (IH _ _ _ _ P1 H) as (u2 & d & Q2 & -> & B2 & P2 & T2 & T02). exists (u1 ++ u2), (x :: d). rewrite <- !app_assoc in *. cbn [app] in *.
      split; [rewrite Q1, Q2; reflexivity|]. split; [rewrite <- ?app_assoc; reflexivity|].
      split; [unfold data in *; rewrite flat_map_app, app_assoc, B1; cbn [got app]; rewrite B2; reflexivity|]. split; [exact P2|].
      split; [eapply thrifty_trans; [exact T1|exact T2]|]. intros _ C2. eapply thrifty_trans; [exact T0|]. apply T02; [exact C|]. exact C2.
Qed.
Lemma readline_thrifty k r k' : plain_sock k -> sock_readline k = (r, k') ->
  exists used d, k_pending k = used ++ k_pending k' /\ r = Ok d /\ k_buffer k ++ data used = d ++ k_buffer k' /\ plain_sock k' /\ thrifty 1 k used k'
    /\ (ends_crlf d = true -> thrifty 0 k used k').
Proof.
  intros P E. unfold sock_readline in E. destruct (sock_readline_loop (S (sock_avail k)) [] k) as [[r0 k0]|] eqn:L.
  - assert (r0 = r /\ k0 = k') as [-> ->] by (split; congruence). destruct (readline_loop_thrifty _ _ _ _ _ P L) as (used & d & Q & R & B & P' & T & T0). exists used, d. auto 8.
  - destruct (readline_loop_spec (S (sock_avail k)) [] k ltac:(lia)) as (r2 & d2 & k2 & u2 & E2 & _); [|congruence].
    intros a b X. symmetry in X. apply app_eq_nil in X as [_ X]. discriminate.
Qed.

(* ------------------------------------------------------------------ C87 *)
(* no read asks for more than N bytes *)
Definition reads_at_most (N : Z) (m : method) : Prop := match m with MRead n _ => (n <= N)%Z | _ => True end.
Lemma does_thrifty send N k m k' : plain_sock k -> (1 <= N)%Z -> reads_at_most N m -> does send k m k' ->
  exists used, k_pending k = used ++ k_pending k' /\ plain_sock k' /\ thrifty (Z.to_nat N) k used k'.
Proof.
  intros P N1 R D. destruct D as [n k r k' E|k r k' E|k|k|d k r k' E]; cbn in R.
  - unfold sock_read_int in E. destruct (Z.ltb_spec n 0).
    + injection E as <- <-. exists []. split; [reflexivity|]. split; [exact P|]. left. split; [reflexivity|]. cbn [k_buffer]. rewrite skipn_length. lia.
    + assert (Z.to_nat n <= Z.to_nat N) as LN by lia. destruct (read_thrifty (Z.to_nat N) _ _ _ _ P LN E) as (used & Q & _ & P' & T & _). exists used. auto.
  - destruct (readline_thrifty _ _ _ P E) as (used & d & Q & _ & _ & P' & T & _). exists used. split; [exact Q|]. split; [exact P'|].
    destruct T as [T|[T|[A B]]]; [left; exact T|right; left; exact T|right; right; split; [exact A|lia]].
  - exists []. split; [reflexivity|]. split; [exact P|]. left. auto.
  - exists []. split; [reflexivity|]. split; [exact P|]. left. auto.
  - unfold sock_write in E. injection E as <- <-. exists []. split; [reflexivity|]. split; [exact P|]. left. auto.
Qed.
(* Whatever methods are called: if recv() was called at all, then either the last call
   brought data that were needed, at least in part (some of them have been handed out), or
   less than the largest number of bytes asked for is left. *)
Theorem C87_needed send N k l k' : plain_sock k -> (1 <= N)%Z -> history send k l k' -> Forall (reads_at_most N) l ->
  exists used, k_pending k = used ++ k_pending k'
    /\ (used = [] \/ (exists u d, used = u ++ [RData d] /\ sock_in_waiting k' < length d) \/ (Z.of_nat (sock_in_waiting k') < N)%Z).
Proof.
  intros P N1 H F.
  assert (exists used, k_pending k = used ++ k_pending k' /\ thrifty (Z.to_nat N) k used k') as (used & Q & T).
  { revert P F. induction H as [k|k m k1 l k2 D H IH]; intros P F.
    - exists []. split; [reflexivity|]. left. auto.
    - inversion F as [|? ? F1 F2]; subst. destruct (does_thrifty _ _ _ _ _ P N1 F1 D) as (u1 & Q1 & P1 & T1). destruct (IH P1 F2) as (u2 & Q2 & T2).
      exists (u1 ++ u2). split; [rewrite Q1, Q2; apply app_assoc|]. eapply thrifty_trans; [exact T1|exact T2]. }
  exists used. split; [exact Q|]. unfold sock_in_waiting. destruct T as [[T _]|[T|[_ T]]]; [left; exact T|right; left; exact T|right; right; lia].
Qed.
(* so the wrapper never holds more than the larger of what one recv() may return and what
   one read() asks for *)
Theorem C87_memory send N B pending enc z k l k' :
  Z.testbit enc 0 = false -> sock_open pending enc z = Ok k -> history send k l k' ->
  (1 <= N)%Z -> Forall (reads_at_most N) l ->
  (forall d, In (RData d) pending -> (Z.of_nat (length d) <= B)%Z) ->
  (0 <= B)%Z -> (Z.of_nat (sock_in_waiting k') <= Z.max B (N - 1))%Z.
Proof.
  intros P O H N1 F Bd B0.
  unfold sock_open in O. destruct (sock_recv (mksock pending [] [] enc z)) as [r k0] eqn:E.
  destruct (recv_spec _ _ _ E) as (u0 & Q0 & B1 & _ & En & _ & Ht & Hf & Hr). cbn [k_pending k_buffer k_encoding k_partial k_zlib] in *.
  assert (k0 = k) as -> by (destruct r; congruence). rewrite received_plain in B1 by exact P. cbn [fst app] in B1.
  assert (Z.of_nat (length (k_buffer k)) <= B)%Z as I.
  { rewrite B1. destruct r as [[|]|e].
    - destruct (Ht eq_refl) as (d & _ & ->). cbn. rewrite app_nil_r. apply Bd. rewrite Q0. left. reflexivity.
    - destruct (Hf eq_refl) as [[-> _]|(s & -> & [->| ->])]; cbn; exact B0.
    - destruct (Hr e eq_refl) as [X _]. congruence. }
  assert (plain_sock k) as Pk by (unfold plain_sock; rewrite En; exact P).
  assert (exists used, k_pending k = used ++ k_pending k' /\ thrifty (Z.to_nat N) k used k') as (used & Q & T).
  { clear - Pk H F N1. induction H as [k|k m k1 l k2 D H IH].
    - exists []. split; [reflexivity|]. left. auto.
    - inversion F as [|? ? F1 F2]; subst. destruct (does_thrifty _ _ _ _ _ Pk N1 F1 D) as (u1 & Q1 & P1 & T1). destruct (IH F2 P1) as (u2 & Q2 & T2).
      exists (u1 ++ u2). split; [rewrite Q1, Q2; apply app_assoc|]. eapply thrifty_trans; [exact T1|exact T2]. }
  unfold sock_in_waiting. destruct T as [[_ T]|[(u & d & -> & T)|[_ T]]]; [lia| |lia].
  assert (Z.of_nat (length d) <= B)%Z; [|lia]. apply Bd. rewrite Q0, Q. apply in_or_app. right. apply in_or_app. left. apply in_or_app. right. left. reflexivity.
Qed.

Lemma thrifty_last k u1 k1 u2 k2 : thrifty 1 k u1 k1 -> thrifty 0 k1 u2 k2 -> (u2 = [] -> k_buffer k1 <> []) -> thrifty 0 k (u1 ++ u2) k2.
Proof.
  intros [[-> L1]|[T1|[NE L1]]] T2 C.
  - eapply thrifty_trans; [left; split; [reflexivity|exact L1]|exact T2].
  - eapply thrifty_trans; [right; left; exact T1|exact T2].
  - destruct T2 as [[-> _]|[(u & d & -> & L)|[_ L]]]; [|right; left; exists (u1 ++ u), d; rewrite app_assoc; auto|lia].
    exfalso. apply (C eq_refl). destruct (k_buffer k1); [reflexivity|cbn in L1; lia].
Qed.

Definition sent_between (k : sock) (used : list recv_result) (t : bytes) (k' : sock) : Prop :=
  k_pending k = used ++ k_pending k' /\ k_buffer k ++ data used = t ++ k_buffer k'.
Lemma sent_trans k u1 t1 k1 u2 t2 k2 : sent_between k u1 t1 k1 -> sent_between k1 u2 t2 k2 -> sent_between k (u1 ++ u2) (t1 ++ t2) k2.
Proof.
  intros [A1 B1] [A2 B2]. split; [rewrite A1, A2; apply app_assoc|]. unfold data in *. rewrite flat_map_app, app_assoc, B1, <- !app_assoc. f_equal. exact B2.
Qed.

Lemma read1_step k r k' : plain_sock k -> read_byte sock (sock_read 1) k = (r, k') ->
  exists used t, sent_between k used t k' /\ plain_sock k' /\ thrifty 1 k used k'
    /\ (forall x, r = Ok x -> t = x /\ length x = 1 /\ thrifty 0 k used k').
Proof.
  intros P E. unfold read_byte in E. destruct (sock_read 1 k) as [rd k1] eqn:R.
  destruct (read_thrifty 1 1 _ _ _ P ltac:(lia) R) as (used & Q & B & P' & T & (x & -> & Lx) & T0).
  destruct x as [|c x].
  - injection E as <- <-. exists used, []. split; [split; [exact Q|exact B]|]. split; [exact P'|]. split; [exact T|]. discriminate.
  - injection E as <- <-. exists used, (c :: x). split; [split; [exact Q|exact B]|]. split; [exact P'|]. split; [exact T|].
    intros y X. assert (y = c :: x) as -> by congruence. split; [reflexivity|]. split; [destruct Lx as [Lx|Lx]; [exact Lx|discriminate]|]. eapply T0; [reflexivity|discriminate].
Qed.
Lemma line_step k r k' : plain_sock k -> read_line sock sock_readline k = (r, k') ->
  exists used t, sent_between k used t k' /\ plain_sock k' /\ thrifty 1 k used k'
    /\ (forall x, r = Ok x -> t = x /\ x <> [] /\ (ends_crlf x = true -> thrifty 0 k used k')).
Proof.
  intros P E. unfold read_line in E. destruct (sock_readline k) as [rd k1] eqn:R.
  destruct (readline_thrifty _ _ _ P R) as (used & d & Q & -> & B & P' & T & T0). exists used, d.
  destruct d as [|c d].
  - injection E as <- <-. split; [split; assumption|]. split; [exact P'|]. split; [exact T|]. discriminate.
  - destruct (N.eqb (last (c :: d) 0%N) c_lf); injection E as <- <-; (split; [split; assumption|]); (split; [exact P'|]); (split; [exact T|]); [|discriminate].
    intros x X. assert (x = c :: d) as -> by congruence. split; [reflexivity|]. split; [discriminate|]. exact T0.
Qed.

Lemma nonempty_start k used t k' : sent_between k used t k' -> t <> [] -> used = [] -> k_buffer k <> [].
Proof. intros [_ B] N -> E. rewrite E in B. cbn in B. symmetry in B. apply app_eq_nil in B as [B _]. contradiction. Qed.
Lemma ends_crlf_iff s : ends_crlf s = true <-> exists a, s = a ++ [c_cr; c_lf].
Proof.
  unfold ends_crlf. split.
  - intros H. destruct (rev s) as [|a [|b r]] eqn:E; try discriminate. apply andb_prop in H as [H1 H2]. apply N.eqb_eq in H1. apply N.eqb_eq in H2. subst a b.
    exists (rev r). rewrite <- (rev_involutive s), E. cbn [rev]. rewrite <- app_assoc. reflexivity.
  - intros (a & ->). rewrite rev_app_distr. cbn [rev app]. reflexivity.
Qed.

Lemma pass_thrifty cfg k r k' : plain_sock k -> pass sock (sock_read 1) sock_readline cfg k = (r, k') ->
  exists used t, sent_between k used t k' /\ plain_sock k' /\ thrifty 1 k used k'
    /\ (forall raw m, r = Ok (Some (raw, m)) -> t = raw /\ raw <> [] /\ (ends_crlf raw = true -> thrifty 0 k used k')).
Proof.
  intros P E. unfold pass in E. destruct (read_byte sock (sock_read 1) k) as [r1 k1] eqn:R1.
  destruct (read1_step _ _ _ P R1) as (u1 & t1 & S1 & P1 & T1 & O1).
  destruct r1 as [b1|e]; [|injection E as <- <-; exists u1, t1; repeat split; try assumption; try apply S1; discriminate].
  destruct (O1 _ eq_refl) as (-> & L1 & T01).
  destruct (negb (str_eqb b1 [c_dollar])); [injection E as <- <-; exists u1, b1; split; [exact S1|]; split; [exact P1|]; split; [exact T1|]; discriminate|].
  destruct (read_byte sock (sock_read 1) k1) as [r2 k2] eqn:R2.
  destruct (read1_step _ _ _ P1 R2) as (u2 & t2 & S2 & P2 & T2 & O2).
  pose proof (sent_trans _ _ _ _ _ _ _ S1 S2) as S12. pose proof (thrifty_trans _ _ _ _ _ _ T1 T2) as T12.
  destruct r2 as [b2|e]; [|injection E as <- <-; exists (u1 ++ u2), (b1 ++ t2); split; [exact S12|]; split; [exact P2|]; split; [exact T12|]; discriminate].
  destruct (O2 _ eq_refl) as (-> & L2 & T02).
  destruct (match b2 with [x] => hdr_second x | _ => false end) eqn:Hd.
  - destruct (read_line sock sock_readline k2) as [r3 k3] eqn:R3.
    destruct (line_step _ _ _ P2 R3) as (u3 & t3 & S3 & P3 & T3 & O3).
    pose proof (sent_trans _ _ _ _ _ _ _ S12 S3) as S123. pose proof (thrifty_trans _ _ _ _ _ _ T12 T3) as T123.
    destruct r3 as [bn|e]; [|injection E as <- <-; exists ((u1 ++ u2) ++ u3), ((b1 ++ b2) ++ t3); split; [exact S123|]; split; [exact P3|]; split; [exact T123|]; discriminate].
    destruct (O3 _ eq_refl) as (-> & NE & C3).
    exists ((u1 ++ u2) ++ u3), ((b1 ++ b2) ++ bn).
    destruct (parse _ _ _ _) as [m|e]; injection E as <- <-; (split; [exact S123|]); (split; [exact P3|]); (split; [exact T123|]); [|discriminate].
    intros raw m' X. assert (raw = b1 ++ b2 ++ bn) as -> by congruence. split; [symmetry; apply app_assoc|].
    split; [intros Z0; apply app_eq_nil in Z0 as [_ Z0]; apply app_eq_nil in Z0 as [_ Z0]; contradiction|].
    intros Cr. assert (ends_crlf bn = true) as Cb.
    { apply ends_crlf_iff in Cr as (a & Cr). apply ends_crlf_iff. destruct b2 as [|x [|? ?]]; try discriminate Hd. rewrite app_assoc in Cr.
      destruct (exists_last NE) as (bn1 & l1 & ->). destruct (exists_last (l := bn1)) as (bn2 & l2 & ->).
      - intros ->. cbn [app] in Cr. change [c_cr; c_lf] with ([c_cr] ++ [c_lf]) in Cr. rewrite app_assoc in Cr. apply app_inj_tail in Cr as [Cr _].
        apply app_inj_tail in Cr as [_ ->]. vm_compute in Hd. discriminate Hd.
      - change [c_cr; c_lf] with ([c_cr] ++ [c_lf]) in Cr. rewrite !app_assoc in Cr. apply app_inj_tail in Cr as [Cr ->]. apply app_inj_tail in Cr as [_ ->].
        exists bn2. rewrite <- app_assoc. reflexivity. }
    apply thrifty_last with (k1 := k2); [exact T12|apply C3, Cb|]. apply (nonempty_start _ _ _ _ S3 NE).
  - destruct (r_nmeaonly cfg); injection E as <- <-; exists (u1 ++ u2), (b1 ++ b2); (split; [exact S12|]); (split; [exact P2|]); (split; [exact T12|]); discriminate.
Qed.

Lemma read_prompt cfg fuel : forall k o ev k', plain_sock k -> sread cfg fuel k = Some (o, ev, k') ->
  exists used t, sent_between k used t k' /\ plain_sock k' /\ thrifty 1 k used k'
    /\ (forall raw m, o = RMsg raw m -> exists skipped, t = skipped ++ raw /\ (ends_crlf raw = true -> thrifty 0 k used k')).
Proof.
  unfold sread. induction fuel as [|f IH]; intros k o ev k' P H; [discriminate|]. cbn [read] in H.
  destruct (pass sock (sock_read 1) sock_readline cfg k) as [r k1] eqn:E.
  destruct (pass_thrifty _ _ _ _ P E) as (u1 & t1 & S1 & P1 & T1 & O1).
  assert (forall o2 ev2 k2, read sock (sock_read 1) sock_readline cfg f k1 = Some (o2, ev2, k2) ->
    exists used t, sent_between k used t k2 /\ plain_sock k2 /\ thrifty 1 k used k2
    /\ (forall raw m, o2 = RMsg raw m -> exists skipped, t = skipped ++ raw /\ (ends_crlf raw = true -> thrifty 0 k used k2))) as Next.
  { intros o2 ev2 k2 H2. destruct (IH _ _ _ _ P1 H2) as (u2 & t2 & S2 & P2 & T2 & O2).
    exists (u1 ++ u2), (t1 ++ t2). split; [eapply sent_trans; [exact S1|exact S2]|]. split; [exact P2|]. split; [eapply thrifty_trans; [exact T1|exact T2]|].
    intros raw m X. destruct (O2 _ _ X) as (sk & -> & C). exists (t1 ++ sk). split; [apply app_assoc|]. intros Cr.
    apply thrifty_last with (k1 := k1); [exact T1|apply C, Cr|]. apply (nonempty_start _ _ _ _ S2). intros Z0. apply app_eq_nil in Z0 as [_ ->]. discriminate Cr. }
  destruct r as [[[raw m]|]|e].
  - injection H as <- <- <-. exists u1, t1. split; [exact S1|]. split; [exact P1|]. split; [exact T1|].
    intros raw' m' X. assert (raw' = raw) as -> by congruence. destruct (O1 _ _ eq_refl) as (-> & _ & C). exists []. split; [reflexivity|exact C].
  - exact (Next _ _ _ H).
  - assert (forall o2 ev2 k2, Some (o, ev, k') = Some (o2, ev2, k2) -> k2 = k1 -> (forall raw m, o2 <> RMsg raw m) ->
      exists used t, sent_between k used t k' /\ plain_sock k' /\ thrifty 1 k used k'
      /\ (forall raw m, o = RMsg raw m -> exists skipped, t = skipped ++ raw /\ (ends_crlf raw = true -> thrifty 0 k used k'))) as Stop.
    { intros o2 ev2 k2 X -> NM. assert (o = o2 /\ k' = k1) as [-> ->] by (split; congruence). exists u1, t1. split; [exact S1|]. split; [exact P1|]. split; [exact T1|].
      intros raw m Y. exfalso. exact (NM _ _ Y). }
    assert (e = EOFError \/ forall X (a b : X), match e with EOFError => a | _ => b end = b) as [->|M] by (destruct e; auto).
    + eapply Stop; [symmetry; exact H|reflexivity|discriminate].
    + rewrite M in H. clear M. destruct (is_nmea_error e); [|eapply Stop; [symmetry; exact H|reflexivity|discriminate]].
      destruct (do_error cfg e) as [[e'|] ev1]; [eapply Stop; [symmetry; exact H|reflexivity|discriminate]|].
      destruct (read sock (sock_read 1) sock_readline cfg f k1) as [[[o' ev'] s2]|] eqn:E2; [|discriminate].
      assert (o' = o /\ s2 = k') as [-> ->] by (split; congruence). exact (Next _ _ _ eq_refl).
Qed.

(* NMEAReader on a plain connection: when read() returns a sentence that ends CR LF, the
   data of the last recv() was needed for it - before it, the sentence was not complete; a
   sentence all of which has arrived is returned without waiting for more. *)
Theorem C87_prompt cfg fuel k raw m ev k' : plain_sock k ->
  sread cfg fuel k = Some (RMsg raw m, ev, k') -> (exists body, raw = body ++ [cr; lf]) ->
  exists used skipped, k_pending k = used ++ k_pending k'
    /\ k_buffer k ++ data used = skipped ++ raw ++ k_buffer k'
    /\ (used = [] \/ exists before d, used = before ++ [RData d] /\ d <> []
          /\ length (k_buffer k ++ data before) < length (skipped ++ raw)).
Proof.
  intros P H (body & C). destruct (read_prompt _ _ _ _ _ _ P H) as (used & t & [Q B] & _ & _ & O).
  destruct (O _ _ eq_refl) as (sk & -> & T). exists used, sk. split; [exact Q|]. rewrite <- app_assoc in B. split; [exact B|].
  destruct T as [[-> _]|[(u & d & -> & L)|[_ L]]]; [apply ends_crlf_iff; exists body; exact C|left; reflexivity| |lia].
  right. exists u, d. split; [reflexivity|]. split; [intros ->; cbn in L; lia|].
  apply (f_equal (@length _)) in B. unfold data in *. rewrite flat_map_app, !app_length in B. cbn [flat_map] in B. rewrite app_nil_r in B. rewrite !app_length. lia.
Qed.

(* the same wrapper with other results of recv() to come *)
Definition with_pending (p : list recv_result) (k : sock) : sock := mksock p (k_buffer k) (k_partial k) (k_encoding k) (k_zlib k).
Lemma read_buffered n k r k' : k_pending k = [] -> sock_read n k = (r, k') ->
  k_pending k' = [] /\ ((forall p, sock_read n (with_pending p k) = (r, with_pending p k')) \/ (r = Ok [] /\ length (k_buffer k') < n)).
Proof.
  intros P E. unfold sock_read in E. rewrite P in E. cbn [length sock_read_loop] in E.
  destruct (length (k_buffer k) <? n) eqn:L.
  - unfold sock_recv in E. rewrite P in E. injection E as <- <-. split; [exact P|]. right. split; [reflexivity|]. apply Nat.ltb_lt, L.
  - injection E as <- <-. split; [exact P|]. left. intros p. unfold sock_read. cbn [sock_read_loop with_pending k_buffer k_pending k_partial k_encoding k_zlib]. rewrite L. reflexivity.
Qed.
Lemma readline_loop_fuel f1 : forall f2 line k r1 r2, sock_readline_loop f1 line k = Some r1 -> sock_readline_loop f2 line k = Some r2 -> r1 = r2.
Proof.
  induction f1 as [|f1 IH]; intros [|f2] line k r1 r2 A B; try discriminate. cbn [sock_readline_loop] in A, B.
  destruct (sock_read 1 k) as [[[|x [|y z]]|e] k1]; try congruence. cbv zeta in *. destruct (ends_crlf (line ++ [x])); [congruence|]. eapply IH; eassumption.
Qed.
Lemma readline_loop_buffered f : forall line k r k', k_pending k = [] -> sock_readline_loop f line k = Some (r, k') ->
  k_pending k' = [] /\ ((forall p, sock_readline_loop f line (with_pending p k) = Some (r, with_pending p k')) \/ (k_buffer k' = [] /\ (ends_crlf line = false -> forall l, r = Ok l -> ends_crlf l = false))).
Proof.
  induction f as [|f IH]; intros line k r k' P H; [discriminate|]. cbn [sock_readline_loop] in H.
  destruct (sock_read 1 k) as [rd k1] eqn:E. destruct (read_buffered _ _ _ _ P E) as [P1 [S1|[-> B1]]].
  - assert (forall q, sock_readline_loop (S f) line (with_pending q k) = match rd with
      | Ok [x] => if ends_crlf (line ++ [x]) then Some (Ok (line ++ [x]), with_pending q k1) else sock_readline_loop f (line ++ [x]) (with_pending q k1)
      | Ok _ => Some (Ok line, with_pending q k1) | Raise e => Some (Raise e, with_pending q k1) end) as U by (intros q; cbn [sock_readline_loop]; rewrite S1; reflexivity).
    destruct rd as [[|x [|y z]]|e]; try (injection H as <- <-; split; [exact P1|]; left; intros q; rewrite U; reflexivity).
    cbv zeta in H. destruct (ends_crlf (line ++ [x])) eqn:C.
    + injection H as <- <-. split; [exact P1|]. left. intros q. rewrite U. reflexivity.
    + destruct (IH _ _ _ _ P1 H) as [P' [S'|[B' C']]]; (split; [exact P'|]).
      * left. intros q. rewrite U. apply S'.
      * right. split; [exact B'|]. intros _. apply C'. exact C.
  - injection H as <- <-. split; [exact P1|]. right. split; [destruct (k_buffer k1); [reflexivity|cbn in B1; lia]|]. intros C l X. congruence.
Qed.
Lemma readline_some k : exists r k', sock_readline_loop (S (sock_avail k)) [] k = Some (r, k') /\ sock_readline k = (r, k').
Proof.
  unfold sock_readline. destruct (sock_readline_loop (S (sock_avail k)) [] k) as [[r k']|] eqn:L; [exists r, k'; auto|].
  destruct (readline_loop_spec (S (sock_avail k)) [] k ltac:(lia)) as (r2 & d2 & k2 & u2 & E2 & _); [|congruence].
  intros a b X. symmetry in X. apply app_eq_nil in X as [_ X]. discriminate.
Qed.
Lemma readline_buffered k r k' : k_pending k = [] -> sock_readline k = (r, k') ->
  k_pending k' = [] /\ ((forall p, sock_readline (with_pending p k) = (r, with_pending p k')) \/ (k_buffer k' = [] /\ forall l, r = Ok l -> ends_crlf l = false)).
Proof.
  intros P E. destruct (readline_some k) as (r0 & k0 & L & E0). assert (r0 = r /\ k0 = k') as [-> ->] by (split; congruence).
  destruct (readline_loop_buffered _ _ _ _ _ P L) as [P' [A|[A B]]]; (split; [exact P'|]); [left|right; split; [exact A|apply B; reflexivity]].
  intros p. destruct (readline_some (with_pending p k)) as (r1 & k1 & L1 & E1). rewrite E1. rewrite (readline_loop_fuel _ _ _ _ _ _ (A p) L1). reflexivity.
Qed.
Lemma crlf_suffix b x bn : hdr_second x = true -> bn <> [] -> ends_crlf (b ++ [x] ++ bn) = true -> ends_crlf bn = true.
Proof.
  intros Hd NE Cr. apply ends_crlf_iff in Cr as (a & Cr). apply ends_crlf_iff. rewrite app_assoc in Cr.
  destruct (exists_last NE) as (bn1 & l1 & ->). destruct (exists_last (l := bn1)) as (bn2 & l2 & ->).
  - intros ->. cbn [app] in Cr. change [c_cr; c_lf] with ([c_cr] ++ [c_lf]) in Cr. rewrite app_assoc in Cr. apply app_inj_tail in Cr as [Cr _].
    apply app_inj_tail in Cr as [_ ->]. vm_compute in Hd. discriminate Hd.
  - change [c_cr; c_lf] with ([c_cr] ++ [c_lf]) in Cr. rewrite !app_assoc in Cr. apply app_inj_tail in Cr as [Cr ->]. apply app_inj_tail in Cr as [_ ->].
    exists bn2. rewrite <- app_assoc. reflexivity.
Qed.
Lemma pass_buffered cfg k r k' : k_pending k = [] -> pass sock (sock_read 1) sock_readline cfg k = (r, k') ->
  k_pending k' = [] /\ ((forall p, pass sock (sock_read 1) sock_readline cfg (with_pending p k) = (r, with_pending p k'))
     \/ (k_buffer k' = [] /\ forall raw m, r = Ok (Some (raw, m)) -> ends_crlf raw = false)).
Proof.
  intros P E. unfold pass, read_byte in *.
  destruct (sock_read 1 k) as [r1 k1] eqn:R1. destruct (read_buffered _ _ _ _ P R1) as [P1 [S1|[-> B1]]].
  2:{ injection E as <- <-. split; [exact P1|]. right. split; [destruct (k_buffer k1); [reflexivity|cbn in B1; lia]|]. discriminate. }
  destruct r1 as [[|c b1]|e].
  1,3: injection E as <- <-; split; [exact P1|]; left; intros p; rewrite S1; reflexivity.
  destruct (negb (str_eqb (c :: b1) [c_dollar])) eqn:D; [injection E as <- <-; split; [exact P1|]; left; intros p; rewrite S1, D; reflexivity|].
  destruct (sock_read 1 k1) as [r2 k2] eqn:R2. destruct (read_buffered _ _ _ _ P1 R2) as [P2 [S2|[-> B2]]].
  2:{ injection E as <- <-. split; [exact P2|]. right. split; [destruct (k_buffer k2); [reflexivity|cbn in B2; lia]|]. discriminate. }
  destruct r2 as [[|x b2]|e].
  1,3: injection E as <- <-; split; [exact P2|]; left; intros p; rewrite S1, D, S2; reflexivity.
  destruct (match x :: b2 with [y] => hdr_second y | _ => false end) eqn:Hd.
  - unfold read_line in *. destruct (sock_readline k2) as [r3 k3] eqn:R3. destruct (readline_buffered _ _ _ P2 R3) as [P3 [S3|[B3 C3]]].
    + split; [destruct r3 as [[|y l]|e]; [congruence| |congruence]; destruct (N.eqb _ _); [|congruence]; destruct (parse _ _ _ _); congruence|].
      left. intros p. rewrite S1, D, S2, Hd, S3. destruct r3 as [[|y l]|e]; [injection E as <- <-; reflexivity| |injection E as <- <-; reflexivity].
      destruct (N.eqb (last (y :: l) 0%N) c_lf); [|injection E as <- <-; reflexivity]. cbv zeta in *.
      destruct (parse (MBytes ((c :: b1) ++ (x :: b2) ++ y :: l)) (r_mode cfg) (r_validate cfg) (r_userdefined cfg)); injection E as <- <-; reflexivity.
    + destruct r3 as [[|y l]|e]; [injection E as <- <-; split; [exact P3|]; right; split; [exact B3|discriminate]| |injection E as <- <-; split; [exact P3|]; right; split; [exact B3|discriminate]].
      destruct (N.eqb (last (y :: l) 0%N) c_lf); [|injection E as <- <-; split; [exact P3|]; right; split; [exact B3|discriminate]].
      destruct (parse _ _ _ _) as [m|e]; injection E as <- <-; (split; [exact P3|]); right; (split; [exact B3|]); [|discriminate].
      intros raw m' X. injection X as <- <-.
      destruct b2; [|discriminate Hd]. destruct (ends_crlf ((c :: b1) ++ [x] ++ y :: l)) eqn:Cr; [|exact Cr].
      apply crlf_suffix in Cr; [|exact Hd|discriminate]. rewrite (C3 _ eq_refl) in Cr. discriminate.
  - destruct (r_nmeaonly cfg) eqn:No; injection E as <- <-; (split; [exact P2|]); left; intros p; rewrite S1, D, S2, Hd; reflexivity.
Qed.
Lemma sread_nothing cfg fuel k raw m ev k' : k_pending k = [] -> k_buffer k = [] -> sread cfg fuel k = Some (RMsg raw m, ev, k') -> False.
Proof.
  intros P B H. unfold sread in H. destruct fuel as [|f]; [discriminate|]. cbn [read] in H. unfold pass, read_byte in H.
  assert (sock_read 1 k = (Ok [], k)) as R by (unfold sock_read; cbn [sock_read_loop]; rewrite B; cbn; unfold sock_recv; rewrite P; reflexivity).
  rewrite R in H. discriminate.
Qed.
Lemma sread_buffered cfg fuel : forall k raw m ev k', k_pending k = [] -> ends_crlf raw = true -> sread cfg fuel k = Some (RMsg raw m, ev, k') ->
  forall p, sread cfg fuel (with_pending p k) = Some (RMsg raw m, ev, with_pending p k').
Proof.
  unfold sread. induction fuel as [|f IH]; intros k raw m ev k' P Cr H p; [discriminate|]. cbn [read] in *.
  destruct (pass sock (sock_read 1) sock_readline cfg k) as [r k1] eqn:E. destruct (pass_buffered _ _ _ _ P E) as [P1 [S1|[B1 C1]]].
  - rewrite S1. destruct r as [[[raw' m']|]|e]; [congruence|apply IH; assumption|].
    assert (e = EOFError \/ forall X (a b : X), match e with EOFError => a | _ => b end = b) as [->|M] by (destruct e; auto); [congruence|].
    rewrite M in H |- *. clear M. destruct (is_nmea_error e); [|congruence]. destruct (do_error cfg e) as [[e'|] ev1]; [congruence|].
    destruct (read sock (sock_read 1) sock_readline cfg f k1) as [[[o' ev'] s2]|] eqn:E2; [|discriminate].
    assert (o' = RMsg raw m /\ ev1 ++ ev' = ev /\ s2 = k') as (-> & <- & ->) by (repeat split; congruence). rewrite (IH _ _ _ _ _ P1 Cr E2). reflexivity.
  - exfalso. assert (forall raw m ev k', read sock (sock_read 1) sock_readline cfg f k1 = Some (RMsg raw m, ev, k') -> False) as No by (intros; eapply sread_nothing; [exact P1|exact B1|eassumption]).
    destruct r as [[[raw' m']|]|e].
    + assert (raw' = raw) as -> by congruence. rewrite (C1 _ _ eq_refl) in Cr. discriminate.
    + eapply No, H.
    + assert (e = EOFError \/ forall X (a b : X), match e with EOFError => a | _ => b end = b) as [->|M] by (destruct e; auto); [congruence|].
      rewrite M in H. clear M. destruct (is_nmea_error e); [|congruence]. destruct (do_error cfg e) as [[e'|] ev1]; [congruence|].
      destruct (read sock (sock_read 1) sock_readline cfg f k1) as [[[o' ev'] s2]|] eqn:E2; [|discriminate].
      assert (o' = RMsg raw m) as -> by congruence. eapply No. reflexivity.
Qed.
(* If the bytes that have arrived are enough for read() to return a sentence that ends CR LF
   when nothing more ever arrives, then read() returns that sentence, the same message and
   the same reports whatever happens on the network later, and does not call recv(); for
   every encoding. *)
Theorem C87_at_once cfg fuel buf partial enc z raw m ev k' :
  sread cfg fuel (mksock [] buf partial enc z) = Some (RMsg raw m, ev, k') -> (exists body, raw = body ++ [cr; lf]) ->
  forall later, exists k2, sread cfg fuel (mksock later buf partial enc z) = Some (RMsg raw m, ev, k2)
    /\ k_pending k2 = later /\ k_buffer k2 = k_buffer k'.
Proof.
  intros H (body & C) later. assert (ends_crlf raw = true) as Cr by (apply ends_crlf_iff; exists body; exact C).
  exists (with_pending later k'). split; [|split; reflexivity].
  apply (sread_buffered cfg fuel (mksock [] buf partial enc z) _ _ _ _ eq_refl Cr H later).
Qed.

(* a sentence and a bit more arrive, then the rest: the first read() leaves the rest on the
   network, the second fetches it and nothing after it *)
Definition no_zlib : zlib := mkzlib (fun _ => None) (fun _ => None) (fun _ => None).
Definition ex_net : list recv_result := [RData (ex_line ++ firstn 5 ex_line); RData (skipn 5 ex_line ++ u "$GN"); RError].
Example C87_example :
  plain_sock (sock_init ex_net 0 no_zlib)
  /\ exists m1 ev1 k1 m2 ev2 k2,
       sread (ex_cfg 1) 300 (sock_init ex_net 0 no_zlib) = Some (RMsg ex_line m1, ev1, k1)
    /\ k_pending k1 = [RData (skipn 5 ex_line ++ u "$GN"); RError] /\ k_buffer k1 = firstn 5 ex_line
    /\ sread (ex_cfg 1) 300 k1 = Some (RMsg ex_line m2, ev2, k2)
    /\ k_pending k2 = [RError] /\ k_buffer k2 = u "$GN".
Proof.
  split; [vm_compute; reflexivity|]. do 6 eexists.
  split; [vm_compute; reflexivity|]. split; [vm_compute; reflexivity|]. split; [vm_compute; reflexivity|].
  split; [vm_compute; reflexivity|]. split; vm_compute; reflexivity.
Qed.
(* a sentence that ends in LF alone is not returned before recv() has failed or brought a CR
   LF: all of it is there, and read() still asks the network *)
Definition ex_lf : bytes := u "$GNGLL,5327.04319,S,00214.41396,E,223232.00,A,A*68" ++ [lf].
Theorem C87_bare_lf_refuted :
  exists k raw m ev k', plain_sock k /\ k_buffer k = ex_lf /\ sread (ex_cfg 1) 300 k = Some (RMsg raw m, ev, k')
    /\ raw = ex_lf /\ k_pending k = [RError] /\ k_pending k' = [].
Proof.
  exists (mksock [RError] ex_lf [] 0 no_zlib). do 4 eexists. split; [vm_compute; reflexivity|]. split; [reflexivity|].
  split; [vm_compute; reflexivity|]. split; [vm_compute; reflexivity|]. split; reflexivity.
Qed.
