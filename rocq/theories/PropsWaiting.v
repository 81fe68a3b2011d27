(* Theorems about all methods of SocketWrapper together: C85. *)
From Verif Require Import Message Reader Socket BaseLemmas Spec SocketSpec SocketProofs PropsSocket.
From Coq Require Import Lia.
Local Open Scope Z_scope.

(* the public methods, with what they return *)
Inductive method :=
| MRead (n : Z) (r : result bytes) | MReadline (r : result bytes)
| MInWaiting (n : Z) | MBuffer (b : bytes) | MWrite (d : bytes) (r : result Z).
Inductive does (send : bytes -> result Z) : sock -> method -> sock -> Prop :=
| does_read n k r k' : sock_read_int n k = (r, k') -> does send k (MRead n r) k'
| does_readline k r k' : sock_readline k = (r, k') -> does send k (MReadline r) k'
| does_in_waiting k : does send k (MInWaiting (Z.of_nat (sock_in_waiting k))) k
| does_buffer k : does send k (MBuffer (sock_buffer k)) k
| does_write d k r k' : sock_write send d k = (r, k') -> does send k (MWrite d r) k'.
Inductive history (send : bytes -> result Z) : sock -> list method -> sock -> Prop :=
| history_none k : history send k [] k
| history_more k m k1 l k2 : does send k m k1 -> history send k1 l k2 -> history send k (m :: l) k2.
(* the bytes a call handed out *)
Definition handed_out (m : method) : bytes :=
  match m with MRead _ r | MReadline r => got r | _ => [] end.

(* what one call does: bytes handed out, network results used *)
Lemma does_plain send k m k' : plain_sock k -> does send k m k' ->
  plain_sock k' /\ exists used, k_pending k = used ++ k_pending k' /\ k_buffer k ++ data used = handed_out m ++ k_buffer k'.
Proof.
  intros P D.
  destruct D as [n k r k' E|k r k' E|k|k|d k r k' E]; cbn [handed_out].
  - unfold sock_read_int in E. destruct (n <? 0).
    + injection E as <- <-. split; [exact P|]. exists []. split; [reflexivity|]. cbn. rewrite app_nil_r. symmetry. apply firstn_skipn.
    + destruct (read_spec _ _ _ _ E) as (used & A & B & _ & En & _).
      unfold plain_sock in *. rewrite En. split; [exact P|]. exists used. split; [exact A|]. rewrite received_plain in B by exact P. exact B.
  - assert (calls k [(CReadline, r)] k') as C by (eapply calls_more; [exact E|constructor]).
    destruct (readline_spec k) as (r' & d & k2 & used' & E' & _ & _ & _ & En & _). rewrite E in E'. injection E' as <- <-.
    destruct (C35_integrity _ _ _ P C) as (_ & used & A & B). cbn in B. rewrite app_nil_r in B.
    unfold plain_sock in *. rewrite En. split; [exact P|]. exists used. split; [exact A|exact B].
  - split; [exact P|]. exists []. split; [reflexivity|]. cbn. apply app_nil_r.
  - split; [exact P|]. exists []. split; [reflexivity|]. cbn. apply app_nil_r.
  - unfold sock_write in E. injection E as <- <-. split; [exact P|]. exists []. split; [reflexivity|]. cbn. apply app_nil_r.
Qed.

(* ------------------------------------------------------------------ C85 *)
(* whatever methods are called in whatever order: nothing is lost, repeated or reordered *)
Theorem C85_integrity send k l k' : plain_sock k -> history send k l k' ->
  exists used, k_pending k = used ++ k_pending k' /\ k_buffer k ++ data used = flat_map handed_out l ++ k_buffer k'.
Proof.
  intros P H. induction H as [k|k m k1 l k2 D H IH].
  - exists []. split; [reflexivity|]. cbn. apply app_nil_r.
  - destruct (does_plain _ _ _ _ P D) as (P1 & u1 & A1 & B1). destruct (IH P1) as (u2 & A2 & B2).
    exists (u1 ++ u2). split; [rewrite A1, A2; apply app_assoc|]. unfold data in *. rewrite flat_map_app, app_assoc, B1.
    cbn [flat_map]. rewrite <- !app_assoc. f_equal. exact B2.
Qed.
(* in_waiting is the number of bytes received and not handed out, buffer is those bytes *)
Theorem C85_reports send pending enc z l k k' :
  Z.testbit enc 0 = false -> sock_open pending enc z = Ok k -> history send k l k' ->
  exists used, pending = used ++ k_pending k'
    /\ (forall n, does send k' (MInWaiting n) k' -> n = Z.of_nat (length (data used)) - Z.of_nat (length (flat_map handed_out l)))
    /\ (forall b, does send k' (MBuffer b) k' -> data used = flat_map handed_out l ++ b).
Proof.
  intros P O H. rewrite (C35_constructor _ _ z P) in O. injection O as <-.
  unfold sock_init in H. destruct (sock_recv (mksock pending [] [] enc z)) as [ok k0] eqn:R. cbn [snd] in H.
  destruct (recv_spec _ _ _ R) as (u0 & A0 & B0 & _ & En & _). cbn [k_pending k_buffer k_zlib k_encoding k_partial] in *.
  rewrite received_plain in B0 by exact P. cbn in B0.
  destruct (C85_integrity send k0 l k') as (used & A & B); [unfold plain_sock; rewrite En; exact P|exact H|].
  exists (u0 ++ used). split; [rewrite A0, A; apply app_assoc|].
  assert (data (u0 ++ used) = flat_map handed_out l ++ k_buffer k') as Q.
  { unfold data in *. rewrite flat_map_app. rewrite B0 in B. exact B. }
  split.
  - intros n D. inversion D; subst. rewrite Q, app_length. unfold sock_in_waiting. lia.
  - intros b D. inversion D; subst. exact Q.
Qed.
(* a read of no more than in_waiting() bytes returns them at once: the network is not used (any encoding) *)
Theorem C85_ready n k : 0 <= n <= Z.of_nat (sock_in_waiting k) ->
  exists x k', sock_read_int n k = (Ok x, k') /\ Z.of_nat (length x) = n /\ k_pending k' = k_pending k
    /\ sock_buffer k = x ++ sock_buffer k'.
Proof.
  intros B. unfold sock_read_int, sock_read, sock_in_waiting, sock_buffer in *. replace (n <? 0) with false by lia.
  cbn [sock_read_loop]. destruct (Nat.ltb_spec (length (k_buffer k)) (Z.to_nat n)); [lia|].
  eexists _, _. split; [reflexivity|]. rewrite firstn_length. split; [lia|]. split; [reflexivity|]. cbn [k_buffer]. symmetry. apply firstn_skipn.
Qed.
(* a larger one uses it *)
Theorem C85_not_ready n k r k' : Z.of_nat (sock_in_waiting k) < n -> k_pending k <> [] ->
  sock_read_int n k = (r, k') -> (length (k_pending k') < length (k_pending k))%nat.
Proof.
  intros B N E. unfold sock_read_int, sock_in_waiting in *. replace (n <? 0) with false in E by lia.
  unfold sock_read in E. cbn [sock_read_loop] in E. destruct (Nat.ltb_spec (length (k_buffer k)) (Z.to_nat n)) as [L|L]; [|lia].
  destruct (sock_recv k) as [ok k1] eqn:R. destruct (recv_spec _ _ _ R) as (u0 & A0 & _).
  assert (length (k_pending k1) < length (k_pending k))%nat as L1.
  { unfold sock_recv in R. destruct (k_pending k) as [|[[|b d]|] p] eqn:Ep; [contradiction| | |].
    - injection R as <- <-. cbn. lia.
    - destruct (negb _); [destruct (dechunk _ _ _) as [[[c q]|e]|]|]; injection R as <- <-; cbn; lia.
    - injection R as <- <-. cbn. lia. }
  destruct ok as [[]|e]; [|injection E as <- <-; exact L1|injection E as <- <-; exact L1].
  destruct (read_loop_spec (length (k_pending k)) (Z.to_nat n) k1 r k' ltac:(lia) E) as (u1 & A1 & _). rewrite A1, app_length in L1. lia.
Qed.
(* a negative count leaves that many bytes in the buffer, and does not use the network *)
Theorem C85_negative n k : n < 0 ->
  exists x k', sock_read_int n k = (Ok x, k') /\ k_pending k' = k_pending k /\ sock_buffer k = x ++ sock_buffer k'
    /\ Z.of_nat (sock_in_waiting k') = Z.min (- n) (Z.of_nat (sock_in_waiting k)).
Proof.
  intros B. unfold sock_read_int, sock_in_waiting, sock_buffer. replace (n <? 0) with true by lia. cbv zeta.
  eexists _, _. split; [reflexivity|]. split; [reflexivity|]. cbn [k_buffer]. split; [symmetry; apply firstn_skipn|].
  rewrite skipn_length. lia.
Qed.
Example C85_example : exists k k', sock_open [RData (u "$GNGLL,53"); RError; RData (u "27.04")] 0 no_zlib = Ok k
  /\ history (fun d => Ok (Z.of_nat (length d))) k
       [MInWaiting 9; MRead (-4) (Ok (u "$GNGL")); MWrite (u "AB") (Ok 2); MRead 9 (Ok []); MRead 2 (Ok (u "L,")); MInWaiting 2;
        MRead 3 (Ok (u "532")); MBuffer (u "7.04")] k'.
Proof.
  eexists _, _. split; [vm_compute; reflexivity|].
  eapply history_more; [apply does_in_waiting|].
  eapply history_more; [apply does_read; vm_compute; reflexivity|].
  eapply history_more; [apply does_write; reflexivity|].
  eapply history_more; [apply does_read; vm_compute; reflexivity|].
  eapply history_more; [apply does_read; vm_compute; reflexivity|].
  eapply history_more; [apply does_in_waiting|].
  eapply history_more; [apply does_read; vm_compute; reflexivity|].
  eapply history_more; [apply does_buffer|]. apply history_none.
Qed.
