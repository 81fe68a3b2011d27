(* C116: exceptions that recv() raises and the wrapper does not catch (Ctrl-C) *)
From Coq Require Import Lia.
From Verif Require Import Message Reader Socket SocketInt BaseLemmas TextLemmas Spec ReaderSpec ReaderProofs SocketSpec SocketProofs
  PropsReader PropsSocket PropsMemory.
Local Open Scope Z_scope.

(* the same wrapper over a connection on which, after what k has still to receive, T happens *)
Definition then_ (T : list irecv) (k : sock) : isock :=
  mkisock (map IRecv (k_pending k) ++ T) (k_buffer k) (k_partial k) (k_encoding k) (k_zlib k).
Definition cut_short (T : list irecv) : Prop := T = [] \/ exists e l, T = IRaise e :: l.

Lemma recv_one r p b pt enc z : sock_recv (mksock (r :: p) b pt enc z)
  = (fst (sock_recv (mksock [r] b pt enc z)),
     mksock p (k_buffer (snd (sock_recv (mksock [r] b pt enc z)))) (k_partial (snd (sock_recv (mksock [r] b pt enc z)))) enc z).
Proof.
  unfold sock_recv. cbn [k_pending k_buffer k_partial k_encoding k_zlib]. destruct r as [[|x d]|]; try reflexivity.
  destruct (negb (Z.land enc ENCODE_CHUNKED =? 0)); [|reflexivity].
  destruct (dechunk z enc (pt ++ x :: d)) as [[[c q]|e]|]; reflexivity.
Qed.
Lemma recv_then T r p k : k_pending k = r :: p ->
  isock_recv (then_ T k) = (fst (sock_recv k), then_ T (snd (sock_recv k))).
Proof.
  intros P. destruct k as [pd b pt enc z]. cbn in P. subst pd. unfold isock_recv, then_. cbn [k_pending k_buffer k_partial k_encoding k_zlib map app i_pending i_buffer i_partial i_encoding i_zlib].
  pose proof (recv_one r p b pt enc z) as E. destruct (sock_recv (mksock [r] b pt enc z)) as [ok w]. cbn [fst snd] in E. rewrite E. reflexivity.
Qed.
Lemma recv_end T k : k_pending k = [] -> cut_short T ->
  sock_recv k = (Ok false, k)
  /\ ((T = [] /\ isock_recv (then_ T k) = (Ok false, then_ T k))
      \/ exists e l, T = IRaise e :: l /\ isock_recv (then_ T k) = (Raise e, then_ l k)).
Proof.
  intros P C. split; [unfold sock_recv; rewrite P; reflexivity|].
  destruct C as [-> |(e & l & ->)]; [left|right; exists e, l]; (split; [reflexivity|]); unfold isock_recv, then_; rewrite P; reflexivity.
Qed.
Lemma recv_pops r p k : k_pending k = r :: p -> k_pending (snd (sock_recv k)) = p.
Proof. intros P. destruct k as [pd b pt enc z]. cbn in P. subst pd. rewrite recv_one. reflexivity. Qed.

Lemma read_loop_then T n : cut_short T -> forall f1 f2 k d k',
  (length (k_pending k) < f1)%nat -> (length (k_pending k) + length T < f2)%nat ->
  sock_read_loop f1 n k = (d, k') ->
  isock_read_loop f2 n (then_ T k) = (d, then_ T k')
  \/ exists e l, T = IRaise e :: l /\ d = Ok [] /\ k_pending k' = [] /\ (length (k_buffer k') < n)%nat
       /\ isock_read_loop f2 n (then_ T k) = (Raise e, then_ l k').
Proof.
  intros C. induction f1 as [|f1 IH]; intros f2 k d k' L1 L2 H; [lia|]. destruct f2 as [|f2]; [lia|].
  cbn [sock_read_loop] in H. cbn [isock_read_loop]. change (i_buffer (then_ T k)) with (k_buffer k).
  destruct (Nat.ltb_spec (length (k_buffer k)) n) as [Lt|Ge].
  - destruct (k_pending k) as [|r p] eqn:P.
    + destruct (recv_end T k P C) as [E [(-> & F)|(e & l & -> & F)]]; rewrite E in H; rewrite F; injection H as <- <-; [left; reflexivity|].
      right. exists e, l. auto.
    + rewrite (recv_then T r p k P). pose proof (recv_pops r p k P) as Pp. destruct (sock_recv k) as [ok k1]. cbn [fst snd] in *.
      cbn in L1, L2. destruct ok as [[|]|e].
      * apply IH; [rewrite Pp; lia|rewrite Pp; lia|exact H].
      * injection H as <- <-. left. reflexivity.
      * injection H as <- <-. left. reflexivity.
  - injection H as <- <-. left. reflexivity.
Qed.
Lemma read_then T n k d k' : cut_short T -> sock_read n k = (d, k') ->
  isock_read n (then_ T k) = (d, then_ T k')
  \/ exists e l, T = IRaise e :: l /\ d = Ok [] /\ k_pending k' = [] /\ (length (k_buffer k') < n)%nat
       /\ isock_read n (then_ T k) = (Raise e, then_ l k').
Proof.
  intros C H. unfold isock_read, sock_read in *. eapply read_loop_then; [exact C| | |exact H]; [lia|].
  cbn [then_ i_pending]. rewrite app_length, map_length. lia.
Qed.

(* the bound of readline *)
Lemma drain_app a : forall b k, isock_drain (a + b) k = isock_drain b (isock_drain a k).
Proof. induction a as [|a IH]; intros b k; [reflexivity|]. cbn [Nat.add isock_drain]. apply IH. Qed.
Lemma drain_then T n : forall k, length (k_pending k) = n -> isock_drain n (then_ T k) = then_ T (sock_drain n k).
Proof.
  induction n as [|n IH]; intros k L; [reflexivity|]. destruct (k_pending k) as [|r p] eqn:P; [discriminate|].
  cbn [isock_drain sock_drain]. rewrite (recv_then T r p k P). cbn [snd]. apply IH. rewrite (recv_pops r p k P). cbn in L. lia.
Qed.
Lemma recv_grows k : (length (i_buffer k) <= length (i_buffer (snd (isock_recv k))))%nat.
Proof.
  unfold isock_recv. destruct (i_pending k) as [|[r|e] p]; [apply le_n| |apply le_n].
  destruct (sock_recv _) as [ok w] eqn:E. destruct (recv_spec _ _ _ E) as (used & _ & B & _). cbn [snd i_buffer].
  rewrite B, app_length. cbn [k_buffer]. lia.
Qed.
Lemma drain_grows n : forall k, (length (i_buffer k) <= length (i_buffer (isock_drain n k)))%nat.
Proof.
  induction n as [|n IH]; intros k; [apply le_n|]. cbn [isock_drain]. pose proof (recv_grows k). pose proof (IH (snd (isock_recv k))). lia.
Qed.
Lemma avail_then T k : (sock_avail k <= isock_avail (then_ T k))%nat.
Proof.
  unfold sock_avail, isock_avail. change (i_pending (then_ T k)) with (map IRecv (k_pending k) ++ T).
  rewrite app_length, map_length, drain_app, (drain_then T _ k eq_refl).
  pose proof (drain_grows (length T) (then_ T (sock_drain (length (k_pending k)) k))) as G. exact G.
Qed.

Lemma readline_loop_more f : forall f' line k r, isock_readline_loop f line k = Some r -> (f <= f')%nat -> isock_readline_loop f' line k = Some r.
Proof.
  induction f as [|f IH]; intros f' line k r H L; [discriminate|]. destruct f' as [|f']; [lia|].
  cbn [isock_readline_loop] in *. destruct (isock_read 1 k) as [d k1]. destruct d as [[|x [|y d]]|e]; try exact H.
  destruct (ends_crlf (line ++ [x])); [exact H|]. apply IH; [exact H|lia].
Qed.
Lemma readline_loop_then T f : cut_short T -> forall line k r k', sock_readline_loop f line k = Some (r, k') ->
  isock_readline_loop f line (then_ T k) = Some (r, then_ T k')
  \/ exists e l x, T = IRaise e :: l /\ r = Ok x /\ k_pending k' = [] /\ k_buffer k' = []
       /\ isock_readline_loop f line (then_ T k) = Some (Raise e, then_ l k').
Proof.
  intros C. induction f as [|f IH]; intros line k r k' H; [discriminate|]. cbn [sock_readline_loop] in H. cbn [isock_readline_loop].
  destruct (sock_read 1 k) as [d k1] eqn:E. destruct (read_then T 1 k d k1 C E) as [E2|(e & l & -> & -> & P & B & E2)]; rewrite E2.
  - destruct d as [[|x [|y d]]|e]; try (injection H as <- <-; left; reflexivity).
    destruct (ends_crlf (line ++ [x])); [injection H as <- <-; left; reflexivity|]. apply IH, H.
  - injection H as <- <-. right. exists e, l, line. split; [reflexivity|]. split; [reflexivity|]. split; [exact P|].
    split; [|reflexivity]. destruct (k_buffer k1); [reflexivity|cbn in B; lia].
Qed.
Lemma readline_then T k r k' : cut_short T -> sock_readline k = (r, k') ->
  isock_readline (then_ T k) = (r, then_ T k')
  \/ exists e l x, T = IRaise e :: l /\ r = Ok x /\ k_pending k' = [] /\ k_buffer k' = []
       /\ isock_readline (then_ T k) = (Raise e, then_ l k').
Proof.
  intros C H. unfold sock_readline in H. unfold isock_readline. pose proof (avail_then T k) as L.
  destruct (sock_readline_loop (Datatypes.S (sock_avail k)) [] k) as [[r0 k0]|] eqn:E.
  - injection H as -> ->. destruct (readline_loop_then T _ C _ _ _ _ E) as [E2|(e & l & x & HT & R & P & B & E2)].
    + left. rewrite (readline_loop_more _ (Datatypes.S (isock_avail (then_ T k))) _ _ _ E2) by lia. reflexivity.
    + right. exists e, l, x. rewrite (readline_loop_more _ (Datatypes.S (isock_avail (then_ T k))) _ _ _ E2) by lia. auto 6.
  - exfalso. destruct (readline_loop_spec (Datatypes.S (sock_avail k)) [] k ltac:(lia)) as (r1 & d & k1 & used & X & _); [|congruence].
    intros a b Y. symmetry in Y. apply app_eq_nil in Y as [_ Y]. discriminate.
Qed.

(* ---------------------------------------------------------------- the reader *)
Notation spass := (pass sock (sock_read 1) sock_readline).
Notation ipass := (pass isock (isock_read 1) isock_readline).
Definition at_end (k : sock) : Prop := k_pending k = [] /\ k_buffer k = [].

Lemma read1_end k : at_end k -> sock_read 1 k = (Ok [], k).
Proof. intros [P B]. unfold sock_read. rewrite P. cbn [length sock_read_loop]. rewrite B. cbn [length Nat.ltb Nat.leb]. unfold sock_recv. rewrite P. reflexivity. Qed.
Lemma pass_end cfg k : at_end k -> spass cfg k = (Raise EOFError, k).
Proof. intros H. unfold pass, read_byte. rewrite (read1_end k H). reflexivity. Qed.

Lemma pass_then cfg T k r k' : cut_short T -> spass cfg k = (r, k') ->
  ipass cfg (then_ T k) = (r, then_ T k')
  \/ exists e l, T = IRaise e :: l /\ at_end k' /\ ipass cfg (then_ T k) = (Raise e, then_ l k').
Proof.
  intros C. unfold pass, read_byte, read_line.
  destruct (sock_read 1 k) as [r1 k1] eqn:E1.
  destruct (read_then T 1 k r1 k1 C E1) as [F1|(e & l & HT & -> & P & B & F1)]; rewrite F1.
  2:{ intros H. injection H as <- <-. right. exists e, l. split; [exact HT|]. split; [split; [exact P|destruct (k_buffer k1); [reflexivity|cbn in B; lia]]|reflexivity]. }
  destruct r1 as [d1|e1]; [|intros H; injection H as <- <-; left; reflexivity].
  destruct d1 as [|b1 d1]; [intros H; injection H as <- <-; left; reflexivity|].
  destruct (negb (str_eqb (b1 :: d1) [c_dollar])); [intros H; injection H as <- <-; left; reflexivity|].
  destruct (sock_read 1 k1) as [r2 k2] eqn:E2.
  destruct (read_then T 1 k1 r2 k2 C E2) as [F2|(e & l & HT & -> & P & B & F2)]; rewrite F2.
  2:{ intros H. injection H as <- <-. right. exists e, l. split; [exact HT|]. split; [split; [exact P|destruct (k_buffer k2); [reflexivity|cbn in B; lia]]|reflexivity]. }
  destruct r2 as [d2|e2]; [|intros H; injection H as <- <-; left; reflexivity].
  destruct d2 as [|b2 d2]; [intros H; injection H as <- <-; left; reflexivity|].
  destruct (match b2 :: d2 with [c] => hdr_second c | _ => false end).
  - destruct (sock_readline k2) as [r3 k3] eqn:E3.
    destruct (readline_then T k2 r3 k3 C E3) as [F3|(e & l & x & HT & -> & P & B & F3)]; rewrite F3.
    + destruct r3 as [d3|e3]; [|intros H; injection H as <- <-; left; reflexivity].
      destruct d3 as [|b3 d3]; [intros H; injection H as <- <-; left; reflexivity|].
      destruct (N.eqb (last (b3 :: d3) 0%N) c_lf); [|intros H; injection H as <- <-; left; reflexivity].
      destruct (parse _ _ _ _); intros H; injection H as <- <-; left; reflexivity.
    + intros H. right. exists e, l. split; [exact HT|].
      assert (k' = k3) as ->.
      { destruct x as [|b3 d3]; [injection H as _ <-; reflexivity|]. destruct (N.eqb (last (b3 :: d3) 0%N) c_lf); [|injection H as _ <-; reflexivity].
        destruct (parse _ _ _ _); injection H as _ <-; reflexivity. }
      split; [split; assumption|reflexivity].
  - destruct (r_nmeaonly cfg); intros H; injection H as <- <-; left; reflexivity.
Qed.

Lemma eof_cases x : x = EOFError \/ (x <> EOFError /\ forall X (a b : X), match x with EOFError => a | _ => b end = b).
Proof. destruct x; try (right; split; [discriminate|reflexivity]); left; reflexivity. Qed.

Lemma read_end cfg fuel k o ev k' : at_end k -> sread cfg fuel k = Some (o, ev, k') -> o = REnd /\ ev = [] /\ k' = k.
Proof.
  intros A H. unfold sread in H. destruct fuel as [|f]; [discriminate|]. cbn [Reader.read] in H. rewrite (pass_end cfg k A) in H.
  injection H as <- <- <-. auto.
Qed.

Lemma read_then_ cfg T : cut_short T -> (forall e l, T = IRaise e :: l -> ~ protocol_error e /\ e <> EOFError) ->
  forall fuel k o ev k', sread cfg fuel k = Some (o, ev, k') ->
  isread cfg fuel (then_ T k) = Some (o, ev, then_ T k')
  \/ exists e l ev2 evx, T = IRaise e :: l /\ at_end k' /\ ev = ev2 ++ evx
       /\ isread cfg fuel (then_ T k) = Some (RRaise e, ev2, then_ l k').
Proof.
  intros C Ok_. induction fuel as [|f IH]; intros k o ev k' H; [discriminate|]. unfold sread, isread in *. cbn [Reader.read] in *.
  destruct (spass cfg k) as [r k1] eqn:P. destruct (pass_then cfg T k r k1 C P) as [Q|(e & l & HT & A & Q)]; rewrite Q.
  - destruct r as [[[raw m]|]|x].
    + injection H as <- <- <-. left. reflexivity.
    + apply IH, H.
    + destruct (eof_cases x) as [-> |[Nx M]]; [injection H as <- <- <-; left; reflexivity|]. rewrite M in H. rewrite M.
      destruct (is_nmea_error x); [|injection H as <- <- <-; left; reflexivity].
      destruct (do_error cfg x) as [[x'|] ev1]; [injection H as <- <- <-; left; reflexivity|].
      destruct (read sock (sock_read 1) sock_readline cfg f k1) as [[[o1 ev2] k2]|] eqn:R; [|discriminate]. injection H as <- <- <-.
      destruct (IH _ _ _ _ R) as [I1|(e & l & ev3 & evx & HT & A & -> & I1)]; rewrite I1; [left; reflexivity|].
      right. exists e, l, (ev1 ++ ev3), evx. split; [exact HT|]. split; [exact A|]. split; [apply app_assoc|reflexivity].
  - right. destruct (Ok_ e l HT) as [Np Ne].
    assert (k' = k1) as ->.
    { destruct r as [[[raw m]|]|x].
      - injection H as _ _ <-. reflexivity.
      - exact (proj2 (proj2 (read_end cfg f k1 o ev k' A H))).
      - destruct (eof_cases x) as [-> |[Nx M]]; [injection H as _ _ <-; reflexivity|]. rewrite M in H.
        destruct (is_nmea_error x); [|injection H as _ _ <-; reflexivity].
        destruct (do_error cfg x) as [[x'|] ev1]; [injection H as _ _ <-; reflexivity|].
        destruct (read sock (sock_read 1) sock_readline cfg f k1) as [[[o1 ev2] k2]|] eqn:R; [|discriminate]. injection H as _ _ <-.
        exact (proj2 (proj2 (read_end cfg f k1 o1 ev2 k2 A R))). }
    exists e, l, [], ev. split; [exact HT|]. split; [exact A|]. split; [reflexivity|].
    destruct (eof_cases e) as [-> |[_ M]]; [contradiction|]. rewrite M.
    destruct (is_nmea_error e) eqn:X; [apply protocol_error_iff in X; contradiction|reflexivity].
Qed.

Lemma iterate_then cfg fuel T : cut_short T -> (forall e l, T = IRaise e :: l -> ~ protocol_error e /\ e <> EOFError) ->
  forall n k items x ev k', siterate cfg n fuel k = Some (items, x, ev, k') ->
  isiterate cfg n fuel (then_ T k) = Some (items, x, ev, then_ T k')
  \/ exists e l items2 extra ev2 evx, T = IRaise e :: l /\ at_end k' /\ items = items2 ++ extra /\ (length extra <= 1)%nat /\ ev = ev2 ++ evx
       /\ isiterate cfg n fuel (then_ T k) = Some (items2, Some e, ev2, then_ l k').
Proof.
  intros C Ok_. induction n as [|n IH]; intros k items x ev k' H; [discriminate|]. unfold siterate, isiterate in *. cbn [iterate] in *.
  destruct (read sock (sock_read 1) sock_readline cfg fuel k) as [[[o ev1] k1]|] eqn:R; [|discriminate].
  destruct (read_then_ cfg T C Ok_ fuel k o ev1 k1 R) as [Q|(e & l & ev2 & evx & HT & A & -> & Q)]; unfold isread in Q; rewrite Q.
  - destruct o as [raw m| |e]; [|injection H as <- <- <- <-; left; reflexivity|injection H as <- <- <- <-; left; reflexivity].
    destruct (iterate sock (sock_read 1) sock_readline cfg n fuel k1) as [[[[l1 x1] ev3] k3]|] eqn:I; [|discriminate]. injection H as <- <- <- <-.
    destruct (IH _ _ _ _ _ I) as [J|(e & l & items2 & extra & ev4 & evx & HT & A & -> & L & -> & J)]; rewrite J; [left; reflexivity|right].
    exists e, l, ((raw, m) :: items2), extra, (ev1 ++ ev4), evx. split; [exact HT|]. split; [exact A|]. split; [reflexivity|]. split; [exact L|].
    split; [apply app_assoc|reflexivity].
  - right. assert (k' = k1 /\ (length items <= 1)%nat /\ exists evy, ev = ev2 ++ evy) as (-> & L & evy & ->).
    { destruct o as [raw m| |e1].
      - destruct (iterate sock (sock_read 1) sock_readline cfg n fuel k1) as [[[[l1 x1] ev3] k3]|] eqn:I; [|discriminate]. injection H as <- <- <- <-.
        destruct n as [|n]; [discriminate|]. cbn [iterate] in I.
        destruct (read sock (sock_read 1) sock_readline cfg fuel k1) as [[[o2 ev5] k5]|] eqn:R5; [|discriminate].
        destruct (read_end cfg fuel k1 o2 ev5 k5 A R5) as (-> & -> & ->). injection I as <- <- <- <-.
        split; [reflexivity|]. split; [apply le_n|]. exists evx. rewrite app_nil_r. reflexivity.
      - injection H as <- <- <- <-. split; [reflexivity|]. split; [apply le_S, le_n|]. exists evx. reflexivity.
      - injection H as <- <- <- <-. split; [reflexivity|]. split; [apply le_S, le_n|]. exists evx. reflexivity. }
    exists e, l, [], items, ev2, evy. split; [exact HT|]. split; [exact A|]. split; [reflexivity|]. split; [exact L|]. split; reflexivity.
Qed.

(* ------------------------------------------------------- whole lines *)
(* what is left of data that ends with CR LF *)
Definition tail_of_lines (s : bytes) : Prop := s = [] \/ s = [lf] \/ exists b, s = b ++ [cr; lf].
Lemma tail_next b s : tail_of_lines (b :: s) -> tail_of_lines s.
Proof.
  intros [H|[H|([|x a] & H)]]; [discriminate H|injection H as _ ->; left; reflexivity| |].
  - injection H as _ ->. right. left. reflexivity.
  - injection H as _ ->. right. right. exists a. reflexivity.
Qed.
Lemma tail_suffix p s : tail_of_lines (p ++ s) -> tail_of_lines s.
Proof. induction p as [|b p IH]; intros H; [exact H|]. apply IH, (tail_next b), H. Qed.

Lemma read1_then T k b s : sock_is k (b :: s) -> exists k', sock_read 1 k = (Ok [b], k') /\ sock_is k' s
  /\ (cut_short T -> isock_read 1 (then_ T k) = (Ok [b], then_ T k')).
Proof.
  intros K. destruct (sock_read1_ok k (b :: s) K) as (d & k' & E & -> & K'). exists k'. split; [exact E|]. split; [exact K'|].
  intros C. destruct (read_then T 1 k _ _ C E) as [F|(e & l & _ & D & _)]; [exact F|discriminate D].
Qed.
(* readline() cut short had not got a CR LF *)
Lemma readline_loop_short T f : cut_short T -> forall line k x k' e l,
  ends_crlf line = false -> sock_readline_loop f line k = Some (Ok x, k') ->
  isock_readline_loop f line (then_ T k) = Some (Raise e, l) -> ends_crlf x = false.
Proof.
  intros C. induction f as [|f IH]; intros line k x k' e l Nl H J; [discriminate|]. cbn [sock_readline_loop] in H. cbn [isock_readline_loop] in J.
  destruct (sock_read 1 k) as [d k1] eqn:E. destruct (read_then T 1 k d k1 C E) as [E2|(e1 & l1 & -> & -> & P & B & E2)]; rewrite E2 in J.
  - destruct d as [[|y [|z d]]|e0]; try discriminate J; try discriminate H.
    destruct (ends_crlf (line ++ [y])) eqn:X; [discriminate J|]. eapply IH; eassumption.
  - injection H as <- _. exact Nl.
Qed.
Lemma readline_whole T k s : cut_short T -> sock_is k s -> (exists b, s = b ++ [cr; lf]) ->
  exists line rest k', sock_readline k = (Ok line, k') /\ line <> [] /\ s = line ++ rest /\ sock_is k' rest
    /\ isock_readline (then_ T k) = (Ok line, then_ T k').
Proof.
  intros C K (b & Hb). destruct (sock_readline_ok k s K) as (line & rest & k' & E & F & K'). destruct F as [Fs F]. exists line, rest, k'.
  assert (exists y, line = y ++ [cr; lf]) as (y & Hy).
  { destruct F as [(y & Hy & _)|[-> Nc]]; [exists y; exact Hy|]. rewrite app_nil_r in Fs. exists b. congruence. }
  split; [exact E|]. split; [rewrite Hy; destruct y; discriminate|]. split; [exact Fs|]. split; [exact K'|].
  destruct (readline_then T k _ _ C E) as [J|(e & l & x & HT & X & _ & _ & J)]; [exact J|exfalso]. injection X as <-.
  unfold sock_readline in E. unfold isock_readline in J.
  destruct (sock_readline_loop (Datatypes.S (sock_avail k)) [] k) as [[r0 k0]|] eqn:L.
  2:{ destruct (readline_loop_spec (Datatypes.S (sock_avail k)) [] k ltac:(lia)) as (r1 & d & k1 & used & X & _); [|congruence].
      intros a c Y. symmetry in Y. apply app_eq_nil in Y as [_ Y]. discriminate. }
  injection E as -> ->. pose proof (avail_then T k) as Lt.
  destruct (readline_loop_then T _ C _ _ _ _ L) as [E2|(e2 & l2 & x & HT2 & R & P & B & E2)].
  - rewrite (readline_loop_more _ (Datatypes.S (isock_avail (then_ T k))) _ _ _ E2) in J by lia. discriminate J.
  - pose proof (readline_loop_short T _ C [] k line k' e2 _ eq_refl L E2) as Ec.
    assert (ends_crlf line = true) as X by (apply ends_crlf_iff; exists y; exact Hy). congruence.
Qed.

Lemma at_end_iff k s : sock_is k s -> s = [] -> at_end k.
Proof.
  intros (_ & St & Ct) ->. unfold contents in Ct. apply app_eq_nil in Ct as [B D]. split; [|exact B].
  unfold steady in St. destruct (k_pending k) as [|r p]; [reflexivity|]. inversion St as [|? ? (d & -> & Nd) _]; subst.
  cbn in D. apply app_eq_nil in D as [D _]. contradiction.
Qed.
Lemma end_sock_is k s : sock_is k s -> at_end k -> s = [].
Proof. intros (_ & _ & Ct) [P B]. rewrite <- Ct. unfold contents. rewrite P, B. reflexivity. Qed.

Lemma pass_whole cfg T k b s r k' : cut_short T -> sock_is k (b :: s) -> tail_of_lines (b :: s) -> spass cfg k = (r, k') ->
  ipass cfg (then_ T k) = (r, then_ T k') /\ r <> Raise EOFError /\ exists s', sock_is k' s' /\ tail_of_lines s'.
Proof.
  intros C K W. unfold pass, read_byte, read_line.
  destruct (read1_then T k b s K) as (k1 & E1 & K1 & I1). rewrite E1, (I1 C). pose proof (tail_next _ _ W) as W1.
  destruct (negb (str_eqb [b] [c_dollar])) eqn:D.
  { intros H. injection H as <- <-. split; [reflexivity|]. split; [discriminate|]. exists s. auto. }
  assert (b = dollar) as ->.
  { apply negb_false_iff, str_eqb_eq in D. injection D as ->. reflexivity. }
  assert (exists a, dollar :: s = a ++ [cr; lf]) as (a & Ha).
  { destruct W as [W|[W|W]]; [discriminate W|discriminate W|exact W]. }
  destruct s as [|b2 s2].
  { destruct a as [|x [|y a]]; discriminate Ha. }
  destruct (read1_then T k1 b2 s2 K1) as (k2 & E2 & K2 & I2). rewrite E2, (I2 C). pose proof (tail_next _ _ W1) as W2.
  destruct (hdr_second b2) eqn:Hs.
  - assert (exists c, s2 = c ++ [cr; lf]) as Hc.
    { destruct a as [|x [|y a]].
      - discriminate Ha.
      - injection Ha as _ -> ->. exfalso. apply second_not_cr, hdr_second_iff. exact Hs.
      - injection Ha as _ _ ->. exists a. reflexivity. }
    destruct (readline_whole T k2 s2 C K2 Hc) as (line & rest & k3 & E3 & Nl & Hl & K3 & I3). rewrite E3, I3.
    assert (tail_of_lines rest) as W3 by (apply (tail_suffix line); rewrite <- Hl; exact W2).
    destruct line as [|c3 l3]; [contradiction|]. destruct (N.eqb (last (c3 :: l3) 0%N) c_lf).
    + pose proof (parse_not_eof (MBytes ([dollar] ++ [b2] ++ c3 :: l3)) (r_mode cfg) (r_validate cfg) (r_userdefined cfg)) as Q.
      destruct (parse (MBytes ([dollar] ++ [b2] ++ c3 :: l3)) (r_mode cfg) (r_validate cfg) (r_userdefined cfg)) as [m|e];
        intros H; injection H as <- <-; (split; [reflexivity|]); (split; [congruence|]); exists rest; auto.
    + intros H. injection H as <- <-. split; [reflexivity|]. split; [discriminate|]. exists rest. auto.
  - destruct (r_nmeaonly cfg); intros H; injection H as <- <-; (split; [reflexivity|]); (split; [discriminate|]); exists s2; auto.
Qed.

Lemma read_whole cfg e l : ~ protocol_error e -> e <> EOFError ->
  forall fuel k s o ev k', sock_is k s -> tail_of_lines s -> sread cfg fuel k = Some (o, ev, k') ->
  match o with
  | REnd => at_end k' /\ isread cfg fuel (then_ (IRaise e :: l) k) = Some (RRaise e, ev, then_ l k')
  | _ => isread cfg fuel (then_ (IRaise e :: l) k) = Some (o, ev, then_ (IRaise e :: l) k')
         /\ exists s', sock_is k' s' /\ tail_of_lines s'
  end.
Proof.
  intros Np Ne. assert (cut_short (IRaise e :: l)) as C by (right; eauto).
  induction fuel as [|f IH]; intros k s o ev k' K W H; [discriminate|]. destruct s as [|b s].
  - pose proof (at_end_iff _ _ K eq_refl) as A. destruct (read_end cfg _ k o ev k' A H) as (-> & -> & ->). split; [exact A|].
    unfold isread. cbn [Reader.read]. destruct (pass_then cfg (IRaise e :: l) k _ _ C (pass_end cfg k A)) as [Q|(e2 & l2 & HT & _ & Q)].
    + exfalso. unfold pass, read_byte in Q. destruct A as [P B].
      unfold isock_read, then_ in Q. rewrite P, B in Q. cbn in Q. injection Q as Q _. exact (Ne Q).
    + injection HT as <- <-. rewrite Q. destruct (eof_cases e) as [-> |[_ M]]; [contradiction|]. rewrite M.
      destruct (is_nmea_error e) eqn:X; [apply protocol_error_iff in X; contradiction|reflexivity].
  - unfold sread, isread in *. cbn [Reader.read] in *. destruct (spass cfg k) as [r k1] eqn:P.
    destruct (pass_whole cfg _ k b s r k1 C K W P) as (Q & Nf & s1 & K1 & W1). rewrite Q.
    destruct r as [[[raw m]|]|x].
    + injection H as <- <- <-. split; [reflexivity|eauto].
    + exact (IH _ _ _ _ _ K1 W1 H).
    + destruct (eof_cases x) as [-> |[Nx M]]; [contradiction Nf; reflexivity|]. rewrite M in H. rewrite !M.
      destruct (is_nmea_error x); [|injection H as <- <- <-; split; [reflexivity|eauto]].
      destruct (do_error cfg x) as [[x'|] ev1]; [injection H as <- <- <-; split; [reflexivity|eauto]|].
      destruct (read sock (sock_read 1) sock_readline cfg f k1) as [[[o1 ev2] k2]|] eqn:R; [|discriminate]. injection H as <- <- <-.
      specialize (IH _ _ _ _ _ K1 W1 R). destruct o1 as [raw m| |e0].
      * destruct IH as [I1 Y]. rewrite I1. split; [reflexivity|exact Y].
      * destruct IH as [A I1]. split; [exact A|]. rewrite I1. reflexivity.
      * destruct IH as [I1 Y]. rewrite I1. split; [reflexivity|exact Y].
Qed.
Lemma iterate_whole cfg fuel e l : ~ protocol_error e -> e <> EOFError ->
  forall n k s items x ev k', sock_is k s -> tail_of_lines s -> siterate cfg n fuel k = Some (items, x, ev, k') ->
  match x with
  | None => at_end k' /\ isiterate cfg n fuel (then_ (IRaise e :: l) k) = Some (items, Some e, ev, then_ l k')
  | Some _ => isiterate cfg n fuel (then_ (IRaise e :: l) k) = Some (items, x, ev, then_ (IRaise e :: l) k')
  end.
Proof.
  intros Np Ne. induction n as [|n IH]; intros k s items x ev k' K W H; [discriminate|]. unfold siterate, isiterate in *. cbn [iterate] in *.
  destruct (read sock (sock_read 1) sock_readline cfg fuel k) as [[[o ev1] k1]|] eqn:R; [|discriminate].
  pose proof (read_whole cfg e l Np Ne fuel k s o ev1 k1 K W R) as Q. unfold isread in Q. destruct o as [raw m| |e0].
  - destruct Q as (Q & s' & K' & W'). rewrite Q.
    destruct (iterate sock (sock_read 1) sock_readline cfg n fuel k1) as [[[[l1 x1] ev3] k3]|] eqn:I; [|discriminate]. injection H as <- <- <- <-.
    specialize (IH _ _ _ _ _ _ K' W' I). destruct x1 as [e1|].
    + rewrite IH. reflexivity.
    + destruct IH as [A IH]. split; [exact A|]. rewrite IH. reflexivity.
  - destruct Q as [A Q]. injection H as <- <- <- <-. split; [exact A|]. rewrite Q. reflexivity.
  - destruct Q as [Q _]. injection H as <- <- <- <-. rewrite Q. reflexivity.
Qed.

(* ------------------------------------------------------------------ C116 *)
(* the wrapper over a connection without interrupts is the one of C34-C39 *)
Definition live (k : sock) : isock := then_ [] k.

Theorem C116_steady cfg n fuel k items x ev k' :
  siterate cfg n fuel k = Some (items, x, ev, k') -> isiterate cfg n fuel (live k) = Some (items, x, ev, live k').
Proof.
  intros H. destruct (iterate_then cfg fuel [] (or_introl eq_refl) ltac:(discriminate) n k items x ev k' H) as [J|(e & l & _ & _ & _ & _ & X & _)];
    [exact J|discriminate X].
Qed.
(* any connection: until the interrupt comes, the items and errors are those of the same connection without it, except that a last line
   that ends with LF alone may still be wanting; then the loop ends with that very exception, nothing is left in the buffer, and what was
   to arrive after the interrupt is still to come *)
Theorem C116_interrupted cfg n fuel k e later items x ev k' : ~ protocol_error e -> e <> EOFError ->
  siterate cfg n fuel k = Some (items, x, ev, k') ->
  isiterate cfg n fuel (then_ (IRaise e :: later) k) = Some (items, x, ev, then_ (IRaise e :: later) k')
  \/ exists items2 extra ev2 evx, items = items2 ++ extra /\ (length extra <= 1)%nat /\ ev = ev2 ++ evx
       /\ isiterate cfg n fuel (then_ (IRaise e :: later) k) = Some (items2, Some e, ev2, mkisock later [] (k_partial k') (k_encoding k') (k_zlib k')).
Proof.
  intros Np Ne H. assert (cut_short (IRaise e :: later)) as C by (right; eauto).
  destruct (iterate_then cfg fuel _ C ltac:(intros e0 l0 X; injection X as <- _; auto) n k items x ev k' H)
    as [J|(e1 & l1 & items2 & extra & ev2 & evx & HT & A & Hi & L & He & J)]; [left; exact J|right].
  injection HT as <- <-. exists items2, extra, ev2, evx. split; [exact Hi|]. split; [exact L|]. split; [exact He|]. rewrite J.
  destruct A as [P B]. unfold then_. rewrite P, B. reflexivity.
Qed.
Lemma keeps_read k0 n s d s' : k_partial s = k_partial k0 /\ k_encoding s = k_encoding k0 /\ k_zlib s = k_zlib k0 ->
  plain_sock k0 -> sock_read n s = (d, s') -> k_partial s' = k_partial k0 /\ k_encoding s' = k_encoding k0 /\ k_zlib s' = k_zlib k0.
Proof.
  intros (A & B & C) Pl E. destruct (read_spec _ _ _ _ E) as (used & _ & _ & Pa & En & Zl & _). rewrite B in Pa. unfold plain_sock in Pl.
  rewrite received_plain in Pa by exact Pl. cbn [snd] in Pa. split; [congruence|]. split; congruence.
Qed.
Lemma keeps_readline k0 s d s' : k_partial s = k_partial k0 /\ k_encoding s = k_encoding k0 /\ k_zlib s = k_zlib k0 ->
  plain_sock k0 -> sock_readline s = (d, s') -> k_partial s' = k_partial k0 /\ k_encoding s' = k_encoding k0 /\ k_zlib s' = k_zlib k0.
Proof.
  intros (A & B & C) Pl E. destruct (readline_spec s) as (r & d2 & k2 & used & E2 & _ & _ & Pa & En & Zl & _). rewrite E in E2. injection E2 as -> ->.
  rewrite B in Pa. unfold plain_sock in Pl. rewrite received_plain in Pa by exact Pl. cbn [snd] in Pa. split; [congruence|]. split; congruence.
Qed.
(* whole lines have arrived: every item and every error first, then the interrupt, and a loop started again goes on with what follows,
   exactly as if the connection had begun there *)
Theorem C116_resume cfg n fuel k e p : ~ protocol_error e -> e <> EOFError ->
  plain_sock k -> steady k -> (contents k = [] \/ exists body, contents k = body ++ [cr; lf]) ->
  (length (contents k) < fuel)%nat -> (length (contents k) < n)%nat ->
  exists items x ev k', siterate cfg n fuel k = Some (items, x, ev, k')
  /\ match x with
     | Some _ => isiterate cfg n fuel (then_ (IRaise e :: map IRecv p) k) = Some (items, x, ev, then_ (IRaise e :: map IRecv p) k')
     | None => exists again, isiterate cfg n fuel (then_ (IRaise e :: map IRecv p) k) = Some (items, Some e, ev, again)
         /\ forall n2 fuel2 items2 x2 ev2 k2,
              siterate cfg n2 fuel2 (mksock p [] (k_partial k) (k_encoding k) (k_zlib k)) = Some (items2, x2, ev2, k2) ->
              isiterate cfg n2 fuel2 again = Some (items2, x2, ev2, live k2)
     end.
Proof.
  intros Np Ne Pl St W L1 L2. destruct (C36_terminates cfg n fuel k Pl St L1 L2) as (items & x & ev & k' & H). exists items, x, ev, k'. split; [exact H|].
  assert (tail_of_lines (contents k)) as Tl by (destruct W as [W|W]; [left; exact W|right; right; exact W]).
  pose proof (iterate_whole cfg fuel e (map IRecv p) Np Ne n k (contents k) items x ev k' (conj Pl (conj St eq_refl)) Tl H) as Q.
  destruct x as [e0|]; [exact Q|]. destruct Q as [[P B] Q]. exists (then_ (map IRecv p) k'). split; [exact Q|].
  intros n2 fuel2 items2 x2 ev2 k2 H2.
  assert (then_ (map IRecv p) k' = live (mksock p [] (k_partial k) (k_encoding k) (k_zlib k))) as ->.
  { assert (k_partial k' = k_partial k /\ k_encoding k' = k_encoding k /\ k_zlib k' = k_zlib k) as (Q1 & Q2 & Q3)
      by (refine (iterate_keeps _ _ (fun j => k_partial j = k_partial k /\ k_encoding j = k_encoding k /\ k_zlib j = k_zlib k) cfg _ _ _ _ _ _ _ _ _ (conj eq_refl (conj eq_refl eq_refl)) H);
          [intros; eapply keeps_read|intros; eapply keeps_readline]; eassumption).
    unfold live, then_. cbn [k_pending k_buffer k_partial k_encoding k_zlib]. rewrite P, B, Q1, Q2, Q3, app_nil_r. reflexivity. }
  apply C116_steady, H2.
Qed.
(* the constructor's own recv() is interrupted: no wrapper *)
Theorem C116_open e later enc z : isock_open (IRaise e :: later) enc z = Raise e.
Proof. reflexivity. Qed.
Theorem C116_opened T p enc z : p <> [] -> match sock_open p enc z with
  | Ok k => isock_open (map IRecv p ++ T) enc z = Ok (then_ T k)
  | Raise e => isock_open (map IRecv p ++ T) enc z = Raise e
  end.
Proof.
  intros Np. destruct p as [|r p]; [contradiction Np; reflexivity|]. unfold sock_open, isock_open.
  pose proof (recv_then T r p (mksock (r :: p) [] [] enc z) eq_refl) as R. unfold then_ in R at 1. cbn [k_pending k_buffer k_partial k_encoding k_zlib] in R.
  rewrite R. destruct (sock_recv (mksock (r :: p) [] [] enc z)) as [[b|e] k]; reflexivity.
Qed.

Definition ctrl_c : exc := OtherException 6.
Definition ex_gll : bytes := u "$GNGLL,5327.04319,S,00214.41396,E,223232.00,A,A*68" ++ [cr; lf].
Definition ex_conn (l : list recv_result) : sock := mksock l [] [] 0 no_zlib.
Definition ex_int_cfg : rcfg := mkrcfg 0 1 false 1 None [].
Definition raws_of (r : option (list (bytes * option msg) * option exc * list event * isock)) : option (list bytes * option exc * list irecv) :=
  match r with Some (items, x, _, k) => Some (map fst items, x, i_pending k) | None => None end.
(* a sentence, the interrupt, another sentence *)
Example C116_example :
  let k := ex_conn [RData (firstn 20 ex_gll); RData (skipn 20 ex_gll)] in
  let T := [IRaise ctrl_c; IRecv (RData ex_gll)] in
  ~ protocol_error ctrl_c /\ ctrl_c <> EOFError /\ plain_sock k /\ steady k /\ contents k = u "$GNGLL,5327.04319,S,00214.41396,E,223232.00,A,A*68" ++ [cr; lf]
  /\ raws_of (isiterate ex_int_cfg 300 300 (then_ T k)) = Some ([ex_gll], Some ctrl_c, [IRecv (RData ex_gll)])
  /\ raws_of (match isiterate ex_int_cfg 300 300 (then_ T k) with Some (_, _, _, k') => isiterate ex_int_cfg 300 300 k' | None => None end)
     = Some ([ex_gll], None, []).
Proof.
  cbv zeta. split; [intros H; apply protocol_error_iff in H; discriminate H|]. split; [discriminate|]. split; [reflexivity|].
  split; [unfold steady, ex_conn; cbn [k_pending]; apply Forall_cons; [eexists; split; [reflexivity|vm_compute; discriminate]|];
          apply Forall_cons; [eexists; split; [reflexivity|vm_compute; discriminate]|exact (Forall_nil _)]|].
  split; [vm_compute; reflexivity|]. split; vm_compute; reflexivity.
Qed.
(* within a sentence: what had arrived of it is lost, and the loop started again does not deliver it *)
Theorem C116_refuted :
  let k := ex_conn [RData (firstn 20 ex_gll)] in
  let T := [IRaise ctrl_c; IRecv (RData (skipn 20 ex_gll))] in
  raws_of (isiterate ex_int_cfg 300 300 (then_ [IRecv (RData (skipn 20 ex_gll))] k)) = Some ([ex_gll], None, [])
  /\ raws_of (isiterate ex_int_cfg 300 300 (then_ T k)) = Some ([], Some ctrl_c, [IRecv (RData (skipn 20 ex_gll))])
  /\ raws_of (match isiterate ex_int_cfg 300 300 (then_ T k) with Some (_, _, _, k') => isiterate ex_int_cfg 300 300 k' | None => None end)
     = Some ([], None, []).
Proof. cbv zeta. split; [vm_compute; reflexivity|]. split; vm_compute; reflexivity. Qed.
