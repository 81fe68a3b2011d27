(* C112: how much a SocketWrapper holds back *)
From Coq Require Import Lia.
From Verif Require Import Message Reader Socket BaseLemmas TextLemmas NumLemmas Spec ReaderSpec SocketSpec SocketProofs ChunkProofs PropsSocket.
Local Open Scope Z_scope.

(* recv(bufsize) delivers at most [b] bytes at a time *)
Definition pieces_upto (b : nat) (l : list recv_result) : Prop :=
  Forall (fun r => match r with RData d => (length d <= b)%nat | RError => True end) l.
(* no call of read() asks for more than [n] bytes *)
Definition requests_upto (n : nat) (l : list (call * result bytes)) : Prop :=
  Forall (fun c => match fst c with CRead m => (m <= n)%nat | CReadline => True end) l.
(* no compression *)
Definition uncompressed (enc : Z) : Prop := Z.testbit enc 1 = false /\ Z.testbit enc 2 = false /\ Z.testbit enc 3 = false.

Lemma decompress_id z enc c : uncompressed enc -> decompress z enc c = c.
Proof.
  intros (A & B & C). apply decompress_inflated. apply (inflated_steps z enc c c c c); left; split; auto.
Qed.
Lemma firstn_skipn_length {A} n (l : list A) : (length (firstn n l) + length (skipn n l) = length l)%nat.
Proof. rewrite <- app_length, firstn_skipn. reflexivity. Qed.
Lemma dechunk_loop_size z enc fuel : uncompressed enc -> forall s acc c p,
  dechunk_loop fuel z enc s acc = Some (Ok (c, p)) -> (length c + length p <= length acc + length s)%nat.
Proof.
  intros U. induction fuel as [|f IH]; intros s acc c p H; [discriminate H|]. cbn [dechunk_loop] in H.
  destruct (cut_line s) as [line s1] eqn:E. apply readline_split in E. subst s. rewrite app_length.
  destruct (negb (ends_crlf line)); [injection H as <- <-; lia|]. destruct (int16_of_bytes line) as [n|]; [|injection H as <- <-; cbn; lia].
  destruct (n =? 0); [injection H as <- <-; cbn; lia|]. unfold bytesio_read in H. destruct (_ || _); [discriminate H|].
  destruct (n <? 0).
  - destruct (negb _); [injection H as <- <-; rewrite app_length; lia|]. cbn [cut_line] in H. apply IH in H. rewrite app_length, decompress_id in H by exact U. cbn in H. lia.
  - pose proof (firstn_skipn_length (Z.to_nat n) s1) as L. destruct (negb _); [injection H as <- <-; rewrite app_length; lia|].
    destruct (cut_line (skipn (Z.to_nat n) s1)) as [l2 s3] eqn:E3. apply readline_split in E3. apply (f_equal (@length N)) in E3. rewrite app_length in E3.
    apply IH in H. rewrite app_length, decompress_id in H by exact U. lia.
Qed.
(* Without compression nothing is ever multiplied: decoded bytes and the partial chunk together are not longer than what they were made of. *)
Theorem C112_no_amplification z enc segment chunks partial :
  uncompressed enc -> dechunk z enc segment = Some (Ok (chunks, partial)) -> (length chunks + length partial <= length segment)%nat.
Proof. intros U H. apply (dechunk_loop_size z enc _ U) in H. cbn in H. exact H. Qed.

(* the partial chunk never exceeds [p] *)
Definition partial_upto (p : nat) (k : sock) : Prop :=
  forall used rest, k_pending k = used ++ rest -> (length (snd (received (k_zlib k) (k_encoding k) (k_partial k) used)) <= p)%nat.
Definition mild (b p : nat) (k : sock) : Prop := (Z.testbit (k_encoding k) 0 = false \/ uncompressed (k_encoding k)) /\ pieces_upto b (k_pending k) /\ partial_upto p k.

Lemma recv_mild b p k r k' : mild b p k -> sock_recv k = (r, k') -> mild b p k' /\ (length (k_buffer k') <= length (k_buffer k) + p + b)%nat.
Proof.
  intros (U & Pc & Pp) H. pose proof H as H0. destruct (recv_spec _ _ _ H) as (used & P & B & Q & En & Zl & _).
  split.
  - split; [rewrite En; exact U|]. split; [rewrite P in Pc; apply Forall_app in Pc; apply Pc|].
    intros u2 rest E. rewrite En, Zl, Q. specialize (Pp (used ++ u2) rest). rewrite received_app in Pp. rewrite <- app_assoc, <- E in Pp. specialize (Pp P).
    destruct (received _ _ (k_partial k) used) as [x p1]. cbn [snd] in *. destruct (received _ _ p1 u2) as [y p2]. exact Pp.
  - rewrite B, app_length. specialize (Pp [] (k_pending k) eq_refl). cbn [received snd] in Pp.
    assert (length (fst (received (k_zlib k) (k_encoding k) (k_partial k) used)) <= p + b)%nat; [|lia].
    unfold sock_recv in H0. clear H. destruct (k_pending k) as [|[d|] l] eqn:Ek.
    + symmetry in P. apply app_eq_nil in P as [-> _]. cbn. lia.
    + destruct d as [|x d].
      * assert (k_pending k' = l) as X by (injection H0 as _ <-; reflexivity). rewrite X in P. change (RData [] :: l) with ([RData []] ++ l) in P. apply app_inv_tail in P as <-. cbn. lia.
      * assert (used = [RData (x :: d)]) as ->.
        { assert (k_pending k' = l) as X.
          { destruct (negb _); [|injection H0 as _ <-; reflexivity]. destruct (dechunk _ _ _) as [[[c q]|e]|]; injection H0 as _ <-; reflexivity. }
          rewrite X in P. change (RData (x :: d) :: l) with ([RData (x :: d)] ++ l) in P. apply app_inv_tail in P as <-. reflexivity. }
        unfold pieces_upto in Pc. inversion Pc as [|? ? Ld _]; subst. cbn [received]. unfold arrive.
        destruct (Z.testbit (k_encoding k) 0) eqn:B0; [|cbn [fst] in *; rewrite app_nil_r; cbn [fst]; lia]. destruct U as [U|U]; [discriminate U|].
        destruct (dechunk _ _ (k_partial k ++ x :: d)) as [[[c q]|e]|] eqn:D; cbn [fst]; rewrite ?app_nil_r; [|cbn; lia|cbn; lia].
        apply C112_no_amplification in D; [|exact U]. rewrite app_length in D. lia.
    + assert (k_pending k' = l) as X by (injection H0 as _ <-; reflexivity). rewrite X in P. change (RError :: l) with ([RError] ++ l) in P. apply app_inv_tail in P as <-. cbn. lia.
Qed.
Lemma read_loop_mild b p m fuel : forall n k d k', (n <= S m)%nat -> mild b p k -> sock_read_loop fuel n k = (d, k') ->
  mild b p k' /\ (length (k_buffer k') <= Nat.max (length (k_buffer k)) (m + p + b))%nat.
Proof.
  induction fuel as [|f IH]; intros n k d k' L M H; cbn [sock_read_loop] in H.
  - destruct (_ <? _)%nat; injection H as _ <-; [split; [exact M|lia]|]. split; [exact M|]. cbn [k_buffer]. rewrite skipn_length. lia.
  - destruct (Nat.ltb_spec (length (k_buffer k)) n) as [Lt|Ge].
    + destruct (sock_recv k) as [ok k1] eqn:E. destruct (recv_mild _ _ _ _ _ M E) as (M1 & B1). destruct ok as [[|]|e].
      * destruct (IH _ _ _ _ L M1 H) as (M2 & B2). split; [exact M2|lia].
      * injection H as _ <-. split; [exact M1|lia].
      * injection H as _ <-. split; [exact M1|lia].
    + injection H as _ <-. split; [exact M|]. cbn [k_buffer]. rewrite skipn_length. lia.
Qed.
Lemma read_mild b p m n k d k' : (n <= S m)%nat -> mild b p k -> sock_read n k = (d, k') ->
  mild b p k' /\ (length (k_buffer k') <= Nat.max (length (k_buffer k)) (m + p + b))%nat.
Proof. apply read_loop_mild. Qed.
Lemma readline_mild b p k d k' : mild b p k -> sock_readline k = (d, k') ->
  mild b p k' /\ (length (k_buffer k') <= Nat.max (length (k_buffer k)) (p + b))%nat.
Proof.
  unfold sock_readline. intros M H. destruct (sock_readline_loop _ [] k) as [[d1 k1]|] eqn:E; [|injection H as _ <-; split; [exact M|lia]].
  injection H as _ <-. revert E. generalize (S (sock_avail k)) (@nil N). intros fuel line. revert line k M.
  induction fuel as [|f IH]; intros line k M E; [discriminate E|]. cbn [sock_readline_loop] in E.
  destruct (sock_read 1 k) as [r k2] eqn:R. destruct (read_mild b p 0 1 k r k2 (le_n _) M R) as (M2 & B2). cbn [plus] in B2.
  destruct r as [[|x [|y r]]|e]; try (injection E as _ <-; split; [exact M2|exact B2]).
  destruct (ends_crlf (line ++ [x])); [injection E as _ <-; split; [exact M2|exact B2]|].
  destruct (IH _ _ M2 E) as (M3 & B3). split; [exact M3|lia].
Qed.
Lemma calls_mild b p m k l k' : calls k l k' -> mild b p k -> requests_upto (S m) l ->
  mild b p k' /\ (length (k_buffer k') <= Nat.max (length (k_buffer k)) (m + p + b))%nat.
Proof.
  intros C. induction C as [k|k c d k1 l k2 R C IH]; intros M Rq; [split; [exact M|lia]|]. inversion Rq as [|? ? R1 Rq']; subst. cbn [fst] in R1.
  assert (mild b p k1 /\ (length (k_buffer k1) <= Nat.max (length (k_buffer k)) (m + p + b))%nat) as (M1 & B1).
  { destruct c as [n|]; cbn [result_of] in R; [exact (read_mild _ _ _ _ _ _ _ R1 M R)|]. destruct (readline_mild _ _ _ _ _ M R) as (X & Y). split; [exact X|lia]. }
  destruct (IH M1 Rq') as (M2 & B2). split; [exact M2|lia].
Qed.
Lemma open_mild b p pending enc z k : mild b p (mksock pending [] [] enc z) -> sock_open pending enc z = Ok k ->
  mild b p k /\ (length (k_buffer k) <= p + b)%nat.
Proof.
  unfold sock_open. intros M H. destruct (sock_recv _) as [r k1] eqn:E. destruct (recv_mild _ _ _ _ _ M E) as (M1 & B1).
  destruct r; [injection H as <-|discriminate H]. split; [exact M1|exact B1].
Qed.
Lemma plain_mild b pending enc z : Z.testbit enc 0 = false -> pieces_upto b pending -> mild b 0 (mksock pending [] [] enc z).
Proof.
  intros B P. split; [left; exact B|]. split; [exact P|]. intros used rest _. cbn. rewrite received_plain by exact B. cbn. lia.
Qed.
(* Not chunked, recv() delivering at most [b] bytes at a time: however many calls of read(n), n at most [m]+1, and readline() are made, at most
   [m]+[b] bytes are held back (no more than [b] if at most one byte is asked for at a time), and nothing in the partial chunk. *)
Theorem C112_plain b m pending enc z k l k' :
  Z.testbit enc 0 = false -> pieces_upto b pending ->
  sock_open pending enc z = Ok k -> calls k l k' -> requests_upto (m + 1) l ->
  (sock_in_waiting k' <= m + b)%nat /\ k_partial k' = [].
Proof.
  intros B P O C R. destruct (open_mild _ _ _ _ _ _ (plain_mild b pending enc z B P) O) as (M & L).
  replace (m + 1)%nat with (S m) in R by lia. destruct (calls_mild _ _ m _ _ _ C M R) as (M2 & L2). split; [unfold sock_in_waiting; lia|].
  destruct M2 as (_ & _ & M2). specialize (M2 [] (k_pending k') eq_refl). cbn in M2. destruct (k_partial k'); [reflexivity|cbn in M2; lia].
Qed.
(* the same for a reader: between two messages at most what one recv() delivered is waiting *)
Lemma read_keeps {St} (r1 rl : St -> result bytes * St) (Q : St -> Prop) cfg :
  (forall s d s', Q s -> r1 s = (d, s') -> Q s') -> (forall s d s', Q s -> rl s = (d, s') -> Q s') ->
  forall fuel s o ev s', Q s -> read St r1 rl cfg fuel s = Some (o, ev, s') -> Q s'.
Proof.
  intros H1 Hl. assert (forall s, Q s -> Q (snd (pass St r1 rl cfg s))) as Hp.
  { intros s Hs. unfold pass, read_byte. destruct (r1 s) as [d1 s1] eqn:E1. pose proof (H1 _ _ _ Hs E1) as Q1.
    destruct d1 as [[|x d1]|e]; [exact Q1| |exact Q1]. destruct (negb _); [exact Q1|]. destruct (r1 s1) as [d2 s2] eqn:E2. pose proof (H1 _ _ _ Q1 E2) as Q2.
    destruct d2 as [[|y d2]|e]; [exact Q2| |exact Q2]. destruct (match y :: d2 with [x0] => hdr_second x0 | _ => false end).
    - unfold read_line. destruct (rl s2) as [d3 s3] eqn:E3. pose proof (Hl _ _ _ Q2 E3) as Q3. destruct d3 as [[|w d3]|e]; [exact Q3| |exact Q3].
      destruct (N.eqb _ _); [|exact Q3]. destruct (parse _ _ _ _); exact Q3.
    - destruct (r_nmeaonly cfg); exact Q2. }
  induction fuel as [|f IH]; intros s o ev s' Hs E; [discriminate E|]. cbn [read] in E. specialize (Hp s Hs).
  destruct (pass St r1 rl cfg s) as [r s1]. cbn [snd] in Hp. destruct r as [[[raw m]|]|e]; [injection E as _ _ <-; exact Hp|exact (IH _ _ _ _ Hp E)|].
  assert (e = EOFError \/ forall X (a b : X), match e with EOFError => a | _ => b end = b) as [->|X] by (destruct e; auto); [injection E as _ _ <-; exact Hp|].
  rewrite X in E. destruct (is_nmea_error e); [|injection E as _ _ <-; exact Hp]. destruct (do_error cfg e) as [[e'|] ev1]; [injection E as _ _ <-; exact Hp|].
  destruct (read St r1 rl cfg f s1) as [[[o' ev'] s2]|] eqn:E2; [|discriminate E]. injection E as _ _ <-. exact (IH _ _ _ _ Hp E2).
Qed.
Lemma iterate_keeps {St} (r1 rl : St -> result bytes * St) (Q : St -> Prop) cfg :
  (forall s d s', Q s -> r1 s = (d, s') -> Q s') -> (forall s d s', Q s -> rl s = (d, s') -> Q s') ->
  forall n fuel s l x ev s', Q s -> iterate St r1 rl cfg n fuel s = Some (l, x, ev, s') -> Q s'.
Proof.
  intros H1 Hl. induction n as [|n IH]; intros fuel s l x ev s' Hs E; [discriminate E|]. cbn [iterate] in E.
  destruct (read St r1 rl cfg fuel s) as [[[[raw m| |e] ev1] s1]|] eqn:R; [| | |discriminate E]; pose proof (read_keeps r1 rl Q cfg H1 Hl _ _ _ _ _ Hs R) as Q1.
  - destruct (iterate St r1 rl cfg n fuel s1) as [[[[l' x'] ev'] s2]|] eqn:E2; [|discriminate E]. injection E as _ _ _ <-. exact (IH _ _ _ _ _ _ Q1 E2).
  - injection E as _ _ _ <-. exact Q1.
  - injection E as _ _ _ <-. exact Q1.
Qed.
Theorem C112_reader b pending enc z k cfg n fuel items x ev k' :
  Z.testbit enc 0 = false -> pieces_upto b pending -> sock_open pending enc z = Ok k ->
  siterate cfg n fuel k = Some (items, x, ev, k') -> (sock_in_waiting k' <= b)%nat.
Proof.
  intros B P O I. destruct (open_mild _ _ _ _ _ _ (plain_mild b pending enc z B P) O) as (M & L).
  assert (mild b 0 k' /\ (length (k_buffer k') <= 0 + b)%nat) as (_ & X); [|exact X].
  refine (iterate_keeps _ _ (fun k => mild b 0 k /\ (length (k_buffer k) <= 0 + b)%nat) cfg _ _ _ _ _ _ _ _ _ (conj M L) I).
  - intros s d s' (Ms & Ls) R. destruct (read_mild b 0 0 1 s d s' (le_n _) Ms R) as (M2 & L2). split; [exact M2|lia].
  - intros s d s' (Ms & Ls) R. destruct (readline_mild b 0 s d s' Ms R) as (M2 & L2). split; [exact M2|lia].
Qed.

(* ------------------------------------------------- chunked transfer encoding *)
Lemma tail_short z enc segs : Z.testbit enc 0 = true -> forall p a b,
  Forall (fun d => d <> []) segs -> tail_state p (concat segs) -> segs = a ++ b -> (length (snd (received z enc p (map RData a))) <= 1)%nat.
Proof.
  intros B. induction segs as [|d segs IH]; intros p a b F T E.
  - symmetry in E. apply app_eq_nil in E as [-> ->]. cbn. destruct T as [(-> & _)|[(-> & _)|(-> & _)]]; cbn; lia.
  - destruct a as [|d' a]; [cbn; destruct T as [(-> & _)|[(-> & _)|(-> & _)]]; cbn; lia|]. cbn [app] in E. injection E as <- E.
    inversion F as [|? ? Nd F']; subst. cbn [map received concat] in *. destruct d as [|x d]; [contradiction Nd; reflexivity|].
    assert (exists p', dechunk z enc (p ++ x :: d) = Some (Ok ([], p')) /\ tail_state p' (concat (a ++ b))) as (p' & E0 & T').
    { unfold tail_state in T. cbn [app] in T.
      destruct T as [(-> & [T|[T|T]])|[(-> & T)|(-> & T)]]; try discriminate T.
      - injection T as -> T. destruct d as [|y d].
        + exists [cr]. split; [reflexivity|]. right. left. split; [reflexivity|exact T].
        + cbn in T. injection T as -> T. apply app_eq_nil in T as [-> ->]. exists []. split; [reflexivity|]. left. auto.
      - injection T as -> T. apply app_eq_nil in T as [-> T]. exists [lf]. split; [reflexivity|]. right. right. auto.
      - injection T as -> T. apply app_eq_nil in T as [-> T]. exists []. split; [reflexivity|]. left. auto. }
    assert (arrive z enc p (x :: d) = ([], p')) as -> by (unfold arrive; rewrite B, E0; reflexivity).
    specialize (IH p' a b F' T' eq_refl). destruct (received z enc p' (map RData a)) as [b2 p2]. exact IH.
Qed.
Lemma partial_short z enc e segs : Z.testbit enc 0 = true -> ending e -> forall c2 q m a b,
  Forall chunk_ok c2 -> Forall (fun d => d <> []) segs -> between c2 q -> (2 <= m)%nat -> Forall (fun c => (length (chunk_head c) <= m)%nat) c2 ->
  q ++ concat segs = flat_map chunk_text c2 ++ e ->
  (forall a b, segs = a ++ b -> a <> [] -> ~ bad_cut c2 (q ++ concat a)) ->
  segs = a ++ b -> (length (snd (received z enc q (map RData a))) <= m)%nat.
Proof.
  intros B He. induction segs as [|d segs IH]; intros c2 q m a b F Fs Bt M2 Fm E C S0.
  all: assert (length q <= m)%nat as Lq.
  1, 3: destruct Bt as [->|[(c' & x & Hd & Hh & Nx)|(-> & [-> | ->])]]; [cbn; lia| |cbn; lia|cbn; lia];
        destruct c2 as [|c c2]; [discriminate Hd|]; cbn in Hd; injection Hd as ->; inversion Fm as [|? ? Lc _]; subst; rewrite Hh, app_length in Lc; lia.
  - symmetry in S0. apply app_eq_nil in S0 as [-> ->]. exact Lq.
  - destruct a as [|d' a]; [exact Lq|]. cbn [app] in S0. injection S0 as <- S0.
    inversion Fs as [|? ? Nd Fs']; subst. cbn [concat] in E.
    assert (~ bad_cut c2 (q ++ d)) as NB.
    { intros X. apply (C [d] (a ++ b) eq_refl); [discriminate|]. cbn [concat]. rewrite app_nil_r. exact X. }
    rewrite app_assoc in E. cbn [map received]. destruct d as [|x0 d0] eqn:Ed; [contradiction Nd; reflexivity|]. rewrite <- Ed in *.
    unfold arrive. rewrite B.
    destruct (prefix_of_stream c2 e (q ++ d) (concat (a ++ b)) F E) as [(c1 & c3 & q' & -> & Es & Hq)|[X|(q' & Es & Hq)]]; [|contradiction|].
    + apply Forall_app in F as [F1 F3]. rewrite Es, dechunk_chunks by exact F1.
      destruct Hq as (c & x & Hd & Hh & Nx).
      assert (chunk_ok c) as Hc by (destruct c3 as [|c' c3]; [discriminate|]; cbn in Hd; injection Hd as ->; inversion F3; assumption).
      rewrite (dechunk_fragment z enc c q' x Hc Hh Nx). cbn [prepend].
      assert (q' ++ concat (a ++ b) = flat_map chunk_text c3 ++ e) as E3.
      { rewrite Es in E. rewrite flat_map_app, <- !app_assoc in E. apply app_inv_head in E. exact E. }
      apply Forall_app in Fm as [_ Fm3].
      specialize (IH c3 q' m a b F3 Fs'). destruct (received z enc q' (map RData a)) as [b2 p2] eqn:R. cbn [fst snd] in *.
      apply IH; [right; left; exists c, x; auto|exact M2|exact Fm3|exact E3| |reflexivity].
      intros a0 b0 E0 Na (d1 & cc & d2 & Hcs & Hb). apply (C (d :: a0) b0); [rewrite E0; reflexivity|discriminate|].
      exists (c1 ++ d1), cc, d2. split; [rewrite Hcs, <- app_assoc; reflexivity|].
      cbn [concat]. rewrite app_assoc, Es, <- !app_assoc, flat_map_app, <- !app_assoc.
      destruct Hb as [-> | ->]; auto.
    + rewrite Es, dechunk_chunks by exact F.
      assert (dechunk z enc q' = Some (Ok ([], q')) /\ between [] q'
              \/ dechunk z enc q' = Some (Ok ([], [])) /\ tail_state [] (concat (a ++ b))) as [(Dq & Bq)|(Dq & Tq)].
      { destruct He as [->| ->].
        - apply app_eq_nil in Hq as [-> _]. left. split; [reflexivity|left; reflexivity].
        - unfold last_chunk in Hq. destruct q' as [|y1 q']; [left; split; [reflexivity|left; reflexivity]|].
          cbn in Hq. injection Hq as -> Hq. destruct q' as [|y2 q']; [left; split; [reflexivity|right; right; auto]|].
          cbn in Hq. injection Hq as -> Hq. destruct q' as [|y3 q']; [left; split; [reflexivity|right; right; auto]|].
          cbn in Hq. injection Hq as -> Hq. right. split.
          + unfold dechunk. cbn [length dechunk_loop]. change (48%N :: cr :: lf :: q') with ([48%N; cr] ++ lf :: q').
            rewrite readline_at by (cbn; intros [X|[X|[]]]; discriminate). reflexivity.
          + left. split; [reflexivity|]. destruct q' as [|y4 q']; [auto|]. cbn in Hq. injection Hq as -> Hq.
            destruct q' as [|y5 q']; [auto|]. cbn in Hq. injection Hq as -> Hq. apply app_eq_nil in Hq as [_ Hq]. auto. }
      * rewrite Dq. cbn [prepend]. specialize (IH [] q' m a b (Forall_nil _) Fs' Bq M2 (Forall_nil _)).
        destruct (received z enc q' (map RData a)) as [b2 p2] eqn:R. cbn [fst snd] in *. apply IH; [exact Hq| |reflexivity].
        intros a0 b0 _ _ (d1 & cc & d2 & Hcs & _). destruct d1; discriminate.
      * rewrite Dq. cbn [prepend]. pose proof (tail_short z enc (a ++ b) B [] a b Fs' Tq eq_refl) as T.
        destruct (received z enc [] (map RData a)) as [b2 p2]. cbn [fst snd] in *. lia.
Qed.
(* A chunked stream as in C38 (no compression), each chunk with its size line at most [c] bytes long, recv() delivering at most [b] bytes at a
   time: at most [m]+[c]+[b] bytes are held back, and the partial chunk is never longer than [c]. *)
Theorem C112_chunked b c m segs cs fin enc z k l k' :
  Z.testbit enc 0 = true -> uncompressed enc -> Forall chunk_ok cs -> fin = [] \/ fin = u "0" ++ [cr; lf; cr; lf] ->
  Forall (fun d => d <> []) segs -> concat segs = flat_map chunk_text cs ++ fin ->
  (forall a b, segs = a ++ b -> a <> [] -> ~ bad_cut cs (concat a)) ->
  Forall (fun d => (length d <= b)%nat) segs -> (2 <= c)%nat -> Forall (fun x => (length (chunk_head x) <= c)%nat) cs ->
  sock_open (map RData segs) enc z = Ok k -> calls k l k' -> requests_upto (m + 1) l ->
  (sock_in_waiting k' <= m + c + b)%nat /\ (length (k_partial k') <= c)%nat.
Proof.
  intros B U F Fin Fs E Nb Fb C2 Fc O C R.
  assert (mild b c (mksock (map RData segs) [] [] enc z)) as M0.
  { split; [right; exact U|]. split; [unfold pieces_upto; apply Forall_map, Fb|]. cbn [k_pending k_zlib k_encoding k_partial].
    intros used rest X. apply map_eq_app in X as (a & r & -> & <- & <-).
    apply (partial_short z enc fin (a ++ r) B Fin cs [] c a r F Fs (or_introl eq_refl) C2 Fc E Nb eq_refl). }
  destruct (open_mild _ _ _ _ _ _ M0 O) as (M & L).
  replace (m + 1)%nat with (S m) in R by lia. destruct (calls_mild _ _ m _ _ _ C M R) as (M2 & L2). split; [unfold sock_in_waiting; lia|].
  destruct M2 as (_ & _ & M2). exact (M2 [] (k_pending k') eq_refl).
Qed.
Lemma growing_recv z n p : ~ In lf p ->
  sock_recv (mksock (repeat (RData [49%N]) (S n)) [] p 1 z) = (Ok true, mksock (repeat (RData [49%N]) n) [] (p ++ [49%N]) 1 z).
Proof.
  intros N. cbn [repeat]. unfold sock_recv. cbn [k_pending k_encoding k_partial k_zlib k_buffer]. change (negb (Z.land 1 ENCODE_CHUNKED =? 0)) with true. cbn match.
  assert (~ In lf (p ++ [49%N])) as N2 by (rewrite in_app_iff; intros [X|[X|[]]]; [exact (N X)|discriminate X]).
  unfold dechunk. cbn [dechunk_loop]. rewrite (readline_none _ N2).
  destruct (ends_crlf (p ++ [49%N])) eqn:Ec; [exfalso; apply ends_crlf_iff in Ec as (b & Ec); apply N2; rewrite Ec, in_app_iff; right; right; left; reflexivity|].
  reflexivity.
Qed.
Lemma growing_read z n : forall f p, ~ In lf p -> (n < f)%nat ->
  sock_read_loop f 1 (mksock (repeat (RData [49%N]) n) [] p 1 z) = (Ok [], mksock [] [] (p ++ repeat 49%N n) 1 z).
Proof.
  induction n as [|n IH]; intros f p N L; (destruct f as [|f]; [lia|]); cbn [sock_read_loop k_buffer length Nat.ltb Nat.leb].
  - cbn. rewrite app_nil_r. reflexivity.
  - rewrite growing_recv by exact N. rewrite IH; [rewrite <- app_assoc; reflexivity| |lia].
    rewrite in_app_iff. intros [X|[X|[]]]; [exact (N X)|discriminate X].
Qed.
(* A peer that never completes its chunk makes the wrapper keep everything, while every read() comes back empty. *)
Theorem C112_chunked_refuted n z :
  exists pending k, pieces_upto 1 pending /\ sock_open pending 1 z = Ok k /\
    let '(d, k') := sock_read 1 k in d = Ok [] /\ k_buffer k' = [] /\ length (k_partial k') = n.
Proof.
  exists (repeat (RData [49%N]) n). destruct n as [|n].
  - eexists. split; [exact (Forall_nil _)|]. split; [reflexivity|]. cbn. auto.
  - exists (mksock (repeat (RData [49%N]) n) [] [49%N] 1 z). split; [apply Forall_forall; intros x I0; apply repeat_spec in I0 as ->; cbn; lia|].
    split; [unfold sock_open; rewrite growing_recv by (intros []); reflexivity|]. unfold sock_read. cbn [k_pending].
    rewrite growing_read; [|intros [X|[]]; discriminate X|rewrite repeat_length; lia]. split; [reflexivity|]. split; [reflexivity|]. cbn. rewrite repeat_length. reflexivity.
Qed.
(* ------------------------------------------------------------- examples *)
Definition ex_pieces : list recv_result := [RData (u "$GNGLL,53"); RError; RData (u "27.0"); RData (u "43")].
Example C112_example :
  pieces_upto 9 ex_pieces /\ requests_upto (9 + 1) [(CRead 10, Ok []); (CRead 10, Ok (u "$GNGLL,532"))]
  /\ exists k k', sock_open ex_pieces 0 no_zlib = Ok k /\ calls k [(CRead 10, Ok []); (CRead 10, Ok (u "$GNGLL,532"))] k' /\ sock_in_waiting k' = 3%nat.
Proof.
  split; [repeat (apply Forall_cons; [cbn; lia|]); exact (Forall_nil _)|]. split; [repeat (apply Forall_cons; [cbn; lia|]); exact (Forall_nil _)|].
  eexists. eexists. split; [vm_compute; reflexivity|]. split; [eapply calls_more; [vm_compute; reflexivity|eapply calls_more; [vm_compute; reflexivity|apply calls_none]]|].
  vm_compute. reflexivity.
Qed.
Example C112_example_chunked : exists k,
  sock_open (map RData [u "3" ++ [cr; lf] ++ u "a"; u "bc" ++ [cr; lf]]) 1 no_zlib = Ok k /\ k_partial k = u "3" ++ [cr; lf] ++ u "a"
  /\ uncompressed 1 /\ dechunk no_zlib 1 (u "3" ++ [cr; lf] ++ u "abc" ++ [cr; lf] ++ u "5") = Some (Ok (u "abc", u "5")).
Proof. eexists. split; [vm_compute; reflexivity|]. split; [reflexivity|]. split; [repeat split|vm_compute; reflexivity]. Qed.
