(* Theorems about SocketWrapper: C34-C39 *)
From Verif Require Import Message Reader Socket BaseLemmas TextLemmas NumLemmas Spec ReaderSpec ReaderProofs SocketSpec SocketProofs ChunkProofs PropsReader.
From Coq Require Import Lia.
Local Open Scope Z_scope.

Definition no_zlib : zlib := mkzlib (fun _ => None) (fun _ => None) (fun _ => None).
Definition ex_sock : sock := sock_init [RData (u "$GNGLL,53"); RData (u "27.04"); RError; RData (u "319")] 0 no_zlib.

(* ------------------------------------------------------------------ C34 *)
(* read(n) returns n bytes or none; what was buffered followed by what arrived is
   what is returned followed by what stays buffered *)
Theorem C34_read n k d k' :
  plain_sock k -> sock_read n k = (d, k') ->
  exists x used, d = Ok x /\ (length x = n \/ x = [])
     /\ k_pending k = used ++ k_pending k'
     /\ k_buffer k ++ data used = x ++ k_buffer k'.
Proof.
  intros Pl H. destruct (read_spec _ _ _ _ H) as (used & P & B & _ & _ & _ & C).
  rewrite received_plain in B by exact Pl. cbn [fst] in B.
  destruct C as [(x & -> & C)|[(-> & _)|(e & _ & C)]]; [| |destruct (plain_not_raised k e used Pl C)].
  - exists x, used. auto.
  - exists [], used. auto.
Qed.
(* b"" (for n > 0) means that recv() failed or that the peer has closed *)
Theorem C34_failed n k k' :
  plain_sock k -> (0 < n)%nat -> sock_read n k = (Ok [], k') ->
  exists used, k_pending k = used ++ k_pending k' /\ k_buffer k' = k_buffer k ++ data used
    /\ (length (k_buffer k') < n)%nat
    /\ (k_pending k' = [] \/ exists u0 r, used = u0 ++ [r] /\ failure r).
Proof.
  intros Pl Hn H. destruct (read_spec _ _ _ _ H) as (used & P & B & _ & _ & _ & C).
  rewrite received_plain in B by exact Pl. cbn [fst] in B.
  destruct C as [(x & X & C)|[(_ & C1 & C2)|(e & X & _)]]; [injection X as <-; cbn in C; lia| |discriminate]. exists used. split; [exact P|]. split; [symmetry; exact B|]. split; [exact C1|exact C2].
Qed.
(* as long as the network delivers, exactly the next n bytes *)
Theorem C34_enough n k d k' :
  plain_sock k -> steady k -> (n <= length (contents k))%nat -> sock_read n k = (d, k') ->
  d = Ok (firstn n (contents k)) /\ contents k' = skipn n (contents k).
Proof.
  intros Pl St L H. destruct (read_spec _ _ _ _ H) as (used & P & B & _ & _ & _ & C0).
  rewrite received_plain in B by exact Pl. cbn [fst] in B.
  assert (exists y, d = Ok y /\ (length y = n \/ (y = [] /\ (length (k_buffer k') < n)%nat /\ stopped k k' used))) as (y & -> & C).
  { destruct C0 as [(y & -> & C)|[(-> & C)|(e & _ & C)]]; [eauto|exists []; split; [reflexivity|]; right; split; [reflexivity|exact C]|destruct (plain_not_raised k e used Pl C)]. }
  cbn [got] in B.
  assert (contents k = y ++ contents k') as X.
  { unfold contents. rewrite app_assoc, <- B, <- app_assoc, P. unfold data. rewrite flat_map_app. reflexivity. }
  assert (length y = n) as Ld.
  { destruct C as [C|(-> & C1 & C2)]; [exact C|]. exfalso. unfold steady in St. rewrite P in St. apply Forall_app in St as [Su _].
    destruct C2 as [C2|(u0 & r & -> & Fr)]; [|exact (steady_failure _ _ _ Su Fr)].
    rewrite X in L. cbn [app] in L. unfold contents in L. rewrite C2 in L. cbn in L. rewrite app_nil_r in L. lia. }
  rewrite X, <- Ld, firstn_app, Nat.sub_diag, firstn_all, skipn_app, Nat.sub_diag, skipn_all. cbn. rewrite app_nil_r. auto.
Qed.
Example C34_example :
  let '(d1, k1) := sock_read 12 ex_sock in let '(d2, k2) := sock_read 5 k1 in let '(d3, _) := sock_read 5 k2 in
  (d1, d2, d3) = (Ok (u "$GNGLL,5327."), Ok [], Ok (u "04319")).
Proof. vm_compute. reflexivity. Qed.

(* ------------------------------------------------------------------ C35 *)
Lemma call_spec c k d k' : plain_sock k -> result_of c k = (d, k') ->
  plain_sock k' /\ exists x used, d = Ok x /\ k_pending k = used ++ k_pending k' /\ k_buffer k ++ data used = x ++ k_buffer k'.
Proof.
  intros Pl H. destruct c as [n|]; cbn in H.
  - destruct (read_spec _ _ _ _ H) as (used & P & B & _ & En & _).
    split; [unfold plain_sock in *; congruence|].
    destruct (C34_read _ _ _ _ Pl H) as (x & used' & -> & _ & P' & B'). exists x, used'. auto.
  - destruct (readline_spec k) as (r & d' & k2 & used & E & P & B & _ & En & _ & C). rewrite E in H. injection H as <- <-.
    rewrite received_plain in B by exact Pl. split; [unfold plain_sock in *; congruence|]. exists d', used.
    destruct C as [(-> & C)|[(-> & C)|(e & _ & C)]]; [auto|auto|destruct (plain_not_raised k e used Pl C)].
Qed.
(* no call raises, and nothing is lost, repeated or reordered *)
Theorem C35_integrity k l k' :
  plain_sock k -> calls k l k' ->
  Forall (fun c => exists d, snd c = Ok d) l
  /\ exists used, k_pending k = used ++ k_pending k'
    /\ k_buffer k ++ data used = flat_map (fun c => got (snd c)) l ++ k_buffer k'.
Proof.
  intros Pl H. induction H as [k|k c d k1 l k2 R C IH].
  - split; [constructor|]. exists []. cbn. rewrite app_nil_r. auto.
  - destruct (call_spec _ _ _ _ Pl R) as (Pl1 & x & u1 & -> & P1 & B1). destruct (IH Pl1) as (Fo & u2 & P2 & B2).
    split; [constructor; [exists x; reflexivity|exact Fo]|].
    exists (u1 ++ u2). split; [rewrite P1, P2, app_assoc; reflexivity|].
    unfold data in *. rewrite flat_map_app. cbn [flat_map snd got]. rewrite app_assoc, B1, <- app_assoc, B2, app_assoc. reflexivity.
Qed.
(* the constructor of a plain wrapper never raises *)
Lemma open_plain pending enc z : Z.testbit enc 0 = false -> sock_open pending enc z = Ok (sock_init pending enc z).
Proof.
  intros B. unfold sock_open, sock_init. destruct (sock_recv (mksock pending [] [] enc z)) as [ok k1] eqn:E.
  destruct (recv_spec _ _ _ E) as (u1 & P1 & B1 & Q1 & E1 & Z1 & T1 & F1 & Hr). destruct ok as [b|e]; [reflexivity|].
  destruct (Hr e eq_refl) as (X & _). cbn [k_encoding] in X. rewrite B in X. discriminate.
Qed.
Theorem C35_constructor pending enc z :
  Z.testbit enc 0 = false -> sock_open pending enc z = Ok (sock_init pending enc z).
Proof. apply open_plain. Qed.
(* from construction on: the bytes returned, then the buffer, are the bytes received *)
Theorem C35_from_start pending enc z l k' :
  Z.testbit enc 0 = false ->
  exists k, sock_open pending enc z = Ok k
  /\ (calls k l k' ->
      Forall (fun c => exists d, snd c = Ok d) l
      /\ exists used, pending = used ++ k_pending k' /\ data used = flat_map (fun c => got (snd c)) l ++ k_buffer k').
Proof.
  intros B. exists (sock_init pending enc z). split; [apply open_plain, B|]. intros C. unfold sock_init in C.
  destruct (sock_recv (mksock pending [] [] enc z)) as [ok k1] eqn:E.
  destruct (recv_spec _ _ _ E) as (u1 & P1 & B1 & _ & En & _). cbn [k_pending k_buffer k_partial k_encoding k_zlib snd] in *.
  rewrite received_plain in B1 by exact B. cbn [fst app] in B1.
  assert (plain_sock k1) as Pl by (unfold plain_sock; rewrite En; exact B).
  destruct (C35_integrity _ _ _ Pl C) as (Fo & u2 & P2 & B2). split; [exact Fo|]. exists (u1 ++ u2).
  split; [rewrite P1, P2, app_assoc; reflexivity|]. unfold data in *. rewrite flat_map_app, <- B1. exact B2.
Qed.
Example C35_example : exists d1 d2 k', calls ex_sock [(CRead 3, d1); (CReadline, d2)] k' /\ d1 = Ok (u "$GN") /\ d2 = Ok (u "GLL,5327.04").
Proof.
  do 3 eexists. split; [|split].
  - eapply calls_more; [vm_compute; reflexivity|]. eapply calls_more; [vm_compute; reflexivity|]. apply calls_none.
  - reflexivity.
  - reflexivity.
Qed.

(* ------------------------------------------------------------------ C36 *)
(* two streams that answer alike are read alike *)
Section Bisimulation.
Variables (S1 S2 : Type) (a1 : S1 -> result bytes * S1) (l1 : S1 -> result bytes * S1) (a2 : S2 -> result bytes * S2) (l2 : S2 -> result bytes * S2).
Variable Q : S1 -> S2 -> Prop.
Definition alike (x : result bytes * S1) (y : result bytes * S2) : Prop := fst x = fst y /\ Q (snd x) (snd y).
Hypothesis Ha : forall x y, Q x y -> alike (a1 x) (a2 y).
Hypothesis Hl : forall x y, Q x y -> alike (l1 x) (l2 y).
Variable cfg : rcfg.

Lemma sim_pass x y : Q x y ->
  fst (pass S1 a1 l1 cfg x) = fst (pass S2 a2 l2 cfg y) /\ Q (snd (pass S1 a1 l1 cfg x)) (snd (pass S2 a2 l2 cfg y)).
Proof using Ha Hl.
  intros H. unfold pass, read_byte, read_line. pose proof (Ha x y H) as (E1 & Q1).
  destruct (a1 x) as [d1 x1]. destruct (a2 y) as [d1' y1]. cbn [fst snd] in *. subst d1'.
  destruct d1 as [[|b1 d1]|e1]; [split; [reflexivity|exact Q1]| |split; [reflexivity|exact Q1]].
  destruct (negb (str_eqb (b1 :: d1) [c_dollar])); [split; [reflexivity|exact Q1]|].
  pose proof (Ha x1 y1 Q1) as (E2 & Q2). destruct (a1 x1) as [d2 x2]. destruct (a2 y1) as [d2' y2]. cbn [fst snd] in *. subst d2'.
  destruct d2 as [[|b2 d2]|e2]; [split; [reflexivity|exact Q2]| |split; [reflexivity|exact Q2]].
  destruct (match b2 :: d2 with [c] => hdr_second c | _ => false end).
  - pose proof (Hl x2 y2 Q2) as (E3 & Q3). destruct (l1 x2) as [d3 x3]. destruct (l2 y2) as [d3' y3]. cbn [fst snd] in *. subst d3'.
    destruct d3 as [[|b3 d3]|e3]; [split; [reflexivity|exact Q3]| |split; [reflexivity|exact Q3]].
    destruct (N.eqb (last (b3 :: d3) 0%N) c_lf); [|split; [reflexivity|exact Q3]].
    destruct (parse _ _ _ _); (split; [reflexivity|exact Q3]).
  - destruct (r_nmeaonly cfg); (split; [reflexivity|exact Q2]).
Qed.

Lemma sim_read fuel : forall x y, Q x y ->
  match read S1 a1 l1 cfg fuel x, read S2 a2 l2 cfg fuel y with
  | Some (o, ev, x'), Some (o', ev', y') => o = o' /\ ev = ev' /\ Q x' y'
  | None, None => True
  | _, _ => False
  end.
Proof using Ha Hl.
  induction fuel as [|f IH]; intros x y H; [exact I|]. cbn [read]. pose proof (sim_pass x y H) as (E & Q').
  destruct (pass S1 a1 l1 cfg x) as [r x1]. destruct (pass S2 a2 l2 cfg y) as [r' y1]. cbn [fst snd] in *. subst r'.
  destruct r as [[[raw m]|]|e]; [auto|apply IH, Q'|].
  assert (e = EOFError \/ forall X (a b : X), match e with EOFError => a | _ => b end = b) as [->|M]
    by (destruct e; auto); [auto|].
  rewrite !M. clear M. destruct (is_nmea_error e); [|auto]. destruct (do_error cfg e) as [[e'|] ev1]; [auto|].
  specialize (IH x1 y1 Q'). destruct (read S1 a1 l1 cfg f x1) as [[[o ev] x2]|], (read S2 a2 l2 cfg f y1) as [[[o' ev'] y2]|]; try exact IH; auto.
  destruct IH as (-> & -> & IH). auto.
Qed.

Lemma sim_iterate n fuel : forall x y, Q x y ->
  match iterate S1 a1 l1 cfg n fuel x, iterate S2 a2 l2 cfg n fuel y with
  | Some (l, e, ev, x'), Some (l', e', ev', y') => l = l' /\ e = e' /\ ev = ev' /\ Q x' y'
  | None, None => True
  | _, _ => False
  end.
Proof using Ha Hl.
  induction n as [|n IH]; intros x y H; [exact I|]. cbn [iterate]. pose proof (sim_read fuel x y H) as R.
  destruct (read S1 a1 l1 cfg fuel x) as [[[o ev] x1]|], (read S2 a2 l2 cfg fuel y) as [[[o' ev'] y1]|]; try contradiction; auto.
  destruct R as (<- & <- & Q'). destruct o as [raw m| |e]; auto.
  specialize (IH x1 y1 Q'). destruct (iterate S1 a1 l1 cfg n fuel x1) as [[[[l e] ev2] x2]|], (iterate S2 a2 l2 cfg n fuel y1) as [[[[l' e'] ev2'] y2]|]; try contradiction; auto.
  destruct IH as (-> & -> & -> & IH). auto.
Qed.
End Bisimulation.

Definition same_contents (k1 k2 : sock) : Prop := exists s, sock_is k1 s /\ sock_is k2 s.
Lemma same_read1 k1 k2 : same_contents k1 k2 -> alike sock sock same_contents (sock_read 1 k1) (sock_read 1 k2).
Proof.
  intros (s & I1 & I2). destruct (sock_read1_ok k1 s I1) as (d1 & q1 & E1 & H1). destruct (sock_read1_ok k2 s I2) as (d2 & q2 & E2 & H2).
  unfold alike. rewrite E1, E2. cbn [fst snd]. destruct s as [|b r]; destruct H1 as [-> H1], H2 as [-> H2]; (split; [reflexivity|eexists; split; eassumption]).
Qed.
Lemma same_readline k1 k2 : same_contents k1 k2 -> alike sock sock same_contents (sock_readline k1) (sock_readline k2).
Proof.
  intros (s & I1 & I2). destruct (sock_readline_ok k1 s I1) as (d1 & r1 & q1 & E1 & F1 & H1).
  destruct (sock_readline_ok k2 s I2) as (d2 & r2 & q2 & E2 & F2 & H2).
  destruct (first_line_functional _ _ _ _ _ _ crlf_nonnil F1 F2) as [<- <-].
  unfold alike. rewrite E1, E2. split; [reflexivity|]. exists r1. auto.
Qed.

(* how recv() cuts the data does not matter *)
Theorem C36_segmentation cfg n fuel k1 k2 :
  plain_sock k1 -> steady k1 -> plain_sock k2 -> steady k2 -> contents k1 = contents k2 ->
  match siterate cfg n fuel k1, siterate cfg n fuel k2 with
  | Some (items, x, ev, _), Some (items', x', ev', _) => items = items' /\ x = x' /\ ev = ev'
  | None, None => True
  | _, _ => False
  end.
Proof.
  intros P1 St1 P2 St2 E.
  assert (same_contents k1 k2) as Q by (exists (contents k1); split; (split; [assumption|split; [assumption|congruence]])).
  pose proof (sim_iterate sock sock (sock_read 1) sock_readline (sock_read 1) sock_readline same_contents same_read1 same_readline cfg n fuel k1 k2 Q) as H.
  unfold siterate. destruct (iterate _ _ _ _ n fuel k1) as [[[[l e] ev] q1]|], (iterate _ _ _ _ n fuel k2) as [[[[l' e'] ev'] q2]|]; try exact H.
  destruct H as (A & B & C & _). auto.
Qed.
Lemma init_contents segs enc z : Z.testbit enc 0 = false -> Forall (fun d => d <> []) segs ->
  sock_is (sock_init (map RData segs) enc z) (concat segs).
Proof.
  intros B F. unfold sock_init. destruct (sock_recv (mksock (map RData segs) [] [] enc z)) as [ok k1] eqn:E.
  destruct (recv_spec _ _ _ E) as (u1 & P1 & B1 & _ & En & _). cbn [k_pending k_buffer k_partial k_encoding k_zlib snd] in *.
  rewrite received_plain in B1 by exact B. cbn [fst app] in B1.
  assert (Forall (fun r => exists d, r = RData d /\ d <> []) (map RData segs)) as F2.
  { apply Forall_map. eapply Forall_impl; [|exact F]. intros d Nd. exists d. auto. }
  split; [unfold plain_sock; rewrite En; exact B|]. split.
  - unfold steady. rewrite P1 in F2. apply Forall_app in F2 as [_ F2]. exact F2.
  - unfold contents. rewrite B1. unfold data. rewrite <- flat_map_app, <- P1. clear.
    induction segs as [|d segs IH]; [reflexivity|]. cbn. rewrite IH. reflexivity.
Qed.
Theorem C36_from_start cfg n fuel segs1 segs2 enc z1 z2 :
  Z.testbit enc 0 = false -> Forall (fun d => d <> []) segs1 -> Forall (fun d => d <> []) segs2 -> concat segs1 = concat segs2 ->
  match siterate cfg n fuel (sock_init (map RData segs1) enc z1), siterate cfg n fuel (sock_init (map RData segs2) enc z2) with
  | Some (items, x, ev, _), Some (items', x', ev', _) => items = items' /\ x = x' /\ ev = ev'
  | None, None => True
  | _, _ => False
  end.
Proof.
  intros B F1 F2 E. destruct (init_contents segs1 enc z1 B F1) as (A1 & A2 & A3). destruct (init_contents segs2 enc z2 B F2) as (B1 & B2 & B3).
  apply C36_segmentation; try assumption. congruence.
Qed.
(* and every such loop ends *)
Theorem C36_terminates cfg n fuel k :
  plain_sock k -> steady k -> (length (contents k) < fuel)%nat -> (length (contents k) < n)%nat ->
  exists items x ev k', siterate cfg n fuel k = Some (items, x, ev, k').
Proof.
  intros P St L1 L2. destruct (tokens_total crlf (contents k) crlf_nonnil) as (ts & Tk). destruct (happens_total cfg ts) as (hs & Hp).
  destruct (siterate_tokens cfg fuel n k _ ts hs Tk Hp (conj P (conj St eq_refl)) L1 L2) as (k' & s' & ts' & l & x & ev & hs' & _ & A & _).
  eauto.
Qed.
Definition sraws (r : option (list (bytes * option msg) * option exc * list event * sock)) : list bytes :=
  match r with Some (l, _, _, _) => map fst l | None => [] end.
Example C36_example :
  sraws (siterate (ex_cfg 1) 300 300 (sock_init (map RData [firstn 10 ex_stream; skipn 10 ex_stream]) 0 no_zlib)) = [ex_line; ex_line]
  /\ sraws (siterate (ex_cfg 1) 300 300 (sock_init (map RData (map (fun b => [b]) ex_stream)) 0 no_zlib)) = [ex_line; ex_line].
Proof. split; vm_compute; reflexivity. Qed.

(* ------------------------------------------------------------------ C37 *)
(* if lines end CR LF, reading from a socket is reading from a file *)
Theorem C37_socket_file cfg n fuel k :
  plain_sock k -> steady k -> crlf_lines (contents k) ->
  (length (contents k) < fuel)%nat -> (length (contents k) < n)%nat ->
  exists items x ev k' rest,
    siterate cfg n fuel k = Some (items, x, ev, k') /\ fiterate cfg n fuel (contents k) = Some (items, x, ev, rest).
Proof.
  intros P St J L1 L2. destruct (tokens_total crlf (contents k) crlf_nonnil) as (ts & Tk). destruct (happens_total cfg ts) as (hs & Hp).
  destruct (siterate_tokens cfg fuel n k _ ts hs Tk Hp (conj P (conj St eq_refl)) L1 L2) as (k' & s' & ts' & l & x & ev & hs' & R & A & _).
  destruct (fiterate_tokens cfg fuel n _ ts hs (tokens_crlf _ _ J Tk) Hp L1 L2) as (s2 & ts2 & l2 & x2 & ev2 & hs2 & R2 & A2 & _).
  rewrite R in R2. injection R2 as <- <- <- <-. exists l, x, ev, k', s2. auto.
Qed.
(* two sentences ended by LF alone: a file gives both, a socket gives neither
   (they become one line, whose second half makes the checksum wrong) *)
Definition lf_stream : bytes := u "$GNGLL,5327.04319,S,00214.41396,E,223232.00,A,A*68" ++ [lf] ++ u "$GNGLL,5327.04319,S,00214.41396,E,223232.00,A,A*68" ++ [lf].
Theorem C37_refuted :
  length (raws (fiterate (ex_cfg 0) 300 300 lf_stream)) = 2%nat
  /\ sraws (siterate (ex_cfg 0) 300 300 (sock_init [RData lf_stream] 0 no_zlib)) = [].
Proof. split; vm_compute; reflexivity. Qed.
Fixpoint crlf_check (prev : N) (s : bytes) : bool :=
  match s with [] => true | c :: r => (negb (N.eqb c lf) || N.eqb prev cr) && crlf_check c r end.
Lemma crlf_check_ok p a x b : crlf_check p (a ++ x :: lf :: b) = true -> x = cr.
Proof.
  revert p. induction a as [|y a IH]; intros p H.
  - cbn [app crlf_check] in H. apply andb_true_iff in H as [_ H]. apply andb_true_iff in H as [H _].
    apply orb_true_iff in H as [H|H]; [discriminate|]. apply N.eqb_eq in H. exact H.
  - cbn [app crlf_check] in H. apply andb_true_iff in H as [_ H]. exact (IH y H).
Qed.
Lemma crlf_lines_check s : crlf_check cr s = true -> crlf_lines s.
Proof.
  intros H a b ->. destruct a as [|x a _] using rev_ind; [left; reflexivity|]. right. exists a.
  rewrite <- app_assoc in H. apply crlf_check_ok in H as ->. reflexivity.
Qed.
Example C37_example : crlf_lines ex_stream.
Proof. apply crlf_lines_check. vm_compute. reflexivity. Qed.

(* ------------------------------------------------------------------ C38 *)
(* the buffer holds the concatenated chunk payloads, however the encoded stream is
   cut, except directly after the data of a chunk or inside the CR LF that follows *)
Theorem C38_decoded z enc cs fin segs pieces k :
  Z.testbit enc 0 = true ->
  Forall chunk_ok cs -> fin = [] \/ fin = u "0" ++ [cr; lf; cr; lf] ->
  Forall (fun d => d <> []) segs -> concat segs = flat_map chunk_text cs ++ fin ->
  (forall a b, segs = a ++ b -> a <> [] -> ~ bad_cut cs (concat a)) ->
  Forall2 (inflated z enc) (map snd cs) pieces ->
  k = sock_drain (length segs) (mksock (map RData segs) [] [] enc z) ->
  k_buffer k = concat pieces /\ k_pending k = [].
Proof.
  intros B F Fin Fs E C P ->. split.
  - rewrite drain_spec by (cbn; rewrite map_length; apply le_n). cbn [k_buffer k_pending k_partial k_encoding k_zlib app].
    rewrite (proj1 (chunks_received z enc fin segs B Fin cs [] F Fs (or_introl eq_refl) E C)).
    clear - P. unfold inflate_all. revert pieces P. induction cs as [|c cs IH]; intros pieces P; inversion P as [|? d ? ps Hd Hr]; subst; [reflexivity|].
    cbn [flat_map concat]. apply decompress_inflated in Hd as ->. f_equal. apply IH, Hr.
  - clear. assert (forall l b p, k_pending (sock_drain (length l) (mksock l b p enc z)) = []) as K.
    { induction l as [|r l IH]; intros b p; [reflexivity|]. cbn [length sock_drain].
      destruct (sock_recv (mksock (r :: l) b p enc z)) as [ok k1] eqn:E1. destruct (recv_spec _ _ _ E1) as (u1 & P1 & _ & _ & En & Zl & Ht & Hf & Hr).
      cbn [k_pending k_encoding k_zlib snd] in *.
      assert (k_pending k1 = l) as Pl.
      { destruct ok as [[|]|e]; [destruct (Ht eq_refl) as (d & _ & ->); injection P1 as _ ->; reflexivity| |destruct (Hr e eq_refl) as (_ & d & _ & -> & _); injection P1 as _ ->; reflexivity].
        destruct (Hf eq_refl) as [(-> & Q)|(r' & -> & _)]; [rewrite Q in P1; discriminate|injection P1 as _ ->; reflexivity]. }
      destruct k1 as [l' b' p' e' z']. cbn in *. subst. apply IH. }
    pose proof (K (map RData segs) [] []) as K2. rewrite map_length in K2. exact K2.
Qed.
(* read(n) then behaves as on any buffer: nothing but these payloads is ever returned *)
Theorem C38_read n k d k' : sock_read n k = (d, k') ->
  exists used, k_pending k = used ++ k_pending k'
    /\ got d ++ k_buffer k' = k_buffer (sock_drain (length used) (mksock used (k_buffer k) (k_partial k) (k_encoding k) (k_zlib k))).
Proof.
  intros H. destruct (read_spec _ _ _ _ H) as (used & P & B & _). exists used. split; [exact P|].
  rewrite drain_spec by apply le_n. cbn. symmetry. exact B.
Qed.
Definition ex_chunks : list chunk := [(u "3", u "abc"); (u "0a", u "0123456789")].
Example C38_example :
  Forall chunk_ok ex_chunks
  /\ flat_map chunk_text ex_chunks = u "3" ++ [cr; lf] ++ u "abc" ++ [cr; lf] ++ u "0a" ++ [cr; lf] ++ u "0123456789" ++ [cr; lf]
  /\ inflated no_zlib 1 (u "abc") (u "abc").
Proof.
  split; [|split; [reflexivity|]].
  - constructor; [|constructor; [|constructor]]; (split; [discriminate|]); (split; [|reflexivity]).
    + apply (hex_one 51 3). split; [reflexivity|left; reflexivity].
    + apply (hex_more [48%N] 0 97 10); [apply hex_one; split; [reflexivity|left; reflexivity]|split; [reflexivity|right; reflexivity]].
  - apply (inflated_steps no_zlib 1 _ (u "abc") (u "abc")); left; split; reflexivity.
Qed.
(* a cut directly after the data of a chunk: the next segment is thrown away *)
Theorem C38_lost_segment z enc s : dechunk z enc ([cr; lf] ++ s) = Some (Ok ([], [])).
Proof. reflexivity. Qed.
(* a cut between the CR and the LF after the data: nothing is ever delivered again *)
Theorem C38_stuck z enc segs buf : Z.testbit enc 0 = true -> Forall (fun d => d <> []) segs ->
  k_buffer (sock_drain (length segs) (mksock (map RData segs) buf [lf] enc z)) = buf.
Proof.
  intros B F. rewrite drain_spec by (cbn; rewrite map_length; apply le_n). cbn [k_buffer k_pending k_partial k_encoding k_zlib].
  assert (fst (received z enc [lf] (map RData segs)) = []) as ->; [|apply app_nil_r].
  induction F as [|d segs Nd F IH]; [reflexivity|]. cbn [map received]. destruct d as [|x d]; [contradiction|].
  unfold arrive. rewrite B. change (dechunk z enc ([lf] ++ x :: d)) with (Some (Ok ([] : bytes, [lf]))).
  cbv beta iota. destruct (received z enc [lf] (map RData segs)). exact IH.
Qed.
Theorem C38_refuted :
  let three := u "3" ++ [cr; lf] ++ u "abc" in let rest := u "3" ++ [cr; lf] ++ u "def" ++ [cr; lf] in
  k_buffer (sock_drain 2 (mksock (map RData [three; [cr; lf] ++ rest]) [] [] 1 no_zlib)) = u "abc"
  /\ k_buffer (sock_drain 4 (mksock (map RData [three ++ [cr]; [lf] ++ rest; rest; rest]) [] [] 1 no_zlib)) = u "abc"
  /\ k_buffer (sock_drain 2 (mksock (map RData [three ++ [cr; lf]; rest]) [] [] 1 no_zlib)) = u "abcdef".
Proof. repeat split; vm_compute; reflexivity. Qed.

(* ------------------------------------------------------------------ C39 *)
(* dechunk always returns, on any bytes, unless a chunk-size line is so large that
   it does not fit a machine word (at least 16 hexadecimal digits); it then raises
   OverflowError *)
Definition hex_letters := u "0123456789abcdefABCDEF".
Lemma hex_digit_in c v : hex_digit c = Some v -> existsb (N.eqb c) hex_letters = true /\ (v < 16)%N.
Proof.
  unfold hex_digit.
  assert (forall lo n, (n <= 10)%nat -> (lo <= c)%N -> (c < lo + N.of_nat n)%N -> In c (map (fun i => (lo + N.of_nat i)%N) (seq 0 n))) as K.
  { intros lo n _ H1 H2. apply in_map_iff. exists (N.to_nat (c - lo)). split; [lia|]. apply in_seq. lia. }
  assert (forall l, forallb (fun x => existsb (N.eqb x) hex_letters) l = true -> In c l -> existsb (N.eqb c) hex_letters = true) as T.
  { intros l A I. rewrite forallb_forall in A. exact (A c I). }
  destruct ((48 <=? c) && (c <=? 57))%N eqn:E1; [apply andb_true_iff in E1 as [A B]; apply N.leb_le in A, B|].
  { intros X. injection X as <-. split; [|lia]. refine (T _ _ (K 48%N 10%nat _ _ _)); [vm_compute; reflexivity|lia|lia|lia]. }
  destruct ((65 <=? c) && (c <=? 70))%N eqn:E2; [apply andb_true_iff in E2 as [A B]; apply N.leb_le in A, B|].
  { intros X. injection X as <-. split; [|lia]. refine (T _ _ (K 65%N 6%nat _ _ _)); [vm_compute; reflexivity|lia|lia|lia]. }
  destruct ((97 <=? c) && (c <=? 102))%N eqn:E3; [apply andb_true_iff in E3 as [A B]; apply N.leb_le in A, B|discriminate].
  intros X. injection X as <-. split; [|lia]. refine (T _ _ (K 97%N 6%nat _ _ _)); [vm_compute; reflexivity|lia|lia|lia].
Qed.
Definition hex_count (s : bytes) : nat := length (filter (fun c => existsb (N.eqb c) hex_letters) s).
Lemma us_digits_count s : forall need l, us_digits hex_digit need s = Some l ->
  Forall (fun d => (d < 16)%N) l /\ (length l <= hex_count s)%nat.
Proof.
  unfold hex_count. induction s as [|c s IH]; intros need l H; cbn [us_digits] in H.
  - destruct need; [discriminate|]. injection H as <-. split; [constructor|cbn; lia].
  - destruct (N.eqb c 95).
    + destruct need; [discriminate|]. destruct (IH _ _ H) as (A & B). split; [exact A|]. cbn [filter]. destruct (existsb _ _); cbn [length]; lia.
    + destruct (hex_digit c) as [d|] eqn:Ed; [|discriminate]. destruct (us_digits hex_digit false s) as [l'|] eqn:El; [|discriminate].
      injection H as <-. destruct (IH _ _ El) as (A & B). destruct (hex_digit_in _ _ Ed) as (C & D).
      split; [constructor; assumption|]. cbn [filter]. rewrite C. cbn [length]. lia.
Qed.
Lemma hex_count_app a b : hex_count (a ++ b) = (hex_count a + hex_count b)%nat.
Proof. unfold hex_count. rewrite filter_app, app_length. reflexivity. Qed.
Lemma lstrip_suffix p (s : bytes) : exists a, s = a ++ lstrip_if p s.
Proof.
  induction s as [|c s (a & IH)]; [exists []; reflexivity|]. cbn [lstrip_if]. destruct (p c); [|exists []; reflexivity].
  exists (c :: a). cbn. rewrite <- IH. reflexivity.
Qed.
Lemma strip_inside p (s : bytes) : exists a b, s = a ++ strip_if p s ++ b.
Proof.
  unfold strip_if, rstrip_if. destruct (lstrip_suffix p s) as (a & Ea). set (t := lstrip_if p s) in *.
  destruct (lstrip_suffix p (rev t)) as (b & Eb). exists a, (rev b). rewrite Ea at 1. f_equal.
  rewrite <- rev_app_distr, <- Eb, rev_involutive. reflexivity.
Qed.
Lemma int16_huge line n : int16_of_bytes line = Ok n -> huge n -> (16 <= hex_count line)%nat.
Proof.
  unfold int16_of_bytes. destruct (strip_inside c_isspace line) as (a & b & E). set (t := strip_if c_isspace line) in *.
  destruct (split_sign t) as [neg r] eqn:Es.
  assert (hex_count r <= hex_count t)%nat as L1.
  { unfold split_sign in Es. destruct t as [|c t']; [injection Es as _ <-; lia|].
    change (c :: t') with ([c] ++ t'). rewrite hex_count_app. destruct (N.eqb c 45); [injection Es as _ <-; lia|].
    destruct (N.eqb c 43); injection Es as _ <-; [lia|]. change (c :: t') with ([c] ++ t'). rewrite hex_count_app. lia. }
  cbv zeta.
  match goal with |- context [us_digits hex_digit true ?x] => set (r1 := x) end.
  assert (hex_count r1 <= hex_count r)%nat as L2.
  { subst r1. destruct r as [|z0 [|x r']]; [lia|lia|]. destruct (_ && _); [|lia].
    change (z0 :: x :: r') with ([z0] ++ [x] ++ r'). rewrite !hex_count_app. destruct r' as [|y r'']; [lia|].
    destruct (N.eqb y 95); [|lia]. change (y :: r'') with ([y] ++ r''). rewrite !hex_count_app. lia. }
  destruct (us_digits hex_digit true r1) as [l|] eqn:El; [|discriminate]. intros X. injection X as <-. intros Hu.
  destruct (us_digits_count _ _ _ El) as (Fl & Ll).
  assert (digits_val 16 l < 16 ^ N.of_nat (length l))%N as Bd by (apply digits_val_bound; [reflexivity|exact Fl]).
  assert (hex_count t <= hex_count line)%nat as L3 by (rewrite E, !hex_count_app; lia).
  destruct (le_lt_dec 16 (hex_count line)) as [Y|Y]; [exact Y|exfalso].
  assert (16 ^ N.of_nat (length l) <= 16 ^ 15)%N as P by (apply N.pow_le_mono_r; lia).
  change (16 ^ 15)%N with 1152921504606846976%N in P.
  unfold huge, signed in Hu. change (2 ^ 63) with 9223372036854775808 in Hu. destruct neg; lia.
Qed.
Theorem C39_total z enc segment :
  exists r, dechunk z enc segment = Some r
  /\ ((exists chunks partial, r = Ok (chunks, partial))
      \/ (r = Raise OverflowError
          /\ exists a line b, segment = a ++ line ++ [cr; lf] ++ b
             /\ (16 <= length (filter (fun c => existsb (N.eqb c) (u "0123456789abcdefABCDEF")) line))%nat)).
Proof.
  destruct (dechunk_total z enc (S (length segment)) segment [] ltac:(lia)) as (r & E). exists r. split; [exact E|].
  destruct r as [[c p]|e]; [left; exists c, p; reflexivity|right].
  destruct (dechunk_raise _ _ _ _ _ _ E) as (-> & a & line & b & n & -> & Hi & Hu). split; [reflexivity|].
  exists a, line, b. split; [reflexivity|]. apply (int16_huge _ _ Hi) in Hu. rewrite hex_count_app in Hu. cbn [hex_count filter] in Hu.
  replace (hex_count [cr; lf]) with 0%nat in Hu by reflexivity. rewrite Nat.add_0_r in Hu. exact Hu.
Qed.
(* complete chunks followed by a size of 2^63 or more: OverflowError, whatever follows *)
Theorem C39_overflow z enc cs size n rest :
  Forall chunk_ok cs -> hex_number size n -> (2 ^ 63 <= n)%N ->
  dechunk z enc (flat_map chunk_text cs ++ size ++ [cr; lf] ++ rest) = Some (Raise OverflowError).
Proof.
  intros F H Hn. rewrite dechunk_chunks by exact F. unfold dechunk. cbn [dechunk_loop].
  replace (size ++ [cr; lf] ++ rest) with ((size ++ [cr]) ++ lf :: rest) by (rewrite <- app_assoc; reflexivity).
  rewrite readline_at.
  2:{ rewrite in_app_iff. cbn. intros [I|[I|[]]]; [exact (proj1 (hex_no_lf _ _ H) I)|discriminate]. }
  rewrite <- app_assoc. cbn [app].
  assert (ends_crlf (size ++ [cr; lf]) = true) as -> by (apply ends_crlf_iff; eexists; reflexivity). cbn [negb].
  rewrite (int16_size _ _ H). destruct (Z.eqb_spec (Z.of_N n) 0) as [E|_]; [lia|].
  rewrite bytesio_read_huge by (right; lia). reflexivity.
Qed.
(* so one segment of a server can make read(), and the constructor, raise OverflowError *)
Theorem C39_overflow_refuted :
  let seg := u "8000000000000000" ++ [cr; lf] in
  sock_open [RData seg] 1 no_zlib = Raise OverflowError
  /\ fst (sock_read 1 (mksock [RData seg] [] [] 1 no_zlib)) = Raise OverflowError
  /\ fst (sock_readline (mksock [RData seg] [] [] 1 no_zlib)) = Raise OverflowError.
Proof. repeat split; vm_compute; reflexivity. Qed.
(* each chunk is decompressed as specified; on an error it is passed on as far as it was decoded *)
Theorem C39_decompress z enc chunk out : decompress z enc chunk = out <-> inflated z enc chunk out.
Proof. apply decompress_inflated. Qed.
(* one failing gzip step: the chunk as received *)
Theorem C39_as_received z enc c s : chunk_ok c -> Z.testbit enc 1 = true -> z_gzip z (snd c) = None ->
  (exists x p, dechunk z enc s = Some (Ok (x, p)) /\ dechunk z enc (chunk_text c ++ s) = Some (Ok (snd c ++ x, p)))
  \/ (dechunk z enc s = Some (Raise OverflowError) /\ dechunk z enc (chunk_text c ++ s) = Some (Raise OverflowError)).
Proof.
  intros H B G. destruct (C39_total z enc s) as (r & E & [(x & p & ->)|(-> & _)]);
    [left; exists x, p; split; [exact E|]|right; split; [exact E|]]; rewrite dechunk_chunk, E by exact H; [|reflexivity].
  cbn [prepend].
  assert (decompress z enc (snd c) = snd c) as -> by (apply decompress_inflated, inflated_gzip; assumption). reflexivity.
Qed.
(* readline() terminates on every socket *)
Theorem C39_readline k : sock_readline_loop (S (sock_avail k)) [] k <> None.
Proof.
  destruct (readline_loop_spec (S (sock_avail k)) [] k ltac:(lia)) as (r & d & k' & used & E & _).
  - intros a b X. symmetry in X. apply app_eq_nil in X as [_ X]. discriminate.
  - rewrite E. discriminate.
Qed.
Example C39_example : dechunk no_zlib 3 (u "zz" ++ [cr; lf] ++ u "abc") = Some (Ok ([], []))
  /\ dechunk no_zlib 3 (u "-1" ++ [cr; lf] ++ u "abc") = Some (Ok ([], u "-1" ++ [cr; lf] ++ u "abc")).
Proof. split; vm_compute; reflexivity. Qed.
