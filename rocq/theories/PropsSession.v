(* C76: reading in several goes - stopping and resuming, catching errors and
   going on *)
From Coq Require Import Lia.
From Verif Require Import Message Reader Socket BaseLemmas TextLemmas Spec ReaderSpec ReaderProofs SocketSpec SocketProofs
  PropsReader PropsSocket.
Local Open Scope Z_scope.

(* ------------------------------------------------ stopping and resuming *)
(* k calls of read() that return items *)
Inductive reads {S} (read1 readline : S -> result bytes * S) (cfg : rcfg) (fuel : nat) : nat -> S -> list (bytes * option msg) -> list event -> S -> Prop :=
| reads_none s : reads read1 readline cfg fuel 0 s [] [] s
| reads_more k s raw m ev s1 l ev' s2 :
    read S read1 readline cfg fuel s = Some (RMsg raw m, ev, s1) -> reads read1 readline cfg fuel k s1 l ev' s2 ->
    reads read1 readline cfg fuel (Datatypes.S k) s ((raw, m) :: l) (ev ++ ev') s2.

(* A for loop over a reader can be left after any number of items and taken up
   again later, with this or another reader of the same settings on the same
   stream object: nothing is lost, repeated or reordered, and the errors are the same.
   For every kind of stream object. *)
Theorem C76_resume S (read1 readline : S -> result bytes * S) cfg fuel k : forall n s items x ev s',
  iterate S read1 readline cfg n fuel s = Some (items, x, ev, s') -> (k <= length items)%nat ->
  exists s1 ev1 ev2, reads read1 readline cfg fuel k s (firstn k items) ev1 s1
    /\ iterate S read1 readline cfg (n - k) fuel s1 = Some (skipn k items, x, ev2, s') /\ ev = ev1 ++ ev2.
Proof.
  induction k as [|k IH]; intros n s items x ev s' H L.
  - exists s, [], ev. split; [apply reads_none|]. rewrite Nat.sub_0_r. auto.
  - destruct n as [|n]; [discriminate|]. cbn [iterate] in H.
    destruct (read S read1 readline cfg fuel s) as [[[o e1] s1]|] eqn:E; [|discriminate].
    destruct o as [raw m| |e]; [|injection H as <- <- <- <-; cbn in L; lia|injection H as <- <- <- <-; cbn in L; lia].
    destruct (iterate S read1 readline cfg n fuel s1) as [[[[l x1] e2] s2]|] eqn:I; [|discriminate].
    injection H as <- <- <- <-. cbn in L. destruct (IH n s1 l x1 e2 s2 I ltac:(lia)) as (s3 & ev1 & ev2 & A & B & ->).
    exists s3, (e1 ++ ev1), ev2. cbn [firstn skipn Nat.sub]. split; [eapply reads_more; eassumption|]. split; [exact B|]. rewrite app_assoc. reflexivity.
Qed.

(* --------------------------------------------- catching and going on *)
(* an application that calls read() again after every exception *)
Inductive entry := Got (raw : bytes) (m : option msg) | Caught (e : exc).
Fixpoint session S (read1 readline : S -> result bytes * S) (cfg : rcfg) (n fuel : nat) (s : S) : option (list entry * list event * S) :=
  match n with
  | O => None
  | Datatypes.S n' =>
      match read S read1 readline cfg fuel s with
      | None => None
      | Some (REnd, ev, s') => Some ([], ev, s')
      | Some (RMsg raw m, ev, s') =>
          match session S read1 readline cfg n' fuel s' with Some (l, ev', s2) => Some (Got raw m :: l, ev ++ ev', s2) | None => None end
      | Some (RRaise e, ev, s') =>
          match session S read1 readline cfg n' fuel s' with Some (l, ev', s2) => Some (Caught e :: l, ev ++ ev', s2) | None => None end
      end
  end.
Definition fsession := session file file_read1 file_readline.
Definition ssession := session sock (sock_read 1) sock_readline.

(* what comes out of read() for a protocol error: with ERR_RAISE the error, with
   ERR_LOG what the handler raises, if it does *)
Definition reaction (quit : Z) (h : option handler) (e : exc) : option exc :=
  if quit =? ERR_RAISE then Some e
  else if quit =? ERR_LOG then match h with Some f => f e | None => None end
  else None.
(* what the application sees of the happenings in the stream *)
Definition noted (quit : Z) (h : option handler) (x : happening) : list entry :=
  match x with
  | Item raw m => [Got raw m]
  | Crash e => [Caught e]
  | Problem e => match reaction quit h e with Some e' => [Caught e'] | None => [] end
  end.

Lemma next_noted cfg hs : let b := noted (r_quit cfg) (r_handler cfg) in
  match next cfg hs with
  | (REnd, _, r) => flat_map b hs = [] /\ r = []
  | (RMsg raw m, _, r) => flat_map b hs = Got raw m :: flat_map b r
  | (RRaise e, _, r) => flat_map b hs = Caught e :: flat_map b r
  end.
Proof.
  cbv zeta. induction hs as [|h hs IH]; [split; reflexivity|]. destruct h as [raw m|e|e]; cbn [next flat_map noted]; [reflexivity| |reflexivity].
  assert (fst (do_error cfg e) = reaction (r_quit cfg) (r_handler cfg) e) as D.
  { unfold do_error, reaction. destruct (Z.eqb_spec (r_quit cfg) 0) as [->|Z0]; [reflexivity|].
    destruct (r_quit cfg =? ERR_RAISE); [reflexivity|]. destruct (r_quit cfg =? ERR_LOG); [|reflexivity]. destruct (r_handler cfg); reflexivity. }
  destruct (do_error cfg e) as [[e'|] ev1]; cbn [fst] in D; rewrite <- D; [reflexivity|].
  destruct (next cfg hs) as [[o ev] r]. exact IH.
Qed.

Lemma next_raise cfg hs : r_quit cfg = 2 -> snd (fst (next cfg hs)) = [].
Proof. intros Q. destruct hs as [|[raw m|e|e] hs]; cbn [next]; unfold do_error; rewrite ?Q; reflexivity. Qed.

Section Generic.
Variable S : Type.
Variables read1 readline : S -> result bytes * S.
Variable t : bytes.
Variable R : S -> bytes -> Prop.
Variable cfg : rcfg.
Hypothesis reads_tokens : forall fuel k s ts hs,
  tokens t s ts -> happens cfg ts hs -> R k s -> (length s < fuel)%nat ->
  exists k' s' ts' o ev hs',
    next cfg hs = (o, ev, hs') /\ read S read1 readline cfg fuel k = Some (o, ev, k')
    /\ R k' s' /\ tokens t s' ts' /\ happens cfg ts' hs'
    /\ (length s' <= length s)%nat /\ (o = REnd \/ (length s' < length s)%nat) /\ (o = REnd -> s' = []).
Lemma session_tokens fuel n : forall k s ts hs,
  tokens t s ts -> happens cfg ts hs -> R k s -> (length s < fuel)%nat -> (length s < n)%nat ->
  exists ev k', session S read1 readline cfg n fuel k = Some (flat_map (noted (r_quit cfg) (r_handler cfg)) hs, ev, k') /\ R k' [] /\ (r_quit cfg = 2 -> ev = []).
Proof.
  induction n as [|n IH]; intros k s ts hs Tk Hp Rk L1 L2; [lia|].
  destruct (reads_tokens fuel k s ts hs Tk Hp Rk L1) as (k' & s' & ts' & o & ev & hs' & X1 & X2 & X3 & X4 & X5 & X6 & X7 & X8).
  pose proof (next_raise cfg hs) as Nr. rewrite X1 in Nr. cbn [fst snd] in Nr.
  pose proof (next_noted cfg hs) as N. cbv zeta in N. rewrite X1 in N. cbn [session]. rewrite X2.
  destruct o as [raw m| |e].
  - destruct X7 as [X7|X7]; [discriminate|]. destruct (IH k' s' ts' hs' X4 X5 X3 ltac:(lia) ltac:(lia)) as (ev2 & k2 & Y1 & Y2 & Y3).
    rewrite Y1, N. do 2 eexists. split; [reflexivity|]. split; [exact Y2|]. intros Q. rewrite (Nr Q), (Y3 Q). reflexivity.
  - rewrite (X8 eq_refl) in X3. destruct N as [-> _]. exists ev, k'. auto.
  - destruct X7 as [X7|X7]; [discriminate|]. destruct (IH k' s' ts' hs' X4 X5 X3 ltac:(lia) ltac:(lia)) as (ev2 & k2 & Y1 & Y2 & Y3).
    rewrite Y1, N. do 2 eexists. split; [reflexivity|]. split; [exact Y2|]. intros Q. rewrite (Nr Q), (Y3 Q). reflexivity.
Qed.
End Generic.

(* The application sees every happening in the stream exactly once, in order:
   every sentence that parses, every exception that is not a protocol error,
   with quitonerror = ERR_RAISE every protocol error, and with ERR_LOG every
   exception of the error handler (which may raise). *)
Theorem C76_file cfg n fuel s ts hs :
  tokens [lf] s ts -> happens cfg ts hs -> (length s < fuel)%nat -> (length s < n)%nat ->
  exists ev, fsession cfg n fuel s = Some (flat_map (noted (r_quit cfg) (r_handler cfg)) hs, ev, [])
    /\ (r_quit cfg = ERR_RAISE -> ev = []).
Proof.
  intros Tk Hp L1 L2.
  destruct (session_tokens file file_read1 file_readline [lf] eq cfg) with (fuel := fuel) (n := n) (k := s) (s := s) (ts := ts) (hs := hs)
    as (ev & k' & E & <- & Q); auto; [|exists ev; split; [exact E|exact Q]].
  intros f k s0 ts0 hs0 A B -> D. destruct (fread_tokens cfg f s0 ts0 hs0 A B D) as (s' & ts' & o & ev & hs' & X1 & X2 & X).
  exists s', s', ts', o, ev, hs'. split; [exact X1|]. split; [exact X2|]. split; [reflexivity|exact X].
Qed.
Theorem C76_socket cfg n fuel segs enc z ts hs :
  Z.testbit enc 0 = false -> Forall (fun d => d <> []) segs ->
  tokens [cr; lf] (concat segs) ts -> happens cfg ts hs -> (length (concat segs) < fuel)%nat -> (length (concat segs) < n)%nat ->
  exists ev k', ssession cfg n fuel (sock_init (map RData segs) enc z) = Some (flat_map (noted (r_quit cfg) (r_handler cfg)) hs, ev, k').
Proof.
  intros B F Tk Hp L1 L2. pose proof (init_contents segs enc z B F) as K.
  destruct (session_tokens sock (sock_read 1) sock_readline crlf sock_is cfg
    (fun f k s0 ts0 hs0 A1 A2 A3 A4 => sread_tokens cfg f k s0 ts0 hs0 A1 A2 A3 A4) fuel n _ _ ts hs Tk Hp K L1 L2) as (ev & k' & E & _). eauto.
Qed.

Definition gots (l : list entry) : list (bytes * option msg) :=
  flat_map (fun e => match e with Got raw m => [(raw, m)] | Caught _ => [] end) l.
Definition caughts (l : list entry) : list exc :=
  flat_map (fun e => match e with Got _ _ => [] | Caught e => [e] end) l.

(* With ERR_RAISE and an application that catches every exception, the items
   begin with those of the other policies, and are the same unless an exception
   that is not a protocol error ends their loop; the exceptions are then those
   that ERR_LOG reports. *)
Theorem C76_catch cfg n fuel s :
  handler_returns (r_handler cfg) -> (length s < fuel)%nat -> (length s < n)%nat ->
  exists entries items x ev rest,
    fsession (with_quit ERR_RAISE cfg) n fuel s = Some (entries, [], [])
    /\ fiterate (with_quit ERR_LOG cfg) n fuel s = Some (items, x, ev, rest)
    /\ (exists more, gots entries = items ++ more)
    /\ (exists more, map (passed (r_handler cfg)) (caughts entries) = ev ++ more)
    /\ (x = None -> gots entries = items /\ map (passed (r_handler cfg)) (caughts entries) = ev).
Proof.
  intros Hr L1 L2. destruct (tokens_total [lf] s ltac:(discriminate)) as (ts & Tk). destruct (happens_total cfg ts) as (hs & Hp).
  destruct (C76_file (with_quit ERR_RAISE cfg) n fuel s ts hs Tk (happens_quit _ _ _ _ Hp) L1 L2) as (ev1 & E1 & Q1).
  destruct (C29_log (with_quit ERR_LOG cfg) n fuel s ts hs Tk (happens_quit _ _ _ _ Hp) L1 L2 eq_refl Hr) as (r & E2).
  change (r_quit (with_quit ERR_RAISE cfg)) with 2 in E1. change (r_handler (with_quit ERR_LOG cfg)) with (r_handler cfg) in E2. change (r_handler (with_quit ERR_RAISE cfg)) with (r_handler cfg) in E1.
  rewrite (Q1 eq_refl) in E1.
  exists (flat_map (noted 2 (r_handler cfg)) hs), (fst (policy_ignore hs)), (snd (policy_ignore hs)), (map (passed (r_handler cfg)) (problems hs)), r.
  split; [exact E1|]. split; [exact E2|].
  clear. set (f := passed (r_handler cfg)). clearbody f.
  induction hs as [|h hs ((m1 & I1) & (m2 & I2) & I3)].
  - cbn. split; [exists []; reflexivity|]. split; [exists []; reflexivity|]. auto.
  - destruct h as [raw m|e|e]; cbn [flat_map noted policy_ignore problems app gots caughts map fst snd].
    + destruct (policy_ignore hs) as [l x] eqn:P. cbn [fst snd] in *. unfold gots, caughts in *.
      split; [exists m1; cbn; rewrite I1; reflexivity|]. split; [exists m2; exact I2|]. intros X. destruct (I3 X) as [-> ->]. split; reflexivity.
    + change (reaction 2 (r_handler cfg) e) with (Some e). cbv iota. unfold gots, caughts in *. split; [exists m1; exact I1|]. split; [exists m2; cbn; rewrite I2; reflexivity|]. intros X. destruct (I3 X) as [J1 J2]. split; [exact J1|]. cbn. rewrite J2. reflexivity.
    + cbn [fst snd]. split; [eexists; reflexivity|]. split; [eexists; reflexivity|]. discriminate.
Qed.

(* but a second NMEAReader on the bare socket does not get what the first one
   had received and not yet delivered: each reader has its own buffer *)
Theorem C76_new_reader_refuted : exists m ev k,
  sread (ex_cfg 1) 300 (sock_init [RData (ex_line ++ ex_line)] 0 no_zlib) = Some (RMsg ex_line m, ev, k)
  /\ sraws (siterate (ex_cfg 1) 300 300 k) = [ex_line]
  /\ sraws (siterate (ex_cfg 1) 300 300 (sock_init (k_pending k) 0 no_zlib)) = [].
Proof. do 3 eexists. split; [vm_compute; reflexivity|]. split; vm_compute; reflexivity. Qed.
Example C76_example :
  (exists entries, fsession (ex_cfg 2) 300 300 ex_stream = Some (entries, [], [])
     /\ map fst (gots entries) = [ex_line; ex_line] /\ caughts entries = [NMEAParseError; NMEAStreamError])
  /\ exists m s1, reads file_read1 file_readline (ex_cfg 1) 300 1 ex_stream [(ex_line, m)] [] s1.
Proof.
  split.
  - eexists. split; [vm_compute; reflexivity|]. split; vm_compute; reflexivity.
  - do 2 eexists. eapply (reads_more _ _ _ _ 0%nat _ _ _ [] _ [] []); [vm_compute; reflexivity|apply reads_none].
Qed.
