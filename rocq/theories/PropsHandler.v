(* Theorems about error handlers with a memory: C82. *)
From Coq Require Import Lia.
From Verif Require Import Message Reader Socket ReaderHandler Spec BaseLemmas ReaderSpec ReaderProofs SocketSpec SocketProofs
  HandlerProofs PropsReader PropsSocket.
Local Open Scope Z_scope.

(* ERR_LOG with a handler h that remembers: it sees the problems in stream
   order, each with the memory the previous one left, and the loop goes on until it raises *)
Fixpoint policy_memory {M} (h : M -> exc -> option exc * M) (mem : M) (hs : list happening)
  : list (bytes * option msg) * option exc * list exc * M :=
  match hs with
  | [] => ([], None, [], mem)
  | Item raw m :: r => let '(l, x, es, mem') := policy_memory h mem r in ((raw, m) :: l, x, es, mem')
  | Problem e :: r =>
      match h mem e with
      | (Some x, mem') => ([], Some x, [e], mem')
      | (None, mem') => let '(l, x, es, mem2) := policy_memory h mem' r in (l, x, e :: es, mem2)
      end
  | Crash e :: _ => ([], Some e, [], mem)
  end.

Section Policy.
Context {M : Type} (cfg : rcfg) (h : M -> exc -> option exc * M).
Lemma run_memory hs : r_quit cfg = ERR_LOG -> forall mem l x es mem', policy_memory h mem hs = (l, x, es, mem') ->
  exists r, run_h M cfg h mem hs = (l, x, map EvHandler es, r, mem').
Proof.
  intros Q. induction hs as [|[raw m|e|e] hs IH]; intros mem l x es mem' P; cbn [policy_memory] in P; cbn [run_h].
  - injection P as <- <- <- <-. exists []. reflexivity.
  - destruct (policy_memory h mem hs) as [[[l0 x0] es0] mem0] eqn:P0. injection P as <- <- <- <-.
    destruct (IH _ _ _ _ _ P0) as (r & ->). exists r. reflexivity.
  - assert (do_error_h M cfg h mem e = (fst (h mem e), [EvHandler e], snd (h mem e))) as ->.
    { unfold do_error_h. rewrite Q. change (ERR_LOG =? 0) with false. change (ERR_LOG =? ERR_RAISE) with false. rewrite Z.eqb_refl.
      destruct (h mem e) as [y mem1]. reflexivity. }
    destruct (h mem e) as [[y|] mem1]; cbn [fst snd].
    + injection P as <- <- <- <-. exists hs. reflexivity.
    + destruct (policy_memory h mem1 hs) as [[[l0 x0] es0] mem0] eqn:P0. injection P as <- <- <- <-.
      destruct (IH _ _ _ _ _ P0) as (r & E). rewrite E. exists r. reflexivity.
  - injection P as <- <- <- <-. exists hs. reflexivity.
Qed.
Lemma fiterate_h_tokens fuel n s ts hs mem :
  tokens [lf] s ts -> happens cfg ts hs -> (length s < fuel)%nat -> (length s < n)%nat ->
  exists k' l x ev hs' mem', run_h M cfg h mem hs = (l, x, ev, hs', mem') /\ fiterate_h cfg h n fuel s mem = Some (l, x, ev, k', mem').
Proof.
  intros Tk Hp L1 L2.
  apply (iterate_h_tokens file M file_read1 file_readline [lf] eq lf_nonnil) with (s := s) (ts := ts); try assumption; try reflexivity.
  - intros k ->. exists []. split; reflexivity.
  - intros k b r ->. exists r. split; reflexivity.
  - intros k s0 ->. destruct (first_line_lf s0) as (line & rest & A & B). exists line, rest, rest. auto.
Qed.
End Policy.

(* over a file, with any handler *)
Theorem C82_file {M} cfg (h : M -> exc -> option exc * M) n fuel s ts hs mem items x es mem' :
  tokens [lf] s ts -> happens cfg ts hs -> (length s < fuel)%nat -> (length s < n)%nat -> r_quit cfg = ERR_LOG ->
  policy_memory h mem hs = (items, x, es, mem') ->
  exists rest, fiterate_h cfg h n fuel s mem = Some (items, x, map EvHandler es, rest, mem').
Proof.
  intros Tk Hp L1 L2 Q P. destruct (fiterate_h_tokens cfg h fuel n s ts hs mem Tk Hp L1 L2) as (k' & l & y & ev & hs' & mem2 & X1 & X2).
  destruct (run_memory cfg h hs Q mem _ _ _ _ P) as (r & X3). rewrite X3 in X1. injection X1 as <- <- <- <- <-. exists k'. exact X2.
Qed.
(* over a socket, however the data is cut *)
Definition siterate_h {M} (cfg : rcfg) (h : M -> exc -> option exc * M) := iterate_h sock M (sock_read 1) sock_readline cfg h.
Theorem C82_socket {M} cfg (h : M -> exc -> option exc * M) n fuel segs enc z ts hs mem items x es mem' :
  Z.testbit enc 0 = false -> Forall (fun d => d <> []) segs ->
  tokens [cr; lf] (concat segs) ts -> happens cfg ts hs ->
  (length (concat segs) < fuel)%nat -> (length (concat segs) < n)%nat -> r_quit cfg = ERR_LOG ->
  policy_memory h mem hs = (items, x, es, mem') ->
  exists k', siterate_h cfg h n fuel (sock_init (map RData segs) enc z) mem = Some (items, x, map EvHandler es, k', mem').
Proof.
  intros B F Tk Hp L1 L2 Q P. destruct (init_contents segs enc z B F) as (A1 & A2 & A3).
  assert (exists k' l x ev hs' mem', run_h M cfg h mem hs = (l, x, ev, hs', mem')
            /\ siterate_h cfg h n fuel (sock_init (map RData segs) enc z) mem = Some (l, x, ev, k', mem')) as X.
  { apply (iterate_h_tokens sock M (sock_read 1) sock_readline crlf sock_is crlf_nonnil) with (s := concat segs) (ts := ts); try assumption.
    - intros k0 K. destruct (sock_read1_ok k0 [] K) as (d & k' & E & -> & K'). exists k'. auto.
    - intros k0 b r K. destruct (sock_read1_ok k0 (b :: r) K) as (d & k' & E & -> & K'). exists k'. auto.
    - exact sock_readline_ok.
    - split; [exact A1|]. split; [exact A2|]. congruence. }
  destruct X as (k' & l & y & ev & hs' & mem2 & X1 & X2).
  destruct (run_memory cfg h hs Q mem _ _ _ _ P) as (r & X3). rewrite X3 in X1. injection X1 as <- <- <- <- <-. exists k'. exact X2.
Qed.

(* without ERR_LOG the handler is not called: its memory does not change, and
   the loop is that of the reader without a handler *)
Lemma read_h_not_called {S M} (read1 readline : S -> result bytes * S) cfg (h : M -> exc -> option exc * M) fuel :
  r_quit cfg <> ERR_LOG -> forall s mem,
  read_h S M read1 readline cfg h fuel s mem
  = match read S read1 readline cfg fuel s with Some (o, ev, s') => Some (o, ev, s', mem) | None => None end.
Proof.
  intros Q. induction fuel as [|f IH]; intros s mem; cbn [read_h read]; [reflexivity|].
  destruct (pass S read1 readline cfg s) as [[[[raw m]|]|e] s1]; [reflexivity|apply IH|].
  assert (do_error_h M cfg h mem e = (fst (do_error cfg e), snd (do_error cfg e), mem)) as D.
  { unfold do_error_h, do_error. destruct (r_quit cfg =? 0); [reflexivity|]. destruct (r_quit cfg =? ERR_RAISE); [reflexivity|].
    destruct (r_quit cfg =? ERR_LOG) eqn:E; [apply Z.eqb_eq in E; contradiction|]. reflexivity. }
  rewrite D. destruct (do_error cfg e) as [[e'|] ev]; cbn [fst snd]; destruct (is_nmea_error e); try (destruct e; reflexivity).
  rewrite IH. destruct (read S read1 readline cfg f s1) as [[[o ev'] s2]|]; destruct e; reflexivity.
Qed.
Theorem C82_not_called {S M} (read1 readline : S -> result bytes * S) cfg (h : M -> exc -> option exc * M) n fuel :
  r_quit cfg <> ERR_LOG -> forall s mem,
  iterate_h S M read1 readline cfg h n fuel s mem
  = match iterate S read1 readline cfg n fuel s with Some (l, x, ev, s') => Some (l, x, ev, s', mem) | None => None end.
Proof.
  intros Q. induction n as [|n IH]; intros s mem; cbn [iterate_h iterate]; [reflexivity|].
  rewrite read_h_not_called by exact Q. destruct (read S read1 readline cfg fuel s) as [[[[raw m| |e] ev] s']|]; try reflexivity.
  rewrite IH. destruct (iterate S read1 readline cfg n fuel s') as [[[[l x] ev'] s2]|]; reflexivity.
Qed.

(* a handler that does not use its memory is a handler of C29 *)
Lemma read_h_memoryless {S M} (read1 readline : S -> result bytes * S) cfg f fuel :
  r_handler cfg = Some f -> forall s (mem : M),
  read_h S M read1 readline cfg (fun mem e => (f e, mem)) fuel s mem
  = match read S read1 readline cfg fuel s with Some (o, ev, s') => Some (o, ev, s', mem) | None => None end.
Proof.
  intros Q. induction fuel as [|g IH]; intros s mem; cbn [read_h read]; [reflexivity|].
  destruct (pass S read1 readline cfg s) as [[[[raw m]|]|e] s1]; [reflexivity|apply IH|].
  assert (do_error_h M cfg (fun mem e => (f e, mem)) mem e = (fst (do_error cfg e), snd (do_error cfg e), mem)) as D.
  { unfold do_error_h, do_error. rewrite Q. destruct (r_quit cfg =? 0); [reflexivity|]. destruct (r_quit cfg =? ERR_RAISE); [reflexivity|].
    destruct (r_quit cfg =? ERR_LOG); reflexivity. }
  rewrite D. destruct (do_error cfg e) as [[e'|] ev]; cbn [fst snd]; destruct (is_nmea_error e); try (destruct e; reflexivity).
  rewrite IH. destruct (read S read1 readline cfg g s1) as [[[o ev'] s2]|]; destruct e; reflexivity.
Qed.
Theorem C82_memoryless {S M} (read1 readline : S -> result bytes * S) cfg f n fuel :
  r_handler cfg = Some f -> forall s (mem : M),
  iterate_h S M read1 readline cfg (fun mem e => (f e, mem)) n fuel s mem
  = match iterate S read1 readline cfg n fuel s with Some (l, x, ev, s') => Some (l, x, ev, s', mem) | None => None end.
Proof.
  intros Q. induction n as [|n IH]; intros s mem; cbn [iterate_h iterate]; [reflexivity|].
  rewrite read_h_memoryless by exact Q. destruct (read S read1 readline cfg fuel s) as [[[[raw m| |e] ev] s']|]; try reflexivity.
  rewrite IH. destruct (iterate S read1 readline cfg n fuel s') as [[[[l x] ev'] s2]|]; reflexivity.
Qed.

(* a handler that gives up: it accepts [k] errors and raises x at the next one *)
Definition give_up (k : nat) (x : exc) (seen : nat) (e : exc) : option exc * nat :=
  (if Nat.ltb seen k then None else Some x, Datatypes.S seen).
Definition no_crash (hs : list happening) : Prop := forall e, ~ In (Crash e) hs.
Fixpoint items_of (hs : list happening) : list (bytes * option msg) :=
  match hs with
  | [] => []
  | Item raw m :: r => (raw, m) :: items_of r
  | _ :: r => items_of r
  end.

Lemma give_up_enough k x hs : no_crash hs -> forall seen, (seen + length (problems hs) <= k)%nat ->
  policy_memory (give_up k x) seen hs = (items_of hs, None, problems hs, (seen + length (problems hs))%nat).
Proof.
  induction hs as [|[raw m|e|e] hs IH]; intros N seen L; cbn [policy_memory items_of problems length] in *.
  - rewrite Nat.add_0_r. reflexivity.
  - rewrite IH; [reflexivity| |exact L]. intros e He. apply (N e). right. exact He.
  - unfold give_up at 1. destruct (Nat.ltb_spec seen k); [|lia]. rewrite IH; [|intros y Hy; apply (N y); right; exact Hy|lia].
    rewrite Nat.add_succ_r. reflexivity.
  - exfalso. apply (N e). left. reflexivity.
Qed.
Lemma give_up_reached k x pre e post : no_crash pre -> forall seen, (seen + length (problems pre) = k)%nat ->
  policy_memory (give_up k x) seen (pre ++ Problem e :: post) = (items_of pre, Some x, problems pre ++ [e], Datatypes.S k).
Proof.
  induction pre as [|[raw m|e'|e'] pre IH]; intros N seen L; cbn [policy_memory items_of problems length app] in *.
  - unfold give_up. destruct (Nat.ltb_spec seen k); [lia|]. cbn in L. rewrite Nat.add_0_r in L. subst seen. reflexivity.
  - rewrite IH; [reflexivity| |exact L]. intros y Hy. apply (N y). right. exact Hy.
  - unfold give_up at 1. destruct (Nat.ltb_spec seen k); [|lia]. rewrite IH; [|intros y Hy; apply (N y); right; exact Hy|lia]. reflexivity.
  - exfalso. apply (N e'). left. reflexivity.
Qed.

(* no more than k errors: as if errors were ignored, and the handler has seen each of them *)
Theorem C82_below_limit cfg k x n fuel s ts hs :
  tokens [lf] s ts -> happens cfg ts hs -> (length s < fuel)%nat -> (length s < n)%nat -> r_quit cfg = ERR_LOG ->
  no_crash hs -> (length (problems hs) <= k)%nat ->
  exists rest, fiterate_h cfg (give_up k x) n fuel s 0%nat
    = Some (items_of hs, None, map EvHandler (problems hs), rest, length (problems hs)).
Proof.
  intros Tk Hp L1 L2 Q N L. eapply C82_file; try eassumption. apply give_up_enough; assumption.
Qed.
(* more than k errors: the loop ends at error number k + 1, with everything before it delivered *)
Theorem C82_at_limit cfg k x n fuel s ts pre e post :
  tokens [lf] s ts -> happens cfg ts (pre ++ Problem e :: post) -> (length s < fuel)%nat -> (length s < n)%nat -> r_quit cfg = ERR_LOG ->
  no_crash pre -> length (problems pre) = k ->
  exists rest, fiterate_h cfg (give_up k x) n fuel s 0%nat
    = Some (items_of pre, Some x, map EvHandler (problems pre ++ [e]), rest, Datatypes.S k).
Proof.
  intros Tk Hp L1 L2 Q N L. eapply C82_file; try eassumption. apply give_up_reached; assumption.
Qed.

(* every item delivered is parse() of its line, for any stream object and any handler *)
Lemma read_h_parsed {S M} (read1 readline : S -> result bytes * S) cfg (h : M -> exc -> option exc * M) fuel : forall s mem raw m ev s' mem',
  read_h S M read1 readline cfg h fuel s mem = Some (RMsg raw m, ev, s', mem') ->
  parse (MBytes raw) (r_mode cfg) (r_validate cfg) (r_userdefined cfg) = Ok m.
Proof.
  induction fuel as [|f IH]; intros s mem raw m ev s' mem' H; cbn [read_h] in H; [discriminate|].
  destruct (pass S read1 readline cfg s) as [[[[raw1 m1]|]|e] s1] eqn:P.
  - injection H as <- <- <- <- <-.
    apply (C33_parsed S read1 readline cfg 1 s raw1 m1 [] s1). cbn [read]. rewrite P. reflexivity.
  - eapply IH. exact H.
  - assert (e = EOFError \/ e <> EOFError) as [->|Ne] by (destruct e; (left; reflexivity) || (right; discriminate)); [discriminate|].
    assert (forall X (a b : X), match e with EOFError => a | _ => b end = b) as K by (intros; destruct e; try reflexivity; contradiction).
    rewrite K in H. destruct (is_nmea_error e); [|discriminate].
    destruct (do_error_h M cfg h mem e) as [[[e'|] ev1] mem1]; [discriminate|].
    destruct (read_h S M read1 readline cfg h f s1 mem1) as [[[[o ev'] s2] mem2]|] eqn:R; [|discriminate].
    injection H as -> <- <- <-. eapply IH. exact R.
Qed.
Theorem C82_parsed {S M} (read1 readline : S -> result bytes * S) cfg (h : M -> exc -> option exc * M) n fuel : forall s mem items x ev s' mem',
  iterate_h S M read1 readline cfg h n fuel s mem = Some (items, x, ev, s', mem') ->
  Forall (fun i => parse (MBytes (fst i)) (r_mode cfg) (r_validate cfg) (r_userdefined cfg) = Ok (snd i)) items.
Proof.
  induction n as [|n IH]; intros s mem items x ev s' mem' H; cbn [iterate_h] in H; [discriminate|].
  destruct (read_h S M read1 readline cfg h fuel s mem) as [[[[[raw m| |e] ev1] s1] mem1]|] eqn:R; try discriminate.
  - destruct (iterate_h S M read1 readline cfg h n fuel s1 mem1) as [[[[[l x1] ev2] s2] mem2]|] eqn:I; [|discriminate].
    injection H as <- <- <- <- <-. constructor; [|eapply IH; exact I]. eapply read_h_parsed. exact R.
  - injection H as <- <- <- <- <-. constructor.
  - injection H as <- <- <- <- <-. constructor.
Qed.

Definition shown {S M} (r : option (list (bytes * option msg) * option exc * list event * S * M)) :=
  match r with Some (l, x, ev, _, mem) => Some (map fst l, x, ev, mem) | None => None end.
Example C82_example :
  shown (fiterate_h (ex_cfg 1) (give_up 1 (OtherException 5)) 300 300 ex_stream 0%nat)
    = Some ([ex_line; ex_line], Some (OtherException 5), [EvHandler NMEAParseError; EvHandler NMEAStreamError], 2%nat)
  /\ shown (fiterate_h (ex_cfg 1) (give_up 2 (OtherException 5)) 300 300 ex_stream 0%nat)
    = Some ([ex_line; ex_line], None, [EvHandler NMEAParseError; EvHandler NMEAStreamError], 2%nat)
  /\ shown (fiterate_h (ex_cfg 1) (give_up 0 (OtherException 5)) 300 300 ex_stream 0%nat)
    = Some ([ex_line], Some (OtherException 5), [EvHandler NMEAParseError], 1%nat)
  /\ exists m, tokens [lf] ex_stream [Line ex_line; Line ex_bad; Line ex_line; Cut]
     /\ happens (ex_cfg 1) [Line ex_line; Line ex_bad; Line ex_line; Cut]
          ([Item ex_line (Some m); Problem NMEAParseError; Item ex_line (Some m)] ++ Problem NMEAStreamError :: [])
     /\ no_crash [Item ex_line (Some m); Problem NMEAParseError; Item ex_line (Some m)].
Proof.
  do 3 (split; [vm_compute; reflexivity|]). destruct ex_history as (m & T & H). exists m. split; [exact T|]. split; [exact H|].
  intros e [X|[X|[X|[]]]]; discriminate X.
Qed.
