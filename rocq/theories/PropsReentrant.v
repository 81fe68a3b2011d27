(* Theorems about error handlers that use the reader or its stream while they
   handle an error: C113. *)
From Coq Require Import Lia.
From Verif Require Import Message Reader Socket ReaderHandler ReaderReentrant Spec BaseLemmas ReaderSpec ReaderProofs SocketSpec SocketProofs
  HandlerProofs PropsReader PropsSocket PropsHandler.
Local Open Scope Z_scope.

(* ---------------------------------------------------------------------- *)
(* specification *)

(* the handler uses the reader, but does not touch its stream directly *)
Fixpoint reads_only {M} (p : hprog M) : Prop :=
  match p with
  | HDone | HRaise _ => True
  | HGet k => forall mem, reads_only (k mem)
  | HPut _ k => reads_only k
  | HRead k => forall o, reads_only (k o)
  | HByte _ | HLine _ => False
  end.

(* what the stream held, as seen from the outside, whoever received it *)
Fixpoint what (T : list tev) : list happening :=
  match T with
  | [] => []
  | TItem _ raw m :: r => Item raw m :: what r
  | TError e :: r => Problem e :: what r
  | TCrash e :: r => Crash e :: what r
  | TTook _ :: r => what r
  end.
(* what was delivered to the program *)
Fixpoint to_program (T : list tev) : list (bytes * option msg) :=
  match T with
  | TItem O raw m :: r => (raw, m) :: to_program r
  | _ :: r => to_program r
  | [] => []
  end.

(* the bytes of the stream are used in order: each is part of one delivered
   message, or was taken by the handler, or was passed over *)
Inductive used : list tev -> bytes -> Prop :=
| used_end : used [] []
| used_item d raw m T s : used T s -> used (TItem d raw m :: T) (raw ++ s)
| used_took b T s : used T s -> used (TTook b :: T) (b ++ s)
| used_error e T s : used T s -> used (TError e :: T) s
| used_crash e T s : used T s -> used (TCrash e :: T) s
| used_over b T s : used T s -> used T (b ++ s).

(* a handler that, for each error, reads one more message and keeps it *)
Definition salvage (_ : exc) : hprog (list (bytes * option msg)) :=
  HRead (fun o => match o with RMsg raw m => HGet (fun l => HPut (l ++ [(raw, m)]) HDone) | _ => HDone end).
(* who gets what: for each error, the next message not yet promised goes to the handler.
   [owed]: how many errors still wait for their message *)
Fixpoint policy_salvage (owed : nat) (hs : list happening)
  : list (bytes * option msg) * option exc * list (bytes * option msg) :=
  match hs with
  | [] => ([], None, [])
  | Problem _ :: r => policy_salvage (S owed) r
  | Item raw m :: r =>
      match owed with
      | O => let '(items, x, kept) := policy_salvage O r in ((raw, m) :: items, x, kept)
      | S p => let '(items, x, kept) := policy_salvage p r in (items, x, (raw, m) :: kept)
      end
  | Crash e :: r =>
      match owed with
      | O => ([], Some e, [])
      | S p => policy_salvage p r
      end
  end.
(* l is a merge of l1 and l2 *)
Inductive merge {A} : list A -> list A -> list A -> Prop :=
| merge_end : merge [] [] []
| merge_left a l1 l2 l : merge l1 l2 l -> merge (a :: l1) l2 (a :: l)
| merge_right a l1 l2 l : merge l1 l2 l -> merge l1 (a :: l2) (a :: l).

(* ---------------------------------------------------------------------- *)
(* proofs *)
Lemma what_app a b : what (a ++ b) = what a ++ what b.
Proof. induction a as [|[d raw m|e|e|t] a IH]; cbn [what app]; rewrite ?IH; reflexivity. Qed.
Lemma to_program_app a b : to_program (a ++ b) = to_program a ++ to_program b.
Proof. induction a as [|[[|d] raw m|e|e|t] a IH]; cbn [to_program app]; rewrite ?IH; reflexivity. Qed.

(* nothing in the history of a read() at any depth is a delivery to the program *)
Section Depth.
Variables S M : Type.
Variable read1 readline : S -> result bytes * S.
Variable cfg : rcfg.
Variable h : exc -> hprog M.
Lemma handler_not_program rd d : (forall s mem o T s' mem', rd s mem = Some (o, T, s', mem') -> to_program T = []) ->
  forall p s mem x T s' mem', run_handler S M read1 readline rd (Datatypes.S d) p s mem = Some (x, T, s', mem') -> to_program T = [].
Proof.
  intros Rd. induction p as [|x0|k IH|m0 k IH|k IH|k IH|k IH]; intros s mem x T s' mem' E; cbn [run_handler] in E.
  - injection E as <- <- <- <-. reflexivity.
  - injection E as <- <- <- <-. reflexivity.
  - eapply IH. exact E.
  - eapply IH. exact E.
  - destruct (rd s mem) as [[[[o T1] s1] mem1]|] eqn:R; [|discriminate E].
    destruct (run_handler S M read1 readline rd (Datatypes.S d) (k o) s1 mem1) as [[[[x2 T2] s2] mem2]|] eqn:E2; [|discriminate E].
    injection E as <- <- <- <-. rewrite !to_program_app, (Rd _ _ _ _ _ _ R), (IH _ _ _ _ _ _ _ E2). destruct o; reflexivity.
  - destruct (read1 s) as [r s1]. destruct (run_handler S M read1 readline rd (Datatypes.S d) (k r) s1 mem) as [[[[x2 T2] s2] mem2]|] eqn:E2; [|discriminate E].
    injection E as <- <- <- <-. rewrite to_program_app, (IH _ _ _ _ _ _ _ E2). destruct r; reflexivity.
  - destruct (readline s) as [r s1]. destruct (run_handler S M read1 readline rd (Datatypes.S d) (k r) s1 mem) as [[[[x2 T2] s2] mem2]|] eqn:E2; [|discriminate E].
    injection E as <- <- <- <-. rewrite to_program_app, (IH _ _ _ _ _ _ _ E2). destruct r; reflexivity.
Qed.
Lemma eof_or (e : exc) : e = EOFError \/ (e <> EOFError /\ forall X (a b : X), match e with EOFError => a | _ => b end = b).
Proof. destruct e; (left; reflexivity) || (right; split; [discriminate|reflexivity]). Qed.
Lemma read_not_program f : forall d s mem o T s' mem', read_r S M read1 readline cfg h f d s mem = Some (o, T, s', mem') -> to_program T = [].
Proof.
  induction f as [|f IH]; intros d s mem o T s' mem' E; cbn [read_r] in E; [discriminate E|].
  destruct (pass S read1 readline cfg s) as [[[[raw m]|]|e] s1].
  - injection E as <- <- <- <-. reflexivity.
  - eapply IH. exact E.
  - destruct (eof_or e) as [->|[Ne K]]; [injection E as <- <- <- <-; reflexivity|]. rewrite K in E.
    destruct (is_nmea_error e); [|injection E as <- <- <- <-; reflexivity].
    destruct (r_quit cfg =? 0); [eapply IH; exact E|]. destruct (r_quit cfg =? ERR_RAISE); [injection E as <- <- <- <-; reflexivity|].
    destruct (r_quit cfg =? ERR_LOG); [|eapply IH; exact E].
    destruct (run_handler S M read1 readline (read_r S M read1 readline cfg h f (Datatypes.S d)) (Datatypes.S d) (h e) s1 mem) as [[[[[x|] T1] s2] mem1]|] eqn:E1; [| |discriminate E].
    + injection E as <- <- <- <-. cbn [to_program]. eapply handler_not_program; [|exact E1]. intros. eapply IH. eassumption.
    + destruct (read_r S M read1 readline cfg h f d s2 mem1) as [[[[o2 T2] s3] mem2]|] eqn:E2; [|discriminate E].
      injection E as <- <- <- <-. cbn [to_program]. rewrite to_program_app, (IH _ _ _ _ _ _ _ E2), app_nil_r.
      eapply handler_not_program; [|exact E1]. intros. eapply IH. eassumption.
Qed.
End Depth.

Section Generic.
Variables S M : Type.
Variable stream_read1 : S -> result bytes * S.
Variable stream_readline : S -> result bytes * S.
Variable t : bytes.
Variable R : S -> bytes -> Prop.
Hypothesis T : t <> [].
Hypothesis read1_nil : forall k, R k [] -> exists k', stream_read1 k = (Ok [], k') /\ R k' [].
Hypothesis read1_cons : forall k b r, R k (b :: r) -> exists k', stream_read1 k = (Ok [b], k') /\ R k' r.
Hypothesis readline_ok : forall k s, R k s ->
  exists line rest k', stream_readline k = (Ok line, k') /\ first_line t s line rest /\ R k' rest.
Variable cfg : rcfg.
Variable h : exc -> hprog M.
Hypothesis Q : r_quit cfg = ERR_LOG.
Notation read_r := (read_r S M stream_read1 stream_readline cfg h).
Notation iterate_r := (iterate_r S M stream_read1 stream_readline cfg h).
Notation run_handler := (run_handler S M stream_read1 stream_readline).
Notation pass_step := (pass_tokens S stream_read1 stream_readline t R T read1_nil read1_cons readline_ok cfg).

(* the stream k has the contents s, and happenings hs *)
Definition holds (k : S) (n : nat) (hs : list happening) : Prop :=
  exists s ts, R k s /\ tokens t s ts /\ happens cfg ts hs /\ (length s < n)%nat.
Lemma holds_less k n n' hs : holds k n hs -> (n <= n')%nat -> holds k n' hs.
Proof. intros (s & ts & A & B & C & D) L. exists s, ts. repeat (split; [assumption|]). lia. Qed.

Lemma handler_order rd d n : (forall k hs mem j, (j <= n)%nat -> holds k j hs -> exists k' o T1 hs2 mem',
    rd k mem = Some (o, T1, k', mem') /\ hs = what (T1 ++ delivered d o) ++ hs2 /\ holds k' j hs2) ->
  forall p k hs mem j, reads_only p -> (j <= n)%nat -> holds k j hs -> exists k' x T1 hs2 mem',
    run_handler rd d p k mem = Some (x, T1, k', mem') /\ hs = what T1 ++ hs2 /\ holds k' j hs2.
Proof.
  intros Rd. induction p as [|x0|kk IH|m0 kk IH|kk IH|kk IH|kk IH]; intros k hs mem j O L H; cbn [reads_only] in O; cbn [ReaderReentrant.run_handler].
  - exists k, None, [], hs, mem. auto.
  - exists k, (Some x0), [], hs, mem. auto.
  - apply IH; [apply O|assumption|assumption].
  - apply IH; assumption.
  - destruct (Rd k hs mem j L H) as (k1 & o & T1 & hs1 & mem1 & -> & -> & H1).
    destruct (IH o k1 hs1 mem1 j (O o) L H1) as (k2 & x & T2 & hs2 & mem2 & -> & -> & H2).
    exists k2, x, (T1 ++ delivered d o ++ T2), hs2, mem2. split; [reflexivity|]. split; [|exact H2].
    rewrite !what_app, !app_assoc. reflexivity.
  - contradiction.
  - contradiction.
Qed.

Lemma read_order n : (forall e, reads_only (h e)) -> forall d k hs mem j, (j <= n)%nat -> holds k j hs ->
  exists k' o T1 hs2 mem', read_r n d k mem = Some (o, T1, k', mem') /\ hs = what (T1 ++ delivered d o) ++ hs2
    /\ holds k' j hs2 /\ (o = REnd -> hs2 = []) /\ (o = REnd \/ (exists i, j = Datatypes.S i /\ holds k' i hs2)).
Proof.
  intros Ho. induction n as [|f IH]; intros d k hs mem j Lj (s & ts & Rk & Tk & Hp & L); [lia|]. cbn [ReaderReentrant.read_r].
  assert (exists i, j = Datatypes.S i) as (i & ->) by (destruct j; [lia|eauto]).
  assert (forall k' s' ts' hs', R k' s' -> tokens t s' ts' -> happens cfg ts' hs' -> (length s' < length s)%nat -> holds k' i hs') as Ho'.
  { intros k' s' ts' hs' A B C D. exists s', ts'. repeat (split; [assumption|]). lia. }
  destruct (pass_step k s ts hs Tk Hp Rk) as
    [k' E -> Rk'|k' s' ts' E Rk' Tk' Hp' L'|k' s' ts' hs' raw m E -> Rk' Tk' Hp' L'
    |k' s' ts' hs' e E Ne Ie -> Rk' Tk' Hp' L'|k' s' ts' hs' e E Ne Ie -> Rk' Tk' Hp' L']; rewrite E.
  - exists k', REnd, [], [], mem. split; [reflexivity|]. split; [reflexivity|]. split; [|split; [reflexivity|left; reflexivity]].
    exists [], []. split; [assumption|]. split; [constructor|]. split; [constructor|]. cbn. lia.
  - destruct (IH d k' hs mem i ltac:(lia) (Ho' _ _ _ _ Rk' Tk' Hp' L')) as (k2 & o & T1 & hs2 & mem2 & X1 & X2 & X3 & X4 & X5).
    exists k2, o, T1, hs2, mem2. repeat (split; [assumption|]). split; [apply (holds_less _ i); [exact X3|lia]|]. split; [exact X4|].
    right. exists i. auto.
  - exists k', (RMsg raw m), [], hs', mem. split; [reflexivity|]. split; [reflexivity|]. pose proof (Ho' _ _ _ _ Rk' Tk' Hp' L') as H'.
    split; [apply (holds_less _ i); [exact H'|lia]|]. split; [discriminate|]. right. exists i. auto.
  - destruct (eof_or e) as [->|[_ K]]; [contradiction|]. rewrite K, Ie. rewrite Q. change (ERR_LOG =? 0) with false. change (ERR_LOG =? ERR_RAISE) with false.
    rewrite Z.eqb_refl. pose proof (Ho' _ _ _ _ Rk' Tk' Hp' L') as H'.
    destruct (handler_order (read_r f (Datatypes.S d)) (Datatypes.S d) f) with (p := h e) (k := k') (hs := hs') (mem := mem) (j := i)
      as (k1 & x & T1 & hs1 & mem1 & X1 & X2 & X3); [|apply Ho|lia|exact H'|].
    { intros k0 hs0 mem0 j0 Lj0 H0. destruct (IH (Datatypes.S d) k0 hs0 mem0 j0 Lj0 H0) as (k2 & o & T2 & hs2 & mem2 & X1 & X2 & X3 & _).
      exists k2, o, T2, hs2, mem2. auto. }
    rewrite X1. destruct x as [x|].
    + exists k1, (RRaise x), (TError e :: T1), hs1, mem1. split; [reflexivity|]. split; [cbn [delivered what app]; rewrite app_nil_r, X2; reflexivity|].
      split; [apply (holds_less _ i); [exact X3|lia]|]. split; [discriminate|]. right. exists i. auto.
    + destruct (IH d k1 hs1 mem1 i ltac:(lia) X3) as (k2 & o & T2 & hs2 & mem2 & Y1 & Y2 & Y3 & Y4 & Y5). rewrite Y1.
      exists k2, o, (TError e :: T1 ++ T2), hs2, mem2. split; [reflexivity|].
      split; [cbn [what app]; rewrite X2, Y2, !what_app, <- !app_assoc; reflexivity|].
      split; [apply (holds_less _ i); [exact Y3|lia]|]. split; [exact Y4|]. right. exists i. auto.
  - destruct (eof_or e) as [->|[_ K]]; [contradiction|]. rewrite K, Ie. pose proof (Ho' _ _ _ _ Rk' Tk' Hp' L') as H'.
    exists k', (RRaise e), [TCrash e], hs', mem. split; [reflexivity|]. split; [reflexivity|].
    split; [apply (holds_less _ i); [exact H'|lia]|]. split; [discriminate|]. right. exists i. auto.
Qed.

Lemma iterate_order n fuel : (forall e, reads_only (h e)) -> forall k hs mem j, (j <= fuel)%nat -> (j <= n)%nat -> holds k j hs ->
  exists items x T1 k' mem' hs2, iterate_r n fuel k mem = Some (items, x, T1, k', mem')
    /\ hs = what T1 ++ hs2 /\ items = to_program T1 /\ (x = None -> hs2 = []).
Proof.
  intros Ho. induction n as [|n IH]; intros k hs mem j L1 L2 H.
  - destruct H as (s & ts & _ & _ & _ & L). lia.
  - destruct (read_order fuel Ho 0%nat k hs mem j L1 H) as (k' & o & T1 & hs1 & mem1 & E & Eh & H1 & Ee & Le).
    cbn [ReaderReentrant.iterate_r]. rewrite E. pose proof (read_not_program _ _ _ _ _ _ _ _ _ _ _ _ _ _ E) as Np. destruct o as [raw m| |e].
    + destruct Le as [Le|(i & -> & Hi)]; [discriminate Le|].
      destruct (IH k' hs1 mem1 i ltac:(lia) ltac:(lia) Hi) as (items & x & T2 & k2 & mem2 & hs2 & -> & Eh2 & Ei & Ex).
      exists ((raw, m) :: items), x, (T1 ++ delivered 0 (RMsg raw m) ++ T2), k2, mem2, hs2. split; [reflexivity|].
      split; [rewrite Eh, Eh2, !what_app, <- !app_assoc; reflexivity|]. split; [|exact Ex].
      rewrite !to_program_app, Np. cbn [delivered to_program app]. rewrite Ei. reflexivity.
    + exists [], None, T1, k', mem1, []. split; [reflexivity|]. cbn [delivered] in Eh. rewrite app_nil_r in Eh. rewrite Np, Eh, (Ee eq_refl). auto.
    + exists [], (Some e), T1, k', mem1, hs1. split; [reflexivity|]. cbn [delivered] in Eh. rewrite app_nil_r in Eh. rewrite Np. split; [exact Eh|].
      split; [reflexivity|discriminate].
Qed.
End Generic.

(* over a file: whatever the handler does with the reader, each thing the stream
   holds comes to light once, in order: the messages go to the caller whose read()
   met them, each error to the handler; the loop that ends normally has seen everything *)
Theorem C113_file {M} cfg (h : exc -> hprog M) n fuel s ts hs mem :
  tokens [lf] s ts -> happens cfg ts hs -> (length s < fuel)%nat -> (length s < n)%nat -> r_quit cfg = ERR_LOG ->
  (forall e, reads_only (h e)) ->
  exists items x T rest mem' unseen,
    fiterate_r cfg h n fuel s mem = Some (items, x, T, rest, mem')
    /\ hs = what T ++ unseen /\ items = to_program T /\ (x = None -> unseen = []).
Proof.
  intros Tk Hp L1 L2 Q Ho.
  apply (iterate_order file M file_read1 file_readline [lf] eq lf_nonnil) with (j := S (length s)); try assumption; try lia.
  - intros k Ek. rewrite Ek. exists []. split; reflexivity.
  - intros k b r Ek. rewrite Ek. exists r. split; reflexivity.
  - intros k s0 ->. destruct (first_line_lf s0) as (line & rest & A & B). exists line, rest, rest. auto.
  - exists s, ts. repeat (split; [first [reflexivity|assumption]|]). lia.
Qed.
(* over a socket, however the data is cut *)
Definition siterate_r {M} (cfg : rcfg) (h : exc -> hprog M) := iterate_r sock M (sock_read 1) sock_readline cfg h.
Theorem C113_socket {M} cfg (h : exc -> hprog M) n fuel segs enc z ts hs mem :
  Z.testbit enc 0 = false -> Forall (fun d => d <> []) segs ->
  tokens [cr; lf] (concat segs) ts -> happens cfg ts hs ->
  (length (concat segs) < fuel)%nat -> (length (concat segs) < n)%nat -> r_quit cfg = ERR_LOG ->
  (forall e, reads_only (h e)) ->
  exists items x T rest mem' unseen,
    siterate_r cfg h n fuel (sock_init (map RData segs) enc z) mem = Some (items, x, T, rest, mem')
    /\ hs = what T ++ unseen /\ items = to_program T /\ (x = None -> unseen = []).
Proof.
  intros B F Tk Hp L1 L2 Q Ho. destruct (init_contents segs enc z B F) as (A1 & A2 & A3).
  apply (iterate_order sock M (sock_read 1) sock_readline crlf sock_is crlf_nonnil) with (j := S (length (concat segs))); try assumption; try lia.
  - intros k0 K. destruct (sock_read1_ok k0 [] K) as (d & k' & E & -> & K'). exists k'. auto.
  - intros k0 b r K. destruct (sock_read1_ok k0 (b :: r) K) as (d & k' & E & -> & K'). exists k'. auto.
  - exact sock_readline_ok.
  - exists (concat segs), ts. split; [split; [exact A1|]; split; [exact A2|]; congruence|]. repeat (split; [assumption|]). lia.
Qed.

(* every message delivered, to the program or to the handler, is parse() of its
   line, and the pieces of the stream that were used follow one another: for any
   handler, also one that reads from the stream itself *)
Definition parsed (cfg : rcfg) (T : list tev) : Prop :=
  Forall (fun ev => match ev with
                    | TItem _ raw m => parse (MBytes raw) (r_mode cfg) (r_validate cfg) (r_userdefined cfg) = Ok m
                    | _ => True end) T.
Lemma used_app T1 a T2 b : used T1 a -> used T2 b -> used (T1 ++ T2) (a ++ b).
Proof.
  intros H1 H2. induction H1 as [|d raw m T s U IH|c T s U IH|e T s U IH|e T s U IH|c T s U IH]; cbn [app]; rewrite <- ?app_assoc.
  - exact H2.
  - constructor. exact IH.
  - constructor. exact IH.
  - constructor. exact IH.
  - constructor. exact IH.
  - constructor. exact IH.
Qed.
Lemma parsed_app cfg a b : parsed cfg a -> parsed cfg b -> parsed cfg (a ++ b).
Proof. unfold parsed. rewrite Forall_app. auto. Qed.
Lemma used_nothing s : used [] s.
Proof. rewrite <- (app_nil_r s). constructor. constructor. Qed.
Lemma cut_line_split s l r : cut_line s = (l, r) -> s = l ++ r.
Proof.
  revert l r. induction s as [|b s IH]; intros l r E; cbn [cut_line] in E; [injection E as <- <-; reflexivity|].
  destruct (N.eqb b c_lf); [injection E as <- <-; reflexivity|]. destruct (cut_line s) as [l0 r0]. injection E as <- <-.
  cbn [app]. rewrite (IH _ _ eq_refl). reflexivity.
Qed.
(* one pass takes bytes from the front *)
Lemma pass_takes cfg s r s' : pass file file_read1 file_readline cfg s = (r, s') ->
  exists a, s = a ++ s' /\ match r with
    | Ok (Some (raw, m)) => a = raw /\ parse (MBytes raw) (r_mode cfg) (r_validate cfg) (r_userdefined cfg) = Ok m
    | _ => True end.
Proof.
  unfold pass, read_byte, read_line, file_read1. intros E. destruct s as [|b s]; [injection E as <- <-; exists []; auto|].
  destruct (negb (str_eqb [b] [c_dollar])); [injection E as <- <-; exists [b]; auto|].
  destruct s as [|c s]; [injection E as <- <-; exists [b]; auto|].
  destruct (hdr_second c).
  - unfold file_readline in E. destruct (cut_line s) as [l rest] eqn:C. apply cut_line_split in C. subst s. destruct l as [|l0 l].
    + injection E as <- <-. exists [b; c]. auto.
    + destruct (N.eqb (last (l0 :: l) 0%N) c_lf); [|injection E as <- <-; exists (b :: c :: l0 :: l); auto].
      destruct (parse (MBytes ([b] ++ [c] ++ l0 :: l)) (r_mode cfg) (r_validate cfg) (r_userdefined cfg)) as [m|e] eqn:P;
        injection E as <- <-; exists (b :: c :: l0 :: l); auto.
  - destruct (r_nmeaonly cfg); injection E as <- <-; exists [b; c]; auto.
Qed.
Definition accounts (cfg : rcfg) (T : list tev) (s s' : bytes) : Prop := (exists a, s = a ++ s' /\ used T a) /\ parsed cfg T.
Lemma accounts_app cfg T1 T2 s1 s2 s3 : accounts cfg T1 s1 s2 -> accounts cfg T2 s2 s3 -> accounts cfg (T1 ++ T2) s1 s3.
Proof.
  intros ((a & -> & U1) & P1) ((b & -> & U2) & P2). split; [|apply parsed_app; assumption].
  exists (a ++ b). rewrite app_assoc. split; [reflexivity|]. apply used_app; assumption.
Qed.
Lemma accounts_refl cfg s : accounts cfg [] s s.
Proof. split; [exists []; split; [reflexivity|constructor]|apply Forall_nil]. Qed.
Lemma accounts_over cfg T a s s' : accounts cfg T s s' -> accounts cfg T (a ++ s) s'.
Proof. intros ((b & -> & U) & P). split; [|exact P]. exists (a ++ b). rewrite app_assoc. split; [reflexivity|]. constructor. exact U. Qed.
Lemma accounts_took cfg T b s s' : accounts cfg T s s' -> accounts cfg (TTook b :: T) (b ++ s) s'.
Proof.
  intros ((a & -> & U) & P). split; [|apply Forall_cons; [exact Logic.I|exact P]]. exists (b ++ a). rewrite app_assoc. split; [reflexivity|].
  constructor. exact U.
Qed.
Lemma handler_accounts {M} cfg rd d : (forall s (mem : M) o T s' mem', rd s mem = Some (o, T, s', mem') -> accounts cfg (T ++ delivered d o) s s') ->
  forall p s mem x T s' mem', run_handler file M file_read1 file_readline rd d p s mem = Some (x, T, s', mem') -> accounts cfg T s s'.
Proof.
  intros Rd. induction p as [|x0|k IH|m0 k IH|k IH|k IH|k IH]; intros s mem x T s' mem' E; cbn [run_handler] in E.
  - injection E as <- <- <- <-. apply accounts_refl.
  - injection E as <- <- <- <-. apply accounts_refl.
  - eapply IH. exact E.
  - eapply IH. exact E.
  - destruct (rd s mem) as [[[[o T1] s1] mem1]|] eqn:R; [|discriminate E].
    destruct (run_handler file M file_read1 file_readline rd d (k o) s1 mem1) as [[[[x2 T2] s2] mem2]|] eqn:E2; [|discriminate E].
    injection E as <- <- <- <-. rewrite app_assoc. eapply accounts_app; [eapply Rd; exact R|eapply IH; exact E2].
  - destruct (file_read1 s) as [r s1] eqn:F. assert (exists b, r = Ok b /\ s = b ++ s1) as (b & -> & ->).
    { destruct s; cbn [file_read1] in F; injection F as <- <-; eexists; split; reflexivity. }
    cbv beta iota in E. destruct (run_handler file M file_read1 file_readline rd d (k (Ok b)) s1 mem) as [[[[x2 T2] s2] mem2]|] eqn:E2; [|discriminate E].
    injection E as <- <- <- <-. apply (accounts_took cfg T2 b). eapply IH. exact E2.
  - destruct (file_readline s) as [r s1] eqn:F. assert (exists b, r = Ok b /\ s = b ++ s1) as (b & -> & ->).
    { unfold file_readline in F. destruct (cut_line s) as [l rest] eqn:C. apply cut_line_split in C. injection F as <- <-. exists l. auto. }
    cbv beta iota in E. destruct (run_handler file M file_read1 file_readline rd d (k (Ok b)) s1 mem) as [[[[x2 T2] s2] mem2]|] eqn:E2; [|discriminate E].
    injection E as <- <- <- <-. apply (accounts_took cfg T2 b). eapply IH. exact E2.
Qed.
Lemma read_accounts {M} cfg (h : exc -> hprog M) f : forall d s mem o T s' mem',
  read_r file M file_read1 file_readline cfg h f d s mem = Some (o, T, s', mem') -> accounts cfg (T ++ delivered d o) s s'.
Proof.
  induction f as [|f IH]; intros d s mem o T s' mem' E; cbn [read_r] in E; [discriminate E|].
  destruct (pass file file_read1 file_readline cfg s) as [r s1] eqn:Ps. destruct (pass_takes cfg s r s1 Ps) as (a & -> & Pr).
  destruct r as [[[raw m]|]|e].
  - injection E as <- <- <- <-. destruct Pr as (-> & Pr). cbn [delivered app]. split; [|apply Forall_cons; [exact Pr|apply Forall_nil]].
    exists (raw ++ []). rewrite <- app_assoc. split; [reflexivity|]. constructor. constructor.
  - apply accounts_over. eapply IH. exact E.
  - destruct (eof_or e) as [->|[Ne K]].
    { injection E as <- <- <- <-. apply accounts_over, accounts_refl. }
    rewrite K in E. apply accounts_over. destruct (is_nmea_error e).
    2:{ injection E as <- <- <- <-. split; [|apply Forall_cons; [exact Logic.I|apply Forall_nil]].
        exists []. split; [reflexivity|]. constructor. constructor. }
    destruct (r_quit cfg =? 0); [eapply IH; exact E|].
    destruct (r_quit cfg =? ERR_RAISE); [injection E as <- <- <- <-; apply accounts_refl|].
    destruct (r_quit cfg =? ERR_LOG); [|eapply IH; exact E].
    assert (forall T s s', accounts cfg T s s' -> accounts cfg (TError e :: T) s s') as Ae.
    { intros T0 s0 s0' ((b & -> & U) & P). split; [|apply Forall_cons; [exact Logic.I|exact P]]. exists b. split; [reflexivity|]. constructor. exact U. }
    destruct (run_handler file M file_read1 file_readline (read_r file M file_read1 file_readline cfg h f (Datatypes.S d)) (Datatypes.S d) (h e) s1 mem)
      as [[[[[x|] T1] s2] mem1]|] eqn:E1; [| |discriminate E].
    + injection E as <- <- <- <-. cbn [delivered]. rewrite app_nil_r. apply Ae. eapply handler_accounts; [|exact E1]. intros. eapply IH. eassumption.
    + destruct (read_r file M file_read1 file_readline cfg h f d s2 mem1) as [[[[o2 T2] s3] mem2]|] eqn:E2; [|discriminate E].
      injection E as <- <- <- <-. cbn [app]. apply Ae. rewrite <- app_assoc. eapply accounts_app.
      * eapply handler_accounts; [|exact E1]. intros. eapply IH. eassumption.
      * eapply IH. exact E2.
Qed.
Theorem C113_bytes {M} cfg (h : exc -> hprog M) n fuel : forall s mem items x T rest mem',
  fiterate_r cfg h n fuel s mem = Some (items, x, T, rest, mem') ->
  (exists taken, s = taken ++ rest /\ used T taken) /\ parsed cfg T /\ items = to_program T.
Proof.
  unfold fiterate_r. cut (forall s mem items x T rest mem', iterate_r file M file_read1 file_readline cfg h n fuel s mem = Some (items, x, T, rest, mem') ->
    accounts cfg T s rest /\ items = to_program T).
  { intros X s mem items x T rest mem' E. destruct (X _ _ _ _ _ _ _ E) as ((A & B) & C). auto. }
  induction n as [|n IH]; intros s mem items x T rest mem' E; cbn [iterate_r] in E; [discriminate E|].
  destruct (read_r file M file_read1 file_readline cfg h fuel 0 s mem) as [[[[o T1] s1] mem1]|] eqn:R; [|discriminate E].
  pose proof (read_accounts _ _ _ _ _ _ _ _ _ _ R) as A. pose proof (read_not_program _ _ _ _ _ _ _ _ _ _ _ _ _ _ R) as Np. destruct o as [raw m| |e].
  - destruct (iterate_r file M file_read1 file_readline cfg h n fuel s1 mem1) as [[[[[l x2] T2] s2] mem2]|] eqn:E2; [|discriminate E].
    injection E as <- <- <- <- <-. destruct (IH _ _ _ _ _ _ _ E2) as (A2 & ->).
    change ((raw, m) :: to_program T2) with (to_program (delivered 0 (RMsg raw m)) ++ to_program T2).
    split; [|rewrite !to_program_app, Np; reflexivity].
    replace (T1 ++ TItem 0 raw m :: T2) with ((T1 ++ [TItem 0 raw m]) ++ T2) by (rewrite <- app_assoc; reflexivity).
    eapply accounts_app; eassumption.
  - injection E as <- <- <- <- <-. cbn [delivered] in A. rewrite app_nil_r in A. auto.
  - injection E as <- <- <- <- <-. cbn [delivered] in A. rewrite app_nil_r in A. auto.
Qed.

(* the handler that keeps one more message for each error *)
Notation kept_items := (list (bytes * option msg)) (only parsing).
Definition given (o : outcome) : kept_items := match o with RMsg raw m => [(raw, m)] | _ => [] end.
Definition prepend (k : kept_items) (r : kept_items * option exc * kept_items) : kept_items * option exc * kept_items :=
  let '(items, x, kept) := r in (items, x, k ++ kept).
Lemma prepend_app a b r : prepend (a ++ b) r = prepend a (prepend b r).
Proof. destruct r as [[i x] k]. cbn [prepend]. rewrite app_assoc. reflexivity. Qed.
Lemma prepend_nil r : prepend [] r = r.
Proof. destruct r as [[i x] k]. reflexivity. Qed.
Section Salvage.
Variable S : Type.
Variable stream_read1 : S -> result bytes * S.
Variable stream_readline : S -> result bytes * S.
Variable t : bytes.
Variable R : S -> bytes -> Prop.
Hypothesis T : t <> [].
Hypothesis read1_nil : forall k, R k [] -> exists k', stream_read1 k = (Ok [], k') /\ R k' [].
Hypothesis read1_cons : forall k b r, R k (b :: r) -> exists k', stream_read1 k = (Ok [b], k') /\ R k' r.
Hypothesis readline_ok : forall k s, R k s ->
  exists line rest k', stream_readline k = (Ok line, k') /\ first_line t s line rest /\ R k' rest.
Variable cfg : rcfg.
Hypothesis Q : r_quit cfg = ERR_LOG.
Notation pass_step := (pass_tokens S stream_read1 stream_readline t R T read1_nil read1_cons readline_ok cfg).
Notation holds := (holds S t R cfg).

Lemma salvage_read n : forall d k hs mem j, (j <= n)%nat -> holds k j hs ->
  exists k' o T1 hs2 kept, read_r S _ stream_read1 stream_readline cfg salvage n d k mem = Some (o, T1, k', mem ++ kept)
    /\ holds k' j hs2 /\ (o = REnd \/ (exists i, j = Datatypes.S i /\ holds k' i hs2))
    /\ (forall p, policy_salvage (Datatypes.S p) hs = prepend (kept ++ given o) (policy_salvage p hs2))
    /\ policy_salvage 0 hs = match o with
         | RMsg raw m => let '(items, x, more) := policy_salvage 0 hs2 in ((raw, m) :: items, x, kept ++ more)
         | REnd => ([], None, kept)
         | RRaise e => ([], Some e, kept)
         end.
Proof.
  induction n as [|f IH]; intros d k hs mem j Lj (s & ts & Rk & Tk & Hp & L); [lia|]. cbn [read_r].
  assert (exists i, j = Datatypes.S i) as (i & ->) by (destruct j; [lia|eauto]).
  assert (forall k' s' ts' hs', R k' s' -> tokens t s' ts' -> happens cfg ts' hs' -> (length s' < length s)%nat -> holds k' i hs') as Ho.
  { intros k' s' ts' hs' A B C D. exists s', ts'. repeat (split; [assumption|]). lia. }
  assert (forall k' hs', holds k' i hs' -> holds k' (Datatypes.S i) hs') as Up by (intros k0 hs0 (s0 & ts0 & A0 & B0 & C0 & D0); exists s0, ts0; repeat (split; [assumption|]); lia).
  destruct (pass_step k s ts hs Tk Hp Rk) as
    [k' E -> Rk'|k' s' ts' E Rk' Tk' Hp' L'|k' s' ts' hs' raw m E -> Rk' Tk' Hp' L'
    |k' s' ts' hs' e E Ne Ie -> Rk' Tk' Hp' L'|k' s' ts' hs' e E Ne Ie -> Rk' Tk' Hp' L']; rewrite E.
  - exists k', REnd, [], [], []. rewrite app_nil_r. split; [reflexivity|]. split; [|split; [left; reflexivity|split; reflexivity]].
    exists [], []. split; [assumption|]. split; [constructor|]. split; [constructor|]. cbn. lia.
  - destruct (IH d k' hs mem i ltac:(lia) (Ho _ _ _ _ Rk' Tk' Hp' L')) as (k2 & o & T1 & hs2 & kept & X1 & X2 & X3 & X4 & X5).
    exists k2, o, T1, hs2, kept. split; [exact X1|]. split; [apply Up; exact X2|]. split; [right; exists i; auto|]. auto.
  - pose proof (Ho _ _ _ _ Rk' Tk' Hp' L') as H'. exists k', (RMsg raw m), [], hs', []. rewrite app_nil_r. split; [reflexivity|].
    split; [apply Up; exact H'|]. split; [right; exists i; auto|]. cbn [policy_salvage given app prepend]. split.
    + intros p. destruct (policy_salvage p hs') as [[a b] c]. reflexivity.
    + destruct (policy_salvage 0 hs') as [[a b] c]. reflexivity.
  - destruct (eof_or e) as [->|[_ K]]; [contradiction|]. rewrite K, Ie. rewrite Q. change (ERR_LOG =? 0) with false. change (ERR_LOG =? ERR_RAISE) with false.
    rewrite Z.eqb_refl. pose proof (Ho _ _ _ _ Rk' Tk' Hp' L') as H'.
    destruct (IH (Datatypes.S d) k' hs' mem i ltac:(lia) H') as (k1 & o1 & T1 & hs1 & kept1 & X1 & X2 & _ & X4 & _).
    assert (exists T1', run_handler S _ stream_read1 stream_readline (read_r S _ stream_read1 stream_readline cfg salvage f (Datatypes.S d))
              (Datatypes.S d) (salvage e) k' mem = Some (None, T1', k1, mem ++ kept1 ++ given o1)) as (T1' & W).
    { cbn [salvage run_handler]. rewrite X1. destruct o1 as [raw m| |x]; cbn [run_handler given]; eexists; rewrite ?app_nil_r, ?app_assoc; reflexivity. }
    rewrite W. destruct (IH d k1 hs1 (mem ++ kept1 ++ given o1) i ltac:(lia) X2) as (k2 & o2 & T2 & hs2 & kept2 & Y1 & Y2 & Y3 & Y4 & Y5).
    rewrite Y1. exists k2, o2, (TError e :: T1' ++ T2), hs2, (kept1 ++ given o1 ++ kept2).
    split; [rewrite <- !app_assoc; reflexivity|]. split; [apply Up; exact Y2|]. split; [right; exists i; auto|]. cbn [policy_salvage]. split.
    + intros p. rewrite X4, Y4, <- prepend_app. f_equal. rewrite <- !app_assoc. reflexivity.
    + rewrite X4, Y5. destruct o2 as [raw m| |x].
      * destruct (policy_salvage 0 hs2) as [[a b] c]. cbn [prepend]. rewrite <- !app_assoc. reflexivity.
      * cbn [prepend]. rewrite <- !app_assoc. reflexivity.
      * cbn [prepend]. rewrite <- !app_assoc. reflexivity.
  - destruct (eof_or e) as [->|[_ K]]; [contradiction|]. rewrite K, Ie. pose proof (Ho _ _ _ _ Rk' Tk' Hp' L') as H'.
    exists k', (RRaise e), [TCrash e], hs', []. rewrite app_nil_r. split; [reflexivity|]. split; [apply Up; exact H'|].
    split; [right; exists i; auto|]. cbn [policy_salvage given app]. split; [|reflexivity]. intros p. rewrite prepend_nil. reflexivity.
Qed.
Lemma salvage_iterate n fuel : forall k hs mem j, (j <= fuel)%nat -> (j <= n)%nat -> holds k j hs ->
  exists T1 k', iterate_r S _ stream_read1 stream_readline cfg salvage n fuel k mem
    = Some (fst (fst (policy_salvage 0 hs)), snd (fst (policy_salvage 0 hs)), T1, k', mem ++ snd (policy_salvage 0 hs)).
Proof.
  induction n as [|n IH]; intros k hs mem j L1 L2 H.
  - destruct H as (s & ts & _ & _ & _ & L). lia.
  - destruct (salvage_read fuel 0%nat k hs mem j L1 H) as (k' & o & T1 & hs1 & kept & E & H1 & Le & _ & P). cbn [iterate_r]. rewrite E, P.
    destruct o as [raw m| |e].
    + destruct Le as [Le|(i & -> & Hi)]; [discriminate Le|].
      destruct (IH k' hs1 (mem ++ kept) i ltac:(lia) ltac:(lia) Hi) as (T2 & k2 & E2). rewrite E2.
      destruct (policy_salvage 0 hs1) as [[a b] c]. cbn [fst snd]. rewrite (app_assoc mem). eexists. exists k2. reflexivity.
    + exists T1, k'. reflexivity.
    + exists T1, k'. reflexivity.
Qed.
End Salvage.
Theorem C113_salvage cfg n fuel s ts hs items x kept :
  tokens [lf] s ts -> happens cfg ts hs -> (length s < fuel)%nat -> (length s < n)%nat -> r_quit cfg = ERR_LOG ->
  policy_salvage 0 hs = (items, x, kept) ->
  exists T rest, fiterate_r cfg salvage n fuel s [] = Some (items, x, T, rest, kept).
Proof.
  intros Tk Hp L1 L2 Q P.
  destruct (salvage_iterate file file_read1 file_readline [lf] eq lf_nonnil) with (cfg := cfg) (n := n) (fuel := fuel) (k := s) (hs := hs) (mem := @nil (bytes * option msg)) (j := S (length s))
    as (T & k' & E); try assumption; try lia.
  - intros k Ek. rewrite Ek. exists []. split; reflexivity.
  - intros k b r Ek. rewrite Ek. exists r. split; reflexivity.
  - intros k s0 ->. destruct (first_line_lf s0) as (line & rest & A & B). exists line, rest, rest. auto.
  - exists s, ts. repeat (split; [first [reflexivity|assumption]|]). lia.
  - rewrite P in E. exists T, k'. exact E.
Qed.
(* so nothing is lost and nothing comes twice *)
Lemma policy_salvage_merge hs : no_crash hs -> forall owed items x kept,
  policy_salvage owed hs = (items, x, kept) -> x = None /\ merge items kept (items_of hs).
Proof.
  induction hs as [|[raw m|e|e] hs IH]; intros N owed items x kept P; cbn [policy_salvage items_of] in *.
  - injection P as <- <- <-. split; [reflexivity|constructor].
  - assert (no_crash hs) as N' by (intros y Hy; apply (N y); right; exact Hy). destruct owed as [|p].
    + destruct (policy_salvage 0 hs) as [[a b] c] eqn:P0. injection P as <- <- <-. destruct (IH N' _ _ _ _ P0) as (-> & Mg).
      split; [reflexivity|]. constructor. exact Mg.
    + destruct (policy_salvage p hs) as [[a b] c] eqn:P0. injection P as <- <- <-. destruct (IH N' _ _ _ _ P0) as (-> & Mg).
      split; [reflexivity|]. constructor. exact Mg.
  - assert (no_crash hs) as N' by (intros y Hy; apply (N y); right; exact Hy). exact (IH N' _ _ _ _ P).
  - exfalso. apply (N e). left. reflexivity.
Qed.
Theorem C113_nothing_lost cfg n fuel s ts hs :
  tokens [lf] s ts -> happens cfg ts hs -> (length s < fuel)%nat -> (length s < n)%nat -> r_quit cfg = ERR_LOG -> no_crash hs ->
  exists items T rest kept, fiterate_r cfg salvage n fuel s [] = Some (items, None, T, rest, kept) /\ merge items kept (items_of hs).
Proof.
  intros Tk Hp L1 L2 Q N. destruct (policy_salvage 0 hs) as [[items x] kept] eqn:P.
  destruct (policy_salvage_merge hs N 0%nat items x kept P) as (-> & Mg).
  destruct (C113_salvage cfg n fuel s ts hs items None kept Tk Hp L1 L2 Q P) as (T & rest & E). exists items, T, rest, kept. auto.
Qed.

(* a handler that does not use the reader is a handler of C82 *)
Definition computes {M} (h : M -> exc -> option exc * M) (e : exc) : hprog M :=
  HGet (fun mem => HPut (snd (h mem e)) (match fst (h mem e) with None => HDone | Some x => HRaise x end)).
Lemma run_computes {S M} (read1 readline : S -> result bytes * S) rd d (h : M -> exc -> option exc * M) e s mem :
  run_handler S M read1 readline rd d (computes h e) s mem = Some (fst (h mem e), [], s, snd (h mem e)).
Proof. cbn [computes run_handler]. destruct (fst (h mem e)); reflexivity. Qed.
Definition forget_trace {A S M} (r : option (A * list tev * S * M)) : option (A * S * M) :=
  match r with Some (o, _, s, mem) => Some (o, s, mem) | None => None end.
Definition forget_events {A S M} (r : option (A * list event * S * M)) : option (A * S * M) :=
  match r with Some (o, _, s, mem) => Some (o, s, mem) | None => None end.
Lemma read_computes {S M} (read1 readline : S -> result bytes * S) cfg (h : M -> exc -> option exc * M) fuel : forall d s mem,
  forget_trace (read_r S M read1 readline cfg (computes h) fuel d s mem) = forget_events (read_h S M read1 readline cfg h fuel s mem).
Proof.
  induction fuel as [|f IH]; intros d s mem; [reflexivity|]. cbn [read_r read_h].
  destruct (pass S read1 readline cfg s) as [[[[raw m]|]|e] s1]; [reflexivity|apply IH|].
  destruct (eof_or e) as [->|[_ K]]; [reflexivity|]. rewrite !K. destruct (is_nmea_error e); [|reflexivity].
  unfold do_error_h. destruct (r_quit cfg =? 0).
  { rewrite IH. destruct (read_h S M read1 readline cfg h f s1 mem) as [[[[o ev] s2] mem2]|]; reflexivity. }
  destruct (r_quit cfg =? ERR_RAISE); [reflexivity|]. destruct (r_quit cfg =? ERR_LOG).
  - rewrite run_computes. destruct (h mem e) as [[x|] mem1]; cbn [fst snd]; [reflexivity|]. specialize (IH d s1 mem1).
    destruct (read_r S M read1 readline cfg (computes h) f d s1 mem1) as [[[[o T] s2] mem2]|];
      destruct (read_h S M read1 readline cfg h f s1 mem1) as [[[[o' ev] s2'] mem2']|]; cbn [forget_trace forget_events] in *;
      (discriminate IH || exact IH).
  - rewrite IH. destruct (read_h S M read1 readline cfg h f s1 mem) as [[[[o ev] s2] mem2]|]; reflexivity.
Qed.
Theorem C113_without_reading {S M} (read1 readline : S -> result bytes * S) cfg (h : M -> exc -> option exc * M) n fuel : forall s mem,
  match iterate_r S M read1 readline cfg (computes h) n fuel s mem with Some (l, x, _, s', mem') => Some (l, x, s', mem') | None => None end
  = match iterate_h S M read1 readline cfg h n fuel s mem with Some (l, x, _, s', mem') => Some (l, x, s', mem') | None => None end.
Proof.
  induction n as [|n IH]; intros s mem; [reflexivity|]. cbn [iterate_r iterate_h].
  pose proof (read_computes read1 readline cfg h fuel 0%nat s mem) as E.
  destruct (read_r S M read1 readline cfg (computes h) fuel 0 s mem) as [[[[o T] s1] mem1]|];
    destruct (read_h S M read1 readline cfg h fuel s mem) as [[[[o' ev] s1'] mem1']|]; cbn [forget_trace forget_events] in E; try discriminate E; [|reflexivity].
  injection E as -> -> ->. destruct o' as [raw m| |e]; [|reflexivity|reflexivity]. specialize (IH s1' mem1').
  destruct (iterate_r S M read1 readline cfg (computes h) n fuel s1' mem1') as [[[[[l x] T2] s2] mem2]|];
    destruct (iterate_h S M read1 readline cfg h n fuel s1' mem1') as [[[[[l' x'] ev2] s2'] mem2']|]; try discriminate IH; [|reflexivity].
  injection IH as -> -> -> ->. reflexivity.
Qed.

(* two bad lines in a row, then two good ones: both errors are served, the inner one first;
   and a handler that takes the rest of a foreign line from the stream itself *)
Definition ex_two : bytes := ex_bad ++ ex_bad ++ ex_line ++ ex_line ++ ex_line.
Definition who (T : list tev) : list (option nat) :=
  map (fun ev => match ev with TItem d _ _ => Some d | _ => None end) T.
Definition skip_line (_ : exc) : hprog unit := HLine (fun _ => HDone).
Definition ex_foreign : bytes := u "$!not" ++ ex_line ++ ex_line.
Example C113_example :
  match fiterate_r (ex_cfg 1) salvage 300 300 ex_two [] with
  | Some (items, None, T, [], kept) => map fst items = [ex_line] /\ map fst kept = [ex_line; ex_line] /\ who T = [None; None; Some 2; Some 1; Some 0]%nat
  | _ => False
  end
  /\ match fiterate_r (mkrcfg 0 1 true 1 None []) skip_line 300 300 ex_foreign tt with
     | Some (items, None, T, [], _) => map fst items = [ex_line] /\ who T = [None; None; Some 0]%nat
     | _ => False
     end
  /\ (forall e, reads_only (salvage e)).
Proof.
  split; [vm_compute; repeat split; reflexivity|]. split; [vm_compute; repeat split; reflexivity|].
  intros e [raw m| |x]; cbn; auto.
Qed.
