(* What a reader should make of a byte stream, independently of the model's
   read() loop: only parse(), the talker table and list operations are used. *)
From Verif Require Import Message Reader Spec.
Local Open Scope N_scope.

(* a recognised second byte: the first character of some talker *)
Definition second (c : N) : Prop := exists t desc, In (t, desc) NMEA_TALKERS /\ nth_error t 0 = Some c.

(* [t] occurs in [s] *)
Definition occurs (t s : bytes) : Prop := exists a b, s = a ++ t ++ b.

(* [line] is what precedes [rest] in [s]: up to and including the first
   occurrence of the terminator [t], or all of [s] if [t] does not occur *)
Definition first_line (t s line rest : bytes) : Prop :=
  s = line ++ rest
  /\ ((exists body, line = body ++ t /\ forall a b, line = a ++ t ++ b -> b = [])
      \/ (rest = [] /\ ~ occurs t line)).

(* the last byte is LF *)
Definition ends_lf (line : bytes) : Prop := exists body, line = body ++ [lf].

(* the lexical elements of a stream: complete lines that begin "$" and a
   recognised byte; "$" followed by some other byte; a last line that is cut off.
   All other bytes are skipped. *)
Inductive token := Line (raw : bytes) | Other (c : N) | Cut.

(* [t] is the line terminator: LF for files, CR LF for sockets *)
Inductive tokens (t : bytes) : bytes -> list token -> Prop :=
| tok_end : tokens t [] []
| tok_skip b s ts : b <> dollar -> tokens t s ts -> tokens t (b :: s) ts
| tok_dollar : tokens t [dollar] []
| tok_other c s ts : ~ second c -> tokens t s ts -> tokens t (dollar :: c :: s) (Other c :: ts)
| tok_header c : second c -> tokens t [dollar; c] []
| tok_line c s line rest ts :
    second c -> first_line t s line rest -> ends_lf line ->
    tokens t rest ts -> tokens t (dollar :: c :: s) (Line (dollar :: c :: line) :: ts)
| tok_cut c s line rest ts :
    second c -> first_line t s line rest -> line <> [] -> ~ ends_lf line ->
    tokens t rest ts -> tokens t (dollar :: c :: s) (Cut :: ts).

(* what each element leads to: an item, a protocol error, an exception that is
   not a protocol error, or nothing *)
Inductive happening :=
| Item (raw : bytes) (m : option msg)
| Problem (e : exc)
| Crash (e : exc).

Definition protocol_error (e : exc) : Prop :=
  e = NMEAMessageError \/ e = NMEATypeError \/ e = NMEAParseError \/ e = NMEAStreamError.

Inductive happens (cfg : rcfg) : list token -> list happening -> Prop :=
| hap_end : happens cfg [] []
| hap_item raw m ts hs :
    parse (MBytes raw) (r_mode cfg) (r_validate cfg) (r_userdefined cfg) = Ok m ->
    happens cfg ts hs -> happens cfg (Line raw :: ts) (Item raw m :: hs)
| hap_error raw e ts hs :
    parse (MBytes raw) (r_mode cfg) (r_validate cfg) (r_userdefined cfg) = Raise e ->
    protocol_error e -> happens cfg ts hs -> happens cfg (Line raw :: ts) (Problem e :: hs)
| hap_crash raw e ts hs :
    parse (MBytes raw) (r_mode cfg) (r_validate cfg) (r_userdefined cfg) = Raise e ->
    ~ protocol_error e -> happens cfg ts hs -> happens cfg (Line raw :: ts) (Crash e :: hs)
| hap_other c ts hs :
    r_nmeaonly cfg = true -> happens cfg ts hs -> happens cfg (Other c :: ts) (Problem NMEAParseError :: hs)
| hap_skip c ts hs :
    r_nmeaonly cfg = false -> happens cfg ts hs -> happens cfg (Other c :: ts) hs
| hap_cut ts hs : happens cfg ts hs -> happens cfg (Cut :: ts) (Problem NMEAStreamError :: hs).

(* error policies: 0 = ignore, 1 = log, 2 = raise.  The result of a for loop:
   items, the exception that ended it (if any), the errors reported *)
Fixpoint policy_ignore (hs : list happening) : list (bytes * option msg) * option exc :=
  match hs with
  | [] => ([], None)
  | Item raw m :: r => let '(l, x) := policy_ignore r in ((raw, m) :: l, x)
  | Problem _ :: r => policy_ignore r
  | Crash e :: _ => ([], Some e)
  end.
(* the problems up to the first crash, in order *)
Fixpoint problems (hs : list happening) : list exc :=
  match hs with
  | [] => []
  | Item _ _ :: r => problems r
  | Problem e :: r => e :: problems r
  | Crash _ :: _ => []
  end.
(* ERR_LOG: each problem goes to the error handler (which may raise) or, if there
   is none, to the log.  The third result: the errors passed on, in order *)
Fixpoint policy_log (h : option handler) (hs : list happening) : list (bytes * option msg) * option exc * list exc :=
  match hs with
  | [] => ([], None, [])
  | Item raw m :: r => let '(l, x, es) := policy_log h r in ((raw, m) :: l, x, es)
  | Problem e :: r =>
      match match h with Some f => f e | None => None end with
      | Some x => ([], Some x, [e])
      | None => let '(l, x, es) := policy_log h r in (l, x, e :: es)
      end
  | Crash e :: _ => ([], Some e, [])
  end.
(* how an error that is passed on is seen *)
Definition passed (h : option handler) (e : exc) : event :=
  match h with Some _ => EvHandler e | None => EvLog e end.
(* the handler, if there is one, never raises *)
Definition handler_returns (h : option handler) : Prop := forall f e, h = Some f -> f e = None.
Fixpoint policy_raise (hs : list happening) : list (bytes * option msg) * option exc :=
  match hs with
  | [] => ([], None)
  | Item raw m :: r => let '(l, x) := policy_raise r in ((raw, m) :: l, x)
  | Problem e :: _ => ([], Some e)
  | Crash e :: _ => ([], Some e)
  end.

(* data between sentences, separated *)
Fixpoint interleave (gaps lines : list bytes) : bytes :=
  match gaps, lines with
  | g :: gs, l :: ls => g ++ l ++ interleave gs ls
  | _, _ => []
  end.
