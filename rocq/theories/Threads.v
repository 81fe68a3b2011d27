(* Several threads that read one stream, each with an NMEAReader of its own or all with the
   same one (a reader has no state but the stream object, nmeareader.py:84-98).  A step is one
   call of the stream's read(1) or readline(): between these calls another thread can run. *)
From Verif Require Import Message Reader.
Local Open Scope Z_scope.

(* where in the loop of read() a thread is, nmeareader.py:134-153 *)
Inductive tstate :=
| AtStart                       (* before byte1 = self._read_bytes(1), or outside read() *)
| AtSecond                      (* "$" has been read *)
| AtLine (b2 : bytes).          (* "$" and a header byte have been read *)

Section Threads.
Variable S : Type.
Variable stream_read1 : S -> result bytes * S.
Variable stream_readline : S -> result bytes * S.

(* nmeareader.py:155-167: what becomes of an exception inside the try *)
Definition on_error (cfg : rcfg) (e : exc) (s : S) : tstate * option outcome * list event * S :=
  match e with
  | EOFError => (AtStart, Some REnd, [], s)
  | _ =>
      if is_nmea_error e then
        let '(stop, ev) := do_error cfg e in
        (AtStart, match stop with Some e' => Some (RRaise e') | None => None end, ev, s)
      else (AtStart, Some (RRaise e), [], s)
  end.
(* one stream call of nmeareader.py:134-153 and what follows it up to the next; Some = read() returns or raises *)
Definition tstep (cfg : rcfg) (t : tstate) (s : S) : tstate * option outcome * list event * S :=
  match t with
  | AtStart =>
      let '(r, s') := read_byte S stream_read1 s in
      match r with
      | Raise e => on_error cfg e s'
      | Ok b1 => (if negb (str_eqb b1 [c_dollar]) then AtStart else AtSecond, None, [], s')
      end
  | AtSecond =>
      let '(r, s') := read_byte S stream_read1 s in
      match r with
      | Raise e => on_error cfg e s'
      | Ok b2 =>
          if match b2 with [x] => hdr_second x | _ => false end then (AtLine b2, None, [], s')
          else if r_nmeaonly cfg then on_error cfg NMEAParseError s'
          else (AtStart, None, [], s')
      end
  | AtLine b2 =>
      let '(r, s') := read_line S stream_readline s in
      match r with
      | Raise e => on_error cfg e s'
      | Ok bn =>
          let raw := [c_dollar] ++ b2 ++ bn in
          match parse (MBytes raw) (r_mode cfg) (r_validate cfg) (r_userdefined cfg) with
          | Ok m => (AtStart, Some (RMsg raw m), [], s')
          | Raise e => on_error cfg e s'
          end
      end
  end.

(* what can be seen of thread i *)
(* nmeareader.py:100-167 (several threads of an application; not in the code) *)
Inductive seen := Reported (e : event) | Returned (o : outcome).
(* nmeareader.py:100-167 (several threads of an application; not in the code) *)
Definition sees (i : nat) (ev : list event) (o : option outcome) : list (nat * seen) :=
  map (fun e => (i, Reported e)) ev ++ match o with Some o => [(i, Returned o)] | None => [] end.
(* nmeareader.py:100-167 (several threads of an application; not in the code) *)
Definition set_state (st : nat -> tstate) (i : nat) (t : tstate) : nat -> tstate := fun j => if Nat.eqb j i then t else st j.
(* a schedule: which thread makes the next stream call; threads call read() again and again *)
(* nmeareader.py:100-167 (several threads of an application; not in the code) *)
Fixpoint trun (cfgs : nat -> rcfg) (st : nat -> tstate) (s : S) (sched : list nat) : list (nat * seen) * (nat -> tstate) * S :=
  match sched with
  | [] => ([], st, s)
  | i :: r =>
      let '(t, o, ev, s1) := tstep (cfgs i) (st i) s in
      let '(log, st2, s2) := trun cfgs (set_state st i t) s1 r in
      (sees i ev o ++ log, st2, s2)
  end.
(* a whole call of read() by one thread that no other interrupts: n stream calls *)
(* nmeareader.py:100-167 (several threads of an application; not in the code) *)
Inductive alone (cfg : rcfg) : tstate -> S -> nat -> list event -> outcome -> S -> Prop :=
| alone_last t s o ev s' t' : tstep cfg t s = (t', Some o, ev, s') -> alone cfg t s 1 ev o s'
| alone_more t s t1 ev1 s1 n ev o s' : tstep cfg t s = (t1, None, ev1, s1) -> alone cfg t1 s1 n ev o s' ->
    alone cfg t s (Datatypes.S n) (ev1 ++ ev) o s'.
(* a schedule under a lock: each read() is completed before another thread runs *)
(* nmeareader.py:100-167 (several threads of an application; not in the code) *)
Inductive locked (cfgs : nat -> rcfg) : S -> list nat -> Prop :=
| locked_none s : locked cfgs s []
| locked_call i s n ev o s1 rest : alone (cfgs i) AtStart s n ev o s1 -> locked cfgs s1 rest -> locked cfgs s (repeat i n ++ rest).
End Threads.
(* nmeareader.py:100-167 (several threads of an application; not in the code) *)
Definition all_start : nat -> tstate := fun _ => AtStart.
