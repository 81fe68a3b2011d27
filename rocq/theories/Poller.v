(* Model of the application pattern of examples/nmeapoller.py and examples/quecteldemo.py: one thread
   that reads a port and writes queued messages to it, one thread that displays what was
   read, and a main program that queues messages and finally sets the stop event.  A step is one
   operation on something shared (the event, a queue, the port): the threads may change over between
   any two of them.  Queue and Event are Python's, whose operations are atomic.
   SIMPLIFICATION: the exceptions of the model are all subclasses of Exception; KeyboardInterrupt
   arrives in the main program only (nmeapoller.py:141-143), where it is the same as Stop. *)
From Verif Require Import Message Reader Threads.
Local Open Scope Z_scope.

(* queue.Queue without bound: the items and the number of tasks not reported as done
   (nmeapoller.py:99-100) *)
Record queue (A : Type) := mkqueue { q_items : list A; q_unfinished : nat }.
Arguments mkqueue {A}. Arguments q_items {A}. Arguments q_unfinished {A}.
(* queue.Queue.put, nmeapoller.py:61, 136 *)
Definition q_put {A} (x : A) (q : queue A) : queue A := mkqueue (q_items q ++ [x]) (S (q_unfinished q)).
(* queue.Queue.get, nmeapoller.py:64, 82 *)
Definition q_get {A} (q : queue A) : option (A * queue A) :=
  match q_items q with [] => None | x :: r => Some (x, mkqueue r (q_unfinished q)) end.
(* queue.Queue.task_done: ValueError if called too often, nmeapoller.py:67, 84 *)
Definition q_task_done {A} (q : queue A) : result (queue A) :=
  match q_unfinished q with O => Raise ValueError | S n => Ok (mkqueue (q_items q) n) end.
(* queue.Empty, raised by get(False) *)
(* nmeapoller.py:64 *)
Definition queue_empty : exc := OtherException 1.

(* where the I/O thread is, nmeapoller.py:57-71 *)
Inductive iostate :=
| IoTop                            (* while not stop.is_set() *)
| IoRead (t : tstate)              (* in nmr.read(), between two calls of the port *)
| IoPut (raw : bytes) (m : msg)    (* readqueue.put *)
| IoCheck                          (* while not sendqueue.empty() *)
| IoGet                            (* sendqueue.get *)
| IoWrite (m : msg)                (* nmr.datastream.write(data.serialize()) *)
| IoDone                           (* sendqueue.task_done() *)
| IoEnd.
(* where the process thread is, nmeapoller.py:80-84 *)
Inductive prstate :=
| PrTop                            (* while not stop.is_set() *)
| PrCheck                          (* queue.empty() is False *)
| PrGet                            (* queue.get() *)
| PrPrint (m : msg)                (* print(parsed) *)
| PrDone                           (* queue.task_done() *)
| PrEnd
| PrDead (m : msg).                (* an exception while printing m ended the thread *)

(* what can be observed of a run *)
(* nmeapoller.py:57-84 *)
Inductive effect :=
| Returns (o : outcome)            (* nmr.read() returned or raised *)
| Reports (e : event)              (* error handler or logger called by nmr.read() *)
| Shown (m : msg) (text : pystr)   (* the process thread printed a message *)
| Hidden (m : msg)                 (* ... or passed over it (quecteldemo.py:108) *)
| Wrote (b : bytes) (r : result Z) (* the port's write() was called *)
| Failed (e : exc).                (* "Something went wrong": an exception caught in the I/O thread *)

(* who does the next step; the main program may queue a message (or None) or set the event at any time *)
(* nmeapoller.py:121-146 *)
Inductive action := Io | Proc | Send (d : option msg) | Stop.

(* "QTM" in identity, quecteldemo.py:108 *)
Fixpoint contains (needle s : pystr) : bool :=
  str_eqb (firstn (length needle) s) needle || match s with [] => false | _ :: r => contains needle r end.

Section Poller.
(* the port: read(1), readline() and write() *)
Variable P : Type.
Variable read1 readline : P -> result bytes * P.
Variable write : bytes -> P -> result Z * P.
Variable cfg : rcfg.
(* sendqueue.get() as in quecteldemo.py:89 (true) or get(False) as in nmeapoller.py:64;
   quecteldemo.py's option to show PQTM messages only *)
Variable blocking qtmonly : bool.

(* nmeapoller.py:99-122 *)
Record world := mkworld {
  g_port : P; g_readq : queue (bytes * msg); g_sendq : queue (option msg); g_stop : bool;
  g_io : iostate; g_proc : prstate }.

(* nmeapoller.py:69-71: the except clause, and on to the next round *)
Definition io_failed (e : exc) (p : P) (w : world) : list effect * world :=
  ([Failed e], mkworld p (g_readq w) (g_sendq w) (g_stop w) IoTop (g_proc w)).
(* the I/O thread goes on at another place *)
(* nmeapoller.py:57-71 *)
Definition io_at (i : iostate) (w : world) : world :=
  mkworld (g_port w) (g_readq w) (g_sendq w) (g_stop w) i (g_proc w).
(* nmeapoller.py:57-71, quecteldemo.py:82-96: a step of the I/O thread *)
Definition io_step (w : world) : list effect * world :=
  match g_io w with
  | IoTop => ([], io_at (if g_stop w then IoEnd else IoRead AtStart) w)
  | IoRead t =>
      let '(t', o, ev, p) := tstep P read1 readline cfg t (g_port w) in
      let w' i := mkworld p (g_readq w) (g_sendq w) (g_stop w) i (g_proc w) in
      let reports := map Reports ev in
      match o with
      | None => (reports, w' (IoRead t'))
      | Some (RMsg raw (Some m)) => (reports ++ [Returns (RMsg raw (Some m))], w' (IoPut raw m))
      | Some (RMsg raw None) => (reports ++ [Returns (RMsg raw None)], w' IoCheck)
      | Some REnd => (reports ++ [Returns REnd], w' IoCheck)
      | Some (RRaise e) => (reports ++ [Returns (RRaise e); Failed e], w' IoTop)
      end
  | IoPut raw m => ([], mkworld (g_port w) (q_put (raw, m) (g_readq w)) (g_sendq w) (g_stop w) IoCheck (g_proc w))
  | IoCheck => ([], io_at (match q_items (g_sendq w) with [] => IoTop | _ => IoGet end) w)
  | IoGet =>
      match q_get (g_sendq w) with
      | None => if blocking then ([], w) else io_failed queue_empty (g_port w) w
      | Some (d, q) => ([], mkworld (g_port w) (g_readq w) q (g_stop w) (match d with Some m => IoWrite m | None => IoDone end) (g_proc w))
      end
  | IoWrite m =>
      match serialize m with
      | Raise e => io_failed e (g_port w) w
      | Ok b =>
          let '(r, p) := write b (g_port w) in
          match r with
          | Ok _ => ([Wrote b r], mkworld p (g_readq w) (g_sendq w) (g_stop w) IoDone (g_proc w))
          | Raise e => let '(l, w') := io_failed e p w in (Wrote b r :: l, w')
          end
      end
  | IoDone =>
      match q_task_done (g_sendq w) with
      | Ok q => ([], mkworld (g_port w) (g_readq w) q (g_stop w) IoCheck (g_proc w))
      | Raise e => io_failed e (g_port w) w
      end
  | IoEnd => ([], w)
  end.

(* the process thread goes on at another place *)
(* nmeapoller.py:80-84 *)
Definition pr_at (i : prstate) (w : world) : world :=
  mkworld (g_port w) (g_readq w) (g_sendq w) (g_stop w) (g_io w) i.
(* nmeapoller.py:80-84, quecteldemo.py:105-110: a step of the process thread *)
Definition proc_step (w : world) : list effect * world :=
  match g_proc w with
  | PrTop => ([], pr_at (if g_stop w then PrEnd else PrCheck) w)
  | PrCheck => ([], pr_at (match q_items (g_readq w) with [] => PrTop | _ => PrGet end) w)
  | PrGet =>
      match q_get (g_readq w) with
      | None => ([], w)                                                    (* blocks *)
      | Some ((_, m), q) => ([], mkworld (g_port w) q (g_sendq w) (g_stop w) (g_io w) (PrPrint m))
      end
  | PrPrint m =>
      match (if qtmonly then let! i := identity m in Ok (negb (contains (u "QTM") i)) else Ok false) with
      | Raise _ => ([], pr_at (PrDead m) w)
      | Ok true => ([Hidden m], pr_at PrDone w)
      | Ok false =>
          match str_of_msg m with
          | Ok t => ([Shown m t], pr_at PrDone w)
          | Raise _ => ([], pr_at (PrDead m) w)
          end
      end
  | PrDone =>
      match q_task_done (g_readq w) with
      | Ok q => ([], mkworld (g_port w) q (g_sendq w) (g_stop w) (g_io w) PrTop)
      | Raise _ => ([], pr_at PrEnd w)
      end
  | PrEnd | PrDead _ => ([], w)
  end.

(* nmeapoller.py:121-146 *)
Definition step (a : action) (w : world) : list effect * world :=
  match a with
  | Io => io_step w
  | Proc => proc_step w
  | Send d => ([], mkworld (g_port w) (g_readq w) (q_put d (g_sendq w)) (g_stop w) (g_io w) (g_proc w))
  | Stop => ([], mkworld (g_port w) (g_readq w) (g_sendq w) true (g_io w) (g_proc w))
  end.
(* a whole run under a schedule *)
(* nmeapoller.py:87-148 *)
Fixpoint run (sched : list action) (w : world) : list effect * world :=
  match sched with
  | [] => ([], w)
  | a :: r => let '(l, w1) := step a w in let '(l2, w2) := run r w1 in (l ++ l2, w2)
  end.
(* nmeapoller.py:99-122 *)
Definition begin (p : P) : world := mkworld p (mkqueue [] 0) (mkqueue [] 0) false IoTop PrTop.
End Poller.
Arguments g_port {P}. Arguments g_readq {P}. Arguments g_sendq {P}. Arguments g_stop {P}. Arguments g_io {P}. Arguments g_proc {P}.
