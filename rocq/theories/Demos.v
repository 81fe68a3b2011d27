(* Model of the main programs of examples/nmeapoller.py and examples/quecteldemo.py: straight-line
   programs (their loops over literal lists written out) that build messages and put them on the send queue,
   while the two threads of Poller.v run, and that the user may interrupt with Ctrl-C at any time.
   SIMPLIFICATIONS: sleep() and print() of constant texts have no effect; an exception that leaves main()
   closes the port (with Serial ...), which is not modelled: nothing is said of a run after that. *)
From Verif Require Import Message Helpers Reader Threads Poller.
Local Open Scope Z_scope.

(* a constructor call with a talker, a message id, a mode and keyword arguments *)
(* nmeapoller.py:135, quecteldemo.py:164-384 *)
Record call := mkcall { l_talker : pystr; l_msgid : pystr; l_mode : Z; l_kw : kwargs }.
(* NMEAMessage(talker, msgid, mode, **kw), nmeamessage.py:42-109: hpnmeamode, validate and userdefined are left to their defaults *)
Definition build (ck : clock) (l : call) : result msg :=
  NMEAMessage ck (l_talker l) (l_msgid l) (l_mode l) false VALCKSUM [] None None (l_kw l).

(* a statement of main() *)
(* nmeapoller.py:128-139, quecteldemo.py:163-386 *)
Inductive stmt :=
| Let (x : nat) (l : call)   (* msg<x> = NMEAMessage(...) *)
| Make (l : call)            (* NMEAMessage(...): the object is not kept *)
| Copy (x y : nat)           (* msg<x> = msg<y>: a step of "for msg in msgs" *)
| Put (x : nat)              (* send(send_queue, msg<x>) *)
| SetStop                    (* stop_event.set() *)
| Idle.                      (* while not stop_event.is_set(): sleep(1) *)
(* where main() is; the variables, latest binding first *)
(* nmeapoller.py:124-151, quecteldemo.py:155-395 *)
Inductive mainstate :=
| Running (rest : list stmt) (env : list (nat * msg))
| Finished                   (* the event is set, main() waits for the threads *)
| Crashed (e : exc).         (* an exception left main() *)
(* value of a variable: UnboundLocalError if it has none *)
(* quecteldemo.py:197 *)
Fixpoint var (x : nat) (env : list (nat * msg)) : result msg :=
  match env with
  | [] => Raise (OtherException 2)
  | (y, m) :: r => if Nat.eqb x y then Ok m else var x r
  end.

Section Demo.
Variable P : Type.
Variable read1 readline : P -> result bytes * P.
Variable write : bytes -> P -> result Z * P.
Variable cfg : rcfg.
Variable blocking qtmonly : bool.
Variable ck : clock.

(* who goes on: a thread, the main program, or the user presses Ctrl-C (which does nothing once the program waits for its threads: SIMPLIFICATION) *)
(* nmeapoller.py:121-151 *)
Inductive turn := IoTurn | ProcTurn | MainTurn | CtrlC.
(* what that step is to the threads and queues *)
(* nmeapoller.py:124-146, quecteldemo.py:113-121, 155-391 *)
Definition main_step (t : turn) (s : mainstate) : option action * mainstate :=
  match t with
  | IoTurn => (Some Io, s)
  | ProcTurn => (Some Proc, s)
  | CtrlC => match s with Running _ _ => (Some Stop, Finished) | _ => (None, s) end
  | MainTurn =>
      match s with
      | Running (Let x l :: r) env =>
          (None, match build ck l with Ok m => Running r ((x, m) :: env) | Raise e => Crashed e end)
      | Running (Make l :: r) env =>
          (None, match build ck l with Ok _ => Running r env | Raise e => Crashed e end)
      | Running (Copy x y :: r) env =>
          (None, match var y env with Ok m => Running r ((x, m) :: env) | Raise e => Crashed e end)
      | Running (Put x :: r) env =>
          match (let! m := var x env in let! t := str_of_msg m in Ok m) with   (* print(f"Sending {msg} ...") comes first *)
          | Ok m => (Some (Send (Some m)), Running r env)
          | Raise e => (None, Crashed e)
          end
      | Running (SetStop :: _) _ => (Some Stop, Finished)
      | Running (Idle :: _) _ | Running [] _ | Finished | Crashed _ => (None, s)
      end
  end.
(* a whole run of the three *)
(* nmeapoller.py:87-151, quecteldemo.py:124-395 *)
Fixpoint demo (ts : list turn) (s : mainstate) (w : world P) : list effect * mainstate * world P :=
  match ts with
  | [] => ([], s, w)
  | t :: r =>
      let '(a, s1) := main_step t s in
      let '(l, w1) := match a with Some a => step P read1 readline write cfg blocking qtmonly a w | None => ([], w) end in
      let '(l2, s2, w2) := demo r s1 w1 in (l ++ l2, s2, w2)
  end.
End Demo.

(* ------------------------------------------------------------ nmeapoller.py *)
(* nmeapoller.py:124-139: the loop over NMEA_MSGIDS, then the stop event.
   SIMPLIFICATION: nmeapoller.py:136 puts the message without printing it *)
Definition poller_main : list stmt :=
  flat_map (fun e => [Let 0 (mkcall (u "EI") (u "GNQ") POLL [(u "msgId", VStr (fst e))]); Put 0]) NMEA_MSGIDS ++ [SetStop].

(* ------------------------------------------------------------ quecteldemo.py *)
(* quecteldemo.py:43-50 *)
Definition LG290P_STANDARD_MESSAGES : list pystr := [u "GGA"; u "GLL"; u "GSA"; u "GSV"; u "RMC"; u "VTG"].
(* quecteldemo.py:53-63 *)
Definition LG290P_PROPRIETARY_MESSAGES : list (pystr * Z) :=
  [(u "PQTMDOP", 1); (u "PQTMEPE", 2); (u "PQTMGEOFENCESTATUS", 1); (u "PQTMODO", 1); (u "PQTMPL", 1); (u "PQTMPVT", 1);
   (u "PQTMSVINSTATUS", 1); (u "PQTMTXT", 1); (u "PQTMVEL", 1)].
(* quecteldemo.py:164-384 *)
Definition qtm (id : string) (mode : Z) (kw : kwargs) : call := mkcall (u "P") (u id) mode kw.
(* quecteldemo.py:164-165 and alike *)
Definition let_send (l : call) : list stmt := [Let 0 l; Put 0].
(* quecteldemo.py:196-197 and alike: the result of the constructor is not assigned *)
Definition make_send (l : call) : list stmt := [Make l; Put 0].
(* quecteldemo.py:164-387; variables: msg is 0, msg1 is 1 ...; the loops are over literal lists *)
Definition quectel_main : list stmt :=
  let_send (qtm "QTMVERNO" POLL [])
  ++ let_send (qtm "QTMRESTOREPAR" SET [])
  ++ let_send (qtm "QTMCFGRCVRMODE" POLL [])
  ++ let_send (qtm "QTMCFGFIXRATE" SET [(u "fixinterval", VInt 1000)])
  ++ let_send (qtm "QTMCFGFIXRATE" POLL [])
  ++ make_send (qtm "QTMCFGUART" SET [(u "baudrate", VInt 460800)])
  ++ make_send (qtm "QTMCFGUART" SET [(u "portid", VInt 2); (u "baudrate", VInt 115200)])
  ++ make_send (qtm "QTMCFGUART" SET [(u "baudrate", VInt 460800); (u "databit", VInt 8); (u "parity", VInt 0); (u "stopbit", VInt 1); (u "flowctrl", VInt 0)])
  ++ make_send (qtm "QTMCFGUART" SET [(u "portid", VInt 2); (u "baudrate", VInt 115200); (u "databit", VInt 8); (u "parity", VInt 0); (u "stopbit", VInt 1); (u "flowctrl", VInt 0)])
  ++ flat_map (fun portid => let_send (qtm "QTMCFGUART" POLL [(u "portid", VInt portid)])
                             ++ let_send (qtm "QTMCFGPROT" POLL [(u "porttype", VInt 1); (u "portid", VInt portid)])) [1; 2; 3]
  ++ make_send (qtm "QTMCFGSAT" SET [(u "systemid", VInt 1); (u "signalid", VInt 1); (u "masklow", VStr (hex2str 4294967295 8))])
  ++ make_send (qtm "QTMCFGSIGNAL" SET [(u "gpssig", VStr (hex2str 7 0)); (u "glonasssig", VStr (hex2str 3 0)); (u "galileosig", VStr (hex2str 15 0));
                  (u "beidousig", VStr (hex2str 63 0)); (u "qzsssig", VStr (hex2str 7 0)); (u "navicsig", VStr (hex2str 1 0))])
  ++ flat_map (fun name => let_send (qtm "QTMCFGMSGRATE" SET [(u "msgname", VStr name); (u "rate", VInt 0)])) LG290P_STANDARD_MESSAGES
  ++ flat_map (fun nv => let_send (qtm "QTMCFGMSGRATE" SET [(u "msgname", VStr (fst nv)); (u "rate", VInt 1); (u "msgver", VInt (snd nv))])) LG290P_PROPRIETARY_MESSAGES
  ++ [Let 1 (qtm "QTMCFGRCVRMODE" SET [(u "rcvrmode", VInt 2)]);
      Let 2 (qtm "QTMCFGSVIN" SET [(u "svinmode", VInt 1); (u "cfgcnt", VInt 60); (u "acclimit", VInt 3000)]);
      Let 3 (qtm "QTMSAVEPAR" SET []); Let 4 (qtm "QTMSRR" SET [])]
  ++ flat_map (fun y => [Copy 0 y; Put 0]) [1; 2; 3; 4]%nat
  ++ [Let 1 (qtm "QTMCFGRCVRMODE" SET [(u "rcvrmode", VInt 1)]);
      Let 2 (qtm "QTMSAVEPAR" SET []); Let 3 (qtm "QTMSRR" SET [])]
  ++ flat_map (fun y => [Copy 0 y; Put 0]) [1; 2; 3]%nat
  ++ let_send (qtm "QTMHOT" SET [])
  ++ [Idle].
