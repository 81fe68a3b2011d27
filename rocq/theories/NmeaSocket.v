(* Model of examples/nmeasocket.py.
   SIMPLIFICATIONS: the host is a function from address and port to what recv() will answer, or the exception of connect(); what is printed
   is a list of texts, one per call of print(); the figures of the last line are numbers, not texts; Ctrl-C comes while the program waits
   for the network (in connect() or recv()), not between two statements; the lines of the log are kept in a list of their own. *)
From Coq Require Import QArith.
From Verif Require Import Message Reader SocketInt NmeaFile.
Local Open Scope Z_scope.

(* KeyboardInterrupt (nmeasocket.py:42) *)
Definition KeyboardInterrupt : exc := OtherException 6.
(* NMEAReader(stream) (nmeasocket.py:38; nmeareader.py:54-64): the defaults *)
Definition sock_cfg : rcfg := mkrcfg 0 1 false 1 None [].

(* how the program ended (nmeasocket.py:30-49); Terminated: the number of messages, the seconds and the messages per second printed last *)
Inductive session := Closed | Terminated (count : N) (secs rate : Q) | Died (e : exc) | Going.

(* dur.seconds + dur.microseconds / 1e6 (nmeasocket.py:43-44), in microseconds, of a duration of so many microseconds: a timedelta has
   days, seconds and microseconds, 0 <= seconds < 86400, 0 <= microseconds < 1000000 (datetime); the days are left out.
   SIMPLIFICATION: exact, not float *)
Definition clock_micros (dur : Z) : Z := dur mod 86400000000.
(* the last lines (nmeasocket.py:42-49): count/secs is computed before anything of the last line is printed *)
Definition farewell (lines : list pystr) (ev : list event) (count : nat) (dur : Z) : list pystr * list event * session :=
  let lines' := lines ++ [u "Session terminated by user"] in
  if clock_micros dur =? 0 then (lines', ev, Died ZeroDivisionError)
  else let secs := (clock_micros dur # 1000000)%Q in
       (lines', ev, Terminated (N.of_nat count) secs (inject_Z (Z.of_nat count) / secs)%Q).

(* enough steps for the loop of nmeasocket.py:39; not in the code *)
Definition bytes_to_come (p : list irecv) : nat :=
  length (flat_map (fun r => match r with IRecv (RData d) => d | _ => [] end) p).
(* the loop (nmeasocket.py:37-41) over a connection *)
Definition session_loop (dur : Z) (lines : list pystr) (p : list irecv) : list pystr * list event * session :=
  let lines := lines ++ [u "Starting NMEA reader..."] in
  match isock_open p 0 (mkzlib (fun _ => None) (fun _ => None) (fun _ => None)) with
  | Raise e => if exc_eqb e KeyboardInterrupt then farewell lines [] 0 dur else (lines, [], Died e)
  | Ok k =>
      let n := S (bytes_to_come p) in
      match isiterate sock_cfg n n k with
      | None => (lines, [], Going)
      | Some (items, x, ev, _) =>
          let '(ts, e) := print_all (map snd items) in
          match e, x with
          | Some e, _ => (lines ++ ts, ev, Died e)
          | None, Some e => if exc_eqb e KeyboardInterrupt then farewell (lines ++ ts) ev (length items) dur else (lines ++ ts, ev, Died e)
          | None, None => (lines ++ ts, ev, Closed)
          end
      end
  end.

(* main (nmeasocket.py:22-49) and the command line (:52-54); dur: the microseconds from the start (:28) to Ctrl-C (:43) *)
Definition nmeasocket (host : pystr -> Z -> result (list irecv)) (dur : Z) (argv : list pystr) : list pystr * list event * session :=
  match command_line [] argv with
  | Raise e => ([], [], Died e)
  | Ok kw =>
      let ipaddress := kwarg (u "ipaddress") (u "localhost") kw in
      match match lookup (u "ipport") kw with Some t => int_of_str t | None => Ok 50012 end with
      | Raise e => ([], [], Died e)
      | Ok ipport =>
          match str_of_Z ipport with
          | Raise e => ([], [], Died e)
          | Ok port =>
              let lines := [u "Opening socket " ++ ipaddress ++ u ":" ++ port ++ u "..."] in
              match host ipaddress ipport with
              | Raise e => if exc_eqb e KeyboardInterrupt then farewell lines [] 0 dur else (lines, [], Died e)
              | Ok p => session_loop dur lines p
              end
          end
      end
  end.
