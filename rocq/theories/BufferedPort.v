(* Model of reading through io.BufferedReader(Serial(...)), as examples/webserver/nmeaserver.py:89-97 does.
   SIMPLIFICATIONS: a raw read of the serial port (it asks for 8192 bytes and returns what has arrived when that many
   are there or the timeout has passed) appears as its result: some bytes, or none.  io.BufferedReader itself is
   Python's: read(1) and readline() take bytes from the buffer, do one raw read whenever they need more, and stop at a
   raw read that gives nothing. *)
From Verif Require Import Message Reader.

(* the bytes in the buffer, and the results of the raw reads to come; after the last of them the port stays silent *)
(* nmeaserver.py:89-97 *)
Definition bport : Type := bytes * list bytes.
(* BufferedReader.read(1) (nmeareader.py:169-187 calls it) *)
Definition buffered_read1 (s : bport) : result bytes * bport :=
  match s with
  | (b :: r, fs) => (Ok [b], (r, fs))
  | ([], []) => (Ok [], ([], []))
  | ([], [] :: fs) => (Ok [], ([], fs))
  | ([], (b :: r) :: fs) => (Ok [b], (r, fs))
  end.
(* BufferedReader.readline() (nmeareader.py:189-206 calls it): the raw reads needed to complete a line *)
Fixpoint fill_line (fs : list bytes) : bytes * bport :=
  match fs with
  | [] => ([], ([], []))
  | [] :: r => ([], ([], r))
  | f :: r =>
      let '(l, rest) := cut_line f in
      if existsb (N.eqb c_lf) f then (l, (rest, r)) else let '(l', s) := fill_line r in (l ++ l', s)
  end.
(* nmeareader.py:198 *)
Definition buffered_readline (s : bport) : result bytes * bport :=
  let '(buf, fs) := s in
  let '(l, rest) := cut_line buf in
  if existsb (N.eqb c_lf) buf then (Ok l, (rest, fs)) else let '(l', s') := fill_line fs in (Ok (l ++ l'), s').

(* NMEAReader(BufferedReader(serial), ...).read() (nmeaserver.py:92-97, 149) *)
Definition bread (cfg : rcfg) := read bport buffered_read1 buffered_readline cfg.
(* serial.in_waiting (nmeaserver.py:147): there is something for the next raw read - the buffer does not count *)
Definition in_waiting (s : bport) : bool := match snd s with (_ :: _) :: _ => true | _ => false end.
