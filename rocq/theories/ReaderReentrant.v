(* nmeareader.py with an error handler that itself uses the reader: handlers of
   Reader.v and ReaderHandler.v compute; here a handler is any terminating program which
   may also call reader.read(), or read from reader.datastream, while it handles
   an error -- while the read() that found the error is still running. *)
From Verif Require Export Reader.
Local Open Scope Z_scope.

(* the body of an errorhandler, nmeareader.py:222-223.  Simplification: a chain of
   handlers inside handlers is as deep as it likes (CPython stops it with RecursionError
   at about 1000 frames). *)
Inductive hprog (M : Type) :=
| HDone                                        (* return *)
| HRaise (x : exc)                             (* raise x *)
| HGet (k : M -> hprog M)                      (* look at its memory *)
| HPut (mem : M) (k : hprog M)                 (* change its memory *)
| HRead (k : outcome -> hprog M)               (* reader.read(): what it returned or raised *)
| HByte (k : result bytes -> hprog M)          (* reader.datastream.read(1) *)
| HLine (k : result bytes -> hprog M).         (* reader.datastream.readline() *)
Arguments HDone {M}.  Arguments HRaise {M} _.  Arguments HGet {M} _.  Arguments HPut {M} _ _.
Arguments HRead {M} _.  Arguments HByte {M} _.  Arguments HLine {M} _.

(* what happens, in the order in which it happens (an observation of nmeareader.py:119-224, not code) *)
Inductive tev :=
| TItem (depth : nat) (raw : bytes) (m : option msg)   (* read() returned this, to the program (0) or to a handler in the depth-th nesting *)
| TError (e : exc)                                     (* the handler is called *)
| TCrash (e : exc)                                     (* read() raised an exception that is not a protocol error *)
| TTook (b : bytes).                                   (* the handler took these bytes from the stream *)

Section RReader.
Variables S M : Type.
Variable stream_read1 : S -> result bytes * S.
Variable stream_readline : S -> result bytes * S.
Variable cfg : rcfg.                           (* its r_handler is not used *)
Variable errorhandler : exc -> hprog M.

(* an observation of nmeareader.py:167 *)
Definition delivered (depth : nat) (o : outcome) : list tev :=
  match o with RMsg raw m => [TItem depth raw m] | _ => [] end.
(* an observation of nmeareader.py:222-223 *)
Definition taken (r : result bytes) : list tev := match r with Ok b => [TTook b] | Raise _ => [] end.

(* a call of the handler, nmeareader.py:223: what it raises, if anything *)
Fixpoint run_handler (rd : S -> M -> option (outcome * list tev * S * M)) (depth : nat) (p : hprog M) (s : S) (mem : M)
  : option (option exc * list tev * S * M) :=
  match p with
  | HDone => Some (None, [], s, mem)
  | HRaise x => Some (Some x, [], s, mem)
  | HGet k => run_handler rd depth (k mem) s mem
  | HPut mem' k => run_handler rd depth k s mem'
  | HRead k =>
      match rd s mem with
      | None => None
      | Some (o, T1, s1, mem1) =>
          match run_handler rd depth (k o) s1 mem1 with
          | Some (x, T2, s2, mem2) => Some (x, T1 ++ delivered depth o ++ T2, s2, mem2)
          | None => None
          end
      end
  | HByte k =>
      let '(d, s1) := stream_read1 s in
      match run_handler rd depth (k d) s1 mem with
      | Some (x, T2, s2, mem2) => Some (x, taken d ++ T2, s2, mem2)
      | None => None
      end
  | HLine k =>
      let '(d, s1) := stream_readline s in
      match run_handler rd depth (k d) s1 mem with
      | Some (x, T2, s2, mem2) => Some (x, taken d ++ T2, s2, mem2)
      | None => None
      end
  end.

(* nmeareader.py:120-167 read, 208-224 _do_error; depth: how many calls of the handler are under way *)
Fixpoint read_r (fuel depth : nat) (s : S) (mem : M) : option (outcome * list tev * S * M) :=
  match fuel with
  | O => None
  | Datatypes.S f =>
      let '(r, s1) := pass S stream_read1 stream_readline cfg s in
      match r with
      | Ok (Some (raw, m)) => Some (RMsg raw m, [], s1, mem)
      | Ok None => read_r f depth s1 mem
      | Raise EOFError => Some (REnd, [], s1, mem)
      | Raise e =>
          if is_nmea_error e then
            if r_quit cfg =? 0 then read_r f depth s1 mem
            else if r_quit cfg =? ERR_RAISE then Some (RRaise e, [], s1, mem)
            else if r_quit cfg =? ERR_LOG then
              match run_handler (read_r f (Datatypes.S depth)) (Datatypes.S depth) (errorhandler e) s1 mem with
              | None => None
              | Some (Some x, T1, s2, mem1) => Some (RRaise x, TError e :: T1, s2, mem1)
              | Some (None, T1, s2, mem1) =>
                  match read_r f depth s2 mem1 with
                  | Some (o, T2, s3, mem2) => Some (o, TError e :: T1 ++ T2, s3, mem2)
                  | None => None
                  end
              end
            else read_r f depth s1 mem
          else Some (RRaise e, [TCrash e], s1, mem)
      end
  end.

(* nmeareader.py:100-118, a for loop over the reader *)
Fixpoint iterate_r (n fuel : nat) (s : S) (mem : M)
  : option (list (bytes * option msg) * option exc * list tev * S * M) :=
  match n with
  | O => None
  | Datatypes.S n' =>
      match read_r fuel 0 s mem with
      | None => None
      | Some (REnd, T, s', mem') => Some ([], None, T, s', mem')
      | Some (RRaise e, T, s', mem') => Some ([], Some e, T, s', mem')
      | Some (RMsg raw m, T, s', mem') =>
          match iterate_r n' fuel s' mem' with
          | Some (l, x, T', s2, mem2) => Some ((raw, m) :: l, x, T ++ delivered 0 (RMsg raw m) ++ T', s2, mem2)
          | None => None
          end
      end
  end.
End RReader.

(* over a binary file *)
(* nmeareader.py:100-118, 208-224 *)
Definition fiterate_r {M} (cfg : rcfg) (errorhandler : exc -> hprog M) := iterate_r file M file_read1 file_readline cfg errorhandler.
