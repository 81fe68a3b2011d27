(* nmeareader.py with an error handler that remembers: the model of Reader.v has
   handlers which are functions of the error; here a handler is any callable
   with a memory of type M (an object, a closure, a counter, ...), which each call
   may change, and which returns or raises. *)
From Verif Require Export Reader.
Local Open Scope Z_scope.

Section HReader.
Variables S M : Type.
Variable stream_read1 : S -> result bytes * S.
Variable stream_readline : S -> result bytes * S.
Variable cfg : rcfg.                                   (* its r_handler is not used *)
Variable errorhandler : M -> exc -> option exc * M.    (* what it raises, if anything; its memory afterwards *)

(* nmeareader.py:163-165, 208-223, errorhandler given *)
Definition do_error_h (mem : M) (e : exc) : option exc * list event * M :=
  if r_quit cfg =? 0 then (None, [], mem)
  else if r_quit cfg =? ERR_RAISE then (Some e, [], mem)
  else if r_quit cfg =? ERR_LOG then
    let '(x, mem') := errorhandler mem e in (x, [EvHandler e], mem')
  else (None, [], mem).

(* nmeareader.py:120-167 read *)
Fixpoint read_h (fuel : nat) (s : S) (mem : M) : option (outcome * list event * S * M) :=
  match fuel with
  | O => None
  | Datatypes.S f =>
      let '(r, s1) := pass S stream_read1 stream_readline cfg s in
      match r with
      | Ok (Some (raw, m)) => Some (RMsg raw m, [], s1, mem)
      | Ok None => read_h f s1 mem
      | Raise EOFError => Some (REnd, [], s1, mem)
      | Raise e =>
          if is_nmea_error e then
            let '(stop, ev, mem1) := do_error_h mem e in
            match stop with
            | Some e' => Some (RRaise e', ev, s1, mem1)
            | None => match read_h f s1 mem1 with
                      | Some (o, ev', s2, mem2) => Some (o, ev ++ ev', s2, mem2)
                      | None => None
                      end
            end
          else Some (RRaise e, [], s1, mem)
      end
  end.

(* nmeareader.py:100-118, a for loop over the reader *)
Fixpoint iterate_h (n fuel : nat) (s : S) (mem : M)
  : option (list (bytes * option msg) * option exc * list event * S * M) :=
  match n with
  | O => None
  | Datatypes.S n' =>
      match read_h fuel s mem with
      | None => None
      | Some (REnd, ev, s', mem') => Some ([], None, ev, s', mem')
      | Some (RRaise e, ev, s', mem') => Some ([], Some e, ev, s', mem')
      | Some (RMsg raw m, ev, s', mem') =>
          match iterate_h n' fuel s' mem' with
          | Some (l, x, ev', s2, mem2) => Some ((raw, m) :: l, x, ev ++ ev', s2, mem2)
          | None => None
          end
      end
  end.
End HReader.

(* over a binary file *)
(* nmeareader.py:100-118, 208-224 *)
Definition fiterate_h {M} (cfg : rcfg) (errorhandler : M -> exc -> option exc * M) :=
  iterate_h file M file_read1 file_readline cfg errorhandler.
