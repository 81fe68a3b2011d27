(* Model of /repo/src/pynmeagps/nmeareader.py *)
From Verif Require Export Message.
Local Open Scope Z_scope.

(* parse() builds the message with payload=, so the clock is never read; any
   clock will do (parse_clock_irrelevant) *)
(* nmeamessage.py:825-828 *)
Definition no_clock : clock := fun _ => (mkdate 1 1 1, mktime 0 0 0 0).

(* nmeareader.py:236-284 NMEAReader.parse; Ok None is a returned None *)
Definition parse (message : rawmsg) (msgmode validate : Z) (ud : userdefs) : result (option msg) :=
  if negb (valid_mode msgmode) then Raise NMEAParseError
  else
    let r :=
      let! p := get_parts message in
      if has_flag validate VALCKSUM
         && negb (str_eqb (str_upper (p_cksum p)) (calc_checksum (p_content p)))
      then Raise NMEAParseError
      else NMEAMessage no_clock (p_talker p) (p_msgid p) msgmode false validate ud
             (Some (p_cksum p)) (Some (p_payload p)) [] in
    match r with
    | Ok m => Ok (Some m)
    | Raise NMEAMessageError => if has_flag validate VALMSGID then Raise NMEAParseError else Ok None
    | Raise e => Raise e
    end.

(* nmeatypes_core.py:234 NMEA_HDR: "$" followed by the first letter of a talker *)
Definition hdr_second (b : N) : bool :=
  existsb (fun t => match utf8_encode (firstn 1 (fst t)) with Ok [x] => N.eqb x b | _ => false end) NMEA_TALKERS.

(* configuration of a reader (nmeareader.py:54-98).  An error handler is a function
   of the error: it returns (None) or raises an exception. *)
Definition handler := exc -> option exc.
(* nmeareader.py:54-98 *)
Record rcfg := mkrcfg {
  r_mode : Z; r_validate : Z; r_nmeaonly : bool; r_quit : Z;
  r_handler : option handler;            (* errorhandler *)
  r_userdefined : userdefs }.

(* nmeareader.py:88-91: construction fails on an invalid mode *)
Definition reader_init (cfg : rcfg) : result rcfg :=
  if valid_mode (r_mode cfg) then Ok cfg else Raise NMEAParseError.

(* calls of the error handler / logger *)
(* nmeareader.py:208-224 *)
Inductive event := EvHandler (e : exc) | EvLog (e : exc).

(* nmeatypes_core.py:41-46 *)
Definition ERR_IGNORE := 0.  Definition ERR_LOG := 1.  Definition ERR_RAISE := 2.

(* outcome of one read() call *)
(* nmeareader.py:119-167 *)
Inductive outcome :=
| RMsg (raw : bytes) (m : option msg)      (* (raw_data, parsed_data) *)
| REnd                                     (* (None, None) *)
| RRaise (e : exc).

Section Reader.
(* the stream object: read(1) and readline(), which return bytes or raise *)
Variable S : Type.
Variable stream_read1 : S -> result bytes * S.
Variable stream_readline : S -> result bytes * S.
Variable cfg : rcfg.

(* nmeareader.py:169-187 _read_bytes(1): nothing shorter than 1 but not empty *)
Definition read_byte (s : S) : result bytes * S :=
  let '(d, s') := stream_read1 s in
  match d with Ok [] => (Raise EOFError, s') | _ => (d, s') end.

(* nmeareader.py:189-206 _read_line *)
Definition read_line (s : S) : result bytes * S :=
  let '(d, s') := stream_readline s in
  match d with
  | Raise e => (Raise e, s')
  | Ok [] => (Raise EOFError, s')
  | Ok l => if N.eqb (last l 0%N) c_lf then (Ok l, s') else (Raise NMEAStreamError, s')
  end.

(* one pass of the while loop, nmeareader.py:134-153: Ok (Some r) = a message,
   Ok None = continue, Raise = exception inside the try *)
Definition pass (s : S) : result (option (bytes * option msg)) * S :=
  let '(r1, s1) := read_byte s in
  match r1 with
  | Raise e => (Raise e, s1)
  | Ok b1 =>
      if negb (str_eqb b1 [c_dollar]) then (Ok None, s1)
      else
        let '(r2, s2) := read_byte s1 in
        match r2 with
        | Raise e => (Raise e, s2)
        | Ok b2 =>
            if match b2 with [x] => hdr_second x | _ => false end then
              let '(r3, s3) := read_line s2 in
              match r3 with
              | Raise e => (Raise e, s3)
              | Ok bn =>
                  let raw := b1 ++ b2 ++ bn in
                  match parse (MBytes raw) (r_mode cfg) (r_validate cfg) (r_userdefined cfg) with
                  | Ok m => (Ok (Some (raw, m)), s3)
                  | Raise e => (Raise e, s3)
                  end
              end
            else if r_nmeaonly cfg then (Raise NMEAParseError, s2)
            else (Ok None, s2)
        end
  end.

(* nmeareader.py:157-162 *)
Definition is_nmea_error (e : exc) : bool :=
  match e with
  | NMEAMessageError | NMEATypeError | NMEAParseError | NMEAStreamError => true
  | _ => false
  end.

(* nmeareader.py:163-165, 208-223: None = carry on, Some e = raised (by _do_error
   or by the handler it calls) *)
Definition do_error (e : exc) : option exc * list event :=
  if r_quit cfg =? 0 then (None, [])
  else if r_quit cfg =? ERR_RAISE then (Some e, [])
  else if r_quit cfg =? ERR_LOG then
    match r_handler cfg with
    | None => (None, [EvLog e])
    | Some h => (h e, [EvHandler e])
    end
  else (None, []).

(* nmeareader.py:120-167 read; None = the loop has not ended within the fuel *)
Fixpoint read (fuel : nat) (s : S) : option (outcome * list event * S) :=
  match fuel with
  | O => None
  | Datatypes.S f =>
      let '(r, s1) := pass s in
      match r with
      | Ok (Some (raw, m)) => Some (RMsg raw m, [], s1)
      | Ok None => read f s1
      | Raise EOFError => Some (REnd, [], s1)
      | Raise e =>
          if is_nmea_error e then
            let '(stop, ev) := do_error e in
            match stop with
            | Some e' => Some (RRaise e', ev, s1)
            | None => match read f s1 with
                      | Some (o, ev', s2) => Some (o, ev ++ ev', s2)
                      | None => None
                      end
            end
          else Some (RRaise e, [], s1)
      end
  end.

(* iteration (nmeareader.py:100-118, a for loop over the reader): the items up
   to StopIteration or an exception *)
Fixpoint iterate (n fuel : nat) (s : S) : option (list (bytes * option msg) * option exc * list event * S) :=
  match n with
  | O => None
  | Datatypes.S n' =>
      match read fuel s with
      | None => None
      | Some (REnd, ev, s') => Some ([], None, ev, s')
      | Some (RRaise e, ev, s') => Some ([], Some e, ev, s')
      | Some (RMsg raw m, ev, s') =>
          match iterate n' fuel s' with
          | Some (l, x, ev', s2) => Some ((raw, m) :: l, x, ev ++ ev', s2)
          | None => None
          end
      end
  end.
End Reader.

(* ---------------------------------------------------------------------- *)
(* a binary file or BytesIO: the remaining bytes *)
(* a stream object as used at nmeareader.py:179, 198 *)
Definition file := bytes.
(* a stream object as used at nmeareader.py:179, 198 *)
Definition file_read1 (s : file) : result bytes * file :=
  match s with [] => (Ok [], []) | b :: r => (Ok [b], r) end.
(* io readline: up to and including the first LF, or everything *)
(* a stream object as used at nmeareader.py:179, 198 *)
Fixpoint cut_line (s : bytes) : bytes * bytes :=
  match s with
  | [] => ([], [])
  | b :: r => if N.eqb b c_lf then ([b], r)
              else let '(l, r') := cut_line r in (b :: l, r')
  end.
(* a stream object as used at nmeareader.py:179, 198 *)
Definition file_readline (s : file) : result bytes * file :=
  let '(l, r) := cut_line s in (Ok l, r).

(* nmeareader.py:119-167 *)
Definition fread (cfg : rcfg) := read file file_read1 file_readline cfg.
(* nmeareader.py:100-118 *)
Definition fiterate (cfg : rcfg) := iterate file file_read1 file_readline cfg.
