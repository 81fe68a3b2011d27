(* nmeareader.py on a stream object whose read(1) and readline() return other things than
   bytes: str (a file opened in text mode), bytearray, or None (a non-blocking raw stream
   without data).  Reader.v is the case of bytes (C89_bytes). *)
From Verif Require Export Reader.
Local Open Scope Z_scope.

(* what a stream may return at nmeareader.py:179, 198 *)
Inductive sval := SBytes (b : bytes) | SByteArray (b : bytes) | SText (t : pystr) | SNone.

Section AnyReader.
Variable S : Type.
Variable stream_read1 : S -> result sval * S.
Variable stream_readline : S -> result sval * S.
Variable cfg : rcfg.

(* nmeareader.py:169-187 _read_bytes(1): len(None) is a TypeError *)
Definition read_byte_any (s : S) : result sval * S :=
  let '(d, s') := stream_read1 s in
  match d with
  | Ok SNone => (Raise TypeError, s')
  | Ok (SBytes []) | Ok (SByteArray []) | Ok (SText []) => (Raise EOFError, s')
  | _ => (d, s')
  end.

(* nmeareader.py:189-206 _read_line: a str never equals b"\n".  What is returned is only
   appended to the header, so its bytes are all that matters *)
Definition read_line_any (s : S) : result bytes * S :=
  let '(d, s') := stream_readline s in
  match d with
  | Raise e => (Raise e, s')
  | Ok SNone => (Raise TypeError, s')
  | Ok (SBytes []) | Ok (SByteArray []) | Ok (SText []) => (Raise EOFError, s')
  | Ok (SText _) => (Raise NMEAStreamError, s')
  | Ok (SBytes l) | Ok (SByteArray l) => if N.eqb (last l 0%N) c_lf then (Ok l, s') else (Raise NMEAStreamError, s')
  end.

(* nmeareader.py:135-153.  byte1 != b"\x24" holds of every str; bytes + str is a TypeError;
   the sum has the type of byte1, and a bytearray cannot be looked up in the set NMEA_HDR
   (nmeatypes_core.py:234), also a TypeError *)
Definition pass_any (s : S) : result (option (bytes * option msg)) * S :=
  let '(r1, s1) := read_byte_any s in
  match r1 with
  | Raise e => (Raise e, s1)
  | Ok v1 =>
      match v1 with
      | SBytes b1 | SByteArray b1 =>
          if negb (str_eqb b1 [c_dollar]) then (Ok None, s1)
          else
            let '(r2, s2) := read_byte_any s1 in
            match r2 with
            | Raise e => (Raise e, s2)
            | Ok (SText _) | Ok SNone => (Raise TypeError, s2)
            | Ok (SBytes b2) | Ok (SByteArray b2) =>
                match v1 with
                | SBytes _ =>
                    if match b2 with [x] => hdr_second x | _ => false end then
                      let '(r3, s3) := read_line_any s2 in
                      match r3 with
                      | Raise e => (Raise e, s3)
                      | Ok bn =>
                          let raw := b1 ++ b2 ++ bn in
                          match parse (MBytes raw) (r_mode cfg) (r_validate cfg) (r_userdefined cfg) with
                          | Ok m => (Ok (Some (raw, m)), s3)
                          | Raise e => (Raise e, s3)
                          end
                      end
                    else if r_nmeaonly cfg then (Raise NMEAParseError, s2)
                    else (Ok None, s2)
                | _ => (Raise TypeError, s2)
                end
            end
      | _ => (Ok None, s1)
      end
  end.

(* nmeareader.py:120-167 read *)
Fixpoint read_any (fuel : nat) (s : S) : option (outcome * list event * S) :=
  match fuel with
  | O => None
  | Datatypes.S f =>
      let '(r, s1) := pass_any s in
      match r with
      | Ok (Some (raw, m)) => Some (RMsg raw m, [], s1)
      | Ok None => read_any f s1
      | Raise EOFError => Some (REnd, [], s1)
      | Raise e =>
          if is_nmea_error e then
            let '(stop, ev) := do_error cfg e in
            match stop with
            | Some e' => Some (RRaise e', ev, s1)
            | None => match read_any f s1 with
                      | Some (o, ev', s2) => Some (o, ev ++ ev', s2)
                      | None => None
                      end
            end
          else Some (RRaise e, [], s1)
      end
  end.

(* nmeareader.py:100-118, a for loop over the reader *)
Fixpoint iterate_any (n fuel : nat) (s : S) : option (list (bytes * option msg) * option exc * list event * S) :=
  match n with
  | O => None
  | Datatypes.S n' =>
      match read_any fuel s with
      | None => None
      | Some (REnd, ev, s') => Some ([], None, ev, s')
      | Some (RRaise e, ev, s') => Some ([], Some e, ev, s')
      | Some (RMsg raw m, ev, s') =>
          match iterate_any n' fuel s' with
          | Some (l, x, ev', s2) => Some ((raw, m) :: l, x, ev ++ ev', s2)
          | None => None
          end
      end
  end.
End AnyReader.

(* what the methods return, for a stream of bytes *)
(* a stream object as used at nmeareader.py:179, 198 *)
Definition as_bytes {S} (f : S -> result bytes * S) (s : S) : result sval * S :=
  let '(r, s') := f s in (match r with Ok b => Ok (SBytes b) | Raise e => Raise e end, s').
(* a file opened in text mode: the characters to come *)
(* a stream object as used at nmeareader.py:179, 198 *)
Definition text_read1 (s : pystr) : result sval * pystr :=
  match s with [] => (Ok (SText []), []) | c :: r => (Ok (SText [c]), r) end.
(* a stream object as used at nmeareader.py:179, 198 *)
Definition text_readline (s : pystr) : result sval * pystr := let '(l, r) := cut_line s in (Ok (SText l), r).
(* the same for a stream of bytearrays *)
(* a stream object as used at nmeareader.py:179, 198 *)
Definition as_bytearray {S} (f : S -> result bytes * S) (s : S) : result sval * S :=
  let '(r, s') := f s in (match r with Ok b => Ok (SByteArray b) | Raise e => Raise e end, s').
