(* Model of the texts of the exceptions: str(err) for the exceptions pynmeagps raises itself.  The functions of Helpers.v, Message.v and
   Reader.v are repeated with results that carry the text; PropsErrorText.v proves that, the texts left out, they are the same functions.
   SIMPLIFICATION: the texts of Python's own exceptions (IndexError, ValueError, ...) and of errors about a message that is neither
   bytes nor str are not modelled (None). *)
From Verif Require Import Message Repr Reader.
Local Open Scope Z_scope.

(* a result or an exception with str(err) (None: not modelled); exceptions.py:12-35 *)
Inductive tres (A : Type) := TOk (a : A) | TRaise (e : exc) (t : option pystr).
Arguments TOk {A} _. Arguments TRaise {A} _ _.
(* exceptions.py:12-35: the result without the text *)
Definition forget {A} (r : tres A) : result A := match r with TOk a => Ok a | TRaise e _ => Raise e end.

(* one byte of repr(bytes) (CPython Objects/bytesobject.c PyBytes_Repr), as used at nmeareader.py:153 and nmeahelpers.py:445 *)
Definition repr_byte (q c : N) : pystr :=
  if ((c =? q) || (c =? 92))%N then [92%N; c]
  else if (c =? 9)%N then u "\t"
  else if (c =? 10)%N then u "\n"
  else if (c =? 13)%N then u "\r"
  else if ((c <? 32) || (127 <=? c))%N then u "\x" ++ hexw 2 c
  else [c].
(* repr(bytes): nmeareader.py:153, nmeahelpers.py:445 *)
Definition repr_bytes (b : bytes) : pystr :=
  let q := if existsb (N.eqb 39) b && negb (existsb (N.eqb 34) b) then 34%N else 39%N in
  u "b" ++ [q] ++ flat_map (repr_byte q) b ++ [q].

(* get_parts (nmeahelpers.py:426-445): after a successful decode the name message holds the text *)
Definition get_parts_t (message : rawmsg) : tres parts :=
  match get_parts message with
  | Ok p => TOk p
  | Raise e =>
      TRaise e (match message with
                | MBytes b => Some (u "Badly formed message " ++ match utf8_decode b with Some s => s | None => repr_bytes b end)
                | MStr s => Some (u "Badly formed message " ++ s)
                | MOther => None
                end)
  end.

(* ('GET', 'SET', 'POLL')[mode] (nmeamessage.py:97, 334) *)
Definition mode_name (mode : Z) : pystr := if mode =? 0 then u "GET" else if mode =? 1 then u "SET" else u "POLL".

(* nmeamessage.py:743, 798, 837: the only NMEATypeError raised below _do_attributes *)
Definition set_single_t (c : ctx) (att key : pystr) (gindex : list N) (s : ast) : tres ast :=
  match set_single c att key gindex s with
  | Ok s' => TOk s'
  | Raise NMEATypeError => TRaise NMEATypeError (Some (u "Unknown attribute type " ++ att ++ u "."))
  | Raise e => TRaise e None
  end.
(* nmeamessage.py:204-213: for i in range(n) *)
Fixpoint repeat_from_t (n : nat) (i : N) (body : N -> ast -> tres ast) (s : ast) : tres ast :=
  match n with
  | O => TOk s
  | S n' => match body i s with TOk s' => repeat_from_t n' (N.succ i) body s' | TRaise e t => TRaise e t end
  end.
(* _set_attribute, _set_attribute_group (nmeamessage.py:153-215) *)
Fixpoint set_attribute_t (c : ctx) (a : adef) (key : pystr) (gindex : list N) (s : ast) {struct a} : tres ast :=
  match a with
  | ASingle att => set_single_t c att key gindex s
  | AGroup n members =>
      match group_count c n members s with
      | Raise e => TRaise e None
      | Ok rng =>
          repeat_from_t (Z.to_nat rng) 1
            (fun i s0 =>
               (fix go (l : list (pystr * adef)) (s1 : ast) {struct l} : tres ast :=
                  match l with
                  | [] => TOk s1
                  | (k, d) :: l' => match set_attribute_t c d k (gindex ++ [i]) s1 with
                                    | TOk s2 => go l' s2
                                    | TRaise e t => TRaise e t
                                    end
                  end) members s0) s
      end
  end.

(* the except clause of _do_attributes (nmeamessage.py:142-151) with the loop variable key *)
Definition type_errors_t {A} (key msgID : pystr) (r : tres A) : tres A :=
  match r with
  | TRaise AttributeError _ | TRaise OverflowError _ | TRaise TypeError _ | TRaise ValueError _ | TRaise UnicodeEncodeError _ =>
      TRaise NMEATypeError (Some (u "Incorrect type for attribute " ++ key ++ u " in msgID " ++ msgID ++ u "."))
  | _ => r
  end.
(* the loop over the definition (nmeamessage.py:132-135) inside the try block *)
Fixpoint set_members_t (c : ctx) (l : pdict) (s : ast) : tres ast :=
  match l with
  | [] => TOk s
  | (k, d) :: l' => match type_errors_t k (x_msgID c) (set_attribute_t c d k [] s) with
                    | TOk s' => set_members_t c l' s'
                    | TRaise e t => TRaise e t
                    end
  end.

(* _get_dict (nmeamessage.py:295-338): the key of the text is the one before _get_dict_prop *)
Definition get_dict_t (c : ctx) (payload : list pystr) : tres (option pdict) :=
  match dict_key c payload with
  | Raise NMEAMessageError =>
      TRaise NMEAMessageError
        (Some (u "P" ++ x_msgID c ++ u " message definitions must include payload or msgId keyword arguments."))
  | _ =>
      match get_dict c payload with
      | Ok d => TOk d
      | Raise NMEAMessageError =>
          TRaise NMEAMessageError
            (match dict_key c payload with
             | Ok key => Some (u "Unknown msgID " ++ key ++ u " msgmode " ++ mode_name (x_mode c) ++ u ".")
             | Raise _ => None
             end)
      | Raise e => TRaise e None
      end
  end.

(* _do_attributes (nmeamessage.py:111-151) *)
Definition do_attributes_t (c : ctx) (payload0 : list pystr) (cksum : option pystr)
  : tres (list (pystr * pyval) * list pystr * option pystr) :=
  match type_errors_t [] (x_msgID c) (get_dict_t c payload0) with
  | TRaise e t => TRaise e t
  | TOk None =>
      type_errors_t [] (x_msgID c)
        (if x_streaming c then
           match set_nominal 1 payload0 (mkast 0 [] payload0) with
           | Ok s => TOk (a_attrs s, a_payload s, cksum)
           | Raise e => TRaise e None
           end
         else TOk ([], payload0, cksum))
  | TOk (Some d) =>
      let r := match d with
               | [] => TOk (mkast 0 [] payload0)
               | (k, _) :: _ => if kw_clash (x_kwargs c) then type_errors_t k (x_msgID c) (TRaise TypeError None)
                                else set_members_t c d (mkast 0 [] payload0)
               end in
      match r with
      | TRaise e t => TRaise e t
      | TOk s => TOk (a_attrs s, a_payload s,
                      match cksum with
                      | Some k => Some k
                      | None => Some (generate_checksum (x_talker c) (x_msgID c) (a_payload s))
                      end)
      end
  end.

(* f"... {msgmode} - must be 0, 1 or 2." (nmeamessage.py:81-83, nmeareader.py:88-91, 257-260): an int of more than 4300 digits cannot be
   written, so that formatting the text raises ValueError instead *)
Definition bad_mode {A} (what : pystr) (e : exc) (msgmode : Z) : tres A :=
  match str_of_Z msgmode with
  | Ok t => TRaise e (Some (u "Invalid " ++ what ++ u " " ++ t ++ u " - must be 0, 1 or 2."))
  | Raise e' => TRaise e' None
  end.

(* NMEAMessage.__init__ (nmeamessage.py:42-109) *)
Definition NMEAMessage_t (ck : clock) (talker msgID : pystr) (msgmode : Z) (hp : bool) (validate : Z)
    (ud : userdefs) (checksum : option pystr) (payload : option (list pystr)) (kw : kwargs) : tres msg :=
  if negb (valid_mode msgmode) then bad_mode (u "msgmode") NMEAMessageError msgmode
  else if negb (has_key talker NMEA_TALKERS) && has_flag validate VALMSGID then
    TRaise NMEAMessageError (Some (u "Unknown talker " ++ talker ++ u "."))
  else
    let ds := find_defsource msgID ud in
    match ds, has_flag validate VALMSGID with
    | DEF_UNKN, true =>
        TRaise NMEAMessageError (Some (u "Unknown msgID " ++ talker ++ msgID ++ u ", msgmode " ++ mode_name msgmode ++ u "."))
    | _, _ =>
        let streaming := match payload with Some _ => true | None => false end in
        let pl := match payload with Some p => p | None => [] end in
        let c := mkctx talker msgID msgmode hp validate ud ds streaming kw ck in
        match do_attributes_t c pl checksum with
        | TRaise e t => TRaise e t
        | TOk (attrs, pl', ck') => TOk (mkmsg talker msgID msgmode hp validate ud ds streaming ck' pl' attrs true)
        end
    end.

(* NMEAReader.parse (nmeareader.py:236-284); str(NMEAParseError(err)) is str(err) *)
Definition parse_t (message : rawmsg) (msgmode validate : Z) (ud : userdefs) : tres (option msg) :=
  if negb (valid_mode msgmode) then bad_mode (u "parse mode") NMEAParseError msgmode
  else
    let r :=
      match get_parts_t message with
      | TRaise e t => TRaise e t
      | TOk p =>
          let ccksum := calc_checksum (p_content p) in
          if has_flag validate VALCKSUM && negb (str_eqb (str_upper (p_cksum p)) ccksum) then
            TRaise NMEAParseError (Some (u "Message " ++ p_talker p ++ p_msgid p ++ u " invalid checksum " ++ p_cksum p
                                         ++ u " - should be " ++ ccksum ++ u "."))
          else NMEAMessage_t no_clock (p_talker p) (p_msgid p) msgmode false validate ud
                 (Some (p_cksum p)) (Some (p_payload p)) []
      end in
    match r with
    | TOk m => TOk (Some m)
    | TRaise NMEAMessageError t => if has_flag validate VALMSGID then TRaise NMEAParseError t else TOk None
    | TRaise e t => TRaise e t
    end.

(* NMEAReader.__init__ (nmeareader.py:88-91) *)
Definition reader_init_t (cfg : rcfg) : tres rcfg :=
  if valid_mode (r_mode cfg) then TOk cfg else bad_mode (u "stream mode") NMEAParseError (r_mode cfg).

(* what read() does with a stream, and what the handler or the logger is given (nmeareader.py:119-224) *)
Inductive outcome_t := TMsg (raw : bytes) (m : option msg) | TEnd | TStop (e : exc) (t : option pystr).
(* nmeareader.py:208-224: an error handed to the handler, or to the logger *)
Inductive event_t := TvHandler (e : exc) (t : option pystr) | TvLog (e : exc) (t : option pystr).

Section ReaderText.
(* a stream object as used at nmeareader.py:179, 198 *)
Variable S : Type.
Variable stream_read1 : S -> result bytes * S.
Variable stream_readline : S -> result bytes * S.
Variable cfg : rcfg.
(* errorhandler: is given the error (class and text), returns or raises (nmeareader.py:223) *)
Variable hnd : option (exc -> option pystr -> option (exc * option pystr)).

(* _read_line (nmeareader.py:189-206) *)
Definition read_line_t (s : S) : tres bytes * S :=
  let '(d, s') := stream_readline s in
  match d with
  | Raise e => (TRaise e None, s')
  | Ok [] => (TRaise EOFError (Some []), s')
  | Ok l => if N.eqb (last l 0%N) c_lf then (TOk l, s')
            else (TRaise NMEAStreamError
                    (Some (u "Serial stream terminated unexpectedly. Line requested, " ++ dec_of_N (N.of_nat (length l))
                           ++ u " bytes returned.")), s')
  end.
(* one pass of the loop (nmeareader.py:134-153) *)
Definition pass_t (s : S) : tres (option (bytes * option msg)) * S :=
  let '(r1, s1) := read_byte S stream_read1 s in
  match r1 with
  | Raise e => (TRaise e None, s1)
  | Ok b1 =>
      if negb (str_eqb b1 [c_dollar]) then (TOk None, s1)
      else
        let '(r2, s2) := read_byte S stream_read1 s1 in
        match r2 with
        | Raise e => (TRaise e None, s2)
        | Ok b2 =>
            if match b2 with [x] => hdr_second x | _ => false end then
              let '(r3, s3) := read_line_t s2 in
              match r3 with
              | TRaise e t => (TRaise e t, s3)
              | TOk bn =>
                  match parse_t (MBytes (b1 ++ b2 ++ bn)) (r_mode cfg) (r_validate cfg) (r_userdefined cfg) with
                  | TOk m => (TOk (Some (b1 ++ b2 ++ bn, m)), s3)
                  | TRaise e t => (TRaise e t, s3)
                  end
              end
            else if r_nmeaonly cfg then
              (TRaise NMEAParseError (Some (u "Unknown protocol header " ++ repr_bytes (b1 ++ b2) ++ u ".")), s2)
            else (TOk None, s2)
        end
  end.
(* nmeareader.py:163-165, 208-223 *)
Definition do_error_t (e : exc) (t : option pystr) : option (exc * option pystr) * list event_t :=
  if r_quit cfg =? 0 then (None, [])
  else if r_quit cfg =? ERR_RAISE then (Some (e, t), [])
  else if r_quit cfg =? ERR_LOG then
    match hnd with
    | None => (None, [TvLog e t])
    | Some h => (h e t, [TvHandler e t])
    end
  else (None, []).
(* read (nmeareader.py:119-167) *)
Fixpoint read_t (fuel : nat) (s : S) : option (outcome_t * list event_t * S) :=
  match fuel with
  | O => None
  | Datatypes.S f =>
      let '(r, s1) := pass_t s in
      match r with
      | TOk (Some (raw, m)) => Some (TMsg raw m, [], s1)
      | TOk None => read_t f s1
      | TRaise EOFError _ => Some (TEnd, [], s1)
      | TRaise e t =>
          if is_nmea_error e then
            let '(stop, ev) := do_error_t e t in
            match stop with
            | Some (e', t') => Some (TStop e' t', ev, s1)
            | None => match read_t f s1 with
                      | Some (o, ev', s2) => Some (o, ev ++ ev', s2)
                      | None => None
                      end
            end
          else Some (TStop e t, [], s1)
      end
  end.
(* iteration (nmeareader.py:100-118): the items, the exception that ended it (if any), the reports *)
Fixpoint iterate_t (n fuel : nat) (s : S) : option (list (bytes * option msg) * option (exc * option pystr) * list event_t * S) :=
  match n with
  | O => None
  | Datatypes.S n' =>
      match read_t fuel s with
      | None => None
      | Some (TEnd, ev, s') => Some ([], None, ev, s')
      | Some (TStop e t, ev, s') => Some ([], Some (e, t), ev, s')
      | Some (TMsg raw m, ev, s') =>
          match iterate_t n' fuel s' with
          | Some (l, x, ev', s2) => Some ((raw, m) :: l, x, ev ++ ev', s2)
          | None => None
          end
      end
  end.
End ReaderText.

(* reading from a file (nmeareader.py:119-167) *)
Definition fread_t (cfg : rcfg) := read_t file file_read1 file_readline cfg.
(* nmeareader.py:100-118 *)
Definition fiterate_t (cfg : rcfg) := iterate_t file file_read1 file_readline cfg.
