(* Model of examples/webserver/nmeaserver.py: the dictionary of GPS data kept by the reader thread and
   shown as JSON at /gps.
   SIMPLIFICATIONS: each assignment to an entry of the dictionary is one step (CPython: one bytecode under the
   GIL), and so is json.dumps (its C encoder copies the dictionary's items first).  The serial port and the wait for
   in_waiting appear as the sequence of results of read().  The HTTP request handler is in Http.v. *)
From Verif Require Import Message Reader.
Local Open Scope Z_scope.

(* NMEAReader(..., nmeaonly=0, validate=1, msgmode=GET): defaults for the rest (nmeaserver.py:43, 92-97, 209) *)
Definition server_cfg : rcfg := mkrcfg 0 1 false 1 None [].

(* nmeaserver.py:58-71 *)
Definition gps_initial : list (pystr * pyval) :=
  [(u "date", VStr (u "1900-01-01")); (u "time", VStr (u "00.00.00"));
   (u "latitude", VFloat (S754_zero false)); (u "longitude", VFloat (S754_zero false)); (u "elevation", VFloat (S754_zero false));
   (u "speed", VFloat (S754_zero false)); (u "track", VInt 0); (u "siv", VInt 0);
   (u "pdop", VInt 99); (u "hdop", VInt 99); (u "vdop", VInt 99); (u "fix", VInt 0)].

(* d[k] = v *)
(* nmeaserver.py:168-185 *)
Fixpoint put (k : pystr) (v : pyval) (d : list (pystr * pyval)) : list (pystr * pyval) :=
  match d with
  | [] => [(k, v)]
  | (k', v') :: r => if str_eqb k k' then (k', v) :: r else (k', v') :: put k v r
  end.

(* the assignments of set_data, in order: entry, attribute, whether str() is applied (nmeaserver.py:167-185) *)
Definition assignments (msgID : pystr) : list (pystr * pystr * bool) :=
  if str_eqb msgID (u "RMC") then
    [(u "date", u "date", true); (u "time", u "time", true); (u "latitude", u "lat", false);
     (u "longitude", u "lon", false); (u "speed", u "spd", false); (u "track", u "cog", false)]
  else if str_eqb msgID (u "GGA") then
    [(u "time", u "time", true); (u "latitude", u "lat", false); (u "longitude", u "lon", false);
     (u "elevation", u "alt", false); (u "siv", u "numSV", false); (u "hdop", u "HDOP", false)]
  else if str_eqb msgID (u "GSA") then
    [(u "fix", u "navMode", false); (u "pdop", u "PDOP", false); (u "hdop", u "HDOP", false); (u "vdop", u "VDOP", false)]
  else [].

(* the assignments made for a message, and the exception that leaves set_data (nmeaserver.py:161-185) *)
Fixpoint assigned (m : msg) (l : list (pystr * pystr * bool)) : list (pystr * pyval) * option exc :=
  match l with
  | [] => ([], None)
  | (k, a, txt) :: r =>
      match lookup a (m_attrs m) with
      | None => ([], Some AttributeError)
      | Some v =>
          match (if txt then let! t := str_of_val v in Ok (VStr t) else Ok v) with
          | Raise e => ([], Some e)
          | Ok w => let '(ws, e) := assigned m r in ((k, w) :: ws, e)
          end
      end
  end.
(* nmeaserver.py:161-185 *)
Definition set_data (m : msg) : list (pystr * pyval) * option exc := assigned m (assignments (m_msgID m)).

(* what read() does: returns a message or None, or raises *)
(* nmeaserver.py:149 *)
Inductive reading := Got (o : option msg) | Failed (e : exc).
(* the exceptions caught by the loop (nmeaserver.py:152-157) *)
Definition server_catches (e : exc) : bool :=
  match e with NMEAStreamError | NMEAMessageError | NMEATypeError | NMEAParseError => true | _ => false end.
(* _read_thread (nmeaserver.py:140-159): all assignments made in the course of these readings, and the exception
   that ends the thread, if any *)
Fixpoint serve (rs : list reading) : list (pystr * pyval) * option exc :=
  match rs with
  | [] => ([], None)
  | Got None :: r => serve r
  | Got (Some m) :: r =>
      let '(ws, e) := set_data m in
      match e with
      | Some x => if server_catches x then let '(ws', e') := serve r in (ws ++ ws', e') else (ws, Some x)
      | None => let '(ws', e') := serve r in (ws ++ ws', e')
      end
  | Failed x :: r => if server_catches x then serve r else ([], Some x)
  end.
(* the dictionary after the first k of these assignments *)
(* nmeaserver.py:167-185 *)
Definition gpsdata (rs : list reading) (k : nat) : list (pystr * pyval) :=
  fold_left (fun d w => put (fst w) (snd w) d) (firstn k (fst (serve rs))) gps_initial.

(* json.dumps (Lib/json/encoder.py: ensure_ascii, allow_nan, separators ", " and ": ") *)
(* \uXXXX (Lib/json/encoder.py:41-66) *)
Definition json_u (c : N) : pystr :=
  let h := map hex_char_lower (N_digits 16 c) in u "\u" ++ repeat 48%N (4 - length h) ++ h.
(* Lib/json/encoder.py:20-29, 41-66 *)
Definition json_escape (c : N) : pystr :=
  if (c =? 34)%N then [92%N; 34%N] else if (c =? 92)%N then [92%N; 92%N]
  else if (c =? 10)%N then u "\n" else if (c =? 13)%N then u "\r" else if (c =? 9)%N then u "\t"
  else if (c =? 12)%N then u "\f" else if (c =? 8)%N then u "\b"
  else if ((32 <=? c) && (c <=? 126))%N then [c]
  else if (c <? 65536)%N then json_u c
  else let n := (c - 65536)%N in json_u (55296 + n / 1024)%N ++ json_u (56320 + n mod 1024)%N.
(* Lib/json/encoder.py:41-66 *)
Definition json_string (s : pystr) : pystr := [34%N] ++ flat_map json_escape s ++ [34%N].
(* Lib/json/encoder.py:199-244 (floatstr), 259-440 *)
Definition json_value (v : pyval) : result pystr :=
  match v with
  | VStr s => Ok (json_string s)
  | VInt z => str_of_Z z
  | VFloat x => Ok (match x with
                    | S754_nan => u "NaN"
                    | S754_infinity s => if s then u "-Infinity" else u "Infinity"
                    | _ => str_of_float x
                    end)
  | VBool b => Ok (if b then u "true" else u "false")
  | VNone => Ok (u "null")
  | _ => Raise TypeError
  end.
(* Lib/json/encoder.py:259-440 *)
Fixpoint json_items (d : list (pystr * pyval)) : result pystr :=
  match d with
  | [] => Ok []
  | (k, v) :: r =>
      let! t := json_value v in
      let! ts := json_items r in
      Ok (json_string k ++ u ": " ++ t ++ (match r with [] => [] | _ => u ", " end) ++ ts)
  end.
(* get_data (nmeaserver.py:187-195) when k assignments have been made *)
Definition get_data (rs : list reading) (k : nat) : result pystr :=
  let! t := json_items (gpsdata rs k) in Ok (u "{" ++ t ++ u "}").
