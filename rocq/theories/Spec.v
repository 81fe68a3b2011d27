(* Small specifications, written without using the model's helper functions:
   only its data types (text, messages, pyval, definitions), UTF-8 encoding, and
   the generated tables are used here. *)
From Verif Require Import Message.
Local Open Scope N_scope.

(* ------------------------------------------------------------ numerals *)
Definition digit_char (d : N) : N := nth (N.to_nat d) (u "0123456789ABCDEF") 0.

(* positional numerals without superfluous zeros *)
Inductive numeral (base : N) : N -> pystr -> Prop :=
| numeral_digit d : d < base -> numeral base d [digit_char d]
| numeral_more n d s :
    numeral base n s -> 0 < n -> d < base -> numeral base (n * base + d) (s ++ [digit_char d]).

Definition pad_left (c : N) (w : nat) (s : pystr) : pystr := repeat c (w - length s) ++ s.

(* ------------------------------------------------------------- checksum *)
(* parity of the number of characters whose bit i is set *)
Fixpoint parity (i : N) (s : pystr) : bool :=
  match s with [] => false | c :: r => xorb (N.testbit c i) (parity i r) end.

(* ck is the checksum text of content: two or more upper-case hex digits of the
   bitwise exclusive or *)
Definition is_checksum (content ck : pystr) : Prop :=
  exists n d, (forall i, N.testbit n i = parity i content) /\ numeral 16 n d /\ ck = pad_left 48 2 d.

(* --------------------------------------------------------------- frames *)
Definition dollar := 36.  Definition star := 42.  Definition comma := 44.
Definition cr := 13.  Definition lf := 10.
(* characters stripped at both ends *)
Definition framing (c : N) : Prop := c = dollar \/ c = cr \/ c = lf.

(* text is <framing>content*ck<framing>, with the framing as long as possible and
   the content as short as possible *)
Definition frame (text content ck : pystr) : Prop :=
  exists pre post,
    text = pre ++ content ++ [star] ++ ck ++ post
    /\ Forall framing pre /\ Forall framing post /\ ~ In star content
    /\ (forall c r, content = c :: r -> ~ framing c)
    /\ (forall c r, ck = r ++ [c] -> ~ framing c).

(* content is talker msgID ,field ,field ...; the talker is "P", or two characters *)
Definition header (content talker msgid : pystr) (fields : list pystr) : Prop :=
  content = talker ++ msgid ++ flat_map (fun f => comma :: f) fields
  /\ ~ In comma talker /\ ~ In comma msgid /\ Forall (fun f => ~ In comma f) fields
  /\ (talker = u "P"
      \/ (hd 0 talker <> 80 /\ (length talker = 2%nat \/ ((length talker < 2)%nat /\ msgid = [])))).

(* the text of an argument of parse() *)
Definition text_of (m : rawmsg) (s : pystr) : Prop :=
  match m with
  | MBytes b => utf8_encode s = Ok b
  | MStr t => s = t
  | MOther => False
  end.

(* the text of a complete sentence *)
Definition sentence (talker msgid : pystr) (fields : list pystr) (ck : pystr) : pystr :=
  [dollar] ++ talker ++ msgid ++ flat_map (fun f => comma :: f) fields ++ [star] ++ ck ++ [cr; lf].

(* what parse() was given *)
Definition given (m : rawmsg) (content ck talker msgid : pystr) (fields : list pystr) : Prop :=
  (exists s, text_of m s /\ frame s content ck) /\ header content talker msgid fields.

(* flag tests *)
Definition wants_checksum (validate : Z) : bool := Z.testbit validate 0.   (* VALCKSUM = 1 *)
Definition wants_msgid (validate : Z) : bool := Z.testbit validate 1.      (* VALMSGID = 2 *)

(* ---------------------------------------------------- payload definitions *)
(* a slot: attribute name and type *)
Definition slot := (pystr * pystr)%type.

(* i as at least two decimal digits *)
Definition index_text (i : N) : pystr := pad_left 48 2 (dec_of_N i).

(* a member list of plain attributes *)
Definition plain (d : pdict) : Prop := Forall (fun e => exists ty, snd e = ASingle ty) d.
(* plain attributes and groups of plain attributes (every built-in definition) *)
Definition flat (d : pdict) : Prop :=
  Forall (fun e => match snd e with ASingle _ => True | AGroup _ ms => plain ms /\ ms <> [] end) d.

Definition plain_slots (d : pdict) : list slot :=
  flat_map (fun e => match snd e with ASingle ty => [(fst e, ty)] | AGroup _ _ => [] end) d.

(* the members of a group repeated n times, numbered from i *)
Fixpoint group_slots (n : nat) (i : N) (ms : pdict) : list slot :=
  match n with
  | O => []
  | S n' => map (fun s => (fst s ++ [95] ++ index_text i, snd s)) (plain_slots ms)
            ++ group_slots n' (N.succ i) ms
  end.

(* number of repeats of a group found when [left] fields remain; [val] gives the
   integer attributes by name *)
Definition repeats (val : pystr -> option Z) (left : nat) (n : numr) (ms : pdict) (cnt : nat) : Prop :=
  match n with
  | NInt z => cnt = Z.to_nat z
  | NStr name => if str_eqb name (u "None") then cnt = (left / length ms)%nat
                 else exists z, val name = Some z /\ cnt = Z.to_nat z
  end.

(* the slots of a definition laid over a payload of [total] fields *)
Inductive layout (val : pystr -> option Z) (total : nat) : nat -> pdict -> list slot -> Prop :=
| layout_nil pos : layout val total pos [] []
| layout_single pos k ty d sl :
    layout val total (S pos) d sl -> layout val total pos ((k, ASingle ty) :: d) ((k, ty) :: sl)
| layout_group pos k n ms d sl cnt :
    repeats val (total - pos) n ms cnt ->
    layout val total (pos + cnt * length ms) d sl ->
    layout val total pos ((k, AGroup n ms) :: d) (group_slots cnt 1 ms ++ sl).

(* the value of an integer attribute *)
Definition int_attr (attrs : list (pystr * pyval)) (name : pystr) : option Z :=
  match lookup name attrs with
  | Some (VInt z) => Some z
  | Some (VBool b) => Some (if b then 1 else 0)%Z
  | _ => None
  end.

(* the slots of a definition for any repeat counts *)
Inductive expands : pdict -> list slot -> Prop :=
| expands_nil : expands [] []
| expands_single k ty d sl : expands d sl -> expands ((k, ASingle ty) :: d) ((k, ty) :: sl)
| expands_group k n ms d sl cnt : expands d sl -> expands ((k, AGroup n ms) :: d) (group_slots cnt 1 ms ++ sl).

(* a definition whose attributes can be told apart and whose repeat counts are
   ordinary attributes (proved of every built-in definition, C54) *)
Definition unambiguous (d : pdict) : Prop := forall sl, expands d sl -> NoDup (map fst sl).
Definition public_counts (d : pdict) : Prop :=
  Forall (fun e => match snd e with
                   | AGroup (NStr name) _ =>
                       name = u "None"
                       \/ (name <> u "msgmode" /\ name <> u "lat" /\ name <> u "lon" /\ hd 0 name <> 95)
                   | _ => True
                   end) d.
Definition well_formed (d : pdict) : Prop := flat d /\ unambiguous d /\ public_counts d.

(* no repeating group is empty, at any depth *)
Inductive no_empty_group : adef -> Prop :=
| neg_single ty : no_empty_group (ASingle ty)
| neg_group n ms : ms <> [] -> Forall (fun e => no_empty_group (snd e)) ms -> no_empty_group (AGroup n ms).

(* delimiters that are removed from PSSNSNC fields: a payload the parser leaves alone *)
Definition kept_as_is (talker msgid : pystr) (fields : list pystr) : Prop :=
  (forall x, talker ++ msgid ++ x <> u "PSSNSNC") \/ Forall (fun f => ~ In 91 f /\ ~ In 93 f) fields.

(* ------------------------------------------- which definition is used *)
Definition definitions_standard (mode : Z) : list (pystr * pdict) :=
  if (mode =? 0)%Z then NMEA_PAYLOADS_GET
  else if (mode =? 1)%Z then NMEA_PAYLOADS_SET else NMEA_PAYLOADS_POLL.
Definition definitions_proprietary (mode : Z) : list (pystr * pdict) :=
  if (mode =? 0)%Z then NMEA_PAYLOADS_GET_PROP
  else if (mode =? 1)%Z then NMEA_PAYLOADS_SET_PROP else NMEA_PAYLOADS_POLL_PROP.

(* the proprietary prefixes whose first field is a message id *)
Definition prefixes : list pystr := [u "ASHR"; u "GPPADV"; u "FEC"; u "SSN"; u "TNL"; u "UBX"].

(* Quectel variants by mode and number of fields *)
Definition variants : list (pystr * Z * nat * pystr) :=
  [ (u "QTMCFGUART", 1%Z, 2%nat, u "QTMCFGUART_CURRBAUD");
    (u "QTMCFGUART", 1%Z, 3%nat, u "QTMCFGUART_BAUD");
    (u "QTMCFGUART", 1%Z, 6%nat, u "QTMCFGUART_CURR");
    (u "QTMCFGUART", 2%Z, 1%nat, u "QTMCFGUART_CURR");
    (u "QTMCFGMSGRATE", 0%Z, 3%nat, u "QTMCFGMSGRATE_NOVER");
    (u "QTMCFGMSGRATE", 0%Z, 5%nat, u "QTMCFGMSGRATE_INTFNOVER");
    (u "QTMCFGMSGRATE", 0%Z, 6%nat, u "QTMCFGMSGRATE_INTF");
    (u "QTMCFGMSGRATE", 1%Z, 3%nat, u "QTMCFGMSGRATE_NOVER");
    (u "QTMCFGMSGRATE", 1%Z, 5%nat, u "QTMCFGMSGRATE_INTFNOVER");
    (u "QTMCFGMSGRATE", 1%Z, 6%nat, u "QTMCFGMSGRATE_INTF");
    (u "QTMCFGMSGRATE", 2%Z, 2%nat, u "QTMCFGMSGRATE_NOVER");
    (u "QTMCFGMSGRATE", 2%Z, 4%nat, u "QTMCFGMSGRATE_INTFNOVER");
    (u "QTMCFGMSGRATE", 2%Z, 5%nat, u "QTMCFGMSGRATE_INTF");
    (u "QTMCFGPPS", 1%Z, 3%nat, u "QTMCFGPPS_DIS");
    (u "QTMCFGSAT", 0%Z, 4%nat, u "QTMCFGSAT_LOW");
    (u "QTMCFGSAT", 1%Z, 4%nat, u "QTMCFGSAT_LOW");
    (u "QTMCFGGEOFENCE", 0%Z, 13%nat, u "QTMCFGGEOFENCE_POLY");
    (u "QTMCFGGEOFENCE", 1%Z, 13%nat, u "QTMCFGGEOFENCE_POLY");
    (u "QTMCFGGEOFENCE", 1%Z, 3%nat, u "QTMCFGGEOFENCE_DIS") ].
(* ids that are not subject to the acknowledgement rule *)
Definition no_ack : list pystr := [u "QTMCFGUART"; u "QTMCFGMSGRATE"; u "QTMCFGPPS"; u "QTMSN"].

Definition variant_of (key : pystr) (mode : Z) (fields : list pystr) : pystr :=
  match find (fun v => let '(k, m, n, _) := v in
                       str_eqb k key && (m =? mode)%Z && Nat.eqb n (length fields)) variants with
  | Some (_, _, _, name) => name
  | None =>
      if str_eqb key (u "QTMSN") && (mode =? 0)%Z && str_isnumeric (hd [] fields) then u "QTMSN_ALT"
      else if str_eqb key (u "STMDRSENMSG") then u "STMDRSENMSG_" ++ hd [] fields
      else if str_eqb (firstn 3 key) (u "QTM") && (mode =? 0)%Z && negb (str_in key no_ack) then
        match fields with
        | [a] => if str_eqb a (u "OK") then u "QTMACK" else key
        | [a; _] => if str_eqb a (u "ERROR") then u "QTMNAK" else key
        | _ => key
        end
      else key
  end.

(* the id under which the definition is looked up *)
Definition lookup_id (msgid : pystr) (fields : list pystr) : pystr :=
  str_upper
    (if str_in msgid prefixes then
       if str_eqb msgid (u "ASHR") && chr_isdigit (nth 1 (hd [] fields) 0) then msgid
       else msgid ++ hd [] fields
     else msgid).

(* the definition used to decode a sentence *)
Definition definition_for (mode : Z) (ud : userdefs) (msgid : pystr) (fields : list pystr) : option pdict :=
  let key := lookup_id msgid fields in
  if has_key msgid NMEA_MSGIDS then lookup key (definitions_standard mode)
  else if has_key msgid NMEA_MSGIDS_PROP || str_in msgid prefixes then
    lookup (variant_of key mode fields) (definitions_proprietary mode)
  else if has_key msgid ud then lookup key ud
  else lookup key (definitions_standard mode).

(* sentences that lack the field the definition is selected by *)
Definition lacks_id (mode : Z) (msgid : pystr) (fields : list pystr) : bool :=
  (str_in msgid prefixes
   && match fields with
      | [] => true
      | f :: _ => str_eqb msgid (u "ASHR") && (length f <? 2)%nat
      end)
  || (match fields with [] => true | _ => false end
      && ((str_eqb msgid (u "QTMSN") && (mode =? 0)%Z) || str_eqb msgid (u "STMDRSENMSG"))).

(* the msgID is a built-in, proprietary or user-defined one *)
Definition known_id (ud : userdefs) (msgid : pystr) : bool :=
  has_key msgid NMEA_MSGIDS || has_key msgid NMEA_MSGIDS_PROP || str_in msgid prefixes || has_key msgid ud.

(* attributes of a sentence without definition *)
Fixpoint numbered (i : N) (fields : list pystr) : list (pystr * pyval) :=
  match fields with
  | [] => []
  | f :: r => (u "field_" ++ index_text i, VStr f) :: numbered (N.succ i) r
  end.

(* ------------------------------------------------ decoded attributes *)
(* the last field of the given type *)
Fixpoint last_of (ty : pystr) (l : list (slot * pystr)) : option pystr :=
  match l with
  | [] => None
  | ((_, t), f) :: r => match last_of ty r with
                        | Some g => Some g
                        | None => if str_eqb t ty then Some f else None
                        end
  end.

(* magnitude kept, sign given by the hemisphere field, if there is one *)
Definition with_sign (neg : pystr) (hemisphere : option pystr) (v : pyval) : pyval :=
  match hemisphere with
  | None => v
  | Some f =>
      let minus := str_eqb f neg in
      match v with
      | VInt z => VInt (if minus then - Z.abs z else Z.abs z)%Z
      | VFloat x => VFloat (if minus then SFopp (SFabs x) else SFabs x)
      | VBool b => VInt (if b then (if minus then -1 else 1) else 0)%Z
      | _ => v
      end
  end.

(* lat and lon take the sign of the last NS / EW field after them *)
Definition settle (k : pystr) (v : pyval) (later : list (slot * pystr)) : pyval :=
  if str_eqb k (u "lat") then with_sign (u "S") (last_of (u "LAD") later) v
  else if str_eqb k (u "lon") then with_sign (u "W") (last_of (u "LND") later) v
  else v.

(* attributes of slots laid over fields; None if a field cannot be converted *)
Fixpoint decode (sl : list slot) (fields : list pystr) : option (list (pystr * pyval)) :=
  match sl, fields with
  | (k, ty) :: sl', f :: fields' =>
      match str2val f ty, decode sl' fields' with
      | Ok v, Some r => Some ((k, settle k v (combine sl' fields')) :: r)
      | _, _ => None
      end
  | _, _ => Some []
  end.

(* attribute names that are not properties of a message, and a textual msgId *)
Definition text_types : list pystr := [u "CH"; u "ST"; u "LAD"; u "LND"; u "QS"; u "HX"].
Definition no_clash (d : pdict) : Prop :=
  forall sl, expands d sl ->
    Forall (fun s => ~ In (fst s) [u "identity"; u "talker"; u "msgID"; u "msgmode"; u "payload"; u "checksum"]
                     /\ (fst s = u "msgId" -> In (snd s) text_types)) sl.

(* the attributes are those of definition d laid over the fields *)
Definition decoded_by (d : pdict) (fields : list pystr) (attrs : list (pystr * pyval)) : Prop :=
  exists sl, layout (int_attr attrs) (length fields) 0 d sl /\ decode sl fields = Some attrs.

(* every built-in definition *)
Definition builtin_definitions : list (pystr * pdict) :=
  NMEA_PAYLOADS_GET ++ NMEA_PAYLOADS_GET_PROP ++ NMEA_PAYLOADS_SET ++ NMEA_PAYLOADS_SET_PROP
  ++ NMEA_PAYLOADS_POLL ++ NMEA_PAYLOADS_POLL_PROP.

(* equal as far as the API shows *)
Definition same_message (x y : msg) : Prop :=
  m_talker x = m_talker y /\ m_msgID x = m_msgID y /\ m_mode x = m_mode y /\ m_payload x = m_payload y
  /\ m_checksum x = m_checksum y /\ m_attrs x = m_attrs y
  /\ identity x = identity y /\ serialize x = serialize y /\ str_of_msg x = str_of_msg y.
