(* Model of /repo/src/pynmeagps/nmeamessage.py *)
From Verif Require Export Helpers.
Local Open Scope Z_scope.

(* nmeatypes_core.py:21-34 GET, SET, POLL, VALCKSUM, VALMSGID *)
Definition GET := 0.  Definition SET := 1.  Definition POLL := 2.
(* nmeatypes_core.py:21-34 *)
Definition VALNONE := 0.  Definition VALCKSUM := 1.  Definition VALMSGID := 2.
(* nmeamessage.py:83-98, nmeareader.py:264, 282 *)
Definition has_flag (validate flag : Z) : bool := negb (Z.land validate flag =? 0).
(* nmeamessage.py:80, nmeareader.py:257 *)
Definition valid_mode (m : Z) : bool := (m =? 0) || (m =? 1) || (m =? 2).

(* nmeatypes_core.py:47-54 *)
Inductive defsource := DEF_STND | DEF_PROP | DEF_USER | DEF_UNKN.
(* nmeatypes_core.py:47-54 *)
Definition defsource_num (d : defsource) : Z :=
  match d with DEF_STND => 0 | DEF_PROP => 1 | DEF_USER => 2 | DEF_UNKN => 3 end.

(* nmeatypes_core.py:98-111 attribute types *)
Definition ty_CH := u "CH".   Definition ty_DE := u "DE".   Definition ty_HX := u "HX".
(* nmeatypes_core.py:98-111 *)
Definition ty_IN := u "IN".   Definition ty_LAD := u "LAD". Definition ty_LND := u "LND".
(* nmeatypes_core.py:98-111 *)
Definition ty_QS := u "QS".   Definition ty_ST := u "ST".   Definition ty_TM := u "TM".

(* nmeamessage.py:42-52 *)
Definition kwargs := list (pystr * pyval).
(* nmeamessage.py:42-52 *)
Definition userdefs := list (pystr * pdict).

(* the finished (or partly built) object; m_userdefined is the dict passed in.
   _logger is not modelled. *)
(* nmeamessage.py:42-151 *)
Record msg := mkmsg {
  m_talker : pystr;
  m_msgID : pystr;
  m_mode : Z;
  m_hp : bool;
  m_validate : Z;
  m_userdefined : userdefs;
  m_defsource : defsource;
  m_streaming : bool;
  m_checksum : option pystr;
  m_payload : list pystr;
  m_attrs : list (pystr * pyval);       (* public attributes in the order set *)
  m_immutable : bool }.

(* ---------------------------------------------------- value conversion *)

(* nmeamessage.py:712-744 str2val *)
Definition text_type (att : pystr) : bool :=
  str_in att [ty_CH; ty_ST; ty_LAD; ty_LND; ty_QS].
(* nmeamessage.py:712-744 *)
Definition str2val (vals att : pystr) : result pyval :=
  if text_type att then Ok (VStr vals)
  else if str_eqb att ty_HX then Ok (VStr vals)
  else if str_eqb att ty_DE then
    match vals with [] => Ok (VStr []) | _ => let! x := float_of_str vals in Ok (VFloat x) end
  else if str_in att [ty_DT; ty_DM] then Ok (date2utc vals att)
  else if str_eqb att ty_IN then
    match vals with [] => Ok (VStr []) | _ => let! z := int_of_str vals in Ok (VInt z) end
  else if str_in att [ty_LA; ty_LN] then Ok (dmm2ddd vals)
  else if str_eqb att ty_TM then Ok (time2utc vals)
  else Raise NMEATypeError.

(* nmeamessage.py:746-799 val2str *)
Definition val2str (val : pyval) (att : pystr) (hpmode : bool) : result pystr :=
  if text_type att then str_of_val val
  else if str_eqb att ty_HX then str_of_val val
  else if str_eqb att ty_DE then str_of_val val
  else if str_eqb att ty_IN then str_of_val val
  else if str_in att [ty_LA; ty_LN] then ddd2dmm val att hpmode
  else if str_eqb att ty_TM then
    match val with
    | VStr s => Ok (remove_char 58 s)
    | _ => Ok (time2str val)
    end
  else if str_eqb att ty_DT then
    match val with
    | VStr s => let v := remove_char 45 s in Ok (slice 6 8 v ++ slice 4 6 v ++ slice 2 4 v)
    | _ => Ok (date2str val att)
    end
  else if str_eqb att ty_DTL then
    match val with
    | VStr s => let v := remove_char 45 s in Ok (slice 6 8 v ++ slice 4 6 v ++ slice 0 4 v)
    | _ => Ok (date2str val att)
    end
  else if str_eqb att ty_DM then
    match val with
    | VStr s => let v := remove_char 45 s in Ok (slice 4 6 v ++ slice 6 8 v ++ slice 2 4 v)
    | _ => Ok (date2str val att)
    end
  else Raise NMEATypeError.

(* the system clock: reading number n of datetime.now(timezone.utc) *)
(* nmeamessage.py:825-828 *)
Definition clock := nat -> date * time.

(* nmeamessage.py:801-838 nomval; [now] is the clock reading at this call *)
Definition nomval (att : pystr) (msgmode : Z) (now : date * time) : result pyval :=
  if str_in att [ty_CH; ty_ST; ty_LA; ty_LN] then Ok (VStr [])
  else if str_eqb att ty_LAD then Ok (VStr (u "N"))
  else if str_eqb att ty_LND then Ok (VStr (u "E"))
  else if str_eqb att ty_HX then Ok (VStr (u "0"))
  else if str_eqb att ty_DE then Ok (VFloat fzero)
  else if str_eqb att ty_IN then Ok (VInt 0)
  else if str_eqb att ty_TM then Ok (VTime (snd now))
  else if str_in att [ty_DT; ty_DTL; ty_DM] then Ok (VDate (fst now))
  else if str_eqb att ty_QS then
    Ok (VStr (if msgmode =? POLL then u "R" else if msgmode =? SET then u "W" else u "OK"))
  else Raise NMEATypeError.

(* ------------------------------------------------- attribute processing *)

(* what stays fixed while __init__ runs _do_attributes *)
(* nmeamessage.py:153-203 *)
Record ctx := mkctx {
  x_talker : pystr; x_msgID : pystr; x_mode : Z; x_hp : bool; x_validate : Z;
  x_userdefined : userdefs; x_defsource : defsource;
  x_streaming : bool; x_kwargs : kwargs; x_clock : clock }.

(* what changes: pindex (threaded through the calls), public attributes, payload *)
(* nmeamessage.py:153-203 *)
Record ast := mkast { a_pindex : nat; a_attrs : list (pystr * pyval); a_payload : list pystr }.

(* names of NMEAMessage's read-only properties: setattr raises AttributeError *)
(* nmeamessage.py:638-710 *)
Definition property_names : list pystr :=
  [u "identity"; u "talker"; u "msgID"; u "msgmode"; u "payload"; u "checksum"].

(* nmeamessage.py:638-655 identity; msgId that is not a str cannot be concatenated *)
Definition identity_of (talker msgID : pystr) (attrs : list (pystr * pyval)) : result pystr :=
  if str_eqb talker (u "P") && str_in msgID NMEA_PREFIX_PROP then
    match lookup (u "msgId") attrs with
    | Some (VStr s) => Ok (talker ++ msgID ++ s)
    | Some _ => Raise TypeError
    | None => Ok (talker ++ msgID)
    end
  else Ok (talker ++ msgID).

(* nmeamessage.py:617-622 __setattr__ during initialisation *)
Definition setattr (keyr : pystr) (val : pyval) (s : ast) : result ast :=
  if str_in keyr property_names then Raise AttributeError
  else Ok (mkast (a_pindex s) (dict_set keyr val (a_attrs s)) (a_payload s)).

(* nmeamessage.py:234-237: suffix for each level of nesting *)
Definition suffix (gindex : list N) : pystr := flat_map (fun i => 95%N :: fmt_02d i) gindex.

(* isinstance(v, (int, float)) and v < 0 *)
(* nmeamessage.py:217-283 *)
Definition numeric (v : pyval) : bool :=
  match v with VInt _ | VFloat _ | VBool _ => true | _ => false end.
(* nmeamessage.py:217-283 *)
Definition negative (v : pyval) : bool :=
  match v with VInt z => z <? 0 | VFloat x => fltb x fzero | _ => false end.
(* abs(v), -abs(v) *)
(* nmeamessage.py:217-283 *)
Definition val_abs (v : pyval) : pyval :=
  match v with
  | VInt z => VInt (Z.abs z) | VFloat x => VFloat (fabs x) | VBool b => VInt (val_of_bool b)
  | _ => v end.
(* nmeamessage.py:217-283 *)
Definition val_negabs (v : pyval) : pyval :=
  match v with
  | VInt z => VInt (- Z.abs z) | VFloat x => VFloat (fopp (fabs x))
  | VBool b => VInt (- val_of_bool b) | _ => v end.

(* nmeamessage.py:217-283 *)
Definition n_lat := u "lat".   Definition n_lon := u "lon".

(* nmeamessage.py:273-280: override of the sign of lat/lon *)
Definition override_sign (att : pystr) (val : pyval) (attrs : list (pystr * pyval)) : list (pystr * pyval) :=
  let is c := match val with VStr s => str_eqb s (u c) | _ => false end in
  if str_eqb att ty_LND && has_key n_lon attrs then
    match lookup n_lon attrs with
    | Some v => if numeric v then dict_set n_lon (if is "W"%string then val_negabs v else val_abs v) attrs else attrs
    | None => attrs
    end
  else if str_eqb att ty_LAD && has_key n_lat attrs then
    match lookup n_lat attrs with
    | Some v => if numeric v then dict_set n_lat (if is "S"%string then val_negabs v else val_abs v) attrs else attrs
    | None => attrs
    end
  else attrs.

(* nmeamessage.py:241-248, streaming branch: the payload after removal of the
   SSNSNC delimiters, and the raw field (IndexError if there is none) *)
Definition fetch (c : ctx) (s : ast) : result (list pystr * pystr) :=
  let! ident := identity_of (x_talker c) (x_msgID c) (a_attrs s) in
  let! f := py_index (a_payload s) (a_pindex s) in
  if str_eqb ident (u "PSSNSNC") then
    let f' := remove_char 93 (remove_char 91 f) in
    Ok (list_set (a_payload s) (a_pindex s) f', f')
  else Ok (a_payload s, f).

(* nmeamessage.py:252-263, keyword branch: the value of the attribute *)
Definition supply (c : ctx) (att keyr : pystr) (s : ast) : result pyval :=
  if str_eqb att ty_LND && has_key n_lon (a_attrs s) then
    match lookup n_lon (a_attrs s) with
    | Some v => Ok (VStr (if numeric v && negative v then u "W" else u "E"))
    | None => Ok (VStr (u "E"))
    end
  else if str_eqb att ty_LAD && has_key n_lat (a_attrs s) then
    match lookup n_lat (a_attrs s) with
    | Some v => Ok (VStr (if numeric v && negative v then u "S" else u "N"))
    | None => Ok (VStr (u "N"))
    end
  else
    let! nom := nomval att (x_mode c) (x_clock c (length (a_payload s))) in
    Ok (match lookup keyr (x_kwargs c) with Some v => v | None => nom end).

(* nmeamessage.py:217-283 _set_attribute_single.  IndexError in the try block
   (only the payload index can raise it) leaves everything unchanged. *)
Definition set_single (c : ctx) (att key : pystr) (gindex : list N) (s : ast) : result ast :=
  let keyr := key ++ suffix gindex in
  if x_streaming c then
    match fetch c s with
    | Raise IndexError => Ok s
    | Raise e => Raise e
    | Ok (pl, f) =>
        let! val := str2val f att in
        let! s1 := setattr keyr val (mkast (a_pindex s) (a_attrs s) pl) in
        Ok (mkast (S (a_pindex s)) (override_sign att val (a_attrs s1)) (a_payload s1))
    end
  else
    let! val := supply c att keyr s in
    let! vals := val2str val att (x_hp c) in
    let! s1 := setattr keyr val (mkast (a_pindex s) (a_attrs s) (a_payload s ++ [vals])) in
    Ok (mkast (S (a_pindex s)) (a_attrs s1) (a_payload s1)).

(* getattr(self, numr) followed by range(): an int (or bool), else
   AttributeError / TypeError.  Private int/bool attributes and msgmode are reachable by name. *)
(* nmeamessage.py:193-203 *)
Definition getattr_num (c : ctx) (name : pystr) (s : ast) : result Z :=
  if str_eqb name (u "msgmode") then Ok (x_mode c)
  else match lookup name (a_attrs s) with
  | Some (VInt z) => Ok z
  | Some (VBool b) => Ok (val_of_bool b)
  | Some _ => Raise TypeError
  | None =>
      if str_eqb name (u "_mode") then Ok (x_mode c)
      else if str_eqb name (u "_validate") then Ok (x_validate c)
      else if str_eqb name (u "_defsource") then Ok (defsource_num (x_defsource c))
      else if str_eqb name (u "_immutable") then Ok 0
      else if str_eqb name (u "_hpnmeamode") then Ok (val_of_bool (x_hp c))
      else if str_eqb name (u "_streaming") then Ok (val_of_bool (x_streaming c))
      else Raise AttributeError
  end.

(* nmeamessage.py:557-573 _calc_num_repeats with pindexend = 0.  int(a / b) is
   truncation of the exact quotient (payloads shorter than 2^53 fields). *)
Definition calc_num_repeats (attd : pdict) (payload : list pystr) (pindex : nat) : result Z :=
  match attd with
  | [] => Raise ZeroDivisionError
  | _ => Ok (Z.quot (Z.of_nat (length payload) - Z.of_nat pindex) (Z.of_nat (length attd)))
  end.

(* nmeamessage.py:193-203: number of repeats *)
Definition group_count (c : ctx) (n : numr) (attd : pdict) (s : ast) : result Z :=
  match n with
  | NInt z => Ok z
  | NStr name =>
      if str_eqb name (u "None") then
        (if x_streaming c then calc_num_repeats attd (a_payload s) (a_pindex s)
         else groupsize (map fst (x_kwargs c)))
      else getattr_num c name s
  end.

(* for i in range(n): body (i+1) *)
(* nmeamessage.py:193-215 *)
Fixpoint repeat_from (n : nat) (i : N) (body : N -> ast -> result ast) (s : ast) : result ast :=
  match n with
  | O => Ok s
  | S n' => let! s' := body i s in repeat_from n' (N.succ i) body s'
  end.

(* nmeamessage.py:153-215 _set_attribute and _set_attribute_group; gindex holds the
   current index of each enclosing group *)
Fixpoint set_attribute (c : ctx) (a : adef) (key : pystr) (gindex : list N) (s : ast) {struct a} : result ast :=
  match a with
  | ASingle att => set_single c att key gindex s
  | AGroup n members =>
      let! rng := group_count c n members s in
      repeat_from (Z.to_nat rng) 1
        (fun i s0 =>
           (fix go (l : list (pystr * adef)) (s1 : ast) {struct l} : result ast :=
              match l with
              | [] => Ok s1
              | (k, d) :: l' => let! s2 := set_attribute c d k (gindex ++ [i]) s1 in go l' s2
              end) members s0) s
  end.

(* nmeamessage.py:132-135: the loop over the definition *)
Fixpoint set_members (c : ctx) (l : pdict) (gindex : list N) (s : ast) : result ast :=
  match l with
  | [] => Ok s
  | (k, d) :: l' => let! s' := set_attribute c d k gindex s in set_members c l' gindex s'
  end.

(* nmeamessage.py:285-293 _set_attribute_nominal *)
Fixpoint set_nominal (i : N) (l : list pystr) (s : ast) : result ast :=
  match l with
  | [] => Ok s
  | f :: l' => let! s' := setattr (u "field_" ++ fmt_02d i) (VStr f) s in set_nominal (N.succ i) l' s'
  end.

(* ------------------------------------------------- definition selection *)

(* nmeamessage.py:375-496 *)
Definition kw_has (n : string) (kw : kwargs) : bool := has_key (u n) kw.
(* kwargs.get(name, 1) == 0 *)
(* nmeamessage.py:445, 490 *)
Definition kw_is_zero (n : string) (kw : kwargs) : bool :=
  match lookup (u n) kw with
  | Some (VInt z) => z =? 0
  | Some (VFloat x) => is_zero x
  | Some (VBool b) => negb b
  | _ => false
  end.

(* nmeamessage.py:538-555 *)
Definition qtmacknak (key : pystr) (mode : Z) (payload : list pystr) : pystr :=
  if mode =? GET then
    match payload with
    | [a] => if str_eqb a (u "OK") then u "QTMACK" else key
    | [a; _] => if str_eqb a (u "ERROR") then u "QTMNAK" else key
    | _ => key
    end
  else key.

(* nmeamessage.py:372-398 *)
Definition qtmcfguart (key : pystr) (mode : Z) (py : bool) (lp : nat) (kw : kwargs) : pystr :=
  let pt := kw_has "portid" kw in
  if mode =? SET then
    let bd := kw_has "baudrate" kw in
    let db := kw_has "databit" kw in
    if (py && Nat.eqb lp 2) || (negb py && negb pt && bd && negb db) then key ++ u "_CURRBAUD"
    else if (py && Nat.eqb lp 3) || (negb py && pt && bd && negb db) then key ++ u "_BAUD"
    else if (py && Nat.eqb lp 6) || (negb py && negb pt && bd && db) then key ++ u "_CURR"
    else key
  else if mode =? POLL then
    if (py && Nat.eqb lp 1) || (negb py && negb pt) then key ++ u "_CURR" else key
  else key.

(* nmeamessage.py:400-429 *)
Definition qtmcfgmsgrate (key : pystr) (mode : Z) (py : bool) (lp : nat) (kw : kwargs) : pystr :=
  let mv := kw_has "msgver" kw in
  let pt := kw_has "porttype" kw in
  if (mode =? SET) || (mode =? GET) then
    if (py && Nat.eqb lp 3) || (negb py && negb pt && negb mv) then key ++ u "_NOVER"
    else if (py && Nat.eqb lp 5) || (negb py && pt && negb mv) then key ++ u "_INTFNOVER"
    else if (py && Nat.eqb lp 6) || (negb py && pt && mv) then key ++ u "_INTF"
    else key
  else if mode =? POLL then
    if (py && Nat.eqb lp 2) || (negb py && negb pt && negb mv) then key ++ u "_NOVER"
    else if (py && Nat.eqb lp 4) || (negb py && pt && negb mv) then key ++ u "_INTFNOVER"
    else if (py && Nat.eqb lp 5) || (negb py && pt && mv) then key ++ u "_INTF"
    else key
  else key.

(* nmeamessage.py:431-447 *)
Definition qtmcfgpps (key : pystr) (mode : Z) (py : bool) (lp : nat) (kw : kwargs) : pystr :=
  if mode =? SET then
    if (py && Nat.eqb lp 3) || (negb py && kw_is_zero "enable" kw) then key ++ u "_DIS" else key
  else key.

(* nmeamessage.py:449-471 *)
Definition qtmcfgsat (key : pystr) (mode : Z) (py : bool) (payload : list pystr) (kw : kwargs) : pystr :=
  let lp := length payload in
  let mh := kw_has "maskhigh" kw in
  if mode =? SET then
    if (py && Nat.eqb lp 4) || (negb py && negb mh) then key ++ u "_LOW" else key
  else if mode =? GET then
    if (py && Nat.eqb lp 4) || (negb py && negb mh) then key ++ u "_LOW"
    else if Nat.eqb lp 1 || Nat.eqb lp 2 then qtmacknak key mode payload else key
  else key.

(* nmeamessage.py:473-497 *)
Definition qtmcfggeofence (key : pystr) (mode : Z) (py : bool) (payload : list pystr) (kw : kwargs) : pystr :=
  let lp := length payload in
  let l1 := kw_has "lon1" kw in
  if mode =? SET then
    if (py && Nat.eqb lp 13) || (negb py && l1) then key ++ u "_POLY"
    else if (py && Nat.eqb lp 3) || (negb py && kw_is_zero "geofencemode" kw) then key ++ u "_DIS"
    else key
  else if mode =? GET then
    if (py && Nat.eqb lp 13) || (negb py && l1) then key ++ u "_POLY"
    else if Nat.eqb lp 1 || Nat.eqb lp 2 then qtmacknak key mode payload else key
  else key.

(* nmeamessage.py:499-514 *)
Definition qtmsn (key : pystr) (mode : Z) (py : bool) (payload : list pystr) : result pystr :=
  if (mode =? GET) && py then
    let! f := py_index payload 0 in
    Ok (if str_isnumeric f then key ++ u "_ALT" else key)
  else Ok key.

(* nmeamessage.py:516-536 *)
Definition stmdrsenmsg (key : pystr) (py : bool) (payload : list pystr) (kw : kwargs) : result pystr :=
  let! mt := if py then py_index payload 0
             else match lookup (u "msgtype") kw with
                  | Some v => str_of_val v
                  | None => Ok []
                  end in
  Ok (key ++ u "_" ++ mt).

(* nmeamessage.py:340-364: the variant key.  The helpers have parameters called
   "key" and "mode", so keyword arguments of these names are a TypeError. *)
Definition prop_key (key : pystr) (mode : Z) (py : bool) (payload : list pystr) (kw : kwargs) : result pystr :=
  if kw_has "key" kw then Raise TypeError
  else
    let guard (r : result pystr) := if kw_has "mode" kw then Raise TypeError else r in
    if str_eqb key (u "QTMCFGGEOFENCE") then guard (Ok (qtmcfggeofence key mode py payload kw))
    else if str_eqb key (u "QTMCFGMSGRATE") then guard (Ok (qtmcfgmsgrate key mode py (length payload) kw))
    else if str_eqb key (u "QTMCFGPPS") then guard (Ok (qtmcfgpps key mode py (length payload) kw))
    else if str_eqb key (u "QTMCFGSAT") then guard (Ok (qtmcfgsat key mode py payload kw))
    else if str_eqb key (u "QTMCFGUART") then guard (Ok (qtmcfguart key mode py (length payload) kw))
    else if str_eqb key (u "QTMSN") then guard (qtmsn key mode py payload)
    else if str_eqb key (u "STMDRSENMSG") then guard (stmdrsenmsg key py payload kw)
    else if str_eqb (firstn 3 key) (u "QTM") then Ok (qtmacknak key mode payload)
    else Ok key.

(* nmeamessage.py:327-335, 366-373 *)
Definition of_lookup (o : option pdict) : result pdict :=
  match o with Some d => Ok d | None => Raise KeyError end.

(* nmeamessage.py:366-370 *)
Definition prop_table (mode : Z) : list (pystr * pdict) :=
  if mode =? POLL then NMEA_PAYLOADS_POLL_PROP
  else if mode =? SET then NMEA_PAYLOADS_SET_PROP else NMEA_PAYLOADS_GET_PROP.
(* nmeamessage.py:327-332 *)
Definition std_table (mode : Z) : list (pystr * pdict) :=
  if mode =? POLL then NMEA_PAYLOADS_POLL
  else if mode =? SET then NMEA_PAYLOADS_SET else NMEA_PAYLOADS_GET.

(* nmeamessage.py:304-320: the definition key *)
Definition dict_key (c : ctx) (payload : list pystr) : result pystr :=
  let key := x_msgID c in
  let! key :=
    if str_in key NMEA_PREFIX_PROP then
      if x_streaming c then
        let! bare := if str_eqb key (u "ASHR")
                     then let! f := py_index payload 0 in
                          let! ch := py_index f 1 in Ok (chr_isdigit ch)
                     else Ok false in
        if bare : bool then Ok key
        else let! f := py_index payload 0 in Ok (key ++ f)
      else match lookup (u "msgId") (x_kwargs c) with
           | Some (VStr m) => Ok (key ++ m)
           | Some _ => Raise TypeError
           | None => Raise NMEAMessageError
           end
    else Ok key in
  Ok (str_upper key).

(* nmeamessage.py:295-338 _get_dict; None = definition not found *)
Definition get_dict (c : ctx) (payload : list pystr) : result (option pdict) :=
  let r :=
    let! key := dict_key c payload in
    match x_defsource c with
    | DEF_PROP =>
        let! k := prop_key key (x_mode c) (x_streaming c) payload (x_kwargs c) in
        of_lookup (lookup k (prop_table (x_mode c)))
    | DEF_USER => of_lookup (lookup key (x_userdefined c))
    | _ => of_lookup (lookup key (std_table (x_mode c)))
    end in
  match r with
  | Ok d => Ok (Some d)
  | Raise KeyError => if has_flag (x_validate c) VALMSGID then Raise NMEAMessageError else Ok None
  | Raise e => Raise e
  end.

(* nmeamessage.py:142-151: exceptions turned into NMEATypeError *)
Definition type_errors {A} (r : result A) : result A :=
  match r with
  | Raise AttributeError | Raise OverflowError | Raise TypeError | Raise ValueError
  | Raise UnicodeEncodeError => Raise NMEATypeError
  | _ => r
  end.

(* _set_attribute(pindex, pdict, key, gindex, **kwargs) and
   _set_attribute_group/single(att, ...): keyword arguments with these names are a TypeError *)
(* nmeamessage.py:153-215 *)
Definition clash_names : list pystr :=
  [u "pindex"; u "pdict"; u "key"; u "gindex"; u "att"].
(* nmeamessage.py:153-215, 375-536 *)
Definition kw_clash (kw : kwargs) : bool := existsb (fun n => has_key n kw) clash_names.

(* nmeamessage.py:111-151 _do_attributes; result = (attributes, payload, checksum) *)
Definition do_attributes (c : ctx) (payload0 : list pystr) (cksum : option pystr)
  : result (list (pystr * pyval) * list pystr * option pystr) :=
  type_errors (
    let! pd := get_dict c payload0 in
    let s0 := mkast 0 [] payload0 in
    match pd with
    | None =>
        if x_streaming c then
          let! s := set_nominal 1 payload0 s0 in
          Ok (a_attrs s, a_payload s, cksum)
        else Ok ([], payload0, cksum)
    | Some d =>
        let! s := match d with
                  | [] => Ok s0
                  | _ => if kw_clash (x_kwargs c) then Raise TypeError else set_members c d [] s0
                  end in
        let ck := match cksum with
                  | Some k => Some k
                  | None => Some (generate_checksum (x_talker c) (x_msgID c) (a_payload s))
                  end in
        Ok (a_attrs s, a_payload s, ck)
    end).

(* nmeamessage.py:84-98: source of the definition *)
Definition find_defsource (msgID : pystr) (ud : userdefs) : defsource :=
  if has_key msgID NMEA_MSGIDS then DEF_STND
  else if has_key msgID NMEA_MSGIDS_PROP || str_in msgID NMEA_PREFIX_PROP then DEF_PROP
  else if has_key msgID ud then DEF_USER
  else DEF_UNKN.

(* nmeamessage.py:42-109 __init__.  [payload] is the keyword argument of that
   name, [kw] the other keyword arguments; userdefined=None is []. *)
Definition NMEAMessage (ck : clock) (talker msgID : pystr) (msgmode : Z) (hp : bool) (validate : Z)
    (ud : userdefs) (checksum : option pystr) (payload : option (list pystr)) (kw : kwargs) : result msg :=
  if negb (valid_mode msgmode) then Raise NMEAMessageError
  else if negb (has_key talker NMEA_TALKERS) && has_flag validate VALMSGID then Raise NMEAMessageError
  else
    let ds := find_defsource msgID ud in
    match ds, has_flag validate VALMSGID with
    | DEF_UNKN, true => Raise NMEAMessageError
    | _, _ =>
        let streaming := match payload with Some _ => true | None => false end in
        let pl := match payload with Some p => p | None => [] end in
        let c := mkctx talker msgID msgmode hp validate ud ds streaming kw ck in
        let! (attrs, pl', ck') := do_attributes c pl checksum in
        Ok (mkmsg talker msgID msgmode hp validate ud ds streaming ck' pl' attrs true)
    end.

(* ------------------------------------------------------------ accessors *)

(* nmeamessage.py:638-655 *)
Definition identity (m : msg) : result pystr := identity_of (m_talker m) (m_msgID m) (m_attrs m).

(* nmeamessage.py:624-636 serialize *)
Definition cksum_text (o : option pystr) : pystr :=
  match o with Some k => k | None => u "None" end.
(* nmeamessage.py:624-636 *)
Definition serialize_text (m : msg) : pystr :=
  fold_left (fun out att => out ++ [c_comma] ++ att) (m_payload m) ([c_dollar] ++ m_talker m ++ m_msgID m)
  ++ [c_star] ++ cksum_text (m_checksum m) ++ [c_cr; c_lf].
(* nmeamessage.py:624-636 *)
Definition serialize (m : msg) : result bytes := utf8_encode (serialize_text m).

(* nmeamessage.py:575-591 __str__ *)
Fixpoint str_attrs (l : list (pystr * pyval)) : result pystr :=
  match l with
  | [] => Ok []
  | (n, v) :: l' =>
      match n with
      | [] => Raise IndexError                          (* att[0] *)
      | c0 :: _ =>
          if (c0 =? 95)%N then str_attrs l'
          else let! sv := str_of_val v in
               let! r := str_attrs l' in
               Ok (u ", " ++ n ++ u "=" ++ sv ++ r)
      end
  end.
(* nmeamessage.py:575-591 *)
Definition str_of_msg (m : msg) : result pystr :=
  let! i := identity m in
  let! a := str_attrs (m_attrs m) in
  Ok (u "<NMEA(" ++ i
      ++ (match m_defsource m with DEF_UNKN => u ", NOMINAL" | _ => [] end)
      ++ a ++ u ")>").

(* nmeamessage.py:593-606: what eval(repr(msg)) evaluates to when the text is
   read as intended; the text itself is modelled in Repr.v *)
Definition eval_repr (ck : clock) (m : msg) : result msg :=
  NMEAMessage ck (m_talker m) (m_msgID m) (m_mode m) false VALCKSUM [] None (Some (m_payload m)) [].

(* operations on a finished object: nmeamessage.py:608-622 __setattr__; del is not
   overridden; the payload property hands out the internal list *)
Inductive mop :=
| OpSet (name : pystr) (v : pyval)
| OpDel (name : pystr)
| OpPayloadSet (i : nat) (f : pystr)       (* msg.payload[i] = f *)
| OpPayloadAppend (f : pystr).             (* msg.payload.append(f) *)
(* nmeamessage.py:608-622 (what Python itself allows on the object) *)
Definition with_attrs (m : msg) (a : list (pystr * pyval)) : msg :=
  mkmsg (m_talker m) (m_msgID m) (m_mode m) (m_hp m) (m_validate m) (m_userdefined m) (m_defsource m)
        (m_streaming m) (m_checksum m) (m_payload m) a (m_immutable m).
(* nmeamessage.py:608-622 (what Python itself allows on the object) *)
Definition with_payload (m : msg) (p : list pystr) : msg :=
  mkmsg (m_talker m) (m_msgID m) (m_mode m) (m_hp m) (m_validate m) (m_userdefined m) (m_defsource m)
        (m_streaming m) (m_checksum m) p (m_attrs m) (m_immutable m).
(* nmeamessage.py:608-622 (what Python itself allows on the object) *)
Definition remove_key {A} (k : pystr) (d : list (pystr * A)) : list (pystr * A) :=
  filter (fun p => negb (str_eqb k (fst p))) d.
(* [raised, object after] *)
(* nmeamessage.py:608-622 *)
Definition mstep (m : msg) (o : mop) : option exc * msg :=
  match o with
  | OpSet n v =>
      if m_immutable m then (Some NMEAMessageError, m)
      else if str_in n property_names then (Some AttributeError, m)
      else (None, with_attrs m (dict_set n v (m_attrs m)))
  | OpDel n =>
      if has_key n (m_attrs m) then (None, with_attrs m (remove_key n (m_attrs m)))
      else (Some AttributeError, m)
  | OpPayloadSet i f =>
      if (i <? length (m_payload m))%nat then (None, with_payload m (list_set (m_payload m) i f))
      else (Some IndexError, m)
  | OpPayloadAppend f => (None, with_payload m (m_payload m ++ [f]))
  end.
