(* Model of nmeamessage.py for a payload= list whose items need not be texts (tests/test_constructor.py:252-276 passes
   ints): the streaming branches of the constructor, serialize() and str() again, with the list of
   Message.v replaced by a list of values.
   SIMPLIFICATION: items are str, int, float, bool, None, date, time or naive datetime. *)
From Verif Require Import Message.
Local Open Scope Z_scope.

(* float(v) *)
(* nmeamessage.py:732 *)
Definition py_float (v : pyval) : result fl :=
  match v with
  | VStr s => float_of_str s
  | VInt z => f_of_Z z
  | VFloat x => Ok x
  | VBool b => f_of_Z (val_of_bool b)
  | _ => Raise TypeError
  end.
(* int(v) *)
(* nmeamessage.py:737 *)
Definition py_int (v : pyval) : result Z :=
  match v with
  | VStr s => int_of_str s
  | VInt z => Ok z
  | VFloat x => int_of_float x
  | VBool b => Ok (val_of_bool b)
  | _ => Raise TypeError
  end.
(* v != "" *)
(* nmeamessage.py:731, 736 *)
Definition not_empty (v : pyval) : bool := match v with VStr [] => false | _ => true end.

(* nmeamessage.py:712-744 str2val.  For an item that is not a text: strptime and len raise TypeError, which
   date2utc and time2utc catch (nmeahelpers.py:184, 730); pos.find raises AttributeError, which dmm2ddd
   does not (nmeahelpers.py:284, 290) *)
Definition item2val (v : pyval) (att : pystr) : result pyval :=
  if text_type att then Ok v
  else if str_eqb att ty_HX then Ok v
  else if str_eqb att ty_DE then
    if not_empty v then let! x := py_float v in Ok (VFloat x) else Ok v
  else if str_in att [ty_DT; ty_DM] then match v with VStr s => Ok (date2utc s att) | _ => Ok (VStr []) end
  else if str_eqb att ty_IN then
    if not_empty v then let! z := py_int v in Ok (VInt z) else Ok v
  else if str_in att [ty_LA; ty_LN] then match v with VStr s => Ok (dmm2ddd s) | _ => Raise AttributeError end
  else if str_eqb att ty_TM then match v with VStr s => Ok (time2utc s) | _ => Ok (VStr []) end
  else Raise NMEATypeError.

(* nmeamessage.py:153-203 *)
Record ist := mkist { i_pindex : nat; i_attrs : list (pystr * pyval); i_payload : list pyval }.

(* nmeamessage.py:617-622 __setattr__ during initialisation *)
Definition setattr_i (keyr : pystr) (val : pyval) (s : ist) : result ist :=
  if str_in keyr property_names then Raise AttributeError
  else Ok (mkist (i_pindex s) (dict_set keyr val (i_attrs s)) (i_payload s)).

(* nmeamessage.py:241-248: only a text has replace() *)
Definition fetch_i (c : ctx) (s : ist) : result (list pyval * pyval) :=
  let! ident := identity_of (x_talker c) (x_msgID c) (i_attrs s) in
  let! f := py_index (i_payload s) (i_pindex s) in
  if str_eqb ident (u "PSSNSNC") then
    match f with
    | VStr t => let f' := VStr (remove_char 93 (remove_char 91 t)) in Ok (list_set (i_payload s) (i_pindex s) f', f')
    | _ => Raise AttributeError
    end
  else Ok (i_payload s, f).

(* nmeamessage.py:217-283 _set_attribute_single, streaming *)
Definition set_single_i (c : ctx) (att key : pystr) (gindex : list N) (s : ist) : result ist :=
  let keyr := key ++ suffix gindex in
  match fetch_i c s with
  | Raise IndexError => Ok s
  | Raise e => Raise e
  | Ok (pl, f) =>
      let! val := item2val f att in
      let! s1 := setattr_i keyr val (mkist (i_pindex s) (i_attrs s) pl) in
      Ok (mkist (S (i_pindex s)) (override_sign att val (i_attrs s1)) (i_payload s1))
  end.

(* nmeamessage.py:193-203, 557-573: number of repeats; only the length of the list matters for an indeterminate group *)
Definition group_count_i (c : ctx) (n : numr) (attd : pdict) (s : ist) : result Z :=
  match n with
  | NInt z => Ok z
  | NStr name =>
      if str_eqb name (u "None") then
        match attd with
        | [] => Raise ZeroDivisionError
        | _ => Ok (Z.quot (Z.of_nat (length (i_payload s)) - Z.of_nat (i_pindex s)) (Z.of_nat (length attd)))
        end
      else getattr_num c name (mkast (i_pindex s) (i_attrs s) [])
  end.

(* nmeamessage.py:193-215 *)
Fixpoint repeat_i (n : nat) (i : N) (body : N -> ist -> result ist) (s : ist) : result ist :=
  match n with
  | O => Ok s
  | S n' => let! s' := body i s in repeat_i n' (N.succ i) body s'
  end.
(* nmeamessage.py:153-215 _set_attribute and _set_attribute_group *)
Fixpoint set_attribute_i (c : ctx) (a : adef) (key : pystr) (gindex : list N) (s : ist) {struct a} : result ist :=
  match a with
  | ASingle att => set_single_i c att key gindex s
  | AGroup n members =>
      let! rng := group_count_i c n members s in
      repeat_i (Z.to_nat rng) 1
        (fun i s0 =>
           (fix go (l : list (pystr * adef)) (s1 : ist) {struct l} : result ist :=
              match l with
              | [] => Ok s1
              | (k, d) :: l' => let! s2 := set_attribute_i c d k (gindex ++ [i]) s1 in go l' s2
              end) members s0) s
  end.
(* nmeamessage.py:132-135 *)
Fixpoint set_members_i (c : ctx) (l : pdict) (gindex : list N) (s : ist) : result ist :=
  match l with
  | [] => Ok s
  | (k, d) :: l' => let! s' := set_attribute_i c d k gindex s in set_members_i c l' gindex s'
  end.
(* nmeamessage.py:285-293 _set_attribute_nominal *)
Fixpoint set_nominal_i (i : N) (l : list pyval) (s : ist) : result ist :=
  match l with
  | [] => Ok s
  | f :: l' => let! s' := setattr_i (u "field_" ++ fmt_02d i) f s in set_nominal_i (N.succ i) l' s'
  end.

(* the items as far as they can be equal to a text: an item that is not a text is neither "OK" nor "ERROR" *)
(* nmeamessage.py:551-554 *)
Definition as_texts (payload : list pyval) : list pystr :=
  map (fun v => match v with VStr s => s | _ => [] end) payload.

(* nmeamessage.py:499-514: only a text has isnumeric() *)
Definition qtmsn_i (key : pystr) (mode : Z) (payload : list pyval) : result pystr :=
  if mode =? GET then
    let! f := py_index payload 0 in
    match f with VStr s => Ok (if str_isnumeric s then key ++ u "_ALT" else key) | _ => Raise AttributeError end
  else Ok key.
(* nmeamessage.py:516-536: f"_{msgtype}" takes any value *)
Definition stmdrsenmsg_i (key : pystr) (payload : list pyval) : result pystr :=
  let! f := py_index payload 0 in
  let! t := str_of_val f in
  Ok (key ++ u "_" ++ t).
(* nmeamessage.py:340-364 *)
Definition prop_key_i (key : pystr) (mode : Z) (payload : list pyval) (kw : kwargs) : result pystr :=
  if kw_has "key" kw then Raise TypeError
  else
    let guard (r : result pystr) := if kw_has "mode" kw then Raise TypeError else r in
    if str_eqb key (u "QTMCFGGEOFENCE") then guard (Ok (qtmcfggeofence key mode true (as_texts payload) kw))
    else if str_eqb key (u "QTMCFGMSGRATE") then guard (Ok (qtmcfgmsgrate key mode true (length payload) kw))
    else if str_eqb key (u "QTMCFGPPS") then guard (Ok (qtmcfgpps key mode true (length payload) kw))
    else if str_eqb key (u "QTMCFGSAT") then guard (Ok (qtmcfgsat key mode true (as_texts payload) kw))
    else if str_eqb key (u "QTMCFGUART") then guard (Ok (qtmcfguart key mode true (length payload) kw))
    else if str_eqb key (u "QTMSN") then guard (qtmsn_i key mode payload)
    else if str_eqb key (u "STMDRSENMSG") then guard (stmdrsenmsg_i key payload)
    else if str_eqb (firstn 3 key) (u "QTM") then Ok (qtmacknak key mode (as_texts payload))
    else Ok key.
(* nmeamessage.py:304-320: subscripting an item that is not a text, or adding it to one, is a TypeError *)
Definition dict_key_i (c : ctx) (payload : list pyval) : result pystr :=
  let key := x_msgID c in
  let! key :=
    if str_in key NMEA_PREFIX_PROP then
      let! f := py_index payload 0 in
      match f with
      | VStr t =>
          let! bare := if str_eqb key (u "ASHR") then let! ch := py_index t 1 in Ok (chr_isdigit ch) else Ok false in
          if bare : bool then Ok key else Ok (key ++ t)
      | _ => Raise TypeError
      end
    else Ok key in
  Ok (str_upper key).
(* nmeamessage.py:295-338 _get_dict *)
Definition get_dict_i (c : ctx) (payload : list pyval) : result (option pdict) :=
  let r :=
    let! key := dict_key_i c payload in
    match x_defsource c with
    | DEF_PROP =>
        let! k := prop_key_i key (x_mode c) payload (x_kwargs c) in
        of_lookup (lookup k (prop_table (x_mode c)))
    | DEF_USER => of_lookup (lookup key (x_userdefined c))
    | _ => of_lookup (lookup key (std_table (x_mode c)))
    end in
  match r with
  | Ok d => Ok (Some d)
  | Raise KeyError => if has_flag (x_validate c) VALMSGID then Raise NMEAMessageError else Ok None
  | Raise e => Raise e
  end.

(* f",{field}" for every item *)
(* nmeahelpers.py:420-422 *)
Fixpoint texts_of (payload : list pyval) : result (list pystr) :=
  match payload with
  | [] => Ok []
  | v :: r => let! t := str_of_val v in let! ts := texts_of r in Ok (t :: ts)
  end.

(* nmeamessage.py:111-151 _do_attributes *)
Definition do_attributes_i (c : ctx) (payload0 : list pyval) (cksum : option pystr)
  : result (list (pystr * pyval) * list pyval * option pystr) :=
  type_errors (
    let! pd := get_dict_i c payload0 in
    let s0 := mkist 0 [] payload0 in
    match pd with
    | None =>
        let! s := set_nominal_i 1 payload0 s0 in
        Ok (i_attrs s, i_payload s, cksum)
    | Some d =>
        let! s := match d with
                  | [] => Ok s0
                  | _ => if kw_clash (x_kwargs c) then Raise TypeError else set_members_i c d [] s0
                  end in
        match cksum with
        | Some k => Ok (i_attrs s, i_payload s, Some k)
        | None =>
            let! ts := texts_of (i_payload s) in
            Ok (i_attrs s, i_payload s, Some (generate_checksum (x_talker c) (x_msgID c) ts))
        end
    end).

(* the object; the parts that do not depend on the payload are as in Message.v *)
(* nmeamessage.py:42-109 *)
Record imsg := mkimsg {
  y_talker : pystr; y_msgID : pystr; y_mode : Z; y_defsource : defsource;
  y_checksum : option pystr; y_payload : list pyval; y_attrs : list (pystr * pyval) }.

(* nmeamessage.py:42-109 __init__ with payload= *)
Definition NMEAMessage_i (ck : clock) (talker msgID : pystr) (msgmode : Z) (hp : bool) (validate : Z)
    (ud : userdefs) (checksum : option pystr) (payload : list pyval) (kw : kwargs) : result imsg :=
  if negb (valid_mode msgmode) then Raise NMEAMessageError
  else if negb (has_key talker NMEA_TALKERS) && has_flag validate VALMSGID then Raise NMEAMessageError
  else
    let ds := find_defsource msgID ud in
    match ds, has_flag validate VALMSGID with
    | DEF_UNKN, true => Raise NMEAMessageError
    | _, _ =>
        let c := mkctx talker msgID msgmode hp validate ud ds true kw ck in
        let! (attrs, pl', ck') := do_attributes_i c payload checksum in
        Ok (mkimsg talker msgID msgmode ds ck' pl' attrs)
    end.

(* output += "," + att *)
(* nmeamessage.py:633-634 *)
Fixpoint joined (out : pystr) (payload : list pyval) : result pystr :=
  match payload with
  | [] => Ok out
  | VStr t :: r => joined (out ++ [c_comma] ++ t) r
  | _ => Raise TypeError
  end.
(* nmeamessage.py:624-636 serialize *)
Definition serialize_i (m : imsg) : result bytes :=
  let! out := joined ([c_dollar] ++ y_talker m ++ y_msgID m) (y_payload m) in
  utf8_encode (out ++ [c_star] ++ cksum_text (y_checksum m) ++ [c_cr; c_lf]).
(* nmeamessage.py:575-591 __str__ *)
Definition str_of_imsg (m : imsg) : result pystr :=
  let! i := identity_of (y_talker m) (y_msgID m) (y_attrs m) in
  let! a := str_attrs (y_attrs m) in
  Ok (u "<NMEA(" ++ i
      ++ (match y_defsource m with DEF_UNKN => u ", NOMINAL" | _ => [] end)
      ++ a ++ u ")>").
