(* Specification of construction from keyword arguments.  val2str, str() of a value,
   and groupsize() (characterised by C56) are library functions; nothing else of
   the model's control flow is used. *)
From Verif Require Import Message Spec.
Local Open Scope Z_scope.

(* the nominal value of each attribute type; now = the clock *)
Definition nominal_values (mode : Z) (now : date * time) : list (pystr * pyval) :=
  [ (u "CH", VStr []); (u "ST", VStr []); (u "LA", VStr []); (u "LN", VStr []);
    (u "LAD", VStr (u "N")); (u "LND", VStr (u "E"));
    (u "HX", VStr (u "0")); (u "DE", VFloat (S754_zero false)); (u "IN", VInt 0);
    (u "TM", VTime (snd now));
    (u "DT", VDate (fst now)); (u "DTL", VDate (fst now)); (u "DM", VDate (fst now));
    (u "QS", VStr (if mode =? 2 then u "R" else if mode =? 1 then u "W" else u "OK")) ].

(* a number below zero *)
Definition below_zero (v : pyval) : bool :=
  match v with
  | VInt z => z <? 0
  | VFloat x => SFltb x (S754_zero false)
  | _ => false
  end.

(* the value of field (k, ty) when the attributes [before] have been set *)
Definition value_for (mode : Z) (now : date * time) (kw : kwargs) (before : list (pystr * pyval))
    (k ty : pystr) : option pyval :=
  match lookup ty (nominal_values mode now) with
  | None => None
  | Some nom =>
      let given := match lookup k kw with Some v => v | None => nom end in
      if str_eqb ty (u "LAD") then
        match lookup (u "lat") before with
        | Some v => Some (VStr (if below_zero v then u "S" else u "N"))
        | None => Some given
        end
      else if str_eqb ty (u "LND") then
        match lookup (u "lon") before with
        | Some v => Some (VStr (if below_zero v then u "W" else u "E"))
        | None => Some given
        end
      else Some given
  end.

Section Building.
  Variables (ck : clock) (mode : Z) (hp : bool) (kw : kwargs).

  (* slots filled one after the other: attributes and field texts *)
  Inductive fills : list (pystr * pyval) -> list slot -> list (pystr * pyval) -> list pystr -> Prop :=
  | fills_nil before : fills before [] [] []
  | fills_cons before k ty sl v f attrs fields :
      value_for mode (ck (length before)) kw before k ty = Some v -> val2str v ty hp = Ok f ->
      fills (before ++ [(k, v)]) sl attrs fields ->
      fills before ((k, ty) :: sl) ((k, v) :: attrs) (f :: fields).

  (* number of repeats of a group *)
  Definition kw_repeats (before : list (pystr * pyval)) (n : numr) (cnt : nat) : Prop :=
    match n with
    | NInt z => cnt = Z.to_nat z
    | NStr name => if str_eqb name (u "None") then exists z, groupsize (map fst kw) = Ok z /\ cnt = Z.to_nat z
                   else exists z, int_attr before name = Some z /\ cnt = Z.to_nat z
    end.

  (* a definition filled from its beginning *)
  Inductive builds : list (pystr * pyval) -> pdict -> list (pystr * pyval) -> list pystr -> Prop :=
  | builds_nil before : builds before [] [] []
  | builds_single before k ty d v f attrs fields :
      value_for mode (ck (length before)) kw before k ty = Some v -> val2str v ty hp = Ok f ->
      builds (before ++ [(k, v)]) d attrs fields ->
      builds before ((k, ASingle ty) :: d) ((k, v) :: attrs) (f :: fields)
  | builds_group before k n ms d cnt a1 f1 a2 f2 :
      kw_repeats before n cnt -> fills before (group_slots cnt 1 ms) a1 f1 ->
      builds (before ++ a1) d a2 f2 ->
      builds before ((k, AGroup n ms) :: d) (a1 ++ a2) (f1 ++ f2).
End Building.

(* ------------------------------------------- which definition is used *)
(* id, mode, keywords that are given, keywords that are not given, definition *)
Definition keyword_variants : list (pystr * Z * list pystr * list pystr * pystr) :=
  [ (u "QTMCFGUART", 1, [u "baudrate"], [u "portid"; u "databit"], u "QTMCFGUART_CURRBAUD");
    (u "QTMCFGUART", 1, [u "baudrate"; u "portid"], [u "databit"], u "QTMCFGUART_BAUD");
    (u "QTMCFGUART", 1, [u "baudrate"; u "databit"], [u "portid"], u "QTMCFGUART_CURR");
    (u "QTMCFGUART", 2, [], [u "portid"], u "QTMCFGUART_CURR");
    (u "QTMCFGMSGRATE", 0, [], [u "porttype"; u "msgver"], u "QTMCFGMSGRATE_NOVER");
    (u "QTMCFGMSGRATE", 0, [u "porttype"], [u "msgver"], u "QTMCFGMSGRATE_INTFNOVER");
    (u "QTMCFGMSGRATE", 0, [u "porttype"; u "msgver"], [], u "QTMCFGMSGRATE_INTF");
    (u "QTMCFGMSGRATE", 1, [], [u "porttype"; u "msgver"], u "QTMCFGMSGRATE_NOVER");
    (u "QTMCFGMSGRATE", 1, [u "porttype"], [u "msgver"], u "QTMCFGMSGRATE_INTFNOVER");
    (u "QTMCFGMSGRATE", 1, [u "porttype"; u "msgver"], [], u "QTMCFGMSGRATE_INTF");
    (u "QTMCFGMSGRATE", 2, [], [u "porttype"; u "msgver"], u "QTMCFGMSGRATE_NOVER");
    (u "QTMCFGMSGRATE", 2, [u "porttype"], [u "msgver"], u "QTMCFGMSGRATE_INTFNOVER");
    (u "QTMCFGMSGRATE", 2, [u "porttype"; u "msgver"], [], u "QTMCFGMSGRATE_INTF");
    (u "QTMCFGSAT", 0, [], [u "maskhigh"], u "QTMCFGSAT_LOW");
    (u "QTMCFGSAT", 1, [], [u "maskhigh"], u "QTMCFGSAT_LOW");
    (u "QTMCFGGEOFENCE", 0, [u "lon1"], [], u "QTMCFGGEOFENCE_POLY");
    (u "QTMCFGGEOFENCE", 1, [u "lon1"], [], u "QTMCFGGEOFENCE_POLY") ].
Definition zero_value (v : option pyval) : bool :=
  match v with
  | Some (VInt 0) | Some (VBool false) | Some (VFloat (S754_zero _)) => true
  | _ => false
  end.

(* None: the msgtype has no text (an integer with more than 4300 digits) *)
Definition keyword_variant (key : pystr) (mode : Z) (kw : kwargs) : option pystr :=
  match find (fun r => let '(k, m, yes, no, _) := r in
                       str_eqb k key && (m =? mode) && forallb (fun n => has_key n kw) yes
                       && forallb (fun n => negb (has_key n kw)) no) keyword_variants with
  | Some (_, _, _, _, name) => Some name
  | None =>
      if str_eqb key (u "QTMCFGPPS") && (mode =? 1) && zero_value (lookup (u "enable") kw)
      then Some (u "QTMCFGPPS_DIS")
      else if str_eqb key (u "QTMCFGGEOFENCE") && (mode =? 1) && zero_value (lookup (u "geofencemode") kw)
      then Some (u "QTMCFGGEOFENCE_DIS")
      else if str_eqb key (u "STMDRSENMSG") then
        match lookup (u "msgtype") kw with
        | None => Some (u "STMDRSENMSG_")
        | Some v => match str_of_val v with Ok t => Some (u "STMDRSENMSG_" ++ t) | Raise _ => None end
        end
      else Some key
  end.

(* the id under which the definition is looked up; None: prefix without a textual msgId *)
Definition keyword_id (msgid : pystr) (kw : kwargs) : option pystr :=
  if str_in msgid prefixes then
    match lookup (u "msgId") kw with
    | Some (VStr s) => Some (str_upper (msgid ++ s))
    | _ => None
    end
  else Some (str_upper msgid).

(* ids whose keyword arguments select a definition *)
Definition special_ids : list pystr :=
  [u "QTMCFGGEOFENCE"; u "QTMCFGMSGRATE"; u "QTMCFGPPS"; u "QTMCFGSAT"; u "QTMCFGUART"; u "QTMSN"; u "STMDRSENMSG"].

Definition keyword_definition (mode : Z) (ud : userdefs) (msgid : pystr) (kw : kwargs) : option pdict :=
  match keyword_id msgid kw with
  | None => None
  | Some key =>
      if has_key msgid NMEA_MSGIDS then lookup key (definitions_standard mode)
      else if has_key msgid NMEA_MSGIDS_PROP || str_in msgid prefixes then
        match keyword_variant key mode kw with
        | Some k => lookup k (definitions_proprietary mode)
        | None => None
        end
      else if has_key msgid ud then lookup key ud
      else lookup key (definitions_standard mode)
  end.

(* parameter names of the constructor's helpers: such a keyword cannot be passed on *)
Definition reserved (msgid : pystr) : list pystr :=
  [u "pindex"; u "pdict"; u "key"; u "gindex"; u "att"]
  ++ (if str_in msgid special_ids then [u "mode"] else []).

(* ------------------------------------------------- shape of definitions *)
(* a named repeat count refers to an integer attribute that precedes the group *)
Fixpoint counts_earlier (earlier : list slot) (d : pdict) : Prop :=
  match d with
  | [] => True
  | (k, ASingle ty) :: d' => counts_earlier (earlier ++ [(k, ty)]) d'
  | (_, AGroup (NStr name) _) :: d' => (name = u "None" \/ In (name, u "IN") earlier) /\ counts_earlier earlier d'
  | (_, AGroup (NInt _) _) :: d' => counts_earlier earlier d'
  end.
(* what follows an indeterminate group is shorter than one repeat of it *)
Fixpoint short_tail (d : pdict) : Prop :=
  match d with
  | [] => True
  | (_, AGroup (NStr name) ms) :: d' =>
      (name = u "None" -> plain d' /\ (length d' < length ms)%nat) /\ short_tail d'
  | _ :: d' => short_tail d'
  end.
(* a definition in good order (proved of every built-in definition, C54) *)
Definition in_order (d : pdict) : Prop := well_formed d /\ no_clash d /\ counts_earlier [] d /\ short_tail d.

(* the attribute types of NMEA payload definitions *)
Definition attribute_types : list pystr :=
  [u "CH"; u "DE"; u "DT"; u "DTL"; u "DM"; u "HX"; u "IN"; u "LA"; u "LAD"; u "LN"; u "LND"; u "QS"; u "ST"; u "TM"].
Definition types_in (l : list pystr) (d : pdict) : Prop :=
  forall sl, expands d sl -> Forall (fun s => In (snd s) l) sl.

(* the names used as repeat counts *)
Definition count_names (d : pdict) : list pystr :=
  flat_map (fun e => match snd e with
                     | AGroup (NStr n) _ => if str_eqb n (u "None") then [] else [n]
                     | _ => []
                     end) d.
