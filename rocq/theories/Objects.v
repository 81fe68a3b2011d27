(* Message objects and the lists they refer to.  In the other files a message
   contains its payload; in Python it refers to a list object which can be shared
   (nmeamessage.py:126 self._payload = kwargs.get("payload", []), nmeamessage.py:690-699 payload).
   The objects of a program, and what an application can do with them. *)
From Verif Require Import Message Reader.
Local Open Scope Z_scope.

(* ------------------------------------------------ the caller's payload list *)
(* The list passed as payload= is edited in place (nmeamessage.py:241-245, PSSNSNC only) even
   if an exception follows.  The functions below repeat set_single, set_attribute and set_members of
   Message.v for streaming mode, with the contents of that list at the end beside the outcome. *)
Definition outcome_list := (result ast * list pystr)%type.
(* nmeamessage.py:241-245 (sequencing) *)
Definition and_then (r : outcome_list) (f : ast -> outcome_list) : outcome_list :=
  match r with (Ok s, _) => f s | (Raise e, l) => (Raise e, l) end.
(* nmeamessage.py:217-283 *)
Definition single_list (c : ctx) (att key : pystr) (gindex : list N) (s : ast) : outcome_list :=
  (set_single c att key gindex s, match fetch c s with Ok (pl, _) => pl | Raise _ => a_payload s end).
(* nmeamessage.py:204-213 *)
Fixpoint repeat_list (n : nat) (i : N) (body : N -> ast -> outcome_list) (s : ast) : outcome_list :=
  match n with
  | O => (Ok s, a_payload s)
  | S n' => and_then (body i s) (repeat_list n' (N.succ i) body)
  end.
(* nmeamessage.py:153-215 *)
Fixpoint attribute_list (c : ctx) (a : adef) (key : pystr) (gindex : list N) (s : ast) {struct a} : outcome_list :=
  match a with
  | ASingle att => single_list c att key gindex s
  | AGroup n members =>
      match group_count c n members s with
      | Raise e => (Raise e, a_payload s)
      | Ok rng =>
          repeat_list (Z.to_nat rng) 1
            (fun i s0 =>
               (fix go (l : list (pystr * adef)) (s1 : ast) {struct l} : outcome_list :=
                  match l with
                  | [] => (Ok s1, a_payload s1)
                  | (k, d) :: l' => and_then (attribute_list c d k (gindex ++ [i]) s1) (go l')
                  end) members s0) s
      end
  end.
(* nmeamessage.py:132-135 *)
Fixpoint members_list (c : ctx) (l : pdict) (gindex : list N) (s : ast) : outcome_list :=
  match l with
  | [] => (Ok s, a_payload s)
  | (k, d) :: l' => and_then (attribute_list c d k gindex s) (members_list c l' gindex)
  end.
(* nmeamessage.py:42-151: the contents of the list passed as payload= when the constructor returns or raises *)
Definition payload_after (ck : clock) (talker msgID : pystr) (msgmode : Z) (hp : bool) (validate : Z)
    (ud : userdefs) (payload : list pystr) (kw : kwargs) : list pystr :=
  if negb (valid_mode msgmode) then payload
  else if negb (has_key talker NMEA_TALKERS) && has_flag validate VALMSGID then payload
  else
    let ds := find_defsource msgID ud in
    match ds, has_flag validate VALMSGID with
    | DEF_UNKN, true => payload
    | _, _ =>
        let c := mkctx talker msgID msgmode hp validate ud ds true kw ck in
        match get_dict c payload with
        | Ok (Some (e :: d)) => if kw_clash kw then payload else snd (members_list c (e :: d) [] (mkast 0 [] payload))
        | _ => payload
        end
    end.

(* -------------------------------------------------------------- the heap *)
(* a message object: its fields and the list its _payload refers to (m_payload of o_msg is not used) *)
(* nmeamessage.py:42-151, 575-707 (objects and lists shared with the caller) *)
Record obj := mkobj { o_msg : msg; o_list : nat }.
(* nmeamessage.py:42-151, 575-707 (objects and lists shared with the caller) *)
Record world := mkworld { w_lists : list (list pystr); w_objs : list obj }.
(* the message as its properties and methods show it now *)
(* nmeamessage.py:42-151, 575-707 (objects and lists shared with the caller) *)
Definition view (w : world) (i : nat) : option msg :=
  match nth_error (w_objs w) i with
  | Some o => match nth_error (w_lists w) (o_list o) with Some l => Some (with_payload (o_msg o) l) | None => None end
  | None => None
  end.

(* what an application can do *)
(* nmeamessage.py:42-151, 575-707 (objects and lists shared with the caller) *)
Inductive wop :=
| NewList (l : list pystr)                            (* lst = [...] *)
| EditList (a : nat) (l : list pystr)                 (* any change of a list in place: append, sort, lst[2] = "x", ... *)
| Parse (m : rawmsg) (mode validate : Z) (ud : userdefs)      (* NMEAReader.parse(); also what read() does with a sentence *)
| Build (ck : clock) (talker msgID : pystr) (mode : Z) (hp : bool) (validate : Z) (ud : userdefs)
    (checksum : option pystr) (payload : option nat) (kw : kwargs)   (* NMEAMessage(..., payload=lst) or without payload *)
| GetPayload (i : nat)                                (* msg.payload *)
| Assign (i : nat) (name : pystr) (v : pyval)         (* msg.name = v *)
| Delete (i : nat) (name : pystr)                     (* del msg.name *)
| Copy (i : nat)                                      (* copy.copy(msg): a new object with the same __dict__ entries *)
| DeepCopy (i : nat).                                 (* copy.deepcopy(msg), pickle.loads(pickle.dumps(msg)) *)
(* nmeamessage.py:42-151, 575-707 (objects and lists shared with the caller) *)
Inductive response := RNothing | RList (a : nat) | RObj (i : nat) | RExc (e : exc) | RNoSuch.

(* nmeamessage.py:42-151, 575-707 (objects and lists shared with the caller) *)
Definition with_obj (w : world) (i : nat) (f : obj -> msg -> world * response) : world * response :=
  match nth_error (w_objs w) i, view w i with Some o, Some m => f o m | _, _ => (w, RNoSuch) end.
(* nmeamessage.py:42-151, 575-707 (objects and lists shared with the caller) *)
Definition add_obj (w : world) (x : msg) (a : nat) : world * response :=
  (mkworld (w_lists w) (w_objs w ++ [mkobj x a]), RObj (length (w_objs w))).
(* nmeamessage.py:42-151, 575-707 (objects and lists shared with the caller) *)
Definition add_obj_list (w : world) (x : msg) : world * response :=
  (mkworld (w_lists w ++ [m_payload x]) (w_objs w ++ [mkobj x (length (w_lists w))]), RObj (length (w_objs w))).

(* nmeareader.py:236-284 parse: hdr, *payload = content.split(",") makes a new list each time
   (nmeahelpers.py:439); nmeamessage.py:42-151 constructor; nmeamessage.py:608-622 __setattr__;
   copy and pickle copy __dict__ without __setattr__ (the class defines no __reduce__, __copy__ or __setstate__) *)
Definition wstep (w : world) (o : wop) : world * response :=
  match o with
  | NewList l => (mkworld (w_lists w ++ [l]) (w_objs w), RList (length (w_lists w)))
  | EditList a l => if (a <? length (w_lists w))%nat then (mkworld (list_set (w_lists w) a l) (w_objs w), RNothing) else (w, RNoSuch)
  | Parse m mode v ud =>
      match parse m mode v ud with
      | Ok (Some x) => add_obj_list w x
      | Ok None => (w, RNothing)
      | Raise e => (w, RExc e)
      end
  | Build ck talker msgID mode hp v ud cks None kw =>
      match NMEAMessage ck talker msgID mode hp v ud cks None kw with
      | Ok x => add_obj_list w x
      | Raise e => (w, RExc e)
      end
  | Build ck talker msgID mode hp v ud cks (Some a) kw =>
      match nth_error (w_lists w) a with
      | None => (w, RNoSuch)
      | Some l =>
          let w' := mkworld (list_set (w_lists w) a (payload_after ck talker msgID mode hp v ud l kw)) (w_objs w) in
          match NMEAMessage ck talker msgID mode hp v ud cks (Some l) kw with
          | Ok x => add_obj w' x a
          | Raise e => (w', RExc e)
          end
      end
  | GetPayload i => with_obj w i (fun o _ => (w, RList (o_list o)))
  | Assign i name v =>
      with_obj w i (fun o m => match mstep m (OpSet name v) with
        | (Some e, _) => (w, RExc e)
        | (None, m') => (mkworld (w_lists w) (list_set (w_objs w) i (mkobj m' (o_list o))), RNothing) end)
  | Delete i name =>
      with_obj w i (fun o m => match mstep m (OpDel name) with
        | (Some e, _) => (w, RExc e)
        | (None, m') => (mkworld (w_lists w) (list_set (w_objs w) i (mkobj m' (o_list o))), RNothing) end)
  | Copy i => with_obj w i (fun o m => add_obj w m (o_list o))
  | DeepCopy i => with_obj w i (fun o m => add_obj_list w m)
  end.
(* a whole program run: a history of operations *)
(* nmeamessage.py:42-151 (a history of operations) *)
Fixpoint wrun (w : world) (ops : list wop) : world * list response :=
  match ops with
  | [] => (w, [])
  | o :: r => let '(w1, x) := wstep w o in let '(w2, xs) := wrun w1 r in (w2, x :: xs)
  end.
(* nmeamessage.py:42-151 (a history of operations) *)
Definition start : world := mkworld [] [].
