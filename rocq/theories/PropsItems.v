(* C104: a payload= list that holds values other than texts. *)
From Verif Require Import Message Items BaseLemmas TextLemmas NumLemmas Spec ParseProofs MessageProofs SelectProofs DecodeProofs.
Local Open Scope Z_scope.

(* ---------------------------------------------------------------- specification *)
Definition is_text (v : pyval) : Prop := exists s, v = VStr s.
(* the object of Message.v as one of Items.v *)
Definition of_msg (m : msg) : imsg :=
  mkimsg (m_talker m) (m_msgID m) (m_mode m) (m_defsource m) (m_checksum m) (map VStr (m_payload m)) (m_attrs m).
Definition lift (s : ast) : ist := mkist (a_pindex s) (a_attrs s) (map VStr (a_payload s)).
Definition rmap {A B} (f : A -> B) (r : result A) : result B := match r with Ok x => Ok (f x) | Raise e => Raise e end.

(* ---------------------------------------------------------------- lists of texts *)
Lemma item2val_text s att : item2val (VStr s) att = str2val s att.
Proof.
  unfold item2val, str2val. destruct (text_type att); [reflexivity|]. destruct (str_eqb att ty_HX); [reflexivity|].
  destruct (str_eqb att ty_DE); [destruct s; reflexivity|]. destruct (str_in att [ty_DT; ty_DM]); [reflexivity|].
  destruct (str_eqb att ty_IN); [destruct s; reflexivity|]. reflexivity.
Qed.
Lemma index_map {A B} (f : A -> B) l i : py_index (map f l) i = rmap f (py_index l i).
Proof. unfold py_index. rewrite nth_error_map. destruct (nth_error l i); reflexivity. Qed.
Lemma list_set_map {A B} (f : A -> B) l i x : list_set (map f l) i (f x) = map f (list_set l i x).
Proof. revert i. induction l as [|y l IH]; intros [|i]; cbn [map list_set]; try reflexivity. rewrite IH. reflexivity. Qed.

Lemma single_lift c att key gi s : x_streaming c = true ->
  set_single_i c att key gi (lift s) = rmap lift (set_single c att key gi s).
Proof.
  intros St. unfold set_single, set_single_i. rewrite St. unfold fetch, fetch_i, lift. cbn [i_attrs i_payload i_pindex].
  destruct (identity_of (x_talker c) (x_msgID c) (a_attrs s)) as [id|e]; cbn [bind]; [|destruct e; reflexivity].
  rewrite index_map. destruct (py_index (a_payload s) (a_pindex s)) as [f|e]; cbn [bind rmap]; [|destruct e; reflexivity].
  assert (G : forall pl, (let! val := item2val (VStr f) att in
      let! s1 := setattr_i (key ++ suffix gi) val (mkist (a_pindex s) (a_attrs s) (map VStr pl)) in
      Ok (mkist (S (i_pindex (lift s))) (override_sign att val (i_attrs s1)) (i_payload s1)))
    = rmap lift (let! val := str2val f att in
      let! s1 := setattr (key ++ suffix gi) val (mkast (a_pindex s) (a_attrs s) pl) in
      Ok (mkast (S (a_pindex s)) (override_sign att val (a_attrs s1)) (a_payload s1)))).
  { intros pl. rewrite item2val_text. destruct (str2val f att) as [v|e]; cbn [bind]; [|reflexivity].
    unfold setattr, setattr_i. destruct (str_in (key ++ suffix gi) property_names); reflexivity. }
  destruct (str_eqb id (u "PSSNSNC")).
  - change (VStr (remove_char 93 (remove_char 91 f))) with (VStr (remove_char 93 (remove_char 91 f))).
    rewrite list_set_map, !item2val_text. destruct (str2val (remove_char 93 (remove_char 91 f)) att) as [v|e]; cbn [bind]; [|reflexivity].
    unfold setattr, setattr_i. destruct (str_in (key ++ suffix gi) property_names); reflexivity.
  - exact (G (a_payload s)).
Qed.
Lemma count_lift c n ms s : x_streaming c = true -> group_count_i c n ms (lift s) = group_count c n ms s.
Proof.
  intros St. unfold group_count_i, group_count. destruct n as [z|name]; [reflexivity|].
  destruct (str_eqb name (u "None")); [|reflexivity]. rewrite St. unfold calc_num_repeats, lift. cbn [i_payload i_pindex]. rewrite map_length. reflexivity.
Qed.
Lemma repeat_lift n : forall i f g s, (forall i s, g i (lift s) = rmap lift (f i s)) -> repeat_i n i g (lift s) = rmap lift (repeat_from n i f s).
Proof.
  induction n as [|n IH]; intros i f g s H; cbn [repeat_i repeat_from]; [reflexivity|].
  rewrite H. destruct (f i s) as [s1|e]; cbn [rmap bind]; [apply IH, H|reflexivity].
Qed.
Lemma repeat_i_ext n : forall i f g s, (forall i s, f i s = g i s) -> repeat_i n i f s = repeat_i n i g s.
Proof. induction n as [|n IH]; intros i f g s H; cbn [repeat_i]; [reflexivity|]. rewrite H. destruct (g i s); cbn [bind]; [apply IH, H|reflexivity]. Qed.
Lemma group_i c n ms key gi s :
  set_attribute_i c (AGroup n ms) key gi s =
  let! rng := group_count_i c n ms s in repeat_i (Z.to_nat rng) 1 (fun i s0 => set_members_i c ms (gi ++ [i]) s0) s.
Proof.
  cbn [set_attribute_i]. destruct (group_count_i c n ms s) as [rng|e]; cbn [bind]; [|reflexivity].
  apply repeat_i_ext. intros i s0. revert s0.
  induction ms as [|[k d] ms IH]; intros s0; [reflexivity|].
  cbn [set_members_i]. destruct (set_attribute_i c d k (gi ++ [i]) s0); cbn [bind]; [apply IH|reflexivity].
Qed.
Lemma members_lift' c ms gi s :
  Forall (fun e => forall key gi s, set_attribute_i c (snd e) key gi (lift s) = rmap lift (set_attribute c (snd e) key gi s)) ms ->
  set_members_i c ms gi (lift s) = rmap lift (set_members c ms gi s).
Proof.
  intros F. revert s. induction F as [|[k d] ms H _ IH]; intros s; cbn [set_members_i set_members]; [reflexivity|].
  cbn [snd] in H. rewrite H. destruct (set_attribute c d k gi s) as [s1|e]; cbn [rmap bind]; [apply IH|reflexivity].
Qed.
Lemma attribute_lift c a : x_streaming c = true -> forall key gi s,
  set_attribute_i c a key gi (lift s) = rmap lift (set_attribute c a key gi s).
Proof.
  intros St. induction a as [ty|n ms IH] using adef_ind'; intros key gi s; [apply single_lift, St|].
  rewrite group_i, set_attribute_group, count_lift by exact St.
  destruct (group_count c n ms s) as [z|e]; cbn [bind rmap]; [|reflexivity].
  apply repeat_lift. intros i s0. apply members_lift', IH.
Qed.
Lemma members_lift c ms gi s : x_streaming c = true -> set_members_i c ms gi (lift s) = rmap lift (set_members c ms gi s).
Proof. intros St. apply members_lift', Forall_forall. intros [k d] _. apply attribute_lift, St. Qed.
Lemma nominal_lift l : forall i s, set_nominal_i i (map VStr l) (lift s) = rmap lift (set_nominal i l s).
Proof.
  induction l as [|f l IH]; intros i s; cbn [map set_nominal_i set_nominal]; [reflexivity|].
  unfold setattr, setattr_i. destruct (str_in (u "field_" ++ fmt_02d i) property_names); cbn [bind]; [reflexivity|].
  exact (IH (N.succ i) (mkast (a_pindex s) (dict_set (u "field_" ++ fmt_02d i) (VStr f) (a_attrs s)) (a_payload s))).
Qed.
Lemma as_texts_map l : as_texts (map VStr l) = l.
Proof. unfold as_texts. rewrite map_map. apply map_id. Qed.
Lemma texts_of_map l : texts_of (map VStr l) = Ok l.
Proof. induction l as [|x l IH]; [reflexivity|]. cbn [map texts_of str_of_val bind]. rewrite IH. reflexivity. Qed.

Lemma prop_key_map key mode fields kw : prop_key_i key mode (map VStr fields) kw = prop_key key mode true fields kw.
Proof.
  unfold prop_key_i, prop_key. rewrite as_texts_map, map_length. destruct (kw_has "key" kw); [reflexivity|].
  repeat match goal with |- (if ?b then _ else _) = (if ?b then _ else _) => destruct b; [try reflexivity|] end; try reflexivity.
  - unfold qtmsn_i, qtmsn. rewrite andb_true_r, index_map.
    destruct (mode =? GET); [|reflexivity]. destruct (py_index fields 0) as [f|e]; reflexivity.
  - unfold stmdrsenmsg_i, stmdrsenmsg. rewrite index_map.
    destruct (py_index fields 0) as [f|e]; reflexivity.
Qed.
Lemma dict_key_map c fields : x_streaming c = true -> dict_key_i c (map VStr fields) = dict_key c fields.
Proof.
  intros St. unfold dict_key_i, dict_key. rewrite St, index_map. destruct (str_in (x_msgID c) NMEA_PREFIX_PROP); [|reflexivity].
  destruct (py_index fields 0) as [f|e]; cbn [rmap bind].
  - destruct (str_eqb (x_msgID c) (u "ASHR")); [|reflexivity]. destruct (py_index f 1) as [ch|e]; reflexivity.
  - destruct (str_eqb (x_msgID c) (u "ASHR")); reflexivity.
Qed.
Lemma get_dict_map c fields : x_streaming c = true -> get_dict_i c (map VStr fields) = get_dict c fields.
Proof.
  intros St. unfold get_dict_i, get_dict. rewrite dict_key_map by exact St. destruct (dict_key c fields) as [k|e]; cbn [bind]; [|reflexivity].
  destruct (x_defsource c); try reflexivity. rewrite prop_key_map, St. reflexivity.
Qed.

(* A list of texts is read exactly as in Message.v, which all other properties are about. *)
Theorem C104_texts clk talker msgid mode hp v ud cks fields kw :
  NMEAMessage_i clk talker msgid mode hp v ud cks (map VStr fields) kw
  = match NMEAMessage clk talker msgid mode hp v ud cks (Some fields) kw with
    | Ok m => Ok (of_msg m) | Raise e => Raise e end
  /\ forall m, serialize_i (of_msg m) = serialize m /\ str_of_imsg (of_msg m) = str_of_msg m.
Proof.
  split.
  - unfold NMEAMessage_i, NMEAMessage. destruct (negb (valid_mode mode)); [reflexivity|].
    destruct (negb (has_key talker NMEA_TALKERS) && has_flag v VALMSGID); [reflexivity|].
    assert (D : forall ds, (let! (attrs, pl', ck') := do_attributes_i (mkctx talker msgid mode hp v ud ds true kw clk) (map VStr fields) cks in
        Ok (mkimsg talker msgid mode ds ck' pl' attrs))
      = match (let! (attrs, pl', ck') := do_attributes (mkctx talker msgid mode hp v ud ds true kw clk) fields cks in
        Ok (mkmsg talker msgid mode hp v ud ds true ck' pl' attrs true)) with Ok m => Ok (of_msg m) | Raise e => Raise e end).
    { intros ds. set (c := mkctx talker msgid mode hp v ud ds true kw clk). unfold do_attributes_i, do_attributes.
      rewrite get_dict_map by reflexivity. destruct (get_dict c fields) as [[d|]|e]; cbn [bind].
      - change (mkist 0 [] (map VStr fields)) with (lift (mkast 0 [] fields)).
        destruct d as [|e0 d].
        + cbn [bind i_attrs i_payload lift a_attrs a_payload]. destruct cks as [k|]; [reflexivity|]. rewrite texts_of_map. reflexivity.
        + destruct (kw_clash (x_kwargs c)); [reflexivity|]. rewrite members_lift by reflexivity.
          destruct (set_members c (e0 :: d) [] (mkast 0 [] fields)) as [s|e]; cbn [rmap bind i_attrs i_payload lift]; [|destruct e; reflexivity].
          destruct cks as [k|]; [reflexivity|]. rewrite texts_of_map. reflexivity.
      - change (mkist 0 [] (map VStr fields)) with (lift (mkast 0 [] fields)). rewrite nominal_lift. cbn [x_streaming c].
        destruct (set_nominal 1 fields (mkast 0 [] fields)) as [s|e]; cbn [rmap bind]; [reflexivity|destruct e; reflexivity].
      - destruct e; reflexivity. }
    destruct (find_defsource msgid ud); try apply D. destruct (has_flag v VALMSGID); [reflexivity|apply D].
  - intros m. split.
    + unfold serialize_i, serialize, serialize_text. cbn [of_msg y_talker y_msgID y_payload y_checksum].
      assert (J : forall l out, joined out (map VStr l) = Ok (fold_left (fun out att => out ++ [c_comma] ++ att) l out)).
      { induction l as [|x l IH]; intros out; [reflexivity|]. cbn [map joined fold_left]. apply IH. }
      rewrite J. reflexivity.
    + reflexivity.
Qed.

(* ---------------------------------------------------------------- the list handed in and serialize() *)
(* what construction may do to the list: a text may become another text (the brackets of PSSNSNC, C09), nothing else changes *)
Definition kind_kept (a b : pyval) : Prop := b = a \/ (is_text a /\ is_text b).
Definition payload_kept (s s' : ist) : Prop := Forall2 kind_kept (i_payload s) (i_payload s').
Lemma kept_refl l : Forall2 kind_kept l l.
Proof. induction l; constructor; [left; reflexivity|assumption]. Qed.
Lemma kept_trans : forall a b d, Forall2 kind_kept a b -> Forall2 kind_kept b d -> Forall2 kind_kept a d.
Proof.
  intros a b d H. revert d. induction H as [|x y a b K _ IH]; intros d H2; inversion H2 as [|? z ? d' K2 H3]; subst; constructor; [|apply IH, H3].
  destruct K as [-> |[Tx Ty]]; [exact K2|]. destruct K2 as [-> |[_ Tz]]; right; split; assumption.
Qed.
Lemma kept_set l : forall i t t', nth_error l i = Some (VStr t) -> Forall2 kind_kept l (list_set l i (VStr t')).
Proof.
  induction l as [|x l IH]; intros [|i] t t' N; cbn [nth_error list_set] in *; try discriminate N; constructor; try apply kept_refl.
  - injection N as ->. right. split; eexists; reflexivity.
  - left. reflexivity.
  - exact (IH i t t' N).
Qed.
Lemma setattr_i_payload k v s s' : setattr_i k v s = Ok s' -> i_payload s' = i_payload s.
Proof. unfold setattr_i. destruct (str_in k property_names); [intros H; discriminate H|]. intros [= <-]. reflexivity. Qed.
Lemma single_kept c att key gi s s' : set_single_i c att key gi s = Ok s' -> payload_kept s s'.
Proof.
  unfold set_single_i, payload_kept. destruct (fetch_i c s) as [[pl f]|e] eqn:F; [|destruct e; intros H; try discriminate H; injection H as <-; apply kept_refl].
  intros H. apply bind_Ok in H as (v & _ & H). apply bind_Ok in H as (s1 & S1 & H). injection H as <-. cbn [i_payload].
  rewrite (setattr_i_payload _ _ _ _ S1). cbn [i_payload]. unfold fetch_i in F.
  apply bind_Ok in F as (id & _ & F). apply bind_Ok in F as (g & G & F).
  destruct (str_eqb id (u "PSSNSNC")); [|injection F as <- _; apply kept_refl].
  destruct g as [t| | | | | | |]; try discriminate F. injection F as <- _. apply kept_set with (t := t).
  unfold py_index in G. destruct (nth_error (i_payload s) (i_pindex s)); congruence.
Qed.
Lemma repeat_kept n : forall i f s s', (forall i s s', f i s = Ok s' -> payload_kept s s') -> repeat_i n i f s = Ok s' -> payload_kept s s'.
Proof.
  induction n as [|n IH]; intros i f s s' H E; cbn [repeat_i] in E; [injection E as <-; apply kept_refl|].
  apply bind_Ok in E as (s1 & E1 & E2). eapply kept_trans; [eapply H, E1|eapply IH; [exact H|exact E2]].
Qed.
Lemma members_kept' c ms gi : Forall (fun e => forall key gi s s', set_attribute_i c (snd e) key gi s = Ok s' -> payload_kept s s') ms ->
  forall s s', set_members_i c ms gi s = Ok s' -> payload_kept s s'.
Proof.
  intros F. induction F as [|[k d] ms H _ IH]; intros s s' E; cbn [set_members_i] in E; [injection E as <-; apply kept_refl|].
  apply bind_Ok in E as (s1 & E1 & E2). eapply kept_trans; [eapply H, E1|eapply IH, E2].
Qed.
Lemma attribute_kept c a : forall key gi s s', set_attribute_i c a key gi s = Ok s' -> payload_kept s s'.
Proof.
  induction a as [ty|n ms IH] using adef_ind'; intros key gi s s' E; [exact (single_kept _ _ _ _ _ _ E)|].
  rewrite group_i in E. apply bind_Ok in E as (z & _ & E). eapply repeat_kept; [|exact E].
  intros i s1 s2 E1. eapply members_kept'; [exact IH|exact E1].
Qed.
Lemma members_kept c ms gi s s' : set_members_i c ms gi s = Ok s' -> payload_kept s s'.
Proof. apply members_kept', Forall_forall. intros [k d] _. apply attribute_kept. Qed.
Lemma nominal_kept l : forall i s s', set_nominal_i i l s = Ok s' -> i_payload s' = i_payload s.
Proof.
  induction l as [|f l IH]; intros i s s' E; cbn [set_nominal_i] in E; [injection E as <-; reflexivity|].
  apply bind_Ok in E as (s1 & E1 & E2). rewrite (IH _ _ _ E2). exact (setattr_i_payload _ _ _ _ E1).
Qed.
Lemma type_errors_Ok {A} (r : result A) x : type_errors r = Ok x -> r = Ok x.
Proof. destruct r as [y|e]; [intros [= ->]; reflexivity|]. destruct e; intros H; discriminate H. Qed.

Lemma made clk talker msgid mode hp v ud cks items kw m :
  NMEAMessage_i clk talker msgid mode hp v ud cks items kw = Ok m ->
  y_talker m = talker /\ y_msgID m = msgid
  /\ exists c pd s, get_dict_i c items = Ok pd /\ Forall2 kind_kept items (i_payload s) /\ i_attrs s = y_attrs m /\ i_payload s = y_payload m
    /\ match pd with
       | None => y_checksum m = cks /\ set_nominal_i 1 items (mkist 0 [] items) = Ok s
       | Some d => set_members_i c d [] (mkist 0 [] items) = Ok s
           /\ match cks with
              | Some k => y_checksum m = Some k
              | None => exists ts, texts_of (y_payload m) = Ok ts /\ y_checksum m = Some (generate_checksum talker msgid ts)
              end
       end.
Proof.
  unfold NMEAMessage_i. destruct (negb (valid_mode mode)); [intros H; discriminate H|].
  destruct (negb (has_key talker NMEA_TALKERS) && has_flag v VALMSGID); [intros H; discriminate H|].
  intros H.
  assert (D : exists ds attrs pl' ck', do_attributes_i (mkctx talker msgid mode hp v ud ds true kw clk) items cks = Ok (attrs, pl', ck')
    /\ m = mkimsg talker msgid mode ds ck' pl' attrs).
  { destruct (find_defsource msgid ud), (has_flag v VALMSGID); try discriminate H;
      apply bind_Ok in H as ([[attrs pl'] ck'] & D & H); injection H as <-; do 4 eexists; split; try exact D; reflexivity. }
  destruct D as (ds & attrs & pl' & ck' & D & ->). cbn [y_talker y_msgID y_attrs y_payload y_checksum].
  split; [reflexivity|]. split; [reflexivity|].
  set (c := mkctx talker msgid mode hp v ud ds true kw clk) in *. exists c.
  apply type_errors_Ok in D. apply bind_Ok in D as (pd & G & D). exists pd. destruct pd as [d|].
  - apply bind_Ok in D as (s & E & D). exists s.
    assert (E' : set_members_i c d [] (mkist 0 [] items) = Ok s).
    { destruct d; [exact E|]. destruct (kw_clash (x_kwargs c)); [discriminate E|exact E]. }
    pose proof (members_kept _ _ _ _ _ E') as K. split; [exact G|]. split; [exact K|].
    destruct cks as [k|].
    + injection D as <- <- <-. repeat (split; [first [reflexivity|exact E']|]). reflexivity.
    + apply bind_Ok in D as (ts & T & D). injection D as <- <- <-. repeat (split; [first [reflexivity|exact E']|]).
      exists ts. split; [exact T|reflexivity].
  - apply bind_Ok in D as (s & E & D). exists s. injection D as <- <- <-.
    pose proof (nominal_kept _ _ _ _ E) as K. cbn [i_payload] in K. split; [exact G|]. split; [rewrite K; apply kept_refl|].
    repeat (split; [first [reflexivity|exact E]|]). exact E.
Qed.

(* the items stay what they were: the payload property gives them back, except that PSSNSNC loses the brackets of its texts (C09) *)
Theorem C104_payload clk talker msgid mode hp v ud cks items kw m :
  NMEAMessage_i clk talker msgid mode hp v ud cks items kw = Ok m ->
  length (y_payload m) = length items
  /\ forall i x, nth_error items i = Some x -> ~ is_text x -> nth_error (y_payload m) i = Some x.
Proof.
  intros H. destruct (made _ _ _ _ _ _ _ _ _ _ _ H) as (_ & _ & c & pd & s & _ & K & _ & P & _). rewrite P in K. clear - K.
  split; [symmetry; clear - K; induction K; cbn; congruence|].
  induction K as [|a b l l' K0 K IH]; intros [|i] x N T; cbn [nth_error] in *; try discriminate N; [|apply IH; assumption].
  injection N as ->. destruct K0 as [-> |[T' _]]; [reflexivity|contradiction].
Qed.

Lemma joined_result l : forall out, (Forall is_text l /\ exists t, joined out l = Ok t) \/ (Exists (fun v => ~ is_text v) l /\ joined out l = Raise TypeError).
Proof.
  induction l as [|x l IH]; intros out; [left; split; [constructor|exists out; reflexivity]|].
  destruct x as [t| | | | | | |]; try (right; split; [left; intros [q Q]; discriminate Q|reflexivity]).
  cbn [joined]. destruct (IH (out ++ [c_comma] ++ t)) as [[F X]|[F X]]; [left|right]; (split; [|exact X]).
  - constructor; [eexists; reflexivity|exact F].
  - right. exact F.
Qed.
Lemma utf8_exc s e : utf8_encode s = Raise e -> e = UnicodeEncodeError.
Proof. unfold utf8_encode. destruct (forallb is_scalar s); [intros H; discriminate H|intros [= <-]; reflexivity]. Qed.

(* A message made from a list with an item that is not a text cannot be serialized: TypeError - and for no other reason is it a TypeError. *)
Theorem C104_serialize clk talker msgid mode hp v ud cks items kw m :
  NMEAMessage_i clk talker msgid mode hp v ud cks items kw = Ok m ->
  (exists x, In x items /\ ~ is_text x) <-> serialize_i m = Raise TypeError.
Proof.
  intros H. destruct (made _ _ _ _ _ _ _ _ _ _ _ H) as (_ & _ & c & pd & s & _ & K & _ & P & _). rewrite P in K.
  assert (X : (exists x, In x items /\ ~ is_text x) <-> Exists (fun v => ~ is_text v) (y_payload m)).
  { clear - K. rewrite <- (Exists_exists (fun x => ~ is_text x) items).
    induction K as [|a b l l' K0 K IH]; [reflexivity|]. rewrite !Exists_cons, IH.
    destruct K0 as [-> |[Ta Tb]]; [reflexivity|]. split; (intros [Q|Q]; [contradiction|right; exact Q]). }
  rewrite X. unfold serialize_i.
  destruct (joined_result (y_payload m) ([c_dollar] ++ y_talker m ++ y_msgID m)) as [[F [t J]]|[F J]]; rewrite J; cbn [bind].
  - split.
    + intros Q. exfalso. apply Exists_exists in Q as (x & I & N). rewrite Forall_forall in F. exact (N (F x I)).
    + intros Q. apply utf8_exc in Q. discriminate Q.
  - split; [reflexivity|]. intros _. exact F.
Qed.

(* The checksum of such a message, if none was given, is that of the sentence with str() of every item. *)
Lemma texts_of_Forall2 l : forall ts, texts_of l = Ok ts -> Forall2 (fun v t => str_of_val v = Ok t) l ts.
Proof.
  induction l as [|x l IH]; intros ts H; cbn [texts_of] in H; [injection H as <-; constructor|].
  apply bind_Ok in H as (t & T & H). apply bind_Ok in H as (r & R & H). injection H as <-. constructor; [exact T|exact (IH _ R)].
Qed.
Theorem C104_checksum clk talker msgid mode hp v ud items kw m k :
  NMEAMessage_i clk talker msgid mode hp v ud None items kw = Ok m -> y_checksum m = Some k ->
  exists ts, Forall2 (fun x t => str_of_val x = Ok t) (y_payload m) ts
    /\ is_checksum (talker ++ msgid ++ flat_map (fun t => comma :: t) ts) k.
Proof.
  intros H Hk. destruct (made _ _ _ _ _ _ _ _ _ _ _ H) as (_ & _ & c & [d|] & s & _ & _ & _ & _ & M).
  - destruct M as (_ & ts & T & C). exists ts. split; [exact (texts_of_Forall2 _ _ T)|].
    rewrite C in Hk. injection Hk as <-. rewrite generate_checksum_calc. apply calc_checksum_is.
  - destruct M as [C _]. congruence.
Qed.

(* ---------------------------------------------------------------- what an item is read as *)
(* What the attribute of a field of type ty becomes when the item x is not a text: *)
Inductive item_reads : pystr -> pyval -> pyval -> Prop :=
| reads_text ty x : In ty text_types -> item_reads ty x x                              (* texts: the item itself *)
| reads_decimal x : item_reads (u "DE") (VFloat x) (VFloat x)                          (* decimals: the number as a float *)
| reads_decimal_int z x : f_norm z 0 = x -> (forall s, x <> S754_infinity s) -> item_reads (u "DE") (VInt z) (VFloat x)
| reads_decimal_bool b : item_reads (u "DE") (VBool b) (VFloat (f_norm (if b then 1 else 0) 0))
| reads_integer z : item_reads (u "IN") (VInt z) (VInt z)                              (* integers: the number without its fraction *)
| reads_integer_float x z : int_of_float x = Ok z -> item_reads (u "IN") (VFloat x) (VInt z)
| reads_integer_bool b : item_reads (u "IN") (VBool b) (VInt (if b then 1 else 0))
| reads_date x : item_reads (u "DT") x (VStr [])                                       (* dates and times: an empty text, even for a date or a time *)
| reads_date_us x : item_reads (u "DM") x (VStr [])
| reads_time x : item_reads (u "TM") x (VStr []).
(* every other combination - latitudes and longitudes above all - is refused *)
Theorem C104_reads ty x w : ~ is_text x -> In ty (text_types ++ [u "DE"; u "IN"; u "DT"; u "DM"; u "TM"; u "LA"; u "LN"]) ->
  item2val x ty = Ok w <-> item_reads ty x w.
Proof.
  intros T I. split.
  - intros H. unfold text_types in I. cbn [app In] in I.
    destruct I as [<-|[<-|[<-|[<-|[<-|[<-|[<-|[<-|[<-|[<-|[<-|[<-|[<-|[]]]]]]]]]]]]]].
    1-6: change (Ok x = Ok w) in H; injection H as <-; apply reads_text; unfold text_types; cbn [In]; auto 10.
    + change ((if not_empty x then let! y := py_float x in Ok (VFloat y) else Ok x) = Ok w) in H.
      destruct x as [s|z|y|b| | | |]; try (exfalso; apply T; eexists; reflexivity); cbn [not_empty py_float bind] in H; try discriminate H.
      * unfold f_of_Z in H. destruct (f_norm z 0) as [sg|sg| |sg mm ee] eqn:F; cbn [bind] in H; try discriminate H; injection H as <-;
          (apply reads_decimal_int; [exact F|intros q Q; discriminate Q]).
      * injection H as <-. apply reads_decimal.
      * assert (W : w = VFloat (f_norm (if b then 1 else 0) 0)) by (destruct b; vm_compute in H |- *; congruence).
        rewrite W. apply reads_decimal_bool.
    + change ((if not_empty x then let! y := py_int x in Ok (VInt y) else Ok x) = Ok w) in H.
      destruct x as [s|z|y|b| | | |]; try (exfalso; apply T; eexists; reflexivity); cbn [not_empty py_int bind] in H; try discriminate H.
      * injection H as <-. apply reads_integer.
      * destruct (int_of_float y) as [z|e] eqn:F; cbn [bind] in H; [|discriminate H]. injection H as <-. apply reads_integer_float, F.
      * assert (W : w = VInt (if b then 1 else 0)) by (destruct b; cbn [val_of_bool] in H; congruence). rewrite W. apply reads_integer_bool.
    + change (match x with VStr s => Ok (date2utc s (u "DT")) | _ => Ok (VStr []) end = Ok w) in H.
      destruct x; try (exfalso; apply T; eexists; reflexivity); injection H as <-; apply reads_date.
    + change (match x with VStr s => Ok (date2utc s (u "DM")) | _ => Ok (VStr []) end = Ok w) in H.
      destruct x; try (exfalso; apply T; eexists; reflexivity); injection H as <-; apply reads_date_us.
    + change (match x with VStr s => Ok (time2utc s) | _ => Ok (VStr []) end = Ok w) in H.
      destruct x; try (exfalso; apply T; eexists; reflexivity); injection H as <-; apply reads_time.
    + change (match x with VStr s => Ok (dmm2ddd s) | _ => Raise AttributeError end = Ok w) in H.
      destruct x; try (exfalso; apply T; eexists; reflexivity); discriminate H.
    + change (match x with VStr s => Ok (dmm2ddd s) | _ => Raise AttributeError end = Ok w) in H.
      destruct x; try (exfalso; apply T; eexists; reflexivity); discriminate H.
  - intros R. destruct R as [ty x I'|y|z y F N|b|z|y z F|b|x|x|x].
    + unfold text_types in I'. cbn [In] in I'. destruct I' as [<-|[<-|[<-|[<-|[<-|[<-|[]]]]]]]; reflexivity.
    + reflexivity.
    + change ((let! y' := f_of_Z z in Ok (VFloat y')) = Ok (VFloat y)). unfold f_of_Z. rewrite F.
      destruct y as [sg|sg| |sg mm ee]; try reflexivity. exfalso. exact (N sg eq_refl).
    + destruct b; vm_compute; reflexivity.
    + reflexivity.
    + change ((let! y' := int_of_float y in Ok (VInt y')) = Ok (VInt z)). rewrite F. reflexivity.
    + destruct b; reflexivity.
    + change (match x with VStr s => Ok (date2utc s (u "DT")) | _ => Ok (VStr []) end = Ok (VStr [])). destruct x; try reflexivity. exfalso; apply T; eexists; reflexivity.
    + change (match x with VStr s => Ok (date2utc s (u "DM")) | _ => Ok (VStr []) end = Ok (VStr [])). destruct x; try reflexivity. exfalso; apply T; eexists; reflexivity.
    + change (match x with VStr s => Ok (time2utc s) | _ => Ok (VStr []) end = Ok (VStr [])). destruct x; try reflexivity. exfalso; apply T; eexists; reflexivity.
Qed.
(* and a text as in C71 *)
Theorem C104_reads_text ty s : item2val (VStr s) ty = str2val s ty.
Proof. apply item2val_text. Qed.

(* ---------------------------------------------------------------- whole messages *)
(* a message id whose definition does not depend on the value of its first item, nor on brackets *)
Definition ordinary (talker msgid : pystr) : Prop :=
  ~ In msgid prefixes /\ str_upper msgid <> u "QTMSN" /\ str_upper msgid <> u "STMDRSENMSG" /\ talker ++ msgid <> u "PSSNSNC".
(* items that are not texts, as far as the choice of a definition is concerned (C22: the number of items, "OK" and "ERROR") *)
Definition seen_as (items : list pyval) : list pystr := map (fun x => match x with VStr s => s | _ => [] end) items.

Lemma ordinary_not_prefix talker msgid : ordinary talker msgid -> str_in msgid NMEA_PREFIX_PROP = false.
Proof.
  intros (N & _). rewrite prefixes_eq. destruct (str_in msgid prefixes) eqn:E; [|reflexivity].
  exfalso. apply N. apply str_in_iff. exact E.
Qed.
Lemma get_dict_seen c items : x_streaming c = true -> x_kwargs c = [] -> ordinary (x_talker c) (x_msgID c) ->
  get_dict_i c items = get_dict c (seen_as items).
Proof.
  intros St Kw O. pose proof (ordinary_not_prefix _ _ O) as P. destruct O as (_ & Q & R & _).
  unfold get_dict_i, get_dict, dict_key_i, dict_key. rewrite P. cbn [bind]. destruct (x_defsource c); try reflexivity.
  rewrite Kw, St. unfold prop_key_i, prop_key. cbn [kw_has has_key existsb].
  apply str_eqb_neq in Q. apply str_eqb_neq in R. rewrite Q, R. unfold seen_as. rewrite map_length. reflexivity.
Qed.
Lemma select_ordinary clk talker msgid mode hp v ud items : mode = 0 \/ mode = 1 \/ mode = 2 -> ordinary talker msgid ->
  get_dict_i (mkctx talker msgid mode hp v ud (find_defsource msgid ud) true [] clk) items
  = match definition_for mode ud msgid (seen_as items) with
    | Some d => Ok (Some d)
    | None => if wants_msgid v then Raise NMEAMessageError else Ok None
    end.
Proof.
  intros Md O. rewrite get_dict_seen by (first [reflexivity|exact O]).
  rewrite get_dict_streaming; try reflexivity; [|apply valid_mode_iff, Md]. cbn [x_mode x_msgID x_userdefined x_validate].
  assert (L : lacks_id mode msgid (seen_as items) = false).
  { unfold lacks_id. pose proof (ordinary_not_prefix _ _ O) as P. rewrite prefixes_eq in P. rewrite P. cbn [andb orb].
    destruct O as (_ & Q & R & _).
    assert (Q' : str_eqb msgid (u "QTMSN") = false) by (apply str_eqb_neq; intros ->; apply Q; vm_compute; reflexivity).
    assert (R' : str_eqb msgid (u "STMDRSENMSG") = false) by (apply str_eqb_neq; intros ->; apply R; vm_compute; reflexivity).
    rewrite Q', R'. apply andb_false_r. }
  rewrite L. reflexivity.
Qed.

Lemma fetch_ordinary c s : ordinary (x_talker c) (x_msgID c) ->
  fetch_i c s = match nth_error (i_payload s) (i_pindex s) with Some f => Ok (i_payload s, f) | None => Raise IndexError end.
Proof.
  intros O. unfold fetch_i, identity_of. rewrite (ordinary_not_prefix _ _ O), andb_false_r. cbn [bind]. unfold py_index.
  destruct (nth_error (i_payload s) (i_pindex s)); cbn [bind]; [|reflexivity].
  destruct O as (_ & _ & _ & N). apply str_eqb_neq in N. rewrite N. reflexivity.
Qed.
Lemma override_other att val a k : k <> u "lat" -> k <> u "lon" -> lookup k (override_sign att val a) = lookup k a.
Proof.
  intros N1 N2. unfold override_sign.
  repeat match goal with |- context [if ?b then _ else _] => destruct b | |- context [match lookup ?x ?y with _ => _ end] => destruct (lookup x y) end;
    try reflexivity; apply lookup_dict_set_other; assumption.
Qed.

Definition reading (d : pdict) (items : list pyval) (i : nat) (k ty : pystr) (x : pyval) : Prop :=
  nth_error d i = Some (k, ASingle ty) /\ nth_error items i = Some x.

Lemma plain_run c d : ordinary (x_talker c) (x_msgID c) -> plain d -> NoDup (map fst d) -> Forall (fun e => ~ In (fst e) property_names) d ->
  forall s, match set_members_i c d [] s with
    | Ok s' => i_payload s' = i_payload s
        /\ (forall k, k <> u "lat" -> k <> u "lon" -> ~ In k (map fst d) -> lookup k (i_attrs s') = lookup k (i_attrs s))
        /\ forall i k ty x, reading d (skipn (i_pindex s) (i_payload s)) i k ty x ->
             exists w, item2val x ty = Ok w /\ (k <> u "lat" -> k <> u "lon" -> lookup k (i_attrs s') = Some w)
    | Raise e => exists i k ty x, reading d (skipn (i_pindex s) (i_payload s)) i k ty x /\ item2val x ty = Raise e
    end.
Proof.
  intros O Pl. induction Pl as [|[k a] d [ty Ea] Pl IH]; intros Nd Np s.
  - cbn [set_members_i]. split; [reflexivity|]. split; [reflexivity|]. intros [|i] k ty x [H _]; discriminate H.
  - cbn [snd] in Ea. subst a. cbn [map fst] in Nd. inversion Nd as [|? ? Nk Nd']; subst. inversion Np as [|? ? Pk Np']; subst. cbn [fst] in Pk.
    cbn [set_members_i set_attribute_i]. unfold set_single_i. cbn [suffix flat_map]. rewrite app_nil_r. rewrite fetch_ordinary by exact O.
    destruct (nth_error (i_payload s) (i_pindex s)) as [f|] eqn:F.
    + assert (Sk : skipn (i_pindex s) (i_payload s) = f :: skipn (S (i_pindex s)) (i_payload s)).
      { clear - F. revert F. generalize (i_pindex s). induction (i_payload s) as [|y l IHl]; intros [|n] F; cbn [nth_error skipn] in *; try discriminate F.
        - injection F as ->. reflexivity.
        - rewrite (IHl n F). destruct l; reflexivity. }
      destruct (item2val f ty) as [w|e] eqn:V; cbn [bind].
      2: { exists 0%nat, k, ty, f. split; [split; [reflexivity|rewrite Sk; reflexivity]|exact V]. }
      unfold setattr_i. assert (Pb : str_in k property_names = false) by (destruct (str_in k property_names) eqn:E; [apply str_in_iff in E; contradiction|reflexivity]).
      rewrite Pb. cbn [bind i_attrs i_payload i_pindex].
      specialize (IH Nd' Np' (mkist (S (i_pindex s)) (override_sign ty w (dict_set k w (i_attrs s))) (i_payload s))).
      cbn [i_pindex i_payload i_attrs] in IH.
      destruct (set_members_i c d [] (mkist (S (i_pindex s)) (override_sign ty w (dict_set k w (i_attrs s))) (i_payload s))) as [s'|e].
      * destruct IH as (P & K & R). split; [exact P|]. split.
        -- intros k0 N1 N2 N3. cbn [map fst] in N3. rewrite K; [|exact N1|exact N2|intros Q; apply N3; right; exact Q].
           rewrite override_other by assumption. apply lookup_dict_set_other. intros ->. apply N3. left. reflexivity.
        -- intros [|i] k0 ty0 x [H1 H2].
           ++ cbn [nth_error] in H1. injection H1 as <- <-. rewrite Sk in H2. cbn [nth_error] in H2. injection H2 as <-.
              exists w. split; [exact V|]. intros N1 N2. rewrite K by assumption. rewrite override_other by assumption. apply lookup_dict_set_same.
           ++ cbn [nth_error] in H1. rewrite Sk in H2. cbn [nth_error] in H2. apply (R i k0 ty0 x). split; assumption.
      * destruct IH as (i & k0 & ty0 & x & [H1 H2] & E). exists (S i), k0, ty0, x. split; [split; [exact H1|rewrite Sk; exact H2]|exact E].
    + cbn [bind]. assert (Sk : skipn (i_pindex s) (i_payload s) = []) by (apply skipn_all2, nth_error_None, F).
      specialize (IH Nd' Np' s). destruct (set_members_i c d [] s) as [s'|e].
      * destruct IH as (P & K & R). split; [exact P|]. split.
        -- intros k0 N1 N2 N3. apply K; [exact N1|exact N2|intros Q; apply N3; right; exact Q].
        -- intros i k0 ty0 x [_ H2]. rewrite Sk in H2. destruct i; discriminate H2.
      * destruct IH as (i & k0 & ty0 & x & [_ H2] & _). rewrite Sk in H2. destruct i; discriminate H2.
Qed.
Lemma item2val_exc x ty e : item2val x ty = Raise e -> type_errors (@Raise unit e) = Raise NMEATypeError.
Proof.
  destruct x as [s|z|y|b| | | |].
  - rewrite item2val_text. intros H. apply str2val_exc in H as [-> | ->]; reflexivity.
  - unfold item2val. cbn [not_empty py_float py_int]. unfold f_of_Z.
    repeat match goal with |- context [if ?b then _ else _] => destruct b | |- context [match f_norm z 0 with _ => _ end] => destruct (f_norm z 0) end;
      cbn [bind]; intros [= <-]; reflexivity.
  - unfold item2val. cbn [not_empty py_float py_int]. unfold int_of_float.
    destruct y as [?|?| |? ? ?]; cbn [bind];
    repeat match goal with |- context [if ?b then _ else _] => destruct b end; cbn [bind]; intros [= <-]; reflexivity.
  - unfold item2val. cbn [not_empty py_float py_int]. unfold f_of_Z.
    repeat match goal with |- context [if ?b then _ else _] => destruct b | |- context [match f_norm ?z 0 with _ => _ end] => destruct (f_norm z 0) end;
      cbn [bind]; intros [= <-]; reflexivity.
  - unfold item2val. cbn [not_empty py_float py_int bind]. repeat match goal with |- context [if ?b then _ else _] => destruct b end; intros [= <-]; reflexivity.
  - unfold item2val. cbn [not_empty py_float py_int bind]. repeat match goal with |- context [if ?b then _ else _] => destruct b end; intros [= <-]; reflexivity.
  - unfold item2val. cbn [not_empty py_float py_int bind]. repeat match goal with |- context [if ?b then _ else _] => destruct b end; intros [= <-]; reflexivity.
  - unfold item2val. cbn [not_empty py_float py_int bind]. repeat match goal with |- context [if ?b then _ else _] => destruct b end; intros [= <-]; reflexivity.
Qed.

(* an ordinary message, without keyword arguments: past the two checks it is do_attributes that decides *)
Lemma construct_ordinary clk talker msgid mode hp v ud cks items :
  mode = 0 \/ mode = 1 \/ mode = 2 -> ordinary talker msgid ->
  NMEAMessage_i clk talker msgid mode hp v ud cks items [] =
  if wants_msgid v && negb (has_key talker NMEA_TALKERS && known_id ud msgid) then Raise NMEAMessageError
  else match definition_for mode ud msgid (seen_as items) with
       | None =>
           if wants_msgid v then Raise NMEAMessageError
           else let! (attrs, pl', ck') := type_errors (let! s := set_nominal_i 1 items (mkist 0 [] items) in Ok (i_attrs s, i_payload s, cks)) in
                Ok (mkimsg talker msgid mode (find_defsource msgid ud) ck' pl' attrs)
       | Some d =>
           let c := mkctx talker msgid mode hp v ud (find_defsource msgid ud) true [] clk in
           let! (attrs, pl', ck') := type_errors (
             let! s := set_members_i c d [] (mkist 0 [] items) in
             match cks with
             | Some k => Ok (i_attrs s, i_payload s, Some k)
             | None => let! ts := texts_of (i_payload s) in Ok (i_attrs s, i_payload s, Some (generate_checksum talker msgid ts))
             end) in
           Ok (mkimsg talker msgid mode (find_defsource msgid ud) ck' pl' attrs)
       end.
Proof.
  intros Md O. unfold NMEAMessage_i. pose proof Md as Vm. apply valid_mode_iff in Vm. rewrite Vm. cbn [negb].
  rewrite find_defsource_known.
  assert (W : has_flag v VALMSGID = wants_msgid v) by (apply has_flag_msgid).
  rewrite W. unfold do_attributes_i. rewrite select_ordinary by assumption. cbn [x_talker x_msgID x_kwargs].
  destruct (definition_for mode ud msgid (seen_as items)) as [d|];
  destruct (has_key talker NMEA_TALKERS), (find_defsource msgid ud), (wants_msgid v); cbn [negb andb bind type_errors];
    try reflexivity; destruct d; reflexivity.
Qed.

Lemma texts_of_exc l : forall e, texts_of l = Raise e -> exists x, In x l /\ str_of_val x = Raise e.
Proof.
  induction l as [|x l IH]; intros e H; cbn [texts_of] in H; [discriminate H|].
  destruct (str_of_val x) as [t|e'] eqn:T; cbn [bind] in H.
  - destruct (texts_of l) as [ts|e'] eqn:Ts; cbn [bind] in H; [discriminate H|]. injection H as <-.
    destruct (IH _ eq_refl) as (y & I & E). exists y. split; [right; exact I|exact E].
  - injection H as <-. exists x. split; [left; reflexivity|exact T].
Qed.
Lemma str_of_val_exc x e : str_of_val x = Raise e -> e = ValueError \/ e = TypeError.
Proof.
  destruct x as [s|z|y|b| |d|t|d t]; cbn [str_of_val]; intros H; try discriminate H.
  unfold str_of_Z in H. cbn zeta in H. destruct (int_max_str_digits <? lenN (dec_of_N (Z.abs_N z)))%N; [injection H as <-; left; reflexivity|discriminate H].
Qed.
Fixpoint numbered_items (i : N) (items : list pyval) : list (pystr * pyval) :=
  match items with [] => [] | x :: r => (u "field_" ++ index_text i, x) :: numbered_items (N.succ i) r end.
Lemma numbered_items_nth items : forall n i,
  nth_error (numbered_items n items) i = option_map (fun x => (u "field_" ++ index_text (n + N.of_nat i)%N, x)) (nth_error items i).
Proof.
  induction items as [|x items IH]; intros n [|i]; cbn [numbered_items nth_error option_map]; try reflexivity.
  - rewrite N.add_0_r. reflexivity.
  - rewrite IH. replace (N.succ n + N.of_nat i)%N with (n + N.of_nat (S i))%N by lia. reflexivity.
Qed.
Lemma nominal_items items : forall i s,
  (forall j f, In (u "field_" ++ index_text j, f) (i_attrs s) -> (j < i)%N) ->
  set_nominal_i i items s = Ok (mkist (i_pindex s) (i_attrs s ++ numbered_items i items) (i_payload s)).
Proof.
  induction items as [|f items IH]; intros i s H; cbn [set_nominal_i numbered_items].
  - rewrite app_nil_r. destruct s; reflexivity.
  - unfold setattr_i. rewrite fmt_02d_index.
    assert (NP : str_in (u "field_" ++ index_text i) property_names = false).
    { destruct (str_in _ _) eqn:E; [|reflexivity]. apply str_in_iff in E. cbn [property_names In] in E.
      exfalso. destruct E as [E|[E|[E|[E|[E|[E|[]]]]]]]; discriminate E. }
    rewrite NP. cbn [bind]. rewrite dict_set_fresh.
    2:{ intros Hin. apply in_map_iff in Hin as ([k v] & Ek & Hin). cbn in Ek. subst k.
        specialize (H _ _ Hin). lia. }
    rewrite IH; cbn [i_pindex i_attrs i_payload].
    + rewrite <- app_assoc. reflexivity.
    + intros j g Hin. apply in_app_or in Hin as [Hin|[Hin|[]]].
      * specialize (H _ _ Hin). lia.
      * assert (E : u "field_" ++ index_text i = u "field_" ++ index_text j) by congruence.
        apply app_inv_head in E. apply index_text_inj in E. lia.
Qed.

(* A message of a known, ordinary id whose definition is a list of plain attributes: either it is made, and then the payload
   is the list it was given and every item is read by the type of its attribute; or it is refused with NMEATypeError, because
   some item has no value of its attribute's type (or no text the checksum can be computed from). *)
Theorem C104_plain clk talker msgid mode hp v ud cks items d :
  mode = 0 \/ mode = 1 \/ mode = 2 -> ordinary talker msgid ->
  (wants_msgid v = true -> has_key talker NMEA_TALKERS = true /\ known_id ud msgid = true) ->
  definition_for mode ud msgid (seen_as items) = Some d ->
  plain d -> NoDup (map fst d) -> Forall (fun e => ~ In (fst e) property_names) d ->
  (exists m, NMEAMessage_i clk talker msgid mode hp v ud cks items [] = Ok m
     /\ y_talker m = talker /\ y_msgID m = msgid /\ y_mode m = mode /\ y_payload m = items
     /\ forall i k ty x, reading d items i k ty x ->
          exists w, item2val x ty = Ok w /\ (k <> u "lat" -> k <> u "lon" -> lookup k (y_attrs m) = Some w))
  \/ (NMEAMessage_i clk talker msgid mode hp v ud cks items [] = Raise NMEATypeError
     /\ ((exists i k ty x e, reading d items i k ty x /\ item2val x ty = Raise e)
         \/ (cks = None /\ exists x e, In x items /\ str_of_val x = Raise e))).
Proof.
  intros Md O W D Pl Nd Np. rewrite construct_ordinary by assumption. rewrite D.
  assert (Wb : wants_msgid v && negb (has_key talker NMEA_TALKERS && known_id ud msgid) = false).
  { destruct (wants_msgid v); [|reflexivity]. destruct (W eq_refl) as [-> ->]. reflexivity. }
  rewrite Wb. cbn zeta.
  set (c := mkctx talker msgid mode hp v ud (find_defsource msgid ud) true [] clk).
  pose proof (plain_run c d O Pl Nd Np (mkist 0 [] items)) as R. cbn [i_pindex i_payload i_attrs skipn] in R.
  destruct (set_members_i c d [] (mkist 0 [] items)) as [s|e]; cbn [bind].
  - destruct R as (P & _ & R). destruct cks as [k|].
    + left. eexists. split; [cbn [type_errors bind]; reflexivity|]. cbn [y_talker y_msgID y_mode y_payload y_attrs].
      repeat (split; [first [reflexivity|exact P]|]). exact R.
    + rewrite P. destruct (texts_of items) as [ts|e] eqn:T; cbn [bind].
      * left. eexists. split; [cbn [type_errors bind]; reflexivity|]. cbn [y_talker y_msgID y_mode y_payload y_attrs].
        repeat (split; [first [reflexivity|exact P]|]). exact R.
      * right. destruct (texts_of_exc _ _ T) as (x & I & E). split.
        -- destruct (str_of_val_exc _ _ E) as [-> | ->]; reflexivity.
        -- right. split; [reflexivity|]. exists x, e. split; assumption.
  - destruct R as (i & k & ty & x & R & E). right. split.
    + pose proof (item2val_exc _ _ _ E) as X. destruct e; cbn [type_errors] in X |- *; try discriminate X; reflexivity.
    + left. exists i, k, ty, x, e. split; assumption.
Qed.

(* A message of an id without definition, taken when message ids are not checked: the items themselves become the numbered
   attributes, and no checksum is computed. *)
Theorem C104_unknown clk talker msgid mode hp v ud cks items :
  mode = 0 \/ mode = 1 \/ mode = 2 -> ordinary talker msgid -> wants_msgid v = false ->
  definition_for mode ud msgid (seen_as items) = None ->
  exists m, NMEAMessage_i clk talker msgid mode hp v ud cks items [] = Ok m
    /\ y_talker m = talker /\ y_msgID m = msgid /\ y_mode m = mode /\ y_payload m = items /\ y_checksum m = cks
    /\ forall i, nth_error (y_attrs m) i = option_map (fun x => (u "field_" ++ index_text (N.of_nat (S i)), x)) (nth_error items i).
Proof.
  intros Md O W D. rewrite construct_ordinary by assumption. rewrite D, W. cbn [andb].
  rewrite nominal_items by (intros j f []). cbn [bind type_errors i_attrs i_payload app].
  eexists. split; [reflexivity|]. cbn [y_talker y_msgID y_mode y_payload y_attrs y_checksum].
  repeat (split; [reflexivity|]). intros i. rewrite numbered_items_nth. replace (1 + N.of_nat i)%N with (N.of_nat (S i)) by lia. reflexivity.
Qed.
(* and one whose id is checked is refused *)
Theorem C104_refused clk talker msgid mode hp v ud cks items :
  mode = 0 \/ mode = 1 \/ mode = 2 -> ordinary talker msgid -> wants_msgid v = true ->
  has_key talker NMEA_TALKERS = false \/ known_id ud msgid = false \/ definition_for mode ud msgid (seen_as items) = None ->
  NMEAMessage_i clk talker msgid mode hp v ud cks items [] = Raise NMEAMessageError.
Proof.
  intros Md O W H. rewrite construct_ordinary by assumption. rewrite W. cbn [andb].
  destruct (has_key talker NMEA_TALKERS) eqn:T; cbn [andb negb]; [|reflexivity].
  destruct (known_id ud msgid) eqn:Kn; cbn [negb]; [|reflexivity].
  destruct H as [H|[H|H]]; [discriminate H|discriminate H|]. rewrite H. reflexivity.
Qed.

(* ---------------------------------------------------------------- cases *)
Definition clock0 : clock := fun _ => (mkdate 2025 1 1, mktime 0 0 0 0).
(* a heading given as a number *)
Example C104_heading : exists d m k,
  ordinary (u "GP") (u "HDT") /\ definition_for 0 [] (u "HDT") (seen_as [VInt 12; VStr (u "T")]) = Some d /\ plain d /\ NoDup (map fst d)
  /\ NMEAMessage_i clock0 (u "GP") (u "HDT") 0 false 3 [] None [VInt 12; VStr (u "T")] [] = Ok m
  /\ lookup (u "headingT") (y_attrs m) = Some (VFloat (f_norm 12 0))
  /\ y_checksum m = Some k /\ is_checksum (u "GPHDT,12,T") k
  /\ str_of_imsg m = Ok (u "<NMEA(GPHDT, headingT=12.0, headingTu=T)>")
  /\ serialize_i m = Raise TypeError.
Proof.
  eexists _, _, _. split; [vm_compute; repeat split; intros H; repeat (destruct H as [H|H]; [discriminate H|]); first [contradiction|discriminate H]|].
  split; [vm_compute; reflexivity|]. split; [repeat constructor; eexists; reflexivity|].
  split; [vm_compute; repeat constructor; intros H; repeat (destruct H as [H|H]; [discriminate H|]); contradiction|].
  split; [vm_compute; reflexivity|]. split; [vm_compute; reflexivity|]. split; [vm_compute; reflexivity|].
  split; [apply is_checksum_iff; vm_compute; reflexivity|]. split; vm_compute; reflexivity.
Qed.
(* "a message that can be built can be serialised" fails for such lists *)
Theorem C104_refuted : ~ (forall clk talker msgid mode hp v ud cks items kw m,
  NMEAMessage_i clk talker msgid mode hp v ud cks items kw = Ok m -> exists b, serialize_i m = Ok b).
Proof.
  intros H. destruct C104_heading as (d & m & k & _ & _ & _ & _ & M & _ & _ & _ & _ & E).
  destruct (H _ _ _ _ _ _ _ _ _ _ _ M) as [b B]. rewrite E in B. discriminate B.
Qed.
(* a latitude given as a number is refused *)
Example C104_latitude :
  NMEAMessage_i clock0 (u "GN") (u "GLL") 0 false 1 [] None [VFloat (f_norm 53 0); VStr (u "N")] [] = Raise NMEATypeError.
Proof. vm_compute. reflexivity. Qed.
(* the message type of PSTMDRSENMSG may be a number *)
Example C104_stmdrsenmsg : exists m,
  NMEAMessage_i clock0 (u "P") (u "STMDRSENMSG") 0 false 3 [] None [VInt 30; VInt 1000; VInt 1; VInt 2; VInt 3] [] = Ok m
  /\ lookup (u "timestamp") (y_attrs m) = Some (VInt 1000).
Proof. eexists. split; [vm_compute; reflexivity|]. vm_compute. reflexivity. Qed.
(* tests/test_constructor.py:250-282 *)
Example testFill_UNKNOWN : NMEAMessage_i clock0 (u "GN") (u "XXX") 0 false 2 [] None [VInt 0; VInt 0; VInt 0] [] = Raise NMEAMessageError.
Proof. vm_compute. reflexivity. Qed.
Example testFill_UNKNOWN2 : NMEAMessage_i clock0 (u "XX") (u "XXX") 0 false 3 [] None [VInt 0; VInt 0; VInt 0] [] = Raise NMEAMessageError.
Proof. vm_compute. reflexivity. Qed.
Example testFill_UNKNOWN3 : exists m, NMEAMessage_i clock0 (u "XX") (u "XXX") 0 false 1 [] None [VInt 0; VInt 0; VInt 0] [] = Ok m
  /\ str_of_imsg m = Ok (u "<NMEA(XXXXX, NOMINAL, field_01=0, field_02=0, field_03=0)>").
Proof. eexists. split; [vm_compute; reflexivity|]. vm_compute. reflexivity. Qed.
Example testFill_UNKNOWN4 : NMEAMessage_i clock0 (u "GN") (u "UBX") 0 false 2 [] None [VStr (u "08"); VInt 0; VInt 0] [] = Raise NMEAMessageError.
Proof. vm_compute. reflexivity. Qed.
Example testFill_UNKNOWN5 : exists m, NMEAMessage_i clock0 (u "GN") (u "XXX") 0 false 1 [] None [VInt 0; VInt 0; VInt 0] [] = Ok m.
Proof. eexists. vm_compute. reflexivity. Qed.

(* ---------------------------------------------------------------- the item a definition is selected by *)
(* UBX, ASHR and the other prefixes take the rest of their id from the first item, QTMSN tells its two forms apart by it:
   an item that is not a text is refused *)
Theorem C104_selector clk talker msgid mode hp v ud cks x items :
  mode = 0 \/ mode = 1 \/ mode = 2 -> ~ is_text x ->
  In msgid prefixes \/ (msgid = u "QTMSN" /\ mode = 0) ->
  (wants_msgid v = true -> has_key talker NMEA_TALKERS = true) ->
  NMEAMessage_i clk talker msgid mode hp v ud cks (x :: items) [] = Raise NMEATypeError.
Proof.
  intros Md T S W. unfold NMEAMessage_i. pose proof Md as Vm. apply valid_mode_iff in Vm. rewrite Vm. cbn [negb].
  rewrite has_flag_msgid.
  assert (Wb : negb (has_key talker NMEA_TALKERS) && wants_msgid v = false).
  { destruct (wants_msgid v); [rewrite W by reflexivity; reflexivity|apply andb_false_r]. }
  rewrite Wb.
  assert (P : find_defsource msgid ud = DEF_PROP).
  { destruct S as [S|[-> _]]; [|vm_compute; reflexivity]. unfold prefixes in S. cbn [In] in S.
    repeat (destruct S as [S|S]; [subst msgid; vm_compute; reflexivity|]). contradiction. }
  rewrite P. cbn iota.
  assert (D : forall c, x_msgID c = msgid -> x_mode c = mode -> x_defsource c = DEF_PROP -> x_kwargs c = [] ->
    get_dict_i c (x :: items) = Raise TypeError \/ get_dict_i c (x :: items) = Raise AttributeError).
  { intros c Ei Em Ed Ek. unfold get_dict_i, dict_key_i. rewrite Ei, Ed, Em, Ek.
    destruct S as [S|[-> ->]].
    - left. rewrite prefixes_eq. assert (Sb : str_in msgid prefixes = true) by (apply str_in_iff; exact S). rewrite Sb.
      change (py_index (x :: items) 0) with (Ok x). cbn [bind].
      destruct x; try (exfalso; apply T; eexists; reflexivity); reflexivity.
    - right. assert (Sb : str_in (u "QTMSN") NMEA_PREFIX_PROP = false) by (vm_compute; reflexivity). rewrite Sb. cbn [bind].
      assert (U : str_upper (u "QTMSN") = u "QTMSN") by (vm_compute; reflexivity). rewrite U.
      assert (K : prop_key_i (u "QTMSN") 0 (x :: items) [] = qtmsn_i (u "QTMSN") 0 (x :: items)) by reflexivity.
      rewrite K. unfold qtmsn_i. change (0 =? GET) with true. cbn iota. change (py_index (x :: items) 0) with (Ok x). cbn [bind].
      destruct x; try (exfalso; apply T; eexists; reflexivity); reflexivity. }
  assert (E : do_attributes_i (mkctx talker msgid mode hp v ud DEF_PROP true [] clk) (x :: items) cks = Raise NMEATypeError).
  { unfold do_attributes_i. destruct (D (mkctx talker msgid mode hp v ud DEF_PROP true [] clk) eq_refl eq_refl eq_refl eq_refl) as [-> | ->]; reflexivity. }
  rewrite E. destruct (wants_msgid v); reflexivity.
Qed.
Example C104_selector_case : ~ is_text (VInt 0) /\ In (u "UBX") prefixes
  /\ NMEAMessage_i clock0 (u "P") (u "UBX") 0 false 3 [] None [VInt 0; VStr (u "x")] [] = Raise NMEATypeError.
Proof. split; [intros [s H]; discriminate H|]. split; [vm_compute; auto 10|vm_compute; reflexivity]. Qed.
(* PSSNSNC, whose brackets are removed, needs texts throughout *)
Example C104_brackets :
  NMEAMessage_i clock0 (u "P") (u "SSN") 0 false 3 [] None [VStr (u "SNC"); VStr (u "A"); VInt 1] [] = Raise NMEATypeError
  /\ exists m, NMEAMessage_i clock0 (u "P") (u "SSN") 0 false 3 [] None [VStr (u "SNC"); VStr (u "[A"); VStr (u "1")] [] = Ok m.
Proof. split; [vm_compute; reflexivity|]. eexists. vm_compute. reflexivity. Qed.
