(* C111: what the texts of the exceptions say (the theorems about parse()) *)
From Coq Require Import Lia.
From Verif Require Import Message Repr Reader ErrorText BaseLemmas TextLemmas NumLemmas Spec KeywordSpec ValueSpec ParseProofs MessageProofs
  SelectProofs DecodeProofs TableProofs StreamProofs CompleteProofs ReaderSpec ReprSpec PropsRepr PropsDms PropsWrite PropsRelax PropsErrorText.
Local Open Scope Z_scope.

Definition modes : list (Z * pystr) := [(0, u "GET"); (1, u "SET"); (2, u "POLL")].
Lemma modes_valid mode name : In (mode, name) modes -> valid_mode mode = true /\ mode_name mode = name.
Proof. intros [E|[E|[E|[]]]]; injection E as <- <-; split; reflexivity. Qed.
Lemma valid_modes mode : valid_mode mode = true -> In (mode, mode_name mode) modes.
Proof. intros V. apply valid_mode_iff in V as [->|[->| ->]]; [left|right; left|right; right; left]; reflexivity. Qed.
Lemma gate v content ck : (wants_checksum v = true -> is_checksum content (str_upper ck)) ->
  wants_checksum v && negb (str_eqb (str_upper ck) (calc_checksum content)) = false.
Proof.
  intros C. destruct (wants_checksum v); [|reflexivity]. specialize (C eq_refl). apply is_checksum_iff in C. rewrite C, str_eqb_refl. reflexivity.
Qed.

(* A wrong checksum: the text names the sentence, its checksum and the right one. *)
Theorem C111_checksum m content ck talker msgid fields mode name v ud k :
  given m content ck talker msgid fields -> In (mode, name) modes -> wants_checksum v = true ->
  is_checksum content k -> str_upper ck <> k ->
  parse_t m mode v ud = TRaise NMEAParseError
    (Some (u "Message " ++ talker ++ msgid ++ u " invalid checksum " ++ ck ++ u " - should be " ++ k ++ u ".")).
Proof.
  intros G M W K D. apply modes_valid in M as [V _]. rewrite (parse_t_stream _ _ _ _ _ _ mode v ud G V), W. apply is_checksum_iff in K. subst k.
  destruct (str_eqb (str_upper ck) (calc_checksum content)) eqn:E; [apply str_eqb_eq in E; contradiction|]. reflexivity.
Qed.
(* and it is the right one: the sentence with the checksum of the text is treated as the original is without checksum validation *)
Theorem C111_repair m content ck talker msgid fields mode v v' ud k :
  given m content ck talker msgid fields -> is_checksum content k -> plain_defs ud ->
  wants_checksum v' = false -> wants_msgid v' = wants_msgid v ->
  match parse (MStr (sentence talker msgid fields k)) mode v ud, parse m mode v' ud with
  | Ok (Some x), Ok (Some y) =>
      m_checksum x = Some k /\ m_checksum y = Some ck /\ m_talker x = m_talker y /\ m_msgID x = m_msgID y
      /\ m_payload x = m_payload y /\ m_attrs x = m_attrs y
  | Ok None, Ok None => True
  | Raise e1, Raise e2 => e1 = e2
  | _, _ => False
  end.
Proof.
  intros G K P W' W. pose proof G as ((s & T & F) & Hd). apply is_checksum_iff in K. subst k.
  assert (given (MStr (sentence talker msgid fields (calc_checksum content))) content (calc_checksum content) talker msgid fields) as G'.
  { split; [|exact Hd]. eexists. split; [reflexivity|]. destruct Hd as [-> _].
    destruct F as (pre & post & _ & _ & _ & F1 & F2 & _). apply sentence_frame; [exact F1|exact F2|].
    intros c r. apply calc_checksum_clean. }
  rewrite (parse_stream _ _ _ _ _ _ mode v ud G'), (parse_stream _ _ _ _ _ _ mode v' ud G).
  assert (str_upper (calc_checksum content) = calc_checksum content) as -> by apply calc_checksum_upper.
  rewrite str_eqb_refl, W', W. cbn [negb andb]. rewrite andb_false_r.
  destruct (valid_mode mode); [|reflexivity]. cbn [negb].
  destruct (wants_msgid v && _); [reflexivity|]. destruct (lacks_id mode msgid fields); [reflexivity|].
  destruct (definition_for mode ud msgid fields) as [d|] eqn:D.
  - unfold stream_result. rewrite (plain_members _ _ _ _ v v').
    2:{ apply definition_in in D as [(k & D)|(k & D)]; [eapply builtin_plain, D|eapply P, D]. }
    destruct (type_errors _) as [s'|e]; [|reflexivity]. cbn. repeat split.
  - destruct (wants_msgid v); [reflexivity|]. cbn. repeat split.
Qed.

(* VALMSGID: what is not known *)
Theorem C111_talker m content ck talker msgid fields mode name v ud :
  given m content ck talker msgid fields -> In (mode, name) modes -> (wants_checksum v = true -> is_checksum content (str_upper ck)) ->
  wants_msgid v = true -> has_key talker NMEA_TALKERS = false ->
  parse_t m mode v ud = TRaise NMEAParseError (Some (u "Unknown talker " ++ talker ++ u ".")).
Proof.
  intros G M C W H. apply modes_valid in M as [V _]. rewrite (parse_t_stream _ _ _ _ _ _ mode v ud G V), gate by exact C.
  rewrite W, H. reflexivity.
Qed.
Theorem C111_msgid m content ck talker msgid fields mode name v ud :
  given m content ck talker msgid fields -> In (mode, name) modes -> (wants_checksum v = true -> is_checksum content (str_upper ck)) ->
  wants_msgid v = true -> has_key talker NMEA_TALKERS = true -> known_id ud msgid = false ->
  parse_t m mode v ud = TRaise NMEAParseError (Some (u "Unknown msgID " ++ talker ++ msgid ++ u ", msgmode " ++ name ++ u ".")).
Proof.
  intros G M C W H K. apply modes_valid in M as [V <-]. rewrite (parse_t_stream _ _ _ _ _ _ mode v ud G V), gate by exact C.
  rewrite W, H, K. reflexivity.
Qed.
Theorem C111_undefined m content ck talker msgid fields mode name v ud :
  given m content ck talker msgid fields -> In (mode, name) modes -> (wants_checksum v = true -> is_checksum content (str_upper ck)) ->
  wants_msgid v = true -> has_key talker NMEA_TALKERS = true -> known_id ud msgid = true ->
  lacks_id mode msgid fields = false -> definition_for mode ud msgid fields = None ->
  parse_t m mode v ud = TRaise NMEAParseError (Some (u "Unknown msgID " ++ lookup_id msgid fields ++ u " msgmode " ++ name ++ u ".")).
Proof.
  intros G M C W H K L D. apply modes_valid in M as [V <-]. rewrite (parse_t_stream _ _ _ _ _ _ mode v ud G V), gate by exact C.
  rewrite W, H, K, L, D. reflexivity.
Qed.

(* no sentence at all *)
Theorem C111_malformed m mode name v ud s :
  In (mode, name) modes -> wants_msgid v = true -> text_of m s -> ~ In star s ->
  parse_t m mode v ud = TRaise NMEAParseError (Some (u "Badly formed message " ++ s)).
Proof.
  intros M W T N. apply modes_valid in M as [V _]. unfold parse_t. rewrite V. cbn [negb]. cbv zeta. unfold get_parts_t.
  assert (get_parts m = Raise NMEAMessageError) as ->.
  { apply get_parts_fails. intros s' T'. replace s' with s; [exact N|]. destruct m; cbn [text_of] in T, T'; [|congruence|destruct T].
    apply utf8_decode_iff in T, T'. congruence. }
  rewrite has_flag_msgid, W. destruct m as [b|t|]; cbn [text_of] in T; [|subst; reflexivity|destruct T].
  apply utf8_decode_iff in T. rewrite T. reflexivity.
Qed.

(* ------------------------------------------------- NMEATypeError *)
(* a beginning of a definition in good order is in good order *)
Lemma expands_some d : exists sl, expands d sl.
Proof.
  induction d as [|[k [ty|n ms]] d [sl IH]]; [exists []; constructor|eexists; constructor; exact IH|].
  exists (group_slots 0 1 ms ++ sl). constructor. exact IH.
Qed.
Lemma expands_prefix d1 sl1 d2 sl2 : expands d1 sl1 -> expands d2 sl2 -> expands (d1 ++ d2) (sl1 ++ sl2).
Proof.
  intros H1 H2. induction H1 as [|k ty d sl H IH|k n ms d sl cnt H IH]; cbn [app]; [exact H2|constructor; exact IH|].
  rewrite <- app_assoc. constructor. exact IH.
Qed.
Lemma counts_earlier_prefix d1 d2 : forall e, counts_earlier e (d1 ++ d2) -> counts_earlier e d1.
Proof.
  induction d1 as [|[k [ty|[z|name] ms]] d1 IH]; intros e; cbn [app counts_earlier]; [intros _; exact Logic.I|apply IH|apply IH|].
  intros [H1 H2]. split; [exact H1|apply IH, H2].
Qed.
Lemma short_tail_prefix d1 d2 : short_tail (d1 ++ d2) -> short_tail d1.
Proof.
  induction d1 as [|[k [ty|[z|name] ms]] d1 IH]; cbn [app short_tail]; [intros _; exact Logic.I|exact IH|exact IH|].
  intros [H1 H2]. split; [|apply IH, H2]. intros E. destruct (H1 E) as [P L]. rewrite app_length in L. split; [|lia].
  apply Forall_app in P. apply P.
Qed.
Lemma nodup_left {A} (a b : list A) : NoDup (a ++ b) -> NoDup a.
Proof.
  induction a as [|x a IH]; cbn [app]; intros H; [constructor|]. inversion H; subst. constructor; [|apply IH; assumption].
  intros Hin. match goal with H : ~ In x _ |- _ => apply H end. apply in_or_app. left. exact Hin.
Qed.
Lemma in_order_prefix d1 d2 : in_order (d1 ++ d2) -> in_order d1.
Proof.
  intros ((F & U & P) & N & C & T). destruct (expands_some d2) as [sl2 E2]. split; [split; [|split]|split; [|split]].
  - apply Forall_app in F. apply F.
  - intros sl E. specialize (U _ (expands_prefix _ _ _ _ E E2)). rewrite map_app in U. apply nodup_left in U. exact U.
  - apply Forall_app in P. apply P.
  - intros sl E. specialize (N _ (expands_prefix _ _ _ _ E E2)). apply Forall_app in N. apply N.
  - eapply counts_earlier_prefix, C.
  - eapply short_tail_prefix, T.
Qed.
(* the types that occur in an entry of a definition; those a field can be read as *)
Inductive of_type : adef -> pystr -> Prop :=
| of_single ty : of_type (ASingle ty) ty
| of_group n ms k a ty : In (k, a) ms -> of_type a ty -> of_type (AGroup n ms) ty.
Definition readable : list pystr :=
  [u "CH"; u "ST"; u "LAD"; u "LND"; u "QS"; u "HX"; u "DE"; u "DT"; u "DM"; u "IN"; u "LA"; u "LN"; u "TM"].
Definition unknown_type (ty : pystr) : pystr := u "Unknown attribute type " ++ ty ++ u ".".

Lemma readable_ok : Forall (fun ty => forall f, str2val f ty <> Raise NMEATypeError) readable.
Proof.
  unfold readable. repeat (apply Forall_cons; [intros f|]). 14: exact (Forall_nil _).
  all: unfold str2val;
    repeat match goal with |- context [if ?b then _ else _] => let v := eval vm_compute in b in change b with v; cbn match end;
    try discriminate.
  all: destruct f as [|c f]; [discriminate|].
  - destruct (float_of_str (c :: f)) as [x|e] eqn:E; [discriminate|]. apply float_of_str_exc in E as ->. discriminate.
  - destruct (int_of_str (c :: f)) as [x|e] eqn:E; [discriminate|]. apply int_of_str_exc in E as ->. discriminate.
Qed.
Lemma str2val_type f ty : str2val f ty = Raise NMEATypeError -> ~ In ty readable.
Proof. intros H Hin. pose proof readable_ok as R. rewrite Forall_forall in R. exact (R ty Hin f H). Qed.
Lemma set_single_type c ty k gi s : x_streaming c = true -> set_single c ty k gi s = Raise NMEATypeError -> ~ In ty readable.
Proof.
  intros St. unfold set_single. rewrite St. cbv zeta. destruct (fetch c s) as [[pl f]|e] eqn:F.
  - intros H. apply bind_Raise in H as [H|(val & _ & H)]; [eapply str2val_type, H|].
    apply bind_Raise in H as [H|(s1 & _ & H)]; [|discriminate H]. unfold setattr in H. destruct (str_in _ _); discriminate H.
  - unfold fetch in F. apply bind_Raise in F as [F|(x & _ & F)].
    + unfold identity_of in F. destruct (_ && _); [|discriminate F]. destruct (lookup _ _) as [[]|]; try discriminate F; injection F as <-; discriminate.
    + apply bind_Raise in F as [F|(y & _ & F)]; [|destruct (str_eqb _ _); discriminate F].
      unfold py_index in F. destruct (nth_error _ _); [discriminate F|]. injection F as <-. discriminate.
Qed.
Lemma set_attribute_type c a : x_streaming c = true -> forall k gi s t, set_attribute_t c a k gi s = TRaise NMEATypeError t ->
  exists ty, of_type a ty /\ ~ In ty readable /\ t = Some (unknown_type ty).
Proof.
  intros St. induction a as [ty|n ms IH] using adef_ind'; intros k gi s t H.
  - cbn [set_attribute_t] in H. unfold set_single_t in H. destruct (set_single c ty k gi s) as [s'|e] eqn:E; [discriminate H|].
    destruct e; try discriminate H. injection H as <-. exists ty. split; [constructor|]. split; [eapply set_single_type; [exact St|exact E]|reflexivity].
  - rewrite set_attribute_t_group in H. destruct (group_count c n ms s) as [rng|e] eqn:Gc.
    2:{ injection H as -> _. exfalso. unfold group_count in Gc. destruct n as [z|name]; [discriminate Gc|]. destruct (str_eqb name _).
        - rewrite St in Gc. unfold calc_num_repeats in Gc. destruct ms; discriminate Gc.
        - unfold getattr_num in Gc. destruct (str_eqb _ _); [discriminate Gc|]. destruct (lookup name (a_attrs s)) as [[]|]; try discriminate Gc.
          repeat (destruct (str_eqb _ _); [discriminate Gc|]). discriminate Gc. }
    assert (forall gi s t, members_in c ms gi s = TRaise NMEATypeError t ->
      exists k a ty, In (k, a) ms /\ of_type a ty /\ ~ In ty readable /\ t = Some (unknown_type ty)) as M.
    { clear H Gc. induction IH as [|[k1 a1] ms H1 IH' I']; intros gi' s' t' H; cbn [members_in] in H; [discriminate H|].
      destruct (set_attribute_t c a1 k1 gi' s') as [s2|e2 t2] eqn:E.
      - apply I' in H as (k2 & a2 & ty & Hin & H). exists k2, a2, ty. split; [right; exact Hin|exact H].
      - injection H as -> <-. cbn [snd] in H1. apply H1 in E as (ty & O & R & T). exists k1, a1, ty. split; [left; reflexivity|]. auto. }
    assert (exists k a ty, In (k, a) ms /\ of_type a ty /\ ~ In ty readable /\ t = Some (unknown_type ty)) as (k1 & a1 & ty & Hin & O & R & T).
    { clear Gc. revert H. generalize (Z.to_nat rng). generalize 1%N. intros i cnt. revert i s. induction cnt as [|cnt IHc]; intros i s H; cbn in H; [discriminate H|].
      destruct (members_in c ms (gi ++ [i]) s) as [s2|e2 t2] eqn:E; [eapply IHc, H|]. injection H as -> <-. eapply M, E. }
    exists ty. split; [econstructor; [exact Hin|exact O]|]. auto.
Qed.
Lemma set_attribute_text c a : forall k gi s e t, set_attribute_t c a k gi s = TRaise e (Some t) -> e = NMEATypeError.
Proof.
  induction a as [ty|n ms IH] using adef_ind'; intros k gi s e t H.
  - cbn [set_attribute_t] in H. unfold set_single_t in H. destruct (set_single c ty k gi s) as [s'|e']; [discriminate H|].
    destruct e'; congruence.
  - rewrite set_attribute_t_group in H. destruct (group_count c n ms s) as [rng|e']; [|discriminate H].
    assert (forall gi s e t, members_in c ms gi s = TRaise e (Some t) -> e = NMEATypeError) as M.
    { clear H. induction IH as [|[k1 a1] ms H1 IH' I']; intros gi' s' e2 t' H; cbn [members_in] in H; [discriminate H|].
      destruct (set_attribute_t c a1 k1 gi' s') as [s2|e3 t2] eqn:E; [eapply I', H|]. injection H as -> ->. eapply H1, E. }
    revert H. generalize (Z.to_nat rng). generalize 1%N. intros i cnt. revert i s. induction cnt as [|cnt IHc]; intros i s H; cbn in H; [discriminate H|].
    destruct (members_in c ms (gi ++ [i]) s) as [s2|e2 t2] eqn:E; [eapply IHc, H|]. injection H as -> ->. eapply M, E.
Qed.
Lemma set_members_text c d s e t : set_members_t c d s = TRaise e (Some t) -> e = NMEATypeError.
Proof.
  revert s. induction d as [|[k a] d IH]; intros s H; cbn [set_members_t] in H; [discriminate H|].
  destruct (type_errors_t k (x_msgID c) (set_attribute_t c a k [] s)) as [s'|e' t'] eqn:E; [eapply IH, H|]. injection H as -> ->.
  destruct (set_attribute_t c a k [] s) as [s2|e2 t2] eqn:E2; [discriminate E|].
  destruct t2 as [t2|]; [apply set_attribute_text in E2 as ->; cbn in E; congruence|]. destruct e2; cbn in E; congruence.
Qed.
Lemma set_members_t_fail c d s t : set_members_t c d s = TRaise NMEATypeError t ->
  exists l1 k a l2 s1, d = l1 ++ (k, a) :: l2 /\ set_members c l1 [] s = Ok s1
    /\ type_errors_t k (x_msgID c) (set_attribute_t c a k [] s1) = TRaise NMEATypeError t.
Proof.
  revert s. induction d as [|[k a] d IH]; intros s H; cbn [set_members_t] in H; [discriminate H|].
  destruct (type_errors_t k (x_msgID c) (set_attribute_t c a k [] s)) as [s'|e t'] eqn:E.
  - apply IH in H as (l1 & k1 & a1 & l2 & s1 & -> & M & H). exists ((k, a) :: l1), k1, a1, l2, s1. split; [reflexivity|]. split; [|exact H].
    cbn [set_members]. pose proof (forget_set_attribute c a k [] s) as F. destruct (set_attribute_t c a k [] s) as [s2|e2 t2]; [|destruct e2; discriminate E].
    cbn in E. injection E as ->. cbn [forget] in F. rewrite <- F. exact M.
  - injection H as -> ->. exists [], k, a, d, s. split; [reflexivity|]. split; [reflexivity|exact E].
Qed.
Lemma set_members_snoc c l k a s s1 : set_members c l [] s = Ok s1 -> set_members c (l ++ [(k, a)]) [] s = set_attribute c a k [] s1.
Proof.
  revert s. induction l as [|[k1 a1] l IH]; intros s H; cbn [app set_members] in *.
  - injection H as <-. destruct (set_attribute c a k [] s); reflexivity.
  - destruct (set_attribute c a1 k1 [] s) as [s2|]; [|discriminate H]. cbn [bind] in *. apply IH, H.
Qed.
(* A field that cannot be read: the text names the first attribute of the definition that cannot be decoded, or the type that is not known. *)
Theorem C111_attribute m content ck talker msgid fields mode name v ud d t :
  given m content ck talker msgid fields -> In (mode, name) modes -> kept_as_is talker msgid fields ->
  definition_for mode ud msgid fields = Some d -> in_order d ->
  parse_t m mode v ud = TRaise NMEATypeError t ->
  exists l1 k a l2, d = l1 ++ (k, a) :: l2
    /\ (exists attrs, decoded_by l1 fields attrs) /\ (forall attrs, ~ decoded_by (l1 ++ [(k, a)]) fields attrs)
    /\ (t = Some (u "Incorrect type for attribute " ++ k ++ u " in msgID " ++ msgid ++ u ".")
        \/ exists ty, of_type a ty /\ ~ In ty readable /\ t = Some (u "Unknown attribute type " ++ ty ++ u ".")).
Proof.
  intros G M K D O H. apply modes_valid in M as [V _]. rewrite (parse_t_stream _ _ _ _ _ _ mode v ud G V) in H.
  destruct (wants_checksum v && _); [discriminate H|]. destruct (wants_msgid v && negb (has_key talker NMEA_TALKERS)); [discriminate H|].
  destruct (wants_msgid v && negb (known_id ud msgid)); [discriminate H|]. destruct (lacks_id mode msgid fields); [discriminate H|].
  rewrite D in H. set (c := stream_ctx no_clock talker msgid mode false v ud) in *.
  assert (streams c fields) as St by (split; [reflexivity|exact K]).
  destruct (set_members_t c d (mkast 0 [] fields)) as [s|e t'] eqn:E; [discriminate H|]. injection H as -> ->.
  apply set_members_t_fail in E as (l1 & k & a & l2 & s1 & -> & M & E). exists l1, k, a, l2. split; [reflexivity|].
  assert (in_order (l1 ++ [(k, a)])) as O2.
  { apply (in_order_prefix _ l2). rewrite <- app_assoc. exact O. }
  pose proof (in_order_prefix _ _ O2) as O1. split; [|split].
  - exists (a_attrs s1). apply (members_iff c l1 fields _ O1 St). exists s1. split; [exact M|]. split; [reflexivity|].
    apply members_payload_kept in M; [exact M|reflexivity|exact K].
  - intros attrs Hd. apply (members_iff c _ fields _ O2 St) in Hd as (s2 & Hd & _). rewrite (set_members_snoc _ _ _ _ _ _ M) in Hd.
    pose proof (forget_type_errors k (x_msgID c) (set_attribute_t c a k [] s1)) as F. rewrite E, forget_set_attribute, Hd in F. discriminate F.
  - destruct (set_attribute_t c a k [] s1) as [s2|e2 t2] eqn:E2; [discriminate E|].
    destruct e2; cbn in E; try discriminate E; try (left; injection E as <-; reflexivity).
    right. injection E as <-. apply set_attribute_type in E2; [exact E2|reflexivity].
Qed.
(* of every built-in definition *)
Corollary C111_builtin m content ck talker msgid fields mode name v ud t :
  given m content ck talker msgid fields -> In (mode, name) modes -> kept_as_is talker msgid fields -> known_id [] msgid = true ->
  parse_t m mode v ud = TRaise NMEATypeError t ->
  exists l1 k a l2, definition_for mode ud msgid fields = Some (l1 ++ (k, a) :: l2)
    /\ (exists attrs, decoded_by l1 fields attrs) /\ (forall attrs, ~ decoded_by (l1 ++ [(k, a)]) fields attrs)
    /\ (t = Some (u "Incorrect type for attribute " ++ k ++ u " in msgID " ++ msgid ++ u ".")
        \/ exists ty, of_type a ty /\ ~ In ty readable /\ t = Some (u "Unknown attribute type " ++ ty ++ u ".")).
Proof.
  intros G M K B H. destruct (definition_for mode ud msgid fields) as [d|] eqn:D.
  - assert (in_order d) as O.
    { destruct (TableProofs.definition_in mode ud msgid fields d D) as [(k & Hin)|[X _]]; [eapply builtin_in_order, Hin|congruence]. }
    destruct (C111_attribute _ _ _ _ _ _ _ _ _ _ _ _ G M K D O H) as (l1 & k & a & l2 & -> & R). exists l1, k, a, l2. split; [reflexivity|exact R].
  - exfalso. apply modes_valid in M as [V _]. rewrite (parse_t_stream _ _ _ _ _ _ mode v ud G V) in H.
    destruct (wants_checksum v && _); [discriminate H|]. destruct (wants_msgid v && negb (has_key talker NMEA_TALKERS)); [discriminate H|].
    destruct (wants_msgid v && negb (known_id ud msgid)); [discriminate H|]. destruct (lacks_id mode msgid fields); [discriminate H|].
    rewrite D in H. destruct (wants_msgid v); discriminate H.
Qed.

(* ------------------------------------------------- what kind of error it is *)
Definition starts (t p : pystr) : Prop := exists r, t = p ++ r.
Definition beginnings : list pystr :=
  [u "Message "; u "Unknown talker "; u "Unknown msgID "; u "Incorrect type for attribute "; u "Unknown attribute type "; u "Badly formed message "; u "Invalid parse mode "].
Fixpoint is_prefix (p q : pystr) : bool :=
  match p, q with [], _ => true | a :: p', b :: q' => (a =? b)%N && is_prefix p' q' | _, _ => false end.
Lemma is_prefix_common p : forall q t, starts t p -> starts t q -> is_prefix p q || is_prefix q p = true.
Proof.
  induction p as [|a p IH]; intros [|b q] t [r H1] [r' H2]; [reflexivity|reflexivity|reflexivity|]. cbn [is_prefix].
  subst t. cbn [app] in H2. injection H2 as -> H2. rewrite N.eqb_refl. cbn [andb]. eapply (IH q (p ++ r)); [exists r; reflexivity|exists r'; exact H2].
Qed.
(* the beginning of the text tells the kinds of error apart *)
Theorem C111_apart t p q : In p beginnings -> In q beginnings -> starts t p -> starts t q -> p = q.
Proof.
  intros Hp Hq Tp Tq. pose proof (is_prefix_common p q t Tp Tq) as C.
  assert (forallb (fun p => forallb (fun q => negb (is_prefix p q || is_prefix q p) || str_eqb p q) beginnings) beginnings = true) as B by (vm_compute; reflexivity).
  rewrite forallb_forall in B. specialize (B p Hp). rewrite forallb_forall in B. specialize (B q Hq). rewrite C in B. apply str_eqb_eq. exact B.
Qed.
(* every error of parse() about a sentence, with its cause *)
Theorem C111_causes m content ck talker msgid fields mode name v ud e t :
  given m content ck talker msgid fields -> In (mode, name) modes -> parse_t m mode v ud = TRaise e (Some t) ->
  (e = NMEAParseError /\ starts t (u "Message ") /\ wants_checksum v = true /\ ~ is_checksum content (str_upper ck))
  \/ (e = NMEAParseError /\ starts t (u "Unknown talker ") /\ wants_msgid v = true /\ has_key talker NMEA_TALKERS = false)
  \/ (e = NMEAParseError /\ starts t (u "Unknown msgID ") /\ wants_msgid v = true
      /\ (known_id ud msgid = false \/ definition_for mode ud msgid fields = None))
  \/ (e = NMEATypeError /\ (starts t (u "Incorrect type for attribute ") \/ starts t (u "Unknown attribute type "))
      /\ definition_for mode ud msgid fields <> None).
Proof.
  intros G M H. apply modes_valid in M as [V _]. rewrite (parse_t_stream _ _ _ _ _ _ mode v ud G V) in H.
  destruct (wants_checksum v) eqn:W1; cbn [andb] in H.
  1: destruct (str_eqb (str_upper ck) (calc_checksum content)) eqn:C; cbn [negb] in H.
  2:{ left. injection H as <- <-. split; [reflexivity|]. split; [eexists; reflexivity|]. split; [reflexivity|].
      intros X. apply is_checksum_iff in X. rewrite X, str_eqb_refl in C. discriminate C. }
  1, 2: right; destruct (wants_msgid v) eqn:W2; cbn [andb] in H.
  1, 3: destruct (has_key talker NMEA_TALKERS) eqn:Tk; cbn [negb] in H;
        [|left; injection H as <- <-; split; [reflexivity|]; split; [eexists; reflexivity|]; split; reflexivity];
        destruct (known_id ud msgid) eqn:Kn; cbn [negb] in H;
        [|right; left; injection H as <- <-; split; [reflexivity|]; split; [eexists; reflexivity|]; split; [reflexivity|]; left; reflexivity].
  all: destruct (lacks_id mode msgid fields); [discriminate H|].
  all: destruct (definition_for mode ud msgid fields) as [d|] eqn:D;
       [|first [discriminate H|right; left; injection H as <- <-; split; [reflexivity|]; split; [eexists; reflexivity|]; split; [reflexivity|]; right; reflexivity]].
  all: right; right.
  all: destruct (set_members_t _ d _) as [s|e' t'] eqn:E; [discriminate H|]; injection H as -> ->.
  all: pose proof E as E0; apply set_members_text in E0 as ->.
  all: split; [reflexivity|]; split; [|discriminate];
       apply set_members_t_fail in E as (l1 & k & a & l2 & s1 & _ & _ & E);
       destruct (set_attribute_t _ a k [] s1) as [s2|e2 t2] eqn:E2; [discriminate E|];
       destruct e2; cbn in E; try discriminate E; try (left; injection E as <-; eexists; reflexivity);
       right; injection E as ->; apply set_attribute_type in E2 as (ty & _ & _ & T); [|reflexivity]; injection T as ->; eexists; reflexivity.
Qed.

(* a byte string that is no text: the text shows it as a bytes literal *)
Lemma repr_byte_read q c r v t : q = 39%N \/ q = 34%N -> (c < 256)%N ->
  string_body q r v t -> string_body q (repr_byte q c ++ r) (c :: v) t.
Proof.
  intros Q B R. pose proof (repr_chr_read q c r v t Q ltac:(lia) R) as C. unfold repr_byte, repr_chr in *.
  destruct ((c =? q) || (c =? 92))%N; [exact C|]. destruct (c =? 9)%N; [exact C|]. destruct (c =? 10)%N; [exact C|].
  destruct (c =? 13)%N; [exact C|]. destruct (c <? 32)%N eqn:E1; cbn [orb] in *; [exact C|].
  destruct (127 <=? c)%N eqn:E2; cbn [orb] in *.
  - destruct (c =? 127)%N eqn:E3; [exact C|]. replace (c <? 127)%N with false in C by (symmetry; apply N.ltb_ge; apply N.leb_le in E2; exact E2).
    replace (c <=? 255)%N with true in C by (symmetry; apply N.leb_le; lia).
    destruct (chr_isprintable c) eqn:P; [|exact C].
    apply (body_escape q (120%N :: hexw 2 c ++ r) c r); [|exact R]. apply escape_hex; [left; split; reflexivity| |lia]. exact B.
  - replace (c =? 127)%N with false in C by (symmetry; apply N.eqb_neq; apply N.leb_gt in E2; lia).
    replace (c <? 127)%N with true in C by (symmetry; apply N.ltb_lt; apply N.leb_gt in E2; exact E2). exact C.
Qed.
Lemma repr_bytes_read b : Forall (fun c => (c < 256)%N) b -> exists lit, repr_bytes b = u "b" ++ lit /\ string_literal lit b [].
Proof.
  intros B. unfold repr_bytes. cbv zeta. set (q := if _ && _ then 34%N else 39%N).
  assert (q = 39%N \/ q = 34%N) as Q by (unfold q; destruct (_ && _); auto).
  clearbody q. eexists. split; [reflexivity|]. exists q, (flat_map (repr_byte q) b ++ [q]). split; [reflexivity|]. split; [exact Q|]. split.
  - induction B as [|c b C B IH]; cbn [flat_map]; [apply (body_end q [])|]. rewrite <- app_assoc. apply repr_byte_read; [exact Q|exact C|exact IH].
  - intros [_ X]. cbn in X. destruct Q; congruence.
Qed.
Theorem C111_undecodable b mode name v ud :
  In (mode, name) modes -> wants_msgid v = true -> Forall (fun c => (c < 256)%N) b -> (forall s, utf8_encode s <> Ok b) ->
  exists lit, string_literal lit b [] /\ parse_t (MBytes b) mode v ud = TRaise NMEAParseError (Some (u "Badly formed message b" ++ lit)).
Proof.
  intros M W B N. apply modes_valid in M as [V _]. destruct (repr_bytes_read b B) as (lit & E & L). exists lit. split; [exact L|].
  unfold parse_t. rewrite V. cbn [negb]. cbv zeta. unfold get_parts_t.
  assert (utf8_decode b = None) as D.
  { destruct (utf8_decode b) as [s|] eqn:D; [|reflexivity]. apply utf8_decode_iff in D. destruct (N s D). }
  cbn [get_parts]. rewrite D, has_flag_msgid, W, E. reflexivity.
Qed.
(* an invalid mode *)
Theorem C111_mode m mode v ud : (mode <> 0 /\ mode <> 1 /\ mode <> 2) -> Z.abs mode < 10 ^ 4300 ->
  exists n, integer_text mode n /\ parse_t m mode v ud = TRaise NMEAParseError (Some (u "Invalid parse mode " ++ n ++ u " - must be 0, 1 or 2.")).
Proof.
  intros V H. pose proof (str_of_Z_ok mode H) as E. eexists. split; [apply str_of_Z_text, E|].
  unfold parse_t. replace (valid_mode mode) with false.
  2:{ symmetry. destruct (valid_mode mode) eqn:X; [|reflexivity]. apply valid_mode_iff in X. lia. }
  cbn [negb]. unfold bad_mode. rewrite E. reflexivity.
Qed.
(* an error of the library always has a text *)
Theorem C111_always m mode v ud e t : m <> MOther -> protocol_error e -> parse_t m mode v ud = TRaise e t -> t <> None.
Proof.
  intros Nm P H ->. unfold parse_t in H. destruct (valid_mode mode) eqn:V; cbn [negb] in H.
  2:{ unfold bad_mode in H. destruct (str_of_Z mode) as [n|e'] eqn:E; [discriminate H|]. injection H as ->. unfold str_of_Z in E. cbv zeta in E.
      destruct (_ <? _)%N; [injection E as <-|discriminate E]. destruct P as [X|[X|[X|X]]]; discriminate X. }
  destruct (get_parts m) as [p|e'] eqn:G.
  - assert (given m (p_content p) (p_cksum p) (p_talker p) (p_msgid p) (p_payload p)) as Gv.
    { apply get_parts_iff in G as (s & T & F & Hd). split; [exists s; split; assumption|exact Hd]. }
    assert (parse_t m mode v ud = TRaise e None) as H'.
    { unfold parse_t. rewrite V. cbn [negb]. exact H. }
    clear H. rewrite (parse_t_stream _ _ _ _ _ _ mode v ud Gv V) in H'.
    destruct (wants_checksum v && _); [discriminate H'|]. destruct (wants_msgid v && negb (has_key _ NMEA_TALKERS)); [discriminate H'|].
    destruct (wants_msgid v && negb (known_id _ _)); [discriminate H'|].
    destruct (lacks_id _ _ _); [injection H' as <-; destruct P as [X|[X|[X|X]]]; discriminate X|].
    destruct (definition_for _ _ _ _) as [d|]; [|destruct (wants_msgid v); discriminate H'].
    destruct (set_members_t _ d _) as [s|e2 t2] eqn:E; [discriminate H'|]. injection H' as -> ->.
    pose proof E as E0. apply members_t_exc in E0 as [->|[-> _]]; [| |reflexivity]; [|destruct P as [X|[X|[X|X]]]; discriminate X].
    apply set_members_t_fail in E as (l1 & k & a & l2 & s1 & _ & _ & E).
    destruct (set_attribute_t _ a k [] s1) as [s2|e2 t2] eqn:E2; [discriminate E|].
    destruct e2; cbn in E; try discriminate E. injection E as ->. apply set_attribute_type in E2 as (ty & _ & _ & T); [discriminate T|reflexivity].
  - unfold get_parts_t in H. rewrite G in H. cbv zeta in H. destruct m as [b|s|]; [| |contradiction Nm; reflexivity].
    all: destruct e'; try discriminate H; destruct (has_flag v VALMSGID); discriminate H.
Qed.
(* a proprietary message built from keywords without the one that selects its definition *)
Theorem C111_prefix ck talker msgid mode name hp v ud cks kw :
  In (mode, name) modes -> (wants_msgid v = true -> has_key talker NMEA_TALKERS = true) ->
  In msgid prefixes -> ~ In (u "msgId") (map fst kw) ->
  NMEAMessage_t ck talker msgid mode hp v ud cks None kw
  = TRaise NMEAMessageError (Some (u "P" ++ msgid ++ u " message definitions must include payload or msgId keyword arguments.")).
Proof.
  intros M W P K. apply modes_valid in M as [V _]. unfold NMEAMessage_t. rewrite V. cbn [negb]. rewrite has_flag_msgid.
  replace (negb (has_key talker NMEA_TALKERS) && wants_msgid v) with false.
  2:{ symmetry. destruct (wants_msgid v); [rewrite (W eq_refl); reflexivity|apply andb_false_r]. }
  assert (str_in msgid NMEA_PREFIX_PROP = true) as S by (rewrite prefixes_eq; apply str_in_iff; exact P).
  assert (find_defsource msgid ud <> DEF_UNKN) as D.
  { unfold find_defsource. destruct (has_key msgid NMEA_MSGIDS); [discriminate|]. rewrite S, orb_true_r. discriminate. }
  cbv zeta.
  assert (forall ds, do_attributes_t (mkctx talker msgid mode hp v ud ds false kw ck) [] cks
    = TRaise NMEAMessageError (Some (u "P" ++ msgid ++ u " message definitions must include payload or msgId keyword arguments."))) as X.
  { intros ds. unfold do_attributes_t, get_dict_t, dict_key. cbn [x_msgID x_streaming x_kwargs]. rewrite S.
    replace (lookup (u "msgId") kw) with (@None pyval); [reflexivity|]. symmetry. apply lookup_None. exact K. }
  destruct (find_defsource msgid ud); [| | |contradiction D; reflexivity]; destruct (wants_msgid v); rewrite X; reflexivity.
Qed.
