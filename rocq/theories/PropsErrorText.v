(* C111: what the texts of the exceptions say *)
From Coq Require Import Lia.
From Verif Require Import Message Repr Reader ErrorText BaseLemmas TextLemmas NumLemmas Spec KeywordSpec ParseProofs MessageProofs SelectProofs
  DecodeProofs TableProofs StreamProofs CompleteProofs ReaderSpec PropsDms.
Local Open Scope Z_scope.

(* ------------------------------------------------- the same functions, texts left out *)
Lemma forget_set_single c att key gi s : forget (set_single_t c att key gi s) = set_single c att key gi s.
Proof. unfold set_single_t. destruct (set_single c att key gi s) as [s'|e]; [reflexivity|destruct e; reflexivity]. Qed.
Fixpoint members_in (c : ctx) (l : pdict) (gi : list N) (s : ast) : tres ast :=
  match l with
  | [] => TOk s
  | (k, d) :: l' => match set_attribute_t c d k gi s with TOk s' => members_in c l' gi s' | TRaise e t => TRaise e t end
  end.
Lemma repeat_from_t_ext n f g : (forall i s, f i s = g i s) -> forall i s, repeat_from_t n i f s = repeat_from_t n i g s.
Proof. intros H. induction n as [|n IH]; intros i s; cbn; [reflexivity|]. rewrite H. destruct (g i s); [apply IH|reflexivity]. Qed.
Lemma set_attribute_t_group c n ms key gi s :
  set_attribute_t c (AGroup n ms) key gi s =
  match group_count c n ms s with
  | Raise e => TRaise e None
  | Ok rng => repeat_from_t (Z.to_nat rng) 1 (fun i s0 => members_in c ms (gi ++ [i]) s0) s
  end.
Proof.
  cbn [set_attribute_t]. destruct (group_count c n ms s) as [rng|e]; [|reflexivity].
  apply repeat_from_t_ext. intros i s0. revert s0. induction ms as [|[k d] ms IH]; intros s0; [reflexivity|].
  cbn [members_in]. destruct (set_attribute_t c d k (gi ++ [i]) s0); [apply IH|reflexivity].
Qed.
Lemma forget_set_attribute c a : forall key gi s, forget (set_attribute_t c a key gi s) = set_attribute c a key gi s.
Proof.
  induction a as [ty|n ms IH] using adef_ind'; intros key gi s.
  - apply forget_set_single.
  - rewrite set_attribute_t_group, set_attribute_group. destruct (group_count c n ms s) as [rng|e]; [|reflexivity]. cbn [bind].
    assert (forall gi s, forget (members_in c ms gi s) = set_members c ms gi s) as M.
    { induction IH as [|[k d] ms H IH' I']; intros gi' s'; [reflexivity|]. cbn [members_in set_members snd] in *.
      specialize (H k gi' s'). destruct (set_attribute_t c d k gi' s') as [s2|e t]; cbn [forget] in H; rewrite <- H; cbn [bind]; [apply I'|reflexivity]. }
    generalize (Z.to_nat rng). generalize 1%N. intros i k. revert i s. induction k as [|k IHk]; intros i s; cbn; [reflexivity|].
    specialize (M (gi ++ [i]) s). destruct (members_in c ms (gi ++ [i]) s); cbn [forget] in M; rewrite <- M; cbn [bind]; [apply IHk|reflexivity].
Qed.
Lemma forget_type_errors {A} k i (r : tres A) : forget (type_errors_t k i r) = type_errors (forget r).
Proof. destruct r as [a|e t]; [reflexivity|]. destruct e; reflexivity. Qed.
Lemma forget_set_members c d : forall s, forget (set_members_t c d s) = type_errors (set_members c d [] s).
Proof.
  induction d as [|[k a] d IH]; intros s; [reflexivity|]. cbn [set_members_t set_members].
  pose proof (forget_type_errors k (x_msgID c) (set_attribute_t c a k [] s)) as F. rewrite forget_set_attribute in F.
  destruct (type_errors_t _ _ _) as [s'|e t]; cbn [forget] in *.
  - destruct (set_attribute c a k [] s) as [s2|e2]; [cbn [type_errors] in F; injection F as ->; cbn [bind]; apply IH|].
    destruct e2; discriminate F.
  - destruct (set_attribute c a k [] s) as [s2|e2]; [discriminate F|]. cbn [bind]. exact F.
Qed.
Lemma forget_get_dict c fields : forget (get_dict_t c fields) = get_dict c fields.
Proof.
  unfold get_dict_t, get_dict. destruct (dict_key c fields) as [k|e]; cbn [bind].
  - match goal with |- forget (match ?X with _ => _ end) = _ => destruct X as [d|e] end; [reflexivity|destruct e; reflexivity].
  - destruct e; try reflexivity; cbn; destruct (has_flag _ _); reflexivity.
Qed.
Lemma forget_do_attributes c pl ck : forget (do_attributes_t c pl ck) = do_attributes c pl ck.
Proof.
  unfold do_attributes_t, do_attributes. pose proof (forget_type_errors [] (x_msgID c) (get_dict_t c pl)) as F.
  rewrite forget_get_dict in F. destruct (type_errors_t _ _ (get_dict_t c pl)) as [[d|]|e t]; cbn [forget] in F.
  - destruct (get_dict c pl) as [d'|e]; [|destruct e; discriminate F]. cbn [type_errors] in F. injection F as <-. cbn [bind].
    destruct d as [|[k a] d]; [reflexivity|]. destruct (kw_clash (x_kwargs c)); [reflexivity|].
    pose proof (forget_set_members c ((k, a) :: d) (mkast 0 [] pl)) as M.
    destruct (set_members_t c ((k, a) :: d) (mkast 0 [] pl)) as [s|e t]; cbn [forget] in *.
    + destruct (set_members c _ [] _) as [s'|e']; [cbn [type_errors] in M; injection M as <-; reflexivity|destruct e'; discriminate M].
    + destruct (set_members c _ [] _) as [s'|e']; [discriminate M|]. cbn [bind]. destruct e'; cbn in M; injection M as ->; reflexivity.
  - destruct (get_dict c pl) as [d'|e]; [|destruct e; discriminate F]. cbn [type_errors] in F. injection F as <-. cbn [bind].
    rewrite forget_type_errors. f_equal. destruct (x_streaming c); [|reflexivity]. destruct (set_nominal _ _ _); reflexivity.
  - destruct (get_dict c pl) as [d'|e']; [discriminate F|]. cbn [bind]. destruct e'; cbn in F; injection F as ->; reflexivity.
Qed.
Lemma forget_bad_mode {A} w e mode : Z.abs mode < 10 ^ 4300 -> forget (bad_mode (A := A) w e mode) = Raise e.
Proof. intros H. unfold bad_mode. rewrite (str_of_Z_ok mode H). reflexivity. Qed.

(* The functions with texts are the functions of the other properties, with the text added. *)
Theorem C111_faithful_message ck talker msgID mode hp v ud cks pl kw : Z.abs mode < 10 ^ 4300 ->
  forget (NMEAMessage_t ck talker msgID mode hp v ud cks pl kw) = NMEAMessage ck talker msgID mode hp v ud cks pl kw.
Proof.
  intros H. unfold NMEAMessage_t, NMEAMessage. destruct (negb (valid_mode mode)); [apply forget_bad_mode, H|].
  destruct (negb _ && _); [reflexivity|]. cbv zeta. set (X := do_attributes_t _ _ _). set (Y := do_attributes _ _ _).
  assert (forget X = Y) as E by apply forget_do_attributes.
  destruct (find_defsource msgID ud), (has_flag v VALMSGID); try reflexivity; rewrite <- E; destruct X as [[[a p] k]|e t]; reflexivity.
Qed.
Theorem C111_faithful m mode v ud : Z.abs mode < 10 ^ 4300 -> forget (parse_t m mode v ud) = parse m mode v ud.
Proof.
  intros H. unfold parse_t, parse. destruct (negb (valid_mode mode)); [apply forget_bad_mode, H|]. cbv zeta.
  assert (forget (get_parts_t m) = get_parts m) as G by (unfold get_parts_t; destruct (get_parts m); reflexivity).
  destruct (get_parts_t m) as [p|e t]; cbn [forget] in G; rewrite <- G; cbn [bind].
  - destruct (has_flag v VALCKSUM && _); [reflexivity|].
    pose proof (C111_faithful_message no_clock (p_talker p) (p_msgid p) mode false v ud (Some (p_cksum p)) (Some (p_payload p)) [] H) as F.
    destruct (NMEAMessage_t _ _ _ _ _ _ _ _ _ _) as [x|e t]; cbn [forget] in F; rewrite <- F; [reflexivity|].
    destruct e; try reflexivity. destruct (has_flag v VALMSGID); reflexivity.
  - destruct e; try reflexivity. destruct (has_flag v VALMSGID); reflexivity.
Qed.
(* absurdly large numbers given as a mode cannot even be written in the text *)
Definition big : Z := 10 ^ 4300.
Theorem C111_mode_refuted : parse_t (MStr []) big 0 [] = TRaise ValueError None.
Proof. vm_compute. reflexivity. Qed.

(* ------------------------------------------------- parse() of a frame, with texts *)
Definition incorrect (key msgid : pystr) : pystr := u "Incorrect type for attribute " ++ key ++ u " in msgID " ++ msgid ++ u ".".
Lemma get_dict_t_stream ckk talker msgid mode hp v ud fields : valid_mode mode = true ->
  get_dict_t (stream_ctx ckk talker msgid mode hp v ud) fields =
  if lacks_id mode msgid fields then TRaise IndexError None
  else match definition_for mode ud msgid fields with
       | Some d => TOk (Some d)
       | None => if wants_msgid v then
                   TRaise NMEAMessageError (Some (u "Unknown msgID " ++ lookup_id msgid fields ++ u " msgmode " ++ mode_name mode ++ u "."))
                 else TOk None
       end.
Proof.
  intros V. unfold get_dict_t. rewrite get_dict_streaming by (reflexivity || exact V). rewrite dict_key_streaming by reflexivity.
  cbn [x_mode x_msgID x_userdefined x_validate stream_ctx]. unfold lacks_id.
  destruct (str_in msgid prefixes && _); cbn [orb]; [reflexivity|].
  destruct (_ && _); [reflexivity|]. destruct (definition_for mode ud msgid fields); [reflexivity|].
  destruct (wants_msgid v); reflexivity.
Qed.
Lemma do_attributes_t_stream ckk talker msgid mode hp v ud fields ck : valid_mode mode = true ->
  do_attributes_t (stream_ctx ckk talker msgid mode hp v ud) fields (Some ck) =
  if lacks_id mode msgid fields then TRaise IndexError None
  else match definition_for mode ud msgid fields with
       | Some d => match set_members_t (stream_ctx ckk talker msgid mode hp v ud) d (mkast 0 [] fields) with
                   | TOk s => TOk (a_attrs s, a_payload s, Some ck)
                   | TRaise e t => TRaise e t
                   end
       | None => if wants_msgid v then
                   TRaise NMEAMessageError (Some (u "Unknown msgID " ++ lookup_id msgid fields ++ u " msgmode " ++ mode_name mode ++ u "."))
                 else TOk (numbered 1 fields, fields, Some ck)
       end.
Proof.
  intros V. unfold do_attributes_t. rewrite get_dict_t_stream by exact V.
  destruct (lacks_id mode msgid fields); [reflexivity|]. destruct (definition_for mode ud msgid fields) as [d|].
  - cbn [type_errors_t]. destruct d as [|[k a] d]; [reflexivity|].
    cbn [x_kwargs stream_ctx kw_clash existsb clash_names has_key lookup]. cbn match. reflexivity.
  - destruct (wants_msgid v); [reflexivity|]. cbn [type_errors_t x_streaming stream_ctx].
    rewrite set_nominal_numbered by (intros j f []). reflexivity.
Qed.
Definition checksum_text (talker msgid ck k : pystr) : pystr :=
  u "Message " ++ talker ++ msgid ++ u " invalid checksum " ++ ck ++ u " - should be " ++ k ++ u ".".
Lemma members_t_exc c d s e t : x_streaming c = true -> set_members_t c d s = TRaise e t ->
  e = NMEATypeError \/ (e = ZeroDivisionError /\ set_members c d [] s = Raise ZeroDivisionError).
Proof.
  intros St H. pose proof (forget_set_members c d s) as F. rewrite H in F. cbn [forget] in F.
  destruct (set_members c d [] s) as [s'|e'] eqn:E; [discriminate F|].
  pose proof (members_exc _ _ _ _ _ St E) as C. destruct C as [->|[->|[->|[->| ->]]]]; cbn in F; injection F as ->; auto.
Qed.
Lemma parse_t_stream m content ck talker msgid fields mode v ud :
  given m content ck talker msgid fields -> valid_mode mode = true ->
  parse_t m mode v ud =
  if wants_checksum v && negb (str_eqb (str_upper ck) (calc_checksum content)) then
    TRaise NMEAParseError (Some (checksum_text talker msgid ck (calc_checksum content)))
  else if wants_msgid v && negb (has_key talker NMEA_TALKERS) then TRaise NMEAParseError (Some (u "Unknown talker " ++ talker ++ u "."))
  else if wants_msgid v && negb (known_id ud msgid) then
    TRaise NMEAParseError (Some (u "Unknown msgID " ++ talker ++ msgid ++ u ", msgmode " ++ mode_name mode ++ u "."))
  else if lacks_id mode msgid fields then TRaise IndexError None
  else match definition_for mode ud msgid fields with
       | None => if wants_msgid v then
                   TRaise NMEAParseError (Some (u "Unknown msgID " ++ lookup_id msgid fields ++ u " msgmode " ++ mode_name mode ++ u "."))
                 else TOk (Some (mk_stream_msg talker msgid mode false v ud (Some ck) fields (numbered 1 fields)))
       | Some d =>
           match set_members_t (stream_ctx no_clock talker msgid mode false v ud) d (mkast 0 [] fields) with
           | TOk s => TOk (Some (mk_stream_msg talker msgid mode false v ud (Some ck) (a_payload s) (a_attrs s)))
           | TRaise e t => TRaise e t
           end
       end.
Proof.
  intros ((s & T & F) & H) V. unfold parse_t. rewrite V. cbn [negb]. unfold get_parts_t.
  assert (get_parts m = Ok (mkparts content talker msgid fields ck)) as ->.
  { apply get_parts_iff. exists s. cbn. split; [assumption|]. split; assumption. }
  cbv zeta. cbn [p_cksum p_content p_talker p_msgid p_payload].
  rewrite has_flag_checksum, has_flag_msgid.
  destruct (wants_checksum v && negb (str_eqb (str_upper ck) (calc_checksum content))); [reflexivity|].
  unfold NMEAMessage_t. rewrite V. cbn [negb]. rewrite has_flag_msgid, andb_comm, find_defsource_known. cbv zeta.
  fold (stream_ctx no_clock talker msgid mode false v ud).
  pose proof (do_attributes_t_stream no_clock talker msgid mode false v ud fields ck V) as D.
  destruct (wants_msgid v) eqn:W; cbn [andb].
  - destruct (has_key talker NMEA_TALKERS); cbn [negb]; [|reflexivity].
    destruct (find_defsource msgid ud) eqn:Ds; cbn [negb]; [| | |reflexivity].
    all: rewrite D; destruct (lacks_id mode msgid fields); [reflexivity|]; destruct (definition_for mode ud msgid fields) as [d|]; [|reflexivity].
    all: destruct (set_members_t _ d _) as [s'|e t] eqn:E; [unfold mk_stream_msg; rewrite Ds; reflexivity|].
    all: apply members_t_exc in E as [->|[-> _]]; reflexivity.
  - destruct (find_defsource msgid ud) eqn:Ds; rewrite D.
    all: destruct (lacks_id mode msgid fields); [reflexivity|]; destruct (definition_for mode ud msgid fields) as [d|];
         [|unfold mk_stream_msg; rewrite Ds; reflexivity].
    all: destruct (set_members_t _ d _) as [s'|e t] eqn:E; [unfold mk_stream_msg; rewrite Ds; reflexivity|].
    all: apply members_t_exc in E as [->|[-> _]]; reflexivity.
Qed.
