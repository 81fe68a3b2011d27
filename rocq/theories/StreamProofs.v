(* parse() of a frame, completely *)
From Verif Require Import Message Reader BaseLemmas TextLemmas NumLemmas Spec ParseProofs MessageProofs
  SelectProofs DecodeProofs TableProofs.
Local Open Scope Z_scope.

Lemma stream_result_exc c fields d e :
  x_streaming c = true -> stream_result c fields d = Raise e ->
  e = NMEATypeError \/ (e = ZeroDivisionError /\ set_members c d [] (mkast 0 [] fields) = Raise ZeroDivisionError).
Proof.
  intros St H. unfold stream_result in H.
  destruct (set_members c d [] (mkast 0 [] fields)) as [s|e'] eqn:E; [discriminate|].
  pose proof (members_exc _ _ _ _ _ St E) as C.
  destruct C as [->|[->|[->|[->| ->]]]]; cbn in H; injection H as <-; auto.
Qed.

Lemma parse_stream m content ck talker msgid fields mode v ud :
  given m content ck talker msgid fields ->
  parse m mode v ud =
  if negb (valid_mode mode) then Raise NMEAParseError
  else if wants_checksum v && negb (str_eqb (str_upper ck) (calc_checksum content)) then Raise NMEAParseError
  else if wants_msgid v && negb (has_key talker NMEA_TALKERS && known_id ud msgid) then Raise NMEAParseError
  else if lacks_id mode msgid fields then Raise IndexError
  else match definition_for mode ud msgid fields with
       | None => if wants_msgid v then Raise NMEAParseError
                 else Ok (Some (mk_stream_msg talker msgid mode false v ud (Some ck) fields (numbered 1 fields)))
       | Some d =>
           match stream_result (stream_ctx no_clock talker msgid mode false v ud) fields d with
           | Ok s => Ok (Some (mk_stream_msg talker msgid mode false v ud (Some ck) (a_payload s) (a_attrs s)))
           | Raise e => Raise e
           end
       end.
Proof.
  intros ((s & T & F) & H). destruct (valid_mode mode) eqn:V; cbn [negb]; [|apply parse_bad_mode, V].
  rewrite (parse_frame m s content ck talker msgid fields mode v ud T F H V).
  destruct (wants_checksum v && negb (str_eqb (str_upper ck) (calc_checksum content))); [reflexivity|].
  rewrite NMEAMessage_stream, V. cbn [negb].
  destruct (wants_msgid v) eqn:W; cbn [andb].
  - destruct (negb (has_key talker NMEA_TALKERS && known_id ud msgid)); [unfold parse_tail; rewrite ?W; reflexivity|].
    destruct (lacks_id mode msgid fields); [reflexivity|].
    destruct (definition_for mode ud msgid fields) as [d|]; [|unfold parse_tail; rewrite ?W; reflexivity].
    destruct (stream_result _ fields d) as [s'|e] eqn:E; [reflexivity|].
    apply stream_result_exc in E as [->|[-> _]]; reflexivity.
  - destruct (lacks_id mode msgid fields); [reflexivity|].
    destruct (definition_for mode ud msgid fields) as [d|]; [|reflexivity].
    destruct (stream_result _ fields d) as [s'|e] eqn:E; [reflexivity|].
    apply stream_result_exc in E as [->|[-> _]]; reflexivity.
Qed.

(* a message comes from a frame *)
Lemma parse_given m mode v ud x :
  parse m mode v ud = Ok (Some x) ->
  exists content ck talker msgid fields,
    given m content ck talker msgid fields /\ valid_mode mode = true
    /\ (wants_checksum v = true -> str_upper ck = calc_checksum content)
    /\ (wants_msgid v = true -> has_key talker NMEA_TALKERS = true /\ known_id ud msgid = true)
    /\ lacks_id mode msgid fields = false
    /\ m_talker x = talker /\ m_msgID x = msgid /\ m_mode x = mode /\ m_hp x = false /\ m_validate x = v
    /\ m_userdefined x = ud /\ m_defsource x = find_defsource msgid ud /\ m_streaming x = true
    /\ m_checksum x = Some ck /\ m_immutable x = true
    /\ match definition_for mode ud msgid fields with
       | None => wants_msgid v = false /\ m_payload x = fields /\ m_attrs x = numbered 1 fields
       | Some d => exists s, set_members (stream_ctx no_clock talker msgid mode false v ud) d [] (mkast 0 [] fields) = Ok s
                             /\ m_payload x = a_payload s /\ m_attrs x = a_attrs s
       end.
Proof.
  intros E. destruct (parse_Some _ _ _ _ _ E) as (V & s & content & ck & talker & msgid & fields & T & F & H & _ & _).
  assert (given m content ck talker msgid fields) as G by (split; [exists s; split; assumption|exact H]).
  exists content, ck, talker, msgid, fields. split; [exact G|]. split; [exact V|].
  rewrite (parse_stream _ _ _ _ _ _ mode v ud G), V in E. cbn [negb] in E.
  destruct (wants_checksum v && negb (str_eqb (str_upper ck) (calc_checksum content))) eqn:C; [discriminate|].
  split. { intros W. rewrite W in C. cbn in C. apply negb_false_iff, str_eqb_eq in C. exact C. }
  destruct (wants_msgid v && negb (has_key talker NMEA_TALKERS && known_id ud msgid)) eqn:C2; [discriminate|].
  split. { intros W. rewrite W in C2. cbn in C2. apply negb_false_iff, andb_true_iff in C2. exact C2. }
  destruct (lacks_id mode msgid fields); [discriminate|]. split; [reflexivity|].
  destruct (definition_for mode ud msgid fields) as [d|] eqn:D.
  - unfold stream_result in E.
    destruct (set_members _ d [] _) as [s1|e] eqn:M; cbn [type_errors] in E;
      [|destruct e; discriminate]. injection E as <-. cbn. repeat split. exists s1. repeat split.
  - destruct (wants_msgid v); [discriminate|]. injection E as <-. cbn. repeat split.
Qed.

(* decoding is complete: it succeeds whenever every field converts *)
Lemma identity_of_ok talker msgid attrs :
  match lookup (u "msgId") attrs with Some (VStr _) | None => True | _ => False end ->
  exists i, identity_of talker msgid attrs = Ok i.
Proof.
  unfold identity_of. destruct (str_eqb talker (u "P") && str_in msgid NMEA_PREFIX_PROP); [|eexists; reflexivity].
  destruct (lookup (u "msgId") attrs) as [[]|]; intros H; try contradiction; eexists; reflexivity.
Qed.

Lemma text_type_ok t f : In t text_types -> str2val f t = Ok (VStr f).
Proof.
  unfold text_types. cbn [In]. intros [<-|[<-|[<-|[<-|[<-|[<-|[]]]]]]]; reflexivity.
Qed.

Lemma override_msgId att v a : lookup (u "msgId") (override_sign att v a) = lookup (u "msgId") a.
Proof. apply override_lookup; discriminate. Qed.

Lemma run_slots_complete c sl s r :
  streams c (a_payload s) ->
  decode sl (skipn (a_pindex s) (a_payload s)) = Some r ->
  Forall (fun x => ~ In (fst x) clash_words /\ (fst x = u "msgId" -> In (snd x) text_types)) sl ->
  match lookup (u "msgId") (a_attrs s) with Some (VStr _) | None => True | _ => False end ->
  exists s', run_slots c sl s = Ok s'.
Proof.
  revert s r. induction sl as [|[k t] sl IH]; intros s r St D F Hm; [eexists; reflexivity|].
  inversion F as [|? ? [F1 F2] F3]; subst. cbn [fst snd] in *. cbn [run_slots].
  unfold set_slot, set_single. cbn [fst snd suffix flat_map]. rewrite app_nil_r.
  destruct St as [St K]. rewrite St. rewrite fetch_kept by exact K.
  destruct (identity_of_ok (x_talker c) (x_msgID c) (a_attrs s) Hm) as (i & ->). cbn [bind].
  unfold py_index. destruct (nth_error (a_payload s) (a_pindex s)) as [f|] eqn:N; cbn [bind].
  - rewrite (skipn_nth _ _ _ N) in D. cbn [decode] in D.
    destruct (str2val f t) as [v|] eqn:Hv; [|discriminate].
    destruct (decode sl (skipn (S (a_pindex s)) (a_payload s))) as [r'|] eqn:D'; [|discriminate].
    cbn [bind]. unfold setattr. replace (str_in k property_names) with false.
    2:{ symmetry. destruct (str_in k property_names) eqn:P; [|reflexivity]. elim F1. apply str_in_iff, P. }
    cbn [bind a_attrs a_payload a_pindex]. eapply IH; cbn [a_payload a_pindex a_attrs].
    + split; assumption.
    + exact D'.
    + exact F3.
    + rewrite override_msgId. destruct (str_eq_dec k (u "msgId")) as [->|Nk].
      * rewrite lookup_dict_set_same. specialize (F2 eq_refl). rewrite (text_type_ok t f F2) in Hv.
        injection Hv as <-. exact I.
      * rewrite lookup_dict_set_other by congruence. exact Hm.
  - apply IH with (r := []); [split; assumption| |exact F3|exact Hm].
    apply nth_error_None in N. rewrite skipn_all2 by exact N. destruct sl as [|[]]; reflexivity.
Qed.

Lemma plain_expands d : plain d -> expands d (plain_slots d).
Proof.
  induction d as [|[k a] d IH]; intros H; [constructor|]. inversion H as [|? ? [t E] H']; subst. cbn in E. subst a.
  unfold plain_slots. cbn [flat_map snd fst app]. constructor. apply IH, H'.
Qed.

(* group-free definitions: exactly the payloads all of whose fields convert *)
Lemma members_plain_iff c d fields attrs :
  plain d -> well_formed d -> no_clash d -> streams c fields ->
  (exists s, set_members c d [] (mkast 0 [] fields) = Ok s /\ a_attrs s = attrs /\ a_payload s = fields)
  <-> decode (plain_slots d) fields = Some attrs.
Proof.
  intros P W N St. split.
  - intros (s & E & <- & _). destruct (members_decode c d fields s W St E) as (sl & X & _ & D & _).
    rewrite (expands_plain d sl P X) in D. exact D.
  - intros D. pose proof (plain_expands d P) as X.
    destruct (run_slots_complete c (plain_slots d) (mkast 0 [] fields) attrs St D (N _ X) I) as (s & E).
    exists s. assert (set_members c d [] (mkast 0 [] fields) = Ok s) as E'.
    { rewrite set_members_plain by exact P. rewrite <- E. f_equal. rewrite <- (map_id (plain_slots d)) at 2.
      apply map_ext. intros [a b]. cbn. rewrite app_nil_r. reflexivity. }
    split; [exact E'|].
    destruct (members_decode c d fields s W St E') as (sl & X' & _ & D' & Pl).
    rewrite (expands_plain d sl P X') in D'. rewrite D in D'. injection D' as <-. split; [reflexivity|exact Pl].
Qed.

(* settings other than talker and msgID do not matter *)
Lemma plain_ctx c c' ms gi s :
  x_streaming c = true -> x_streaming c' = true -> x_talker c = x_talker c' -> x_msgID c = x_msgID c' ->
  plain ms -> set_members c ms gi s = set_members c' ms gi s.
Proof.
  intros S1 S2 T M P. revert s. induction ms as [|[k a] ms IH]; intros s; [reflexivity|].
  inversion P as [|? ? [t E] P']; subst. cbn in E. subst a. cbn [set_members set_attribute].
  assert (set_single c t k gi s = set_single c' t k gi s) as ->.
  { unfold set_single, fetch. rewrite S1, S2, T, M. reflexivity. }
  destruct (set_single c' t k gi s); cbn [bind]; [apply IH, P'|reflexivity].
Qed.
Lemma members_ctx c c' d gi s :
  x_streaming c = true -> x_streaming c' = true -> x_talker c = x_talker c' -> x_msgID c = x_msgID c' ->
  flat d -> public_counts d -> set_members c d gi s = set_members c' d gi s.
Proof.
  intros S1 S2 T M F P. revert s. induction d as [|[k a] d IH]; intros s; [reflexivity|].
  inversion F as [|? ? F1 F2]; subst. inversion P as [|? ? P1 P2]; subst. cbn [snd] in *.
  cbn [set_members]. assert (set_attribute c a k gi s = set_attribute c' a k gi s) as ->.
  2:{ destruct (set_attribute c' a k gi s); cbn [bind]; [apply IH; assumption|reflexivity]. }
  destruct a as [t|n ms].
  - cbn [set_attribute]. unfold set_single, fetch. rewrite S1, S2, T, M. reflexivity.
  - rewrite !set_attribute_group. assert (group_count c n ms s = group_count c' n ms s) as ->.
    { unfold group_count. destruct n as [z|name]; [reflexivity|]. rewrite S1, S2.
      destruct (str_eqb_spec name (u "None")) as [->|N]; [reflexivity|].
      destruct P1 as [X|(Q1 & Q2 & Q3 & Q4)]; [contradiction|]. unfold getattr_num.
      apply str_eqb_neq in Q1. rewrite Q1.
      assert (forall w : pystr, hd 0%N w = 95%N -> str_eqb name w = false) as Pr.
      { intros w Hw. apply str_eqb_neq. intros ->. contradiction. }
      rewrite !Pr by reflexivity. reflexivity. }
    destruct (group_count c' n ms s); cbn [bind]; [|reflexivity].
    apply repeat_from_ext. intros i s0. apply plain_ctx; try assumption. apply F1.
Qed.

Lemma stream_streams k talker msgid mode hp v ud fields :
  kept_as_is talker msgid fields -> streams (stream_ctx k talker msgid mode hp v ud) fields.
Proof. intros K. split; [reflexivity|exact K]. Qed.

Lemma repeats_functional val left n ms c1 c2 : repeats val left n ms c1 -> repeats val left n ms c2 -> c1 = c2.
Proof.
  unfold repeats. destruct n as [z|name]; [congruence|]. destruct (str_eqb name (u "None")); [congruence|].
  intros (z1 & E1 & ->) (z2 & E2 & ->). congruence.
Qed.
Lemma layout_functional val total pos d sl1 sl2 :
  layout val total pos d sl1 -> layout val total pos d sl2 -> sl1 = sl2.
Proof.
  intros L1. revert sl2. induction L1 as [|pos k ty d sl _ IH|pos k n ms d sl cnt R _ IH]; intros sl2 L2.
  - inversion L2. reflexivity.
  - inversion L2; subst. f_equal. apply IH. assumption.
  - inversion L2 as [| |? ? ? ? ? sl' cnt' R' L']; subst. pose proof (repeats_functional _ _ _ _ _ _ R R') as <-.
    f_equal. apply IH, L'.
Qed.
Lemma layout_expands val total pos d sl : layout val total pos d sl -> expands d sl.
Proof. induction 1; constructor; assumption. Qed.
