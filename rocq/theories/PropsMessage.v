(* Theorems about parsed messages: C04, C07-C09, C12-C15, C17, C18, C20-C25, C57, C70 *)
From Verif Require Import Message Reader BaseLemmas TextLemmas NumLemmas Spec ParseProofs MessageProofs
  SelectProofs DecodeProofs TableProofs StreamProofs.
Local Open Scope Z_scope.

Ltac given_lit := split; [eexists; split; [reflexivity|apply frame_strip; vm_compute; reflexivity]
                         |apply header_get; vm_compute; repeat split; reflexivity].

(* ------------------------------------------------------------------ C04 *)
Theorem C04_checksum_ignored m1 m2 content ck1 ck2 talker msgid fields mode v ud :
  given m1 content ck1 talker msgid fields -> given m2 content ck2 talker msgid fields ->
  wants_checksum v = false ->
  match parse m1 mode v ud, parse m2 mode v ud with
  | Ok (Some x), Ok (Some y) =>
      m_checksum x = Some ck1 /\ m_checksum y = Some ck2
      /\ m_talker x = m_talker y /\ m_msgID x = m_msgID y /\ m_mode x = m_mode y
      /\ m_payload x = m_payload y /\ m_attrs x = m_attrs y /\ m_defsource x = m_defsource y
      /\ m_userdefined x = m_userdefined y /\ m_validate x = m_validate y /\ m_hp x = m_hp y
      /\ m_immutable x = m_immutable y /\ m_streaming x = m_streaming y
      /\ identity x = identity y /\ str_of_msg x = str_of_msg y
  | Ok None, Ok None => True
  | Raise e1, Raise e2 => e1 = e2
  | _, _ => False
  end.
Proof.
  intros G1 G2 W. rewrite (parse_stream _ _ _ _ _ _ mode v ud G1), (parse_stream _ _ _ _ _ _ mode v ud G2), W.
  cbn [andb]. destruct (negb (valid_mode mode)); [reflexivity|].
  destruct (wants_msgid v && _); [reflexivity|]. destruct (lacks_id mode msgid fields); [reflexivity|].
  destruct (definition_for mode ud msgid fields) as [d|].
  - destruct (stream_result _ fields d); [|reflexivity]. repeat split.
  - destruct (wants_msgid v); [reflexivity|]. repeat split.
Qed.
Example C04_example :
  given (MStr (u "$GNGLL,5327.04319,S*00")) (u "GNGLL,5327.04319,S") (u "00") (u "GN") (u "GLL") [u "5327.04319"; u "S"]
  /\ given (MStr (u "GNGLL,5327.04319,S*FF\")) (u "GNGLL,5327.04319,S") (u "FF\") (u "GN") (u "GLL") [u "5327.04319"; u "S"]
  /\ wants_checksum 0 = false.
Proof. split; [given_lit|]. split; [given_lit|reflexivity]. Qed.

(* ------------------------------------------------------------------ C07 *)
Lemma plain_no_empty ms : plain ms -> Forall (fun e => no_empty_group (snd e)) ms.
Proof. unfold plain. apply Forall_impl. intros e [t ->]. constructor. Qed.
Lemma flat_no_empty d : flat d -> Forall (fun e => no_empty_group (snd e)) d.
Proof.
  unfold flat. apply Forall_impl. intros [k [t|n ms]]; cbn; [constructor|].
  intros [P N]. constructor; [exact N|apply plain_no_empty, P].
Qed.

(* everything that can escape from parse() *)
Theorem C07_exceptions m mode v ud e :
  parse m mode v ud = Raise e ->
  e = NMEAParseError \/ e = NMEATypeError
  \/ (e = IndexError /\ exists content ck talker msgid fields,
        given m content ck talker msgid fields /\ lacks_id mode msgid fields = true)
  \/ (e = ZeroDivisionError /\ exists k d, In (k, d) ud /\ ~ Forall (fun a => no_empty_group (snd a)) d).
Proof.
  intros E. destruct (valid_mode mode) eqn:V.
  2:{ rewrite parse_bad_mode in E by exact V. injection E as <-. left. reflexivity. }
  destruct (get_parts_total m) as [(p & G)|G].
  - apply get_parts_iff in G as (s & T & F & H).
    assert (given m (p_content p) (p_cksum p) (p_talker p) (p_msgid p) (p_payload p)) as G
      by (split; [exists s; split; assumption|exact H]).
    rewrite (parse_stream _ _ _ _ _ _ mode v ud G), V in E. cbn [negb] in E.
    destruct (wants_checksum v && _); [injection E as <-; left; reflexivity|].
    destruct (wants_msgid v && _); [injection E as <-; left; reflexivity|].
    destruct (lacks_id mode (p_msgid p) (p_payload p)) eqn:L.
    + injection E as <-. right. right. left. split; [reflexivity|]. eexists _, _, _, _, _. split; [exact G|exact L].
    + destruct (definition_for mode ud (p_msgid p) (p_payload p)) as [d|] eqn:D.
      * destruct (stream_result _ (p_payload p) d) as [s'|e'] eqn:R; [discriminate|]. injection E as <-.
        apply stream_result_exc in R as [->|[-> Z]]; [right; left; reflexivity| |reflexivity].
        right. right. right. split; [reflexivity|].
        apply definition_in in D as [(k & B)|(_ & k & B)].
        -- exfalso. revert Z. apply members_zero; [reflexivity|]. apply flat_no_empty, (builtin_well_formed k d B).
        -- exists k, d. split; [exact B|]. intros N. revert Z. apply members_zero; [reflexivity|exact N].
      * destruct (wants_msgid v); [|discriminate]. injection E as <-. left. reflexivity.
  - pose proof (proj1 (get_parts_fails m) G) as G'. rewrite parse_no_frame in E by assumption.
    destruct (wants_msgid v); [|discriminate]. injection E as <-. left. reflexivity.
Qed.

(* the IndexError does escape, for every sentence that lacks the id field and
   passes the checksum and VALMSGID tests *)
Theorem C07_index_error m content ck talker msgid fields mode v ud :
  given m content ck talker msgid fields -> (mode = 0 \/ mode = 1 \/ mode = 2) ->
  (wants_checksum v = true -> is_checksum content (str_upper ck)) ->
  (wants_msgid v = true -> has_key talker NMEA_TALKERS = true /\ known_id ud msgid = true) ->
  lacks_id mode msgid fields = true ->
  parse m mode v ud = Raise IndexError.
Proof.
  intros G V C K L. rewrite (parse_stream _ _ _ _ _ _ mode v ud G). apply valid_mode_iff in V. rewrite V, L. cbn [negb].
  destruct (wants_checksum v); cbn [andb].
  - specialize (C eq_refl). apply is_checksum_iff in C. rewrite C, str_eqb_refl. cbn [negb].
    destruct (wants_msgid v); [|reflexivity]. destruct (K eq_refl) as [-> ->]. reflexivity.
  - destruct (wants_msgid v); [|reflexivity]. destruct (K eq_refl) as [-> ->]. reflexivity.
Qed.

(* so the unqualified claim is false *)
Theorem C07_refuted :
  parse (MStr (u "$PUBX*1F")) 0 1 [] = Raise IndexError
  /\ parse (MStr (u "$PASHR,A*1A")) 0 0 [] = Raise IndexError
  /\ parse (MStr (u "$PQTMSN*00")) 0 0 [] = Raise IndexError
  /\ parse (MStr (u "$GPXYZ,1*00")) 0 0 [(u "XYZ", [(u "g", AGroup (NStr (u "None")) [])])] = Raise ZeroDivisionError.
Proof. repeat split; vm_compute; reflexivity. Qed.
Example C07_example_type_error : parse (MStr (u "$GNGLL,5327.04319,S,,,,A,A*00")) 0 0 [] <> Raise NMEATypeError
  /\ parse (MStr (u "$GNGGA,,,,,,x*00")) 0 0 [] = Raise NMEATypeError.
Proof. split; [intros E; vm_compute in E; discriminate|vm_compute; reflexivity]. Qed.

(* ------------------------------------------------------------------ C09 *)
Lemma serialize_sentence x :
  serialize_text x = sentence (m_talker x) (m_msgID x) (m_payload x) (cksum_text (m_checksum x)).
Proof.
  unfold serialize_text, sentence.
  rewrite (flat_map_fold (m_payload x) [c_comma] (fun x => x)), <- !app_assoc. reflexivity.
Qed.

Lemma parse_payload m mode v ud x :
  parse m mode v ud = Ok (Some x) ->
  exists content ck talker msgid fields,
    given m content ck talker msgid fields
    /\ m_talker x = talker /\ m_msgID x = msgid /\ m_checksum x = Some ck
    /\ (kept_as_is talker msgid fields -> m_payload x = fields).
Proof.
  intros E. destruct (parse_given _ _ _ _ _ E) as (content & ck & talker & msgid & fields & G & _ & _ & _ & _ &
    X1 & X2 & _ & _ & _ & _ & _ & _ & X3 & _ & X4).
  exists content, ck, talker, msgid, fields. repeat (split; [assumption|]).
  intros K. destruct (definition_for mode ud msgid fields) as [d|]; [|apply X4].
  destruct X4 as (s & M & -> & _).
  apply members_payload_kept in M; [exact M|reflexivity|exact K].
Qed.

(* content and checksum are those of the input *)
Theorem C09_serialize_after_parse m content ck talker msgid fields mode v ud x :
  given m content ck talker msgid fields -> kept_as_is talker msgid fields ->
  parse m mode v ud = Ok (Some x) ->
  serialize x = utf8_encode ([dollar] ++ content ++ [star] ++ ck ++ [cr; lf]).
Proof.
  intros ((s & T & F) & H) K E.
  destruct (parse_payload _ _ _ _ _ E) as (content' & ck' & talker' & msgid' & fields' & ((s' & T' & F') & H') & X1 & X2 & X3 & X4).
  rewrite (text_of_functional _ _ _ T' T) in F'.
  destruct (frame_functional _ _ _ _ _ F' F) as [-> ->].
  destruct (header_functional _ _ _ _ _ _ _ H' H) as (-> & -> & ->).
  specialize (X4 K). unfold serialize. rewrite serialize_sentence, X1, X2, X3, X4. unfold sentence. cbn [cksum_text].
  destruct H as [-> _]. rewrite <- !app_assoc. reflexivity.
Qed.

(* identity on bytes with the usual framing *)
Theorem C09_bytes content ck b talker msgid fields mode v ud x :
  utf8_encode ([dollar] ++ content ++ [star] ++ ck ++ [cr; lf]) = Ok b ->
  given (MBytes b) content ck talker msgid fields -> kept_as_is talker msgid fields ->
  parse (MBytes b) mode v ud = Ok (Some x) -> serialize x = Ok b.
Proof. intros U G K E. rewrite (C09_serialize_after_parse _ _ _ _ _ _ _ _ _ _ G K E). exact U. Qed.

Definition gsa : pystr := u "$GNGSA,A,3,23,24,20,12,,,,,,,,,1.36,0.74,1.15,1*12" ++ [13; 10]%N.
Example C09_example :
  exists x, given (MBytes gsa) (u "GNGSA,A,3,23,24,20,12,,,,,,,,,1.36,0.74,1.15,1") (u "12") (u "GN") (u "GSA")
      (split_all 44 (u "A,3,23,24,20,12,,,,,,,,,1.36,0.74,1.15,1"))
    /\ parse (MBytes gsa) 0 0 [] = Ok (Some x) /\ serialize x = Ok gsa.
Proof.
  assert (given (MBytes gsa) (u "GNGSA,A,3,23,24,20,12,,,,,,,,,1.36,0.74,1.15,1") (u "12") (u "GN") (u "GSA")
      (split_all 44 (u "A,3,23,24,20,12,,,,,,,,,1.36,0.74,1.15,1"))) as G.
  { split; [exists gsa; split; [vm_compute; reflexivity|apply frame_strip; vm_compute; reflexivity]|].
    apply header_get; vm_compute; repeat split; reflexivity. }
  eexists. split; [exact G|]. split; [vm_compute; reflexivity|].
  eapply (C09_bytes _ _ gsa _ _ _ 0 0 []); [|exact G| |vm_compute; reflexivity]; [vm_compute; reflexivity|].
  left. intros y Y. vm_compute in Y. discriminate.
Qed.

(* false for PSSNSNC, whose brackets are removed from the payload in place *)
Definition snc2 : pystr := u "$PSSN,SNC,604800,1,2,3,4,2019,[1,2]*" ++ calc_checksum (u "PSSN,SNC,604800,1,2,3,4,2019,[1,2]") ++ [13; 10]%N.
Theorem C09_brackets_refuted :
  exists x b, parse (MBytes snc2) 0 1 [] = Ok (Some x) /\ serialize x = Ok b /\ b <> snc2
              /\ parse (MBytes b) 0 1 [] = Raise NMEAParseError.
Proof.
  eexists _, _. split; [vm_compute; reflexivity|]. split; [vm_compute; reflexivity|].
  split; [intros E; vm_compute in E; discriminate|vm_compute; reflexivity].
Qed.

(* ------------------------------------------------------------------ C08 *)
Theorem C08_parse_after_serialize m content ck talker msgid fields mode v ud x b :
  given m content ck talker msgid fields -> kept_as_is talker msgid fields ->
  parse m mode v ud = Ok (Some x) -> serialize x = Ok b ->
  parse (MBytes b) mode v ud = Ok (Some x).
Proof.
  intros G K E S. pose proof (C09_serialize_after_parse _ _ _ _ _ _ _ _ _ _ G K E) as S'.
  assert (given (MBytes b) content ck talker msgid fields) as G'.
  { destruct G as ((s & _ & F) & H). split; [|exact H]. eexists. split; [cbn [text_of]; rewrite <- S'; exact S|].
    destruct F as (pre & post & _ & _ & _ & N & F1 & F2).
    exists [dollar], [cr; lf]. split; [rewrite <- ?app_assoc; reflexivity|].
    split; [constructor; [left; reflexivity|constructor]|].
    split; [constructor; [right; left; reflexivity|constructor; [right; right; reflexivity|constructor]]|].
    repeat split; assumption. }
  rewrite (parse_stream _ _ _ _ _ _ mode v ud G'), <- (parse_stream _ _ _ _ _ _ mode v ud G). exact E.
Qed.

(* messages built from a payload list, with any settings *)
Theorem C08_constructed clk talker msgid mode hp v0 v ud cks fields x k b :
  NMEAMessage clk talker msgid mode hp v0 ud cks (Some fields) [] = Ok x ->
  let content := talker ++ msgid ++ flat_map (fun f => comma :: f) fields in
  header content talker msgid fields ->
  ~ In star content -> (forall c r, content = c :: r -> ~ framing c) ->
  m_checksum x = Some k -> (forall c r, k = r ++ [c] -> ~ framing c) ->
  is_checksum content (str_upper k) ->
  kept_as_is talker msgid fields ->
  (wants_msgid v = true -> wants_msgid v0 = true) ->
  (forall name d, In (name, d) ud -> well_formed d) ->
  serialize x = Ok b ->
  exists y, parse (MBytes b) mode v ud = Ok (Some y) /\ same_message x y.
Proof.
  intros E content H N1 N2 Ek N3 C K W WF S. rewrite NMEAMessage_stream in E.
  destruct (valid_mode mode) eqn:V; cbn [negb] in E; [|discriminate].
  destruct (wants_msgid v0 && negb (has_key talker NMEA_TALKERS && known_id ud msgid)) eqn:W0; [discriminate|].
  destruct (lacks_id mode msgid fields) eqn:L; [discriminate|].
  assert (m_talker x = talker /\ m_msgID x = msgid /\ m_payload x = fields) as (T1 & T2 & T3).
  { destruct (definition_for mode ud msgid fields) as [d|].
    - unfold stream_result in E. destruct (set_members _ d [] _) as [s|e] eqn:M; cbn [type_errors] in E;
        [|destruct e; discriminate]. injection E as <-. cbn. repeat split.
      apply members_payload_kept in M; [exact M|reflexivity|exact K].
    - destruct (wants_msgid v0); [discriminate|]. injection E as <-. repeat split. }
  assert (given (MBytes b) content k talker msgid fields) as G.
  { split; [|exact H]. exists (sentence talker msgid fields k). split.
    - cbn [text_of]. rewrite <- S. unfold serialize. rewrite serialize_sentence, T1, T2, T3, Ek. reflexivity.
    - apply sentence_frame; assumption. }
  rewrite (parse_stream _ _ _ _ _ _ mode v ud G), V, L. cbn [negb].
  apply is_checksum_iff in C. rewrite C, str_eqb_refl. cbn [negb]. rewrite andb_false_r.
  replace (wants_msgid v && negb (has_key talker NMEA_TALKERS && known_id ud msgid)) with false.
  2:{ symmetry. destruct (wants_msgid v); [|reflexivity]. rewrite (W eq_refl) in W0. exact W0. }
  destruct (definition_for mode ud msgid fields) as [d|] eqn:D.
  - unfold stream_result in *.
    assert (well_formed d) as (Fl & _ & Pc).
    { apply definition_in in D as [(nm & B)|(_ & nm & B)]; [eapply builtin_well_formed|eapply WF]; exact B. }
    rewrite (members_ctx (stream_ctx no_clock talker msgid mode false v ud)
               (stream_ctx clk talker msgid mode hp v0 ud)) by (reflexivity || assumption).
    destruct (set_members _ d [] _) as [s|e]; cbn [type_errors] in *; [|destruct e; discriminate].
    injection E as <-. eexists. split; [reflexivity|]. cbn in Ek. injection Ek as <-. repeat split.
  - destruct (wants_msgid v0) eqn:W'; [discriminate|]. injection E as <-.
    destruct (wants_msgid v); [specialize (W eq_refl); discriminate|].
    eexists. split; [reflexivity|]. cbn in Ek. subst cks. repeat split.
Qed.
(* a message built without checksum gets the right one *)
Theorem C08_constructed_checksum clk talker msgid mode hp v ud fields x :
  NMEAMessage clk talker msgid mode hp v ud None (Some fields) [] = Ok x ->
  kept_as_is talker msgid fields -> definition_for mode ud msgid fields <> None ->
  exists k, m_checksum x = Some k /\ is_checksum (talker ++ msgid ++ flat_map (fun f => comma :: f) fields) k
            /\ str_upper k = k /\ (forall c r, k = r ++ [c] -> ~ framing c).
Proof.
  intros E K D. rewrite NMEAMessage_stream in E. destruct (negb (valid_mode mode)); [discriminate|].
  destruct (wants_msgid v && _); [discriminate|]. destruct (lacks_id mode msgid fields); [discriminate|].
  destruct (definition_for mode ud msgid fields) as [d|]; [|contradiction D; reflexivity].
  unfold stream_result in E. destruct (set_members _ d [] _) as [s|e] eqn:M; cbn [type_errors] in E;
    [|destruct e; discriminate]. injection E as <-. eexists. split; [reflexivity|].
  apply members_payload_kept in M; [|reflexivity|exact K]. cbn [a_payload] in M. rewrite M.
  split; [apply calc_checksum_is|]. split; [apply calc_checksum_upper|]. apply calc_checksum_clean.
Qed.
Example C08_example : exists x b,
  NMEAMessage no_clock (u "GN") (u "GLL") 0 true 1 [] None
    (Some [u "5327.04319"; u "S"; u "00214.41396"; u "E"; u "223232.00"; u "A"; u "A"]) [] = Ok x
  /\ serialize x = Ok b /\ exists y, parse (MBytes b) 0 3 [] = Ok (Some y) /\ same_message x y.
Proof.
  eexists _, _. split; [vm_compute; reflexivity|]. split; [vm_compute; reflexivity|].
  eexists. split; [vm_compute; reflexivity|]. unfold same_message. repeat split.
Qed.
