(* Theorems about message objects: C23, C24, C25, C57, C70 *)
From Verif Require Import Message Reader BaseLemmas TextLemmas NumLemmas Spec ParseProofs MessageProofs
  SelectProofs DecodeProofs TableProofs StreamProofs PropsMessage.
Local Open Scope Z_scope.

(* what every constructed message has in common *)
Lemma constructed ck talker msgid mode hp v ud cks pl kw x :
  NMEAMessage ck talker msgid mode hp v ud cks pl kw = Ok x ->
  m_talker x = talker /\ m_msgID x = msgid /\ m_mode x = mode /\ m_defsource x = find_defsource msgid ud
  /\ m_userdefined x = ud /\ m_immutable x = true.
Proof.
  unfold NMEAMessage. destruct (negb (valid_mode mode)); [discriminate|].
  destruct (negb (has_key talker NMEA_TALKERS) && has_flag v VALMSGID); [discriminate|].
  destruct (find_defsource msgid ud), (has_flag v VALMSGID); try discriminate;
    (destruct (do_attributes _ _ _) as [[[a p] k]|e]; cbn [bind]; [|discriminate]; intros [= <-]; repeat split).
Qed.

(* ------------------------------------------------------------------ C23 *)
Fixpoint run_ops (m : msg) (ops : list mop) : list (option exc) * msg :=
  match ops with
  | [] => ([], m)
  | o :: r => let '(e, m') := mstep m o in let '(es, m'') := run_ops m' r in (e :: es, m'')
  end.

(* any sequence of assignments leaves the object as it was *)
Theorem C23_immutable ck talker msgid mode hp v ud cks pl kw x (assignments : list (pystr * pyval)) :
  NMEAMessage ck talker msgid mode hp v ud cks pl kw = Ok x ->
  run_ops x (map (fun a => OpSet (fst a) (snd a)) assignments)
  = (map (fun _ => Some NMEAMessageError) assignments, x).
Proof.
  intros E. apply constructed in E as (_ & _ & _ & _ & _ & I).
  induction assignments as [|[n w] r IH]; [reflexivity|]. cbn [map run_ops mstep fst snd]. rewrite I, IH. reflexivity.
Qed.
Theorem C23_parsed m mode v ud x (assignments : list (pystr * pyval)) :
  parse m mode v ud = Ok (Some x) ->
  run_ops x (map (fun a => OpSet (fst a) (snd a)) assignments)
  = (map (fun _ => Some NMEAMessageError) assignments, x).
Proof.
  intros E. apply parse_Some in E as (_ & s & content & ck & t & i & f & _ & _ & _ & _ & E).
  eapply C23_immutable, E.
Qed.
(* deleting attributes and editing the payload list in place are not prevented *)
Theorem C23_delete_refuted :
  exists x y, parse (MStr (u "$GPZZZ,1*00")) 0 0 [] = Ok (Some x)
    /\ mstep x (OpDel (u "field_01")) = (None, y) /\ m_attrs y = [].
Proof. eexists _, _. split; [vm_compute; reflexivity|]. split; reflexivity. Qed.
Theorem C23_payload_refuted :
  exists x y, parse (MStr (u "$GPZZZ,1*00")) 0 0 [] = Ok (Some x)
    /\ mstep x (OpPayloadSet 0 (u "2")) = (None, y) /\ serialize y <> serialize x.
Proof. eexists _, _. split; [vm_compute; reflexivity|]. split; [reflexivity|]. vm_compute. discriminate. Qed.
Example C23_example :
  exists x, parse (MStr (u "$GPZZZ,1*00")) 0 0 [] = Ok (Some x)
    /\ run_ops x [OpSet (u "field_01") VNone; OpSet (u "new") (VInt 3)]
       = ([Some NMEAMessageError; Some NMEAMessageError], x).
Proof.
  eexists. split; [vm_compute; reflexivity|].
  eapply (C23_parsed (MStr (u "$GPZZZ,1*00")) 0 0 [] _ [(u "field_01", VNone); (u "new", VInt 3)]). vm_compute. reflexivity.
Qed.

(* ------------------------------------------------------------------ C24 *)
Theorem C24_identity x :
  identity x =
    if str_eqb (m_talker x) (u "P") && str_in (m_msgID x) prefixes then
      match lookup (u "msgId") (m_attrs x) with
      | Some (VStr s) => Ok (m_talker x ++ m_msgID x ++ s)
      | Some _ => Raise TypeError
      | None => Ok (m_talker x ++ m_msgID x)
      end
    else Ok (m_talker x ++ m_msgID x).
Proof. unfold identity, identity_of. rewrite prefixes_eq. reflexivity. Qed.

(* messages parsed with a built-in definition: the TypeError does not occur *)
Lemma run_slots_msgId c sl s s' :
  streams c (a_payload s) -> run_slots c sl s = Ok s' ->
  Forall (fun x => ~ In (fst x) clash_words /\ (fst x = u "msgId" -> In (snd x) text_types)) sl ->
  match lookup (u "msgId") (a_attrs s) with Some (VStr _) | None => True | _ => False end ->
  match lookup (u "msgId") (a_attrs s') with Some (VStr _) | None => True | _ => False end.
Proof.
  revert s. induction sl as [|[k t] sl IH]; intros s St E F Hm; cbn in E; [injection E as <-; exact Hm|].
  apply bind_Ok in E as (s1 & E1 & E2). inversion F as [|? ? [_ F2] F3]; subst. cbn [fst snd] in F2.
  apply slot_stream in E1; [|exact St]. cbn [fst snd] in E1.
  destruct E1 as [[_ ->]|(f & v & _ & Hv & _ & ->)]; [eapply IH; eassumption|].
  eapply IH; [|exact E2|exact F3|]; cbn [a_payload a_attrs]; [exact St|].
  rewrite override_msgId. destruct (str_eq_dec k (u "msgId")) as [->|Nk].
  - rewrite lookup_dict_set_same. rewrite (text_type_ok t f (F2 eq_refl)) in Hv. injection Hv as <-. exact I.
  - rewrite lookup_dict_set_other by congruence. exact Hm.
Qed.
Theorem C24_parsed m content ck talker msgid fields mode v ud x :
  given m content ck talker msgid fields -> parse m mode v ud = Ok (Some x) ->
  kept_as_is talker msgid fields ->
  (forall k d, In (k, d) ud -> well_formed d /\ no_clash d) ->
  exists t, identity x = Ok t
    /\ (t = talker ++ msgid
        \/ exists s, talker = u "P" /\ In msgid prefixes /\ lookup (u "msgId") (m_attrs x) = Some (VStr s)
                     /\ t = talker ++ msgid ++ s).
Proof.
  intros G E K WF.
  destruct (parse_given _ _ _ _ _ E) as (content' & ck' & talker' & msgid' & fields' & G' & _ & _ & _ & _ &
    X1 & X2 & _ & _ & _ & _ & _ & _ & _ & _ & X).
  assert (talker' = talker /\ msgid' = msgid /\ fields' = fields) as (-> & -> & ->).
  { destruct G as ((s & T & F) & H), G' as ((s' & T' & F') & H'). rewrite (text_of_functional _ _ _ T' T) in F'.
    destruct (frame_functional _ _ _ _ _ F' F) as [-> ->].
    destruct (header_functional _ _ _ _ _ _ _ H' H) as (-> & -> & ->). repeat split. }
  assert (match lookup (u "msgId") (m_attrs x) with Some (VStr _) | None => True | _ => False end) as Hm.
  { destruct (definition_for mode ud msgid fields) as [d|] eqn:D.
    - destruct X as (s & M & _ & ->).
      assert (well_formed d /\ no_clash d) as [W N].
      { apply definition_in in D as [(nm & B)|(_ & nm & B)]; [|eapply WF, B].
        split; [eapply builtin_well_formed, B|eapply builtin_no_clash, B]. }
      destruct W as (Fl & _ & Pc).
      pose proof (stream_streams no_clock talker msgid mode false v ud fields K) as St.
      destruct (members_slots _ d (mkast 0 [] fields) s 0 Fl Pc St eq_refl M) as (sl & Ex & R & _).
      apply (run_slots_msgId _ sl (mkast 0 [] fields) s St R (N _ Ex) I).
    - destruct X as (_ & _ & ->). clear.
      assert (forall n, lookup (u "msgId") (numbered n fields) = None) as ->; [|exact I].
      induction fields as [|f fields IH]; intros n; [reflexivity|]. cbn [numbered lookup].
      replace (str_eqb (u "msgId") (u "field_" ++ index_text n)) with false by reflexivity. apply IH. }
  rewrite C24_identity, X1, X2.
  destruct (str_eqb_spec talker (u "P")) as [->|_]; cbn [andb].
  2:{ eexists. split; [reflexivity|]. left. reflexivity. }
  destruct (str_in msgid prefixes) eqn:P; [|eexists; split; [reflexivity|left; reflexivity]].
  destruct (lookup (u "msgId") (m_attrs x)) as [[s| | | | | | |]|]; try contradiction.
  - eexists. split; [reflexivity|]. right. exists s. repeat split. apply str_in_iff, P.
  - eexists. split; [reflexivity|left; reflexivity].
Qed.
Example C24_example :
  exists x, parse (MStr (u "$PUBX,40,GLL,1,0,0,0,0,0*00")) 1 0 [] = Ok (Some x) /\ identity x = Ok (u "PUBX40").
Proof. eexists. split; vm_compute; reflexivity. Qed.

(* ------------------------------------------------------------------ C25 *)
Definition public (e : pystr * pyval) : bool := negb (hd 0%N (fst e) =? 95)%N.
(* the text of the attributes: ", name=value" each *)
Inductive attrs_text : list (pystr * pyval) -> pystr -> Prop :=
| attrs_text_nil : attrs_text [] []
| attrs_text_public n w t l r :
    hd 0%N n <> 95%N -> str_of_val w = Ok t -> attrs_text l r ->
    attrs_text ((n, w) :: l) (u ", " ++ n ++ u "=" ++ t ++ r)
| attrs_text_private n w l r :
    hd 0%N n = 95%N -> attrs_text l r -> attrs_text ((n, w) :: l) r.

Lemma str_attrs_iff l r :
  Forall (fun e => fst e <> []) l -> (str_attrs l = Ok r <-> attrs_text l r).
Proof.
  intros F. revert r. induction F as [|[n w] l Hn F IH]; intros r.
  - cbn. split; [intros [= <-]; constructor|]. intros H; inversion H; reflexivity.
  - cbn [fst] in Hn. destruct n as [|c0 n]; [contradiction Hn; reflexivity|]. cbn [str_attrs].
    destruct (N.eqb_spec c0 95) as [->|Nc].
    + rewrite IH. split; [intros H; constructor 3; [reflexivity|exact H]|].
      intros H. inversion H as [|? ? ? ? ? X|]; subst; [cbn in X; contradiction X; reflexivity|assumption].
    + split.
      * intros E. apply bind_Ok in E as (t & Et & E). apply bind_Ok in E as (r' & Er & E).
        match type of E with Ok ?a = Ok ?b => assert (b = a) as -> by congruence end.
        constructor 2; [exact Nc|exact Et|apply IH, Er].
      * intros H. inversion H as [|? ? t ? r' X Et Hr|? ? ? ? X]; subst; [|cbn in X; contradiction].
        rewrite Et. cbn [bind]. apply IH in Hr. rewrite Hr. reflexivity.
Qed.

Theorem C25_str ck talker msgid mode hp v ud cks pl kw x t :
  NMEAMessage ck talker msgid mode hp v ud cks pl kw = Ok x ->
  Forall (fun e => fst e <> []) (m_attrs x) ->
  (str_of_msg x = Ok t <->
   exists i a, identity x = Ok i /\ attrs_text (m_attrs x) a
     /\ t = u "<NMEA(" ++ i ++ (if known_id ud msgid then [] else u ", NOMINAL") ++ a ++ u ")>").
Proof.
  intros E F. apply constructed in E as (_ & _ & _ & D & _).
  unfold str_of_msg. rewrite D, find_defsource_known. split.
  - intros H. apply bind_Ok in H as (i & Ei & H). apply bind_Ok in H as (a & Ea & H).
    match type of H with Ok ?a = Ok ?b => assert (b = a) as -> by congruence end.
    exists i, a. split; [exact Ei|]. split; [apply str_attrs_iff; assumption|].
    destruct (find_defsource msgid ud); reflexivity.
  - intros (i & a & Ei & Ea & ->). rewrite Ei. cbn [bind]. apply str_attrs_iff in Ea; [|exact F]. rewrite Ea. cbn [bind].
    destruct (find_defsource msgid ud); reflexivity.
Qed.
Example C25_example :
  exists x, parse (MStr (u "$GPZZZ,a,*00")) 0 0 [] = Ok (Some x)
    /\ str_of_msg x = Ok (u "<NMEA(GPZZZ, NOMINAL, field_01=a, field_02=)>")
    /\ Forall (fun e => fst e <> []) (m_attrs x).
Proof.
  eexists. split; [vm_compute; reflexivity|]. split; [vm_compute; reflexivity|].
  repeat constructor; discriminate.
Qed.

(* ------------------------------------------------------------------ C57 *)
(* a message of a built-in id with a definition and the right checksum is
   reconstructed by eval(repr(msg)) *)
Theorem C57_repr m content ck talker msgid fields mode v ud x d clk :
  given m content ck talker msgid fields -> parse m mode v ud = Ok (Some x) ->
  kept_as_is talker msgid fields ->
  known_id [] msgid = true -> definition_for mode ud msgid fields = Some d ->
  is_checksum content ck ->
  exists y, eval_repr clk x = Ok y /\ same_message x y.
Proof.
  intros G E K Kn D C.
  destruct (parse_given _ _ _ _ _ E) as (content' & ck' & talker' & msgid' & fields' & G' & V & _ & _ & L &
    X1 & X2 & X3 & _ & _ & _ & X4 & _ & X5 & _ & X).
  assert (content' = content /\ ck' = ck /\ talker' = talker /\ msgid' = msgid /\ fields' = fields) as (-> & -> & -> & -> & ->).
  { destruct G as ((s & T & F) & H), G' as ((s' & T' & F') & H'). rewrite (text_of_functional _ _ _ T' T) in F'.
    destruct (frame_functional _ _ _ _ _ F' F) as [-> ->].
    destruct (header_functional _ _ _ _ _ _ _ H' H) as (-> & -> & ->). repeat split. }
  rewrite D in X. destruct X as (s & M & X6 & X7).
  pose proof M as Pl. apply members_payload_kept in Pl; [|reflexivity|exact K]. cbn [a_payload] in Pl. rewrite Pl in X6.
  assert (known_id ud msgid = true /\ definition_for mode [] msgid fields = Some d
          /\ find_defsource msgid ud = find_defsource msgid []) as (K1 & D1 & Ds).
  { unfold known_id, definition_for, find_defsource in *. rewrite prefixes_eq. cbn [has_key lookup] in *. rewrite orb_false_r in Kn.
    rewrite Kn. split; [reflexivity|]. destruct (has_key msgid NMEA_MSGIDS); [split; [exact D|reflexivity]|].
    cbn [orb] in Kn. rewrite Kn in *. split; [exact D|reflexivity]. }
  unfold eval_repr. rewrite X1, X2, X3, X6. rewrite NMEAMessage_stream, V, L, D1. cbn [negb].
  replace (wants_msgid VALCKSUM) with false by reflexivity. cbn [andb].
  unfold stream_result.
  assert (well_formed d) as (Fl & _ & Pc).
  { apply definition_in in D1 as [(nm & B)|(N & _)]; [eapply builtin_well_formed, B|]. congruence. }
  rewrite (members_ctx (stream_ctx clk talker msgid mode false VALCKSUM [])
             (stream_ctx no_clock talker msgid mode false v ud)) by (reflexivity || assumption).
  rewrite M. cbn [type_errors]. eexists. split; [reflexivity|].
  apply is_checksum_iff in C. destruct G as (_ & (Hc & _)).
  assert (m_checksum x = Some (calc_checksum (talker ++ msgid ++ flat_map (fun f => comma :: f) fields))) as X5'.
  { rewrite X5, C, Hc. reflexivity. }
  unfold same_message, identity, serialize, serialize_text, str_of_msg, identity.
  cbn [m_talker m_msgID m_mode m_payload m_checksum m_attrs m_defsource mk_stream_msg].
  rewrite X1, X2, X3, X6, X7, X5', X4, Ds, Pl. repeat split.
Qed.
(* settings that are not the default, and the checksum of unknown sentences, are lost *)
Theorem C57_refuted :
  exists x y, parse (MStr (u "$GPZZZ,1*00")) 0 0 [] = Ok (Some x) /\ eval_repr no_clock x = Ok y
    /\ m_checksum x = Some (u "00") /\ m_checksum y = None.
Proof. eexists _, _. split; [vm_compute; reflexivity|]. split; [vm_compute; reflexivity|]. split; reflexivity. Qed.
Example C57_example :
  exists x d, parse (MStr (u "$GNGLL,5327.04319,S,00214.41396,E,223232.00,A,A*68")) 0 0 [] = Ok (Some x)
    /\ definition_for 0 [] (u "GLL") (split_all 44 (u "5327.04319,S,00214.41396,E,223232.00,A,A")) = Some d
    /\ is_checksum (u "GNGLL,5327.04319,S,00214.41396,E,223232.00,A,A") (u "68").
Proof.
  eexists _, _. split; [vm_compute; reflexivity|]. split; [vm_compute; reflexivity|].
  apply is_checksum_iff. vm_compute. reflexivity.
Qed.

(* ------------------------------------------------------------------ C70 *)
(* the clock has no influence on a message built from a payload *)
Theorem C70_clock k1 k2 talker msgid mode hp v ud cks fields :
  NMEAMessage k1 talker msgid mode hp v ud cks (Some fields) []
  = NMEAMessage k2 talker msgid mode hp v ud cks (Some fields) [].
Proof.
  rewrite !NMEAMessage_stream. destruct (negb (valid_mode mode)); [reflexivity|].
  destruct (wants_msgid v && _); [reflexivity|]. destruct (lacks_id mode msgid fields); [reflexivity|].
  destruct (definition_for mode ud msgid fields) as [d|]; [|reflexivity]. unfold stream_result.
  rewrite (streaming_clock (stream_ctx k1 talker msgid mode hp v ud) k2) by reflexivity. reflexivity.
Qed.
