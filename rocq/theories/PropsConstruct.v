(* Theorems about messages built from keyword arguments: C10, C11, C16, C21, C22, C67, C68;
   and completeness of decoding for every definition in good order (C13). *)
From Verif Require Import Message Reader BaseLemmas TextLemmas NumLemmas Spec ParseProofs MessageProofs
  SelectProofs DecodeProofs TableProofs StreamProofs KeywordSpec KeywordProofs CompleteProofs PropsMessage PropsDecode.
Local Open Scope Z_scope.

(* ------------------------------------------------------------------ C13 *)
(* a sentence is accepted exactly when its fields can be laid out over the
   definition and converted; otherwise NMEATypeError *)
Theorem C13_complete m content ck talker msgid fields mode v ud d :
  given m content ck talker msgid fields -> (mode = 0 \/ mode = 1 \/ mode = 2) ->
  (wants_checksum v = true -> is_checksum content (str_upper ck)) ->
  (wants_msgid v = true -> has_key talker NMEA_TALKERS = true /\ known_id ud msgid = true) ->
  lacks_id mode msgid fields = false -> kept_as_is talker msgid fields ->
  definition_for mode ud msgid fields = Some d -> in_order d ->
  (forall attrs, decoded_by d fields attrs <->
     exists x, parse m mode v ud = Ok (Some x) /\ m_attrs x = attrs /\ m_payload x = fields)
  /\ ((forall attrs, ~ decoded_by d fields attrs) -> parse m mode v ud = Raise NMEATypeError).
Proof.
  intros G V C Kn L K D O. rewrite (parse_stream _ _ _ _ _ _ mode v ud G). apply valid_mode_iff in V.
  rewrite V, L, D. cbn [negb].
  replace (wants_checksum v && negb (str_eqb (str_upper ck) (calc_checksum content))) with false.
  2:{ symmetry. destruct (wants_checksum v); [|reflexivity]. specialize (C eq_refl). apply is_checksum_iff in C.
      rewrite C, str_eqb_refl. reflexivity. }
  replace (wants_msgid v && negb (has_key talker NMEA_TALKERS && known_id ud msgid)) with false.
  2:{ symmetry. destruct (wants_msgid v); [|reflexivity]. destruct (Kn eq_refl) as [-> ->]. reflexivity. }
  set (c := stream_ctx no_clock talker msgid mode false v ud).
  assert (streams c fields) as St by (split; [reflexivity|exact K]).
  unfold stream_result. destruct (set_members c d [] (mkast 0 [] fields)) as [s|e] eqn:M.
  - cbn [type_errors]. split.
    + intros attrs. rewrite <- (members_iff c d fields attrs O St). rewrite M. split.
      * intros (s' & [= <-] & A & Pl). eexists. split; [reflexivity|]. split; assumption.
      * intros (x & [= <-] & A & Pl). eexists. split; [reflexivity|]. split; assumption.
    + intros H. exfalso. apply (H (a_attrs s)). apply (members_iff c d fields _ O St). exists s.
      split; [exact M|]. split; [reflexivity|].
      apply members_payload_kept in M; [exact M|reflexivity|exact K].
  - assert (type_errors (A := ast) (Raise e) = Raise NMEATypeError) as ->.
    { pose proof (members_exc _ _ _ _ _ (proj1 St) M) as [->|[->|[->|[->| ->]]]]; try reflexivity.
      exfalso. revert M. apply members_zero; [reflexivity|]. apply flat_no_empty, O. }
    split; [|reflexivity]. intros attrs. rewrite <- (members_iff c d fields attrs O St). rewrite M. split.
    + intros (s' & H & _). discriminate.
    + intros (x & H & _). discriminate.
Qed.
(* every built-in definition is in good order *)
Theorem C13_builtin_in_order k d : In (k, d) builtin_definitions -> in_order d.
Proof. exact (builtin_in_order k d). Qed.

(* ---------------------------------------------------------- construction *)
Definition good (ud : userdefs) : Prop := forall k d, In (k, d) ud -> in_order d.

Lemma keyword_definition_in mode ud msgid kw d :
  keyword_definition mode ud msgid kw = Some d ->
  (exists k, In (k, d) builtin_definitions) \/ exists k, In (k, d) ud.
Proof.
  unfold keyword_definition. intros H. destruct (keyword_id msgid kw) as [key|]; [|discriminate].
  assert (forall m k, lookup k (definitions_standard m) = Some d -> exists k', In (k', d) builtin_definitions) as S.
  { intros m k L. exists k. apply lookup_In in L. unfold builtin_definitions, definitions_standard in *.
    rewrite !in_app_iff. destruct (m =? 0)%Z; [tauto|]. destruct (m =? 1)%Z; tauto. }
  assert (forall m k, lookup k (definitions_proprietary m) = Some d -> exists k', In (k', d) builtin_definitions) as P.
  { intros m k L. exists k. apply lookup_In in L. unfold builtin_definitions, definitions_proprietary in *.
    rewrite !in_app_iff. destruct (m =? 0)%Z; [tauto|]. destruct (m =? 1)%Z; tauto. }
  destruct (has_key msgid NMEA_MSGIDS); [left; eapply S, H|].
  destruct (has_key msgid NMEA_MSGIDS_PROP || str_in msgid prefixes).
  { destruct (keyword_variant key mode kw); [left; eapply P, H|discriminate]. }
  destruct (has_key msgid ud); [|left; eapply S, H].
  right. eexists. apply lookup_In in H. exact H.
Qed.
Lemma keyword_definition_order mode ud msgid kw d :
  good ud -> keyword_definition mode ud msgid kw = Some d -> in_order d.
Proof. intros G H. apply keyword_definition_in in H as [(k & H)|(k & H)]; [eapply builtin_in_order, H|eapply G, H]. Qed.

Definition content_of (talker msgid : pystr) (fields : list pystr) : pystr :=
  talker ++ msgid ++ flat_map (fun f => comma :: f) fields.

(* ------------------------------------------------------------------ C68 *)
(* what a message built from keywords contains *)
Theorem C68_built clk talker msgid mode hp v ud cks kw x :
  good ud -> NMEAMessage clk talker msgid mode hp v ud cks None kw = Ok x ->
  m_talker x = talker /\ m_msgID x = msgid /\ m_mode x = mode
  /\ match keyword_definition mode ud msgid kw with
     | Some d => builds clk mode hp kw [] d (m_attrs x) (m_payload x)
     | None => m_attrs x = [] /\ m_payload x = []
     end.
Proof.
  intros G E. rewrite NMEAMessage_keywords in E.
  destruct (valid_mode mode) eqn:V; cbn [negb] in E; [|discriminate].
  destruct (wants_msgid v && _); [discriminate|].
  destruct (keyword_id msgid kw); [|discriminate].
  destruct (key_blocked msgid kw || no_variant mode msgid kw); [discriminate|].
  destruct (keyword_definition mode ud msgid kw) as [d|] eqn:D.
  - pose proof (keyword_definition_order _ _ _ _ _ G D) as (W & N & _).
    destruct (kw_result _ d) as [s|e] eqn:R; [|discriminate]. injection E as <-. cbn.
    repeat (split; [reflexivity|]). unfold kw_result in R. destruct d as [|e d].
    + injection R as <-. constructor.
    + destruct (kw_clash _); [discriminate|].
      destruct (set_members _ (e :: d) [] _) as [s'|e'] eqn:M; [|destruct e'; discriminate]. injection R as ->.
      apply definition_builds in M; [apply M|split; [reflexivity|exact V]|exact W|exact N].
  - destruct (wants_msgid v); [discriminate|]. injection E as <-. repeat split.
Qed.
Corollary keyword_ok_mode clk talker msgid mode hp v ud cks kw x :
  NMEAMessage clk talker msgid mode hp v ud cks None kw = Ok x -> valid_mode mode = true.
Proof. intros E. rewrite NMEAMessage_keywords in E. destruct (valid_mode mode); [reflexivity|discriminate]. Qed.

Lemma clash_reserved msgid kw :
  (forall n, In n (reserved msgid) -> ~ In n (map fst kw)) ->
  kw_clash kw = false /\ key_blocked msgid kw = false.
Proof.
  intros R. assert (forall n, In n (reserved msgid) -> has_key n kw = false) as R'.
  { intros n Hn. destruct (has_key n kw) eqn:E; [|reflexivity]. apply has_key_iff in E. elim (R n Hn E). }
  assert (forall n, In n [u "pindex"; u "pdict"; u "key"; u "gindex"; u "att"] -> has_key n kw = false) as R1.
  { intros n Hn. apply R'. unfold reserved. apply in_or_app. left. exact Hn. }
  split.
  - unfold kw_clash, clash_names. cbn [existsb]. rewrite !R1 by (cbn [In]; tauto). reflexivity.
  - unfold key_blocked. rewrite (R1 (u "key")) by (cbn [In]; tauto). cbn [orb].
    destruct (str_in msgid special_ids) eqn:S; cbn [andb]; [|apply andb_false_r].
    rewrite (R' (u "mode")); [apply andb_false_r|]. unfold reserved. rewrite S. apply in_or_app. right. left. reflexivity.
Qed.

Lemma variant_of_definition mode ud msgid kw d :
  keyword_definition mode ud msgid kw = Some d ->
  keyword_id msgid kw <> None /\ no_variant mode msgid kw = false.
Proof.
  unfold keyword_definition, no_variant. destruct (keyword_id msgid kw) as [key|]; [|discriminate].
  intros H. split; [discriminate|]. destruct (has_key msgid NMEA_MSGIDS); [reflexivity|]. cbn [negb andb].
  destruct (has_key msgid NMEA_MSGIDS_PROP || str_in msgid prefixes); [|reflexivity]. cbn [andb].
  destruct (keyword_variant key mode kw); [reflexivity|discriminate].
Qed.

(* and every filling of the definition is built *)
Theorem C68_complete clk talker msgid mode hp v ud cks kw d attrs fields :
  good ud -> (mode = 0 \/ mode = 1 \/ mode = 2) ->
  (wants_msgid v = true -> has_key talker NMEA_TALKERS = true /\ known_id ud msgid = true) ->
  (forall n, In n (reserved msgid) -> ~ In n (map fst kw)) ->
  keyword_definition mode ud msgid kw = Some d -> builds clk mode hp kw [] d attrs fields ->
  exists x, NMEAMessage clk talker msgid mode hp v ud cks None kw = Ok x
    /\ m_attrs x = attrs /\ m_payload x = fields.
Proof.
  intros G V Kn R D B. rewrite NMEAMessage_keywords. apply valid_mode_iff in V. rewrite V. cbn [negb].
  replace (wants_msgid v && negb (has_key talker NMEA_TALKERS && known_id ud msgid)) with false.
  2:{ symmetry. destruct (wants_msgid v); [|reflexivity]. destruct (Kn eq_refl) as [-> ->]. reflexivity. }
  destruct (variant_of_definition _ _ _ _ _ D) as [H1 H2].
  destruct (keyword_id msgid kw); [|contradiction H1; reflexivity].
  destruct (clash_reserved _ _ R) as [R1 R2]. rewrite R2, H2, D. cbn [orb].
  pose proof (keyword_definition_order _ _ _ _ _ G D) as (W & N & _).
  set (c := kw_ctx clk talker msgid mode hp v ud kw).
  assert (kw_result c d = Ok (mkast (length fields) attrs fields)) as ->.
  { unfold kw_result. destruct d as [|e d]; [inversion B; reflexivity|].
    cbn [x_kwargs c kw_ctx]. rewrite R1.
    rewrite (proj2 (definition_builds c (e :: d) (mkast (length fields) attrs fields)
                      (conj eq_refl V) W N) (conj B eq_refl)). reflexivity. }
  eexists. split; [reflexivity|]. split; reflexivity.
Qed.

(* group-free definitions: field i is the text of the value of entry i *)
Lemma builds_plain clk mode hp kw d before attrs fields :
  plain d -> builds clk mode hp kw before d attrs fields ->
  length attrs = length d /\ length fields = length d
  /\ forall i k ty, nth_error d i = Some (k, ASingle ty) ->
     exists val f, nth_error attrs i = Some (k, val) /\ nth_error fields i = Some f /\ val2str val ty hp = Ok f
       /\ value_for mode (clk (length before + i)%nat) kw (before ++ firstn i attrs) k ty = Some val.
Proof.
  intros P. revert before attrs fields. induction d as [|[k a] d IH]; intros before attrs fields B.
  - inversion B; subst. repeat split. intros [|i]; discriminate.
  - inversion P as [|? ? [t Et] P']; subst. cbn in Et. subst a.
    inversion B as [|? ? ? ? v f r fs Hv Hf B'|]; subst.
    destruct (IH P' _ _ _ B') as (L1 & L2 & H). cbn [length]. rewrite L1, L2.
    repeat (split; [reflexivity|]). intros [|i] k' ty' E; cbn [nth_error] in *.
    + injection E as <- <-. exists v, f. rewrite Nat.add_0_r. cbn [firstn]. rewrite app_nil_r. auto.
    + destruct (H i k' ty' E) as (val & g & E1 & E2 & E3 & E4). exists val, g.
      repeat (split; [assumption|]). cbn [firstn]. rewrite <- app_assoc in E4. cbn [app] in E4.
      rewrite app_length in E4. cbn [length] in E4.
      replace (length before + S i)%nat with (length before + 1 + i)%nat by lia. exact E4.
Qed.

Theorem C68_placed clk talker msgid mode hp v ud cks kw x d i k ty :
  good ud -> NMEAMessage clk talker msgid mode hp v ud cks None kw = Ok x ->
  keyword_definition mode ud msgid kw = Some d -> plain d ->
  nth_error d i = Some (k, ASingle ty) ->
  exists val f, nth_error (m_attrs x) i = Some (k, val) /\ nth_error (m_payload x) i = Some f
    /\ val2str val ty hp = Ok f /\ length (m_payload x) = length d
    /\ (ty <> u "LAD" -> ty <> u "LND" ->
        match lookup k kw with
        | Some given => val = given
        | None => lookup ty (nominal_values mode (clk i)) = Some val
        end).
Proof.
  intros G E D P H. destruct (C68_built _ _ _ _ _ _ _ _ _ _ G E) as (_ & _ & _ & B). rewrite D in B.
  destruct (builds_plain _ _ _ _ _ _ _ _ P B) as (_ & L & Hb).
  destruct (Hb i k ty H) as (val & f & E1 & E2 & E3 & E4).
  exists val, f. repeat (split; [assumption|]). intros N1 N2. unfold value_for in E4. cbn [length Nat.add] in E4.
  destruct (lookup ty (nominal_values mode (clk i))) as [nom|] eqn:Nm; [|discriminate].
  apply str_eqb_neq in N1, N2. rewrite N1, N2 in E4. injection E4 as <-.
  destruct (lookup k kw); reflexivity.
Qed.

(* keywords that name no field change nothing *)
Definition no_indeterminate (d : pdict) : Prop :=
  Forall (fun e => match snd e with AGroup (NStr n) _ => n <> u "None" | _ => True end) d.
Lemma fills_irrelevant clk mode hp kw1 kw2 before sl attrs fields :
  (forall k, In k (map fst sl) -> lookup k kw1 = lookup k kw2) ->
  fills clk mode hp kw1 before sl attrs fields -> fills clk mode hp kw2 before sl attrs fields.
Proof.
  intros H F. induction F as [|before k ty sl v f attrs fields Hv Hf F IH]; [constructor|].
  econstructor; [|exact Hf|apply IH; intros k' Hk; apply H; right; exact Hk].
  unfold value_for in *. rewrite <- (H k) by (left; reflexivity). exact Hv.
Qed.
Lemma builds_irrelevant clk mode hp kw1 kw2 before d attrs fields :
  flat d -> no_indeterminate d ->
  (forall sl k, expands d sl -> In k (map fst sl) -> lookup k kw1 = lookup k kw2) ->
  builds clk mode hp kw1 before d attrs fields -> builds clk mode hp kw2 before d attrs fields.
Proof.
  intros Fl NI H B. induction B as [|before k ty d v f attrs fields Hv Hf B IH|before k n ms d cnt a1 f1 a2 f2 Hc Hf B IH];
    [constructor| |]; inversion Fl as [|? ? F1 F2]; subst; inversion NI as [|? ? N1 N2]; subst; cbn [snd] in *.
  - assert (exists sl0, expands d sl0) as [sl0 X0].
    { clear -F2. induction d as [|[k [t|n ms]] d IH]; [exists []; constructor| |];
        inversion F2; subst; destruct IH as [sl X]; try assumption.
      - exists ((k, t) :: sl). constructor. exact X.
      - exists (group_slots 0 1 ms ++ sl). constructor. exact X. }
    econstructor; [|exact Hf|apply IH; [exact F2|exact N2|]].
    + unfold value_for in *. rewrite <- (H ((k, ty) :: sl0) k); [exact Hv|constructor; exact X0|left; reflexivity].
    + intros sl k' X Hk. apply (H ((k, ty) :: sl)); [constructor; exact X|right; exact Hk].
  - assert (exists sl0, expands d sl0) as [sl0 X0].
    { clear -F2. induction d as [|[k [t|n ms]] d IH]; [exists []; constructor| |];
        inversion F2; subst; destruct IH as [sl X]; try assumption.
      - exists ((k, t) :: sl). constructor. exact X.
      - exists (group_slots 0 1 ms ++ sl). constructor. exact X. }
    econstructor; [|eapply fills_irrelevant; [|exact Hf]|apply IH; [exact F2|exact N2|]].
    + unfold kw_repeats in *. destruct n as [z|name]; [exact Hc|]. apply str_eqb_neq in N1. rewrite N1 in *. exact Hc.
    + intros k' Hk. apply (H (group_slots cnt 1 ms ++ sl0)); [constructor; exact X0|].
      rewrite map_app, in_app_iff. left. exact Hk.
    + intros sl k' X Hk. apply (H (group_slots cnt 1 ms ++ sl)); [constructor; exact X|].
      rewrite map_app, in_app_iff. right. exact Hk.
Qed.
Theorem C68_irrelevant clk talker msgid mode hp v ud cks kw1 kw2 x d :
  good ud -> NMEAMessage clk talker msgid mode hp v ud cks None kw1 = Ok x ->
  keyword_definition mode ud msgid kw1 = Some d -> keyword_definition mode ud msgid kw2 = Some d ->
  no_indeterminate d ->
  (forall n, In n (reserved msgid) -> ~ In n (map fst kw2)) ->
  (forall sl k, expands d sl -> In k (map fst sl) -> lookup k kw1 = lookup k kw2) ->
  exists y, NMEAMessage clk talker msgid mode hp v ud cks None kw2 = Ok y
    /\ m_attrs y = m_attrs x /\ m_payload y = m_payload x.
Proof.
  intros G E D1 D2 NI R H. destruct (C68_built _ _ _ _ _ _ _ _ _ _ G E) as (_ & _ & _ & B). rewrite D1 in B.
  pose proof (keyword_definition_order _ _ _ _ _ G D1) as (W & _).
  eapply C68_complete; try eassumption.
  - apply valid_mode_iff. eapply keyword_ok_mode, E.
  - intros Wm. pose proof (keyword_ok_mode _ _ _ _ _ _ _ _ _ _ E) as Vm.
    rewrite NMEAMessage_keywords, Vm in E. cbn [negb] in E.
    rewrite Wm in E. cbn [andb] in E.
    destruct (has_key talker NMEA_TALKERS && known_id ud msgid) eqn:Q; [|discriminate].
    apply andb_true_iff, Q.
  - eapply builds_irrelevant; [apply W|exact NI|exact H|exact B].
Qed.
(* but not a keyword with the name of a helper's parameter *)
Theorem C68_reserved_refuted :
  exists clk, (exists x, NMEAMessage clk (u "GN") (u "GLL") 0 false 0 [] None None [] = Ok x)
  /\ NMEAMessage clk (u "GN") (u "GLL") 0 false 0 [] None None [(u "key", VInt 1)] = Raise NMEATypeError.
Proof.
  exists (fun _ => (mkdate 2024 1 1, mktime 0 0 0 0)). split; [eexists|]; vm_compute; reflexivity.
Qed.

Definition noon : clock := fun _ => (mkdate 2024 2 29, mktime 12 34 56 789000).
Example C68_example :
  exists x, NMEAMessage noon (u "GN") (u "GLL") 0 false 0 [] None None
              [(u "lat", VInt (-53)); (u "posMode", VStr (u "A"))] = Ok x
    /\ m_payload x = [u "5300.00000"; u "S"; []; u "E"; u "123456.78"; []; u "A"].
Proof. eexists. split; vm_compute; reflexivity. Qed.

(* ------------------------------------------------------------------ C21 *)
Theorem C21_missing_msgId clk talker msgid mode hp v ud cks kw :
  In msgid prefixes -> ~ In (u "msgId") (map fst kw) ->
  NMEAMessage clk talker msgid mode hp v ud cks None kw = Raise NMEAMessageError.
Proof.
  intros P N. rewrite NMEAMessage_keywords. destruct (negb (valid_mode mode)); [reflexivity|].
  destruct (wants_msgid v && _); [reflexivity|]. unfold keyword_id.
  apply str_in_iff in P. rewrite P. apply lookup_None in N. rewrite N. reflexivity.
Qed.
Theorem C21_keyword msgid kw s mode ud :
  In msgid prefixes -> lookup (u "msgId") kw = Some (VStr s) ->
  keyword_definition mode ud msgid kw = lookup (str_upper (msgid ++ s)) (definitions_proprietary mode).
Proof.
  intros P L. apply str_in_iff in P. unfold keyword_definition, keyword_id. rewrite P, L, orb_true_r.
  destruct (prefix_not_id _ P) as (-> & _).
  assert (keyword_variant (str_upper (msgid ++ s)) mode kw = Some (str_upper (msgid ++ s))) as ->; [|reflexivity].
  rewrite str_upper_app. apply str_in_iff in P. cbn [prefixes In] in P.
  destruct P as [<-|[<-|[<-|[<-|[<-|[<-|[]]]]]]]; reflexivity.
Qed.
Example C21_example :
  In (u "UBX") prefixes /\ ~ In (u "msgId") (map fst [(u "status", VInt 1)])
  /\ exists d, keyword_definition 0 [] (u "UBX") [(u "msgId", VStr (u "00"))] = Some d /\ d <> [].
Proof.
  split; [cbn; tauto|]. split; [cbn; intros [H|[]]; discriminate|].
  eexists. split; [vm_compute; reflexivity|discriminate].
Qed.

(* ------------------------------------------------------------------ C22 *)
(* from keywords: the definition is the one the keyword table names *)
Theorem C22_keyword_variant clk talker msgid mode hp v ud cks kw x :
  In msgid special_ids -> good ud -> NMEAMessage clk talker msgid mode hp v ud cks None kw = Ok x ->
  exists name, keyword_variant msgid mode kw = Some name
    /\ match lookup name (definitions_proprietary mode) with
       | Some d => builds clk mode hp kw [] d (m_attrs x) (m_payload x)
       | None => m_attrs x = [] /\ m_payload x = []
       end.
Proof.
  intros S G E. destruct (C68_built _ _ _ _ _ _ _ _ _ _ G E) as (_ & _ & _ & B).
  apply str_in_iff in S. destruct (special_prop _ S) as [S1 S2].
  assert (keyword_id msgid kw = Some msgid) as K.
  { apply str_in_iff in S. cbn [special_ids In] in S.
    destruct S as [<-|[<-|[<-|[<-|[<-|[<-|[<-|[]]]]]]]]; reflexivity. }
  assert (no_variant mode msgid kw = false) as Nv.
  { rewrite NMEAMessage_keywords in E. destruct (negb (valid_mode mode)); [discriminate|].
    destruct (wants_msgid v && _); [discriminate|]. rewrite K in E.
    destruct (key_blocked msgid kw); [discriminate|]. destruct (no_variant mode msgid kw); [discriminate|reflexivity]. }
  unfold no_variant in Nv. unfold keyword_definition in B. rewrite K, S1, S2 in *. cbn [orb negb andb] in *.
  destruct (keyword_variant msgid mode kw) as [name|]; [|discriminate].
  exists name. split; [reflexivity|exact B].
Qed.
(* every variant in the keyword table has a definition *)
Theorem C22_keyword_variants_exist :
  Forall (fun r => let '(k, m, _, _, name) := r in
            has_key name (definitions_proprietary m) = true) keyword_variants
  /\ has_key (u "QTMCFGPPS_DIS") (definitions_proprietary 1) = true
  /\ has_key (u "QTMCFGGEOFENCE_DIS") (definitions_proprietary 1) = true.
Proof.
  split; [|split; vm_compute; reflexivity]. apply Forall_forall. intros r H.
  assert (forallb (fun r => let '(k, m, _, _, name) := r in has_key name (definitions_proprietary m)) keyword_variants = true) as G
    by (vm_compute; reflexivity).
  rewrite forallb_forall in G. specialize (G r H). destruct r as [[[[k m] y] n] name]. exact G.
Qed.
Example C22_keyword_example :
  keyword_variant (u "QTMCFGUART") 1 [(u "portid", VInt 1); (u "baudrate", VInt 9600)] = Some (u "QTMCFGUART_BAUD")
  /\ keyword_variant (u "QTMCFGPPS") 1 [(u "enable", VInt 0)] = Some (u "QTMCFGPPS_DIS")
  /\ keyword_variant (u "STMDRSENMSG") 0 [(u "msgtype", VInt 30)] = Some (u "STMDRSENMSG_30").
Proof. repeat split. Qed.

(* ------------------------------------------------------------------ C10 *)
Theorem C10_serialize x :
  serialize x = utf8_encode (sentence (m_talker x) (m_msgID x) (m_payload x) (cksum_text (m_checksum x))).
Proof. unfold serialize. rewrite serialize_sentence. reflexivity. Qed.
(* the same, by cases of the checksum: the text carried, or the word None *)
Theorem C10_given x k :
  m_checksum x = Some k -> serialize x = utf8_encode (sentence (m_talker x) (m_msgID x) (m_payload x) k).
Proof. intros E. rewrite C10_serialize, E. reflexivity. Qed.
Theorem C10_none x :
  m_checksum x = None -> serialize x = utf8_encode (sentence (m_talker x) (m_msgID x) (m_payload x) (u "None")).
Proof. intros E. rewrite C10_serialize, E. reflexivity. Qed.
(* it fails exactly when some character is not a Unicode scalar value *)
Theorem C10_serialize_fails x :
  (exists b, serialize x = Ok b) <->
  Forall (fun c => (c <= 1114111)%N /\ ~ (55296 <= c <= 57343)%N)
    (sentence (m_talker x) (m_msgID x) (m_payload x) (cksum_text (m_checksum x))).
Proof.
  rewrite C10_serialize. set (s := sentence _ _ _ _). unfold utf8_encode.
  assert (forallb is_scalar s = true <-> Forall (fun c => (c <= 1114111)%N /\ ~ (55296 <= c <= 57343)%N) s) as <-.
  { rewrite forallb_forall, Forall_forall. split; intros H c Hc; apply is_scalar_spec, H, Hc. }
  destruct (forallb is_scalar s); split; try discriminate.
  - reflexivity.
  - intros _. eexists. reflexivity.
  - intros (b & E). discriminate.
Qed.
(* a message built without an explicit checksum carries the right one, if its definition is known *)
Theorem C10_checksum_keywords clk talker msgid mode hp v ud kw x :
  NMEAMessage clk talker msgid mode hp v ud None None kw = Ok x ->
  match keyword_definition mode ud msgid kw with
  | Some _ => exists k, m_checksum x = Some k /\ is_checksum (content_of talker msgid (m_payload x)) k
  | None => m_checksum x = None
  end.
Proof.
  intros E. rewrite NMEAMessage_keywords in E.
  destruct (negb (valid_mode mode)); [discriminate|]. destruct (wants_msgid v && _); [discriminate|].
  destruct (keyword_id msgid kw); [|discriminate].
  destruct (key_blocked msgid kw || no_variant mode msgid kw); [discriminate|].
  destruct (keyword_definition mode ud msgid kw) as [d|].
  - destruct (kw_result _ d) as [s|e]; [|discriminate]. injection E as <-. eexists. split; [reflexivity|].
    apply calc_checksum_is.
  - destruct (wants_msgid v); [discriminate|]. injection E as <-. reflexivity.
Qed.
Theorem C10_checksum_payload clk talker msgid mode hp v ud fields x :
  NMEAMessage clk talker msgid mode hp v ud None (Some fields) [] = Ok x ->
  match definition_for mode ud msgid fields with
  | Some _ => exists k, m_checksum x = Some k /\ is_checksum (content_of talker msgid (m_payload x)) k
  | None => m_checksum x = None
  end.
Proof.
  intros E. rewrite NMEAMessage_stream in E.
  destruct (negb (valid_mode mode)); [discriminate|]. destruct (wants_msgid v && _); [discriminate|].
  destruct (lacks_id mode msgid fields); [discriminate|].
  destruct (definition_for mode ud msgid fields) as [d|].
  - destruct (stream_result _ fields d) as [s|e]; [|discriminate]. injection E as <-. eexists. split; [reflexivity|].
    apply calc_checksum_is.
  - destruct (wants_msgid v); [discriminate|]. injection E as <-. reflexivity.
Qed.
(* an explicit checksum is used as it is *)
Theorem C10_checksum_explicit clk talker msgid mode hp v ud k payload kw x :
  NMEAMessage clk talker msgid mode hp v ud (Some k) payload kw = Ok x -> m_checksum x = Some k.
Proof.
  unfold NMEAMessage. destruct (negb (valid_mode mode)); [discriminate|].
  destruct (negb (has_key talker NMEA_TALKERS) && has_flag v VALMSGID); [discriminate|].
  intros E. assert (exists c pl, (let! (attrs, pl', ck') := do_attributes c pl (Some k) in
     Ok (mkmsg talker msgid mode hp v ud (find_defsource msgid ud) (x_streaming c) ck' pl' attrs true)) = Ok x) as (c & pl & E').
  { destruct (find_defsource msgid ud), (has_flag v VALMSGID); try discriminate; eexists (mkctx _ _ _ _ _ _ _ _ _ _), _; exact E. }
  clear E. apply bind_Ok in E' as ([[attrs pl'] ck'] & E1 & [= <-]). cbn. unfold do_attributes, type_errors in E1.
  match type of E1 with match ?r with _ => _ end = _ => destruct r as [t|e] eqn:R; [|destruct e; discriminate] end.
  injection E1 as ->. apply bind_Ok in R as (pd & _ & R). destruct pd as [d|].
  - apply bind_Ok in R as (s & _ & [= _ _ <-]). reflexivity.
  - destruct (x_streaming c); [apply bind_Ok in R as (s & _ & [= _ _ <-]); reflexivity|].
    injection R as _ _ <-. reflexivity.
Qed.
(* so "carries the right one" fails for a message without definition: its sentence ends in "*None" *)
Theorem C10_refuted :
  exists clk x, NMEAMessage clk (u "GP") (u "XYZ") 0 false 0 [] None (Some [u "1"]) [] = Ok x
    /\ serialize x = Ok (u "$GPXYZ,1*None" ++ [13%N; 10%N]).
Proof. exists noon. eexists. split; vm_compute; reflexivity. Qed.
Example C10_example :
  exists x, NMEAMessage noon (u "GN") (u "GLL") 0 false 0 [] None None [(u "lat", VInt (-53))] = Ok x
    /\ serialize x = Ok (u "$GNGLL,5300.00000,S,,E,123456.78,,*4A" ++ [13%N; 10%N]).
Proof. eexists. split; vm_compute; reflexivity. Qed.
