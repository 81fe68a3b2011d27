(* C97: exceptions of the constructor *)
From Coq Require Import Lia.
From Verif Require Import Message Reader BaseLemmas TextLemmas NumLemmas Spec KeywordSpec KeywordProofs ParseProofs MessageProofs SelectProofs DecodeProofs StreamProofs
  TableProofs PropsMessage PropsHelpers PropsConstruct PropsRelax PropsArgs.
Local Open Scope Z_scope.

(* ------------------------------------------------------------------ lemmas *)
Definition kw_caught (e : exc) : Prop :=
  e = ValueError \/ e = NMEATypeError \/ e = AttributeError \/ e = TypeError \/ e = OverflowError.
Lemma f_of_Z_exc z e : f_of_Z z = Raise e -> e = OverflowError.
Proof. unfold f_of_Z. destruct (f_norm z 0); congruence. Qed.
Lemma ddd2dmm_exc val att hp e : ddd2dmm val att hp = Raise e -> e = OverflowError.
Proof.
  assert (forall z, ddd2dmm_int z att hp = Raise e -> e = OverflowError) as I.
  { intros z H. unfold ddd2dmm_int in H. apply bind_Raise in H as [H|(x & _ & H)]; [eapply f_of_Z_exc, H|discriminate]. }
  unfold ddd2dmm. destruct val; try discriminate; try apply I.
  unfold ddd2dmm_float. destruct (fdivmod _ _) as [dv md]. unfold int_of_float. intros H.
  destruct (fmul dv f100); try discriminate; try congruence;
    cbn [bind] in H; apply bind_Raise in H as [H|(y & _ & H)]; try discriminate; eapply f_of_Z_exc, H.
Qed.
Lemma val2str_exc val att hp e : val2str val att hp = Raise e -> kw_caught e.
Proof.
  unfold val2str, kw_caught.
  destruct (text_type att); [intros H; apply str_of_val_exc in H; auto|].
  destruct (str_eqb att ty_HX); [intros H; apply str_of_val_exc in H; auto|].
  destruct (str_eqb att ty_DE); [intros H; apply str_of_val_exc in H; auto|].
  destruct (str_eqb att ty_IN); [intros H; apply str_of_val_exc in H; auto|].
  destruct (str_in att _); [intros H; apply ddd2dmm_exc in H; auto|].
  repeat (destruct (str_eqb att _); [destruct val; discriminate|]). intros [= <-]. auto.
Qed.
Lemma nomval_exc att mode now e : nomval att mode now = Raise e -> e = NMEATypeError.
Proof. unfold nomval. repeat (destruct (str_in _ _) || destruct (str_eqb _ _)); congruence. Qed.
Lemma kw_members_exc c d gi s e : x_streaming c = false -> set_members c d gi s = Raise e -> kw_caught e.
Proof.
  intros St. apply set_members_exc.
  - intros att key gi0 s0 e0. unfold set_single. rewrite St. intros H. apply bind_Raise in H as [H|(val & _ & H)].
    + unfold supply in H. destruct (str_eqb att ty_LND && _); [destruct (lookup _ _); discriminate|].
      destruct (str_eqb att ty_LAD && _); [destruct (lookup _ _); discriminate|].
      apply bind_Raise in H as [H|(nom & _ & H)]; [|discriminate]. apply nomval_exc in H. unfold kw_caught. auto.
    + apply bind_Raise in H as [H|(t & _ & H)]; [eapply val2str_exc, H|].
      apply bind_Raise in H as [H|(s1 & _ & H)]; [|discriminate]. unfold setattr in H. destruct (str_in _ _); [|discriminate].
      injection H as <-. unfold kw_caught. auto.
  - intros n ms s0 e0. unfold group_count. destruct n as [z|name]; [discriminate|]. rewrite St. destruct (str_eqb name _).
    + assert (forall l i, groupsize_aux i l = Raise e0 -> e0 = ValueError) as G.
      { induction l as [|a l IH]; intros i H; cbn [groupsize_aux] in H; [discriminate|].
        destruct (split_first 95 a) as [[p q]|]; [|eapply IH, H]. apply bind_Raise in H as [H|(z & _ & H)]; [eapply int_of_str_exc, H|eapply IH, H]. }
      intros H. apply G in H. unfold kw_caught. auto.
    + unfold getattr_num, kw_caught. destruct (str_eqb _ _); [discriminate|].
      destruct (lookup name (a_attrs s0)) as [[]|]; try (intros [= <-]; tauto); try discriminate.
      repeat (destruct (str_eqb _ _); [discriminate|]). intros [= <-]. tauto.
Qed.
Lemma kw_result_exc c d e : x_streaming c = false -> kw_result c d = Raise e -> e = NMEATypeError.
Proof.
  intros St. unfold kw_result. destruct d as [|x d]; [discriminate|]. destruct (kw_clash _); [congruence|].
  destruct (set_members c (x :: d) [] _) as [s|e'] eqn:E; [discriminate|]. apply (kw_members_exc _ _ _ _ _ St) in E.
  intros H. destruct E as [ -> |[ -> |[ -> |[ -> | -> ]]]]; cbn in H; congruence.
Qed.

(* ------------------------------------------------------------------ C97 *)
(* Whatever the arguments, a message built from keywords fails only with the two documented exceptions. *)
Theorem C97_keywords clk talker msgid mode hp v ud cks kw e :
  NMEAMessage clk talker msgid mode hp v ud cks None kw = Raise e -> e = NMEAMessageError \/ e = NMEATypeError.
Proof.
  rewrite NMEAMessage_keywords. destruct (negb _); [intros [= <-]; auto|]. destruct (wants_msgid v && _); [intros [= <-]; auto|].
  destruct (keyword_id msgid kw); [|destruct (lookup _ kw); intros [= <-]; auto].
  destruct (_ || _); [intros [= <-]; auto|]. destruct (keyword_definition mode ud msgid kw) as [d|].
  - destruct (kw_result _ d) as [s|e'] eqn:R; [discriminate|]. intros [= <-]. right. eapply kw_result_exc, R. reflexivity.
  - destruct (wants_msgid v); [intros [= <-]; auto|discriminate].
Qed.

(* and the first of them exactly when ... *)
Theorem C97_message_error clk talker msgid mode hp v ud cks kw :
  (forall n, In n (reserved msgid) -> ~ In n (map fst kw)) ->
  (forall n val, In n [u "msgId"; u "msgtype"] -> lookup n kw = Some val -> exists s, val = VStr s) ->
  NMEAMessage clk talker msgid mode hp v ud cks None kw = Raise NMEAMessageError <->
  (mode <> 0 /\ mode <> 1 /\ mode <> 2)
  \/ (wants_msgid v = true /\ (has_key talker NMEA_TALKERS = false \/ known_id ud msgid = false))
  \/ (In msgid prefixes /\ ~ In (u "msgId") (map fst kw))
  \/ (wants_msgid v = true /\ keyword_definition mode ud msgid kw = None).
Proof.
  intros R T. rewrite NMEAMessage_keywords.
  assert (forall k, has_key k kw = false <-> ~ In k (map fst kw)) as Hk.
  { intros k. rewrite <- has_key_iff. destruct (has_key k kw); split; intros; congruence. }
  destruct (valid_mode mode) eqn:V; cbn [negb].
  2:{ split; [intros _; left|reflexivity]. repeat split; intros ->; discriminate V. }
  apply valid_mode_iff in V.
  assert (~ (mode <> 0 /\ mode <> 1 /\ mode <> 2)) as NV by lia.
  destruct (wants_msgid v) eqn:W; cbn [andb].
  - destruct (has_key talker NMEA_TALKERS && known_id ud msgid) eqn:K; cbn [negb].
    2:{ split; [|reflexivity]. intros _. right. left. split; [reflexivity|]. apply andb_false_iff, K. }
    apply andb_true_iff in K as [K1 K2]. rewrite K1, K2.
    destruct (keyword_id msgid kw) as [key|] eqn:I.
    + assert (key_blocked msgid kw || no_variant mode msgid kw = false) as ->.
      { apply orb_false_iff. split.
        - unfold key_blocked. assert (has_key (u "key") kw = false) as -> by (apply Hk, R; cbn; tauto). cbn [orb].
          destruct (str_in msgid special_ids) eqn:Sp; [|rewrite !andb_false_r; reflexivity].
          assert (has_key (u "mode") kw = false) as -> by (apply Hk, R; unfold reserved; rewrite Sp; apply in_or_app; right; left; reflexivity).
          rewrite !andb_false_r. reflexivity.
        - unfold no_variant. rewrite I. apply andb_false_iff. right. unfold keyword_variant.
          destruct (find _ _) as [[[[[? ?] ?] ?] ?]|]; [reflexivity|]. destruct (_ && zero_value _); [reflexivity|]. destruct (_ && zero_value _); [reflexivity|].
          destruct (str_eqb key _); [|reflexivity]. destruct (lookup (u "msgtype") kw) as [val|] eqn:L; [|reflexivity].
          destruct (T _ _ ltac:(right; left; reflexivity) L) as (s & ->). reflexivity. }
      assert (~ (In msgid prefixes /\ ~ In (u "msgId") (map fst kw))) as NP.
      { intros (P & N). apply Hk in N. unfold keyword_id in I. apply str_in_iff in P. rewrite P in I. unfold has_key in N.
        destruct (lookup (u "msgId") kw); [discriminate N|discriminate I]. }
      destruct (keyword_definition mode ud msgid kw) as [d|] eqn:D.
      * destruct (kw_result _ d) as [s|e] eqn:E.
        -- split; [discriminate|]. intros [X|[[_ [X|X]]|[X|[_ X]]]]; try contradiction; congruence.
        -- apply kw_result_exc in E; [|reflexivity]. subst e. split; [discriminate|]. intros [X|[[_ [X|X]]|[X|[_ X]]]]; try contradiction; congruence.
      * split; auto.
    + unfold keyword_id in I. destruct (str_in msgid prefixes) eqn:P; [|discriminate].
      destruct (lookup (u "msgId") kw) as [val|] eqn:L.
      * destruct (T _ _ ltac:(left; reflexivity) L) as (s & ->). discriminate.
      * split; [|reflexivity]. intros _. right. right. left. split; [apply str_in_iff, P|]. apply Hk. unfold has_key. rewrite L. reflexivity.
  - destruct (keyword_id msgid kw) as [key|] eqn:I.
    + split.
      * intros E. destruct (_ || _); [discriminate|]. destruct (keyword_definition mode ud msgid kw) as [d|]; [|discriminate].
        destruct (kw_result _ d) as [s|e] eqn:E'; [discriminate|]. apply kw_result_exc in E'; [|reflexivity]. congruence.
      * intros [X|[[X _]|[(P & N)|[X _]]]]; try contradiction; try discriminate. exfalso.
        apply Hk in N. unfold keyword_id in I. apply str_in_iff in P. rewrite P in I. unfold has_key in N.
        destruct (lookup (u "msgId") kw); [discriminate N|discriminate I].
    + unfold keyword_id in I. destruct (str_in msgid prefixes) eqn:P; [|discriminate].
      destruct (lookup (u "msgId") kw) as [val|] eqn:L.
      * destruct (T _ _ ltac:(left; reflexivity) L) as (s & ->). discriminate.
      * split; [|reflexivity]. intros _. right. right. left. split; [apply str_in_iff, P|]. apply Hk. unfold has_key. rewrite L. reflexivity.
Qed.

(* with a payload: other keywords make no difference, or an NMEATypeError *)
Theorem C97_payload_keywords ck talker msgID mode hp v ud cks fields kw :
  NMEAMessage ck talker msgID mode hp v ud cks (Some fields) kw = NMEAMessage ck talker msgID mode hp v ud cks (Some fields) []
  \/ NMEAMessage ck talker msgID mode hp v ud cks (Some fields) kw = Raise NMEATypeError.
Proof.
  unfold NMEAMessage. destruct (negb (valid_mode mode)); [auto|].
  destruct (negb (has_key talker NMEA_TALKERS) && has_flag v VALMSGID); [auto|].
  set (c := mkctx talker msgID mode hp v ud (find_defsource msgID ud) true kw ck).
  set (c' := mkctx talker msgID mode hp v ud (find_defsource msgID ud) true [] ck).
  assert (get_dict c fields = get_dict c' fields \/ get_dict c fields = Raise TypeError) as G.
  { unfold get_dict. cbn [x_defsource x_mode x_streaming x_kwargs x_userdefined x_validate c c'].
    change (dict_key c fields) with (dict_key c' fields).
    destruct (dict_key c' fields) as [key|e]; cbn [bind]; [|left; reflexivity].
    destruct (find_defsource msgID ud); try (left; reflexivity).
    unfold prop_key. destruct (kw_has "key" kw); [right; reflexivity|]. change (kw_has "key" []) with false. cbn iota.
    change (kw_has "mode" []) with false. destruct (kw_has "mode" kw); cbn iota.
    - repeat (destruct (str_eqb key _); [right; reflexivity|]). left. reflexivity.
    - left. unfold qtmcfggeofence, qtmcfgmsgrate, qtmcfgpps, qtmcfgsat, qtmcfguart, stmdrsenmsg. cbn [negb andb]. reflexivity. }
  assert (do_attributes c fields cks = do_attributes c' fields cks \/ do_attributes c fields cks = Raise NMEATypeError) as D.
  { unfold do_attributes. destruct G as [ -> | -> ]; [|right; reflexivity].
    destruct (get_dict c' fields) as [[d|]|e]; cbn [bind]; [|left; reflexivity|left; reflexivity].
    destruct d as [|x d]; [left; reflexivity|]. cbn [x_kwargs c c']. change (kw_clash []) with false. cbn iota.
    destruct (kw_clash kw); [right; reflexivity|]. left.
    rewrite (set_members_congr c c'); [reflexivity| |]; intros; reflexivity. }
  destruct (find_defsource msgID ud), (has_flag v VALMSGID); try (left; reflexivity);
    destruct D as [ -> | -> ]; auto.
Qed.

Theorem C97_payload clk talker msgid mode hp v ud cks fields kw e :
  NMEAMessage clk talker msgid mode hp v ud cks (Some fields) kw = Raise e ->
  e = NMEAMessageError \/ e = NMEATypeError
  \/ (e = IndexError /\ lacks_id mode msgid fields = true)
  \/ (e = ZeroDivisionError /\ exists k d, In (k, d) ud /\ ~ Forall (fun a => no_empty_group (snd a)) d).
Proof.
  destruct (C97_payload_keywords clk talker msgid mode hp v ud cks fields kw) as [ -> | -> ]; [|intros [= <-]; auto].
  rewrite NMEAMessage_stream. destruct (negb _); [intros [= <-]; auto|]. destruct (wants_msgid v && _); [intros [= <-]; auto|].
  destruct (lacks_id mode msgid fields); [intros [= <-]; auto|].
  destruct (definition_for mode ud msgid fields) as [d|] eqn:D.
  - destruct (stream_result _ fields d) as [s|e'] eqn:R; [discriminate|]. intros [= <-].
    apply stream_result_exc in R as [ -> |[ -> Z0]]; [auto| |reflexivity].
    right. right. right. split; [reflexivity|].
    apply definition_in in D as [(k & B)|(k & B)].
    + exfalso. revert Z0. apply members_zero; [reflexivity|]. apply flat_no_empty, (builtin_well_formed k d B).
    + exists k, d. split; [exact B|]. intros N. revert Z0. apply members_zero; [reflexivity|exact N].
  - destruct (wants_msgid v); [intros [= <-]; auto|discriminate].
Qed.

(* each of them does occur *)
Example C97_example :
  NMEAMessage noon (u "GN") (u "GLL") 3 false 0 [] None None [] = Raise NMEAMessageError
  /\ NMEAMessage noon (u "XX") (u "GLL") 0 false 2 [] None None [] = Raise NMEAMessageError
  /\ NMEAMessage noon (u "GN") (u "XYZ") 0 false 2 [] None None [] = Raise NMEAMessageError
  /\ NMEAMessage noon (u "P") (u "UBX") 0 false 0 [] None None [] = Raise NMEAMessageError
  /\ NMEAMessage noon (u "P") (u "UBX") 0 false 2 [] None None [(u "msgId", VStr (u "99"))] = Raise NMEAMessageError
  /\ NMEAMessage noon (u "P") (u "UBX") 0 false 0 [] None None [(u "msgId", VInt 3)] = Raise NMEATypeError
  /\ NMEAMessage noon (u "GN") (u "GSV") 0 false 0 [] None None [(u "svid_a", VInt 3)] = Raise NMEATypeError
  /\ NMEAMessage noon (u "P") (u "UBX") 0 false 0 [] None (Some []) [] = Raise IndexError.
Proof. repeat split; vm_compute; reflexivity. Qed.
