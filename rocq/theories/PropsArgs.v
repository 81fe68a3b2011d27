(* C95: the order of keyword arguments and definitions *)
From Coq Require Import Lia Permutation.
From Verif Require Import Message Reader BaseLemmas TextLemmas NumLemmas Spec KeywordSpec ParseProofs MessageProofs SelectProofs DecodeProofs StreamProofs
  TableProofs PropsHelpers PropsConstruct PropsRelax.
Local Open Scope Z_scope.

(* ------------------------------------------------------------------ lemmas *)
Lemma lookup_perm {V} (a b : list (pystr * V)) : Permutation a b -> NoDup (map fst a) -> forall k, lookup k a = lookup k b.
Proof.
  induction 1 as [|[k0 v0] a b P IH|[k0 v0] [k1 v1] a|a b c P1 IH1 P2 IH2]; intros N k.
  - reflexivity.
  - cbn [map] in N. inversion N as [|x l N1 N2]; subst. cbn [lookup]. rewrite (IH N2). reflexivity.
  - cbn [map] in N. inversion N as [|x l N1 N2]; subst. cbn [lookup]. cbn [fst] in N1.
    destruct (str_eqb_spec k k0) as [->|E0]; [|reflexivity]. destruct (str_eqb_spec k0 k1) as [->|E1]; [|reflexivity].
    exfalso. apply N1. left. reflexivity.
  - rewrite (IH1 N). apply IH2. apply (Permutation_NoDup (Permutation_map fst P1) N).
Qed.
Lemma groupsize_perm a b : Permutation a b -> groupsize a = groupsize b.
Proof.
  assert (forall a b, Permutation a b -> forall i, groupsize_aux i a = groupsize_aux i b) as H; [|intros P; apply H, P].
  clear. induction 1 as [|x a b P IH|x y a|a b c P1 IH1 P2 IH2]; intros i.
  - reflexivity.
  - cbn [groupsize_aux]. destruct (split_first 95 x) as [[p t]|]; [|apply IH]. destruct (int_of_str t); [apply IH|reflexivity].
  - cbn [groupsize_aux]. destruct (split_first 95 x) as [[p t]|], (split_first 95 y) as [[p' t']|]; try reflexivity.
    destruct (int_of_str t) as [z|e] eqn:E, (int_of_str t') as [z'|e'] eqn:E'; cbn [bind]; try reflexivity.
    + f_equal. lia.
    + apply int_of_str_exc in E. apply int_of_str_exc in E'. congruence.
  - rewrite IH1. apply IH2.
Qed.
Section Args.
Variables (ck : clock) (talker msgID : pystr) (mode : Z) (hp : bool) (v : Z) (ud : userdefs) (cks : option pystr).
(* what is looked at in the keyword arguments *)
Lemma message_keywords payload kw kw' :
  (payload = None -> (forall k, lookup k kw = lookup k kw') /\ groupsize (map fst kw) = groupsize (map fst kw')) ->
  kw_clash kw = kw_clash kw' -> kw_has "key" kw = kw_has "key" kw' -> kw_has "mode" kw = kw_has "mode" kw' ->
  NMEAMessage ck talker msgID mode hp v ud cks payload kw = NMEAMessage ck talker msgID mode hp v ud cks payload kw'.
Proof.
  intros H Hc Hk Hm. unfold NMEAMessage. destruct (negb (valid_mode mode)); [reflexivity|].
  destruct (negb (has_key talker NMEA_TALKERS) && has_flag v VALMSGID); [reflexivity|].
  set (py := match payload with Some _ => true | None => false end). set (pl := match payload with Some p => p | None => [] end).
  set (c := mkctx talker msgID mode hp v ud (find_defsource msgID ud) py kw ck).
  set (c' := mkctx talker msgID mode hp v ud (find_defsource msgID ud) py kw' ck).
  assert (do_attributes c pl cks = do_attributes c' pl cks) as ->; [|reflexivity].
  assert (py = false -> (forall k, lookup k kw = lookup k kw') /\ groupsize (map fst kw) = groupsize (map fst kw')) as H'.
  { unfold py. destruct payload; [discriminate|]. intros _. apply H. reflexivity. }
  clearbody py pl. clear H.
  assert (forall k, py = false -> kw_has k kw = kw_has k kw') as Kh by (intros k E; unfold kw_has, has_key; rewrite (proj1 (H' E)); reflexivity).
  assert (forall k, py = false -> kw_is_zero k kw = kw_is_zero k kw') as Kz by (intros k E; unfold kw_is_zero; rewrite (proj1 (H' E)); reflexivity).
  unfold do_attributes.
  assert (get_dict c pl = get_dict c' pl) as ->.
  { unfold get_dict. cbn [x_defsource x_mode x_streaming x_kwargs x_userdefined x_validate c c'].
    assert (dict_key c pl = dict_key c' pl) as ->.
    { unfold dict_key. cbn [x_msgID x_streaming x_kwargs c c']. destruct py; [reflexivity|]. rewrite (proj1 (H' eq_refl)). reflexivity. }
    destruct (dict_key c' pl) as [key|e]; cbn [bind]; [|reflexivity].
    assert (prop_key key mode py pl kw = prop_key key mode py pl kw') as ->; [|reflexivity].
    unfold prop_key. rewrite Hk, Hm. destruct py.
    - unfold qtmcfggeofence, qtmcfgmsgrate, qtmcfgpps, qtmcfgsat, qtmcfguart, stmdrsenmsg. cbn [negb andb]. reflexivity.
    - unfold qtmcfggeofence, qtmcfgmsgrate, qtmcfgpps, qtmcfgsat, qtmcfguart, stmdrsenmsg. rewrite ?Kh, ?Kz, ?(proj1 (H' eq_refl)) by reflexivity. reflexivity. }
  f_equal. destruct (get_dict c' pl) as [[d|]|e]; cbn [bind]; [|reflexivity|reflexivity].
  cbn [x_kwargs c c']. rewrite Hc. rewrite (set_members_congr c c'); [reflexivity| |].
  - intros att key gi s. unfold set_single. cbn [x_streaming c c']. destruct py; [reflexivity|].
    unfold supply. cbn [x_kwargs c c' x_mode x_clock x_hp]. rewrite ?(proj1 (H' eq_refl)). reflexivity.
  - intros n ms s. unfold group_count. destruct n as [z|name]; [reflexivity|]. cbn [x_streaming x_kwargs c c']. destruct py; [reflexivity|].
    rewrite (proj2 (H' eq_refl)). reflexivity.
Qed.
End Args.

(* ------------------------------------------------------------------ C95 *)
(* keyword arguments can be given in any order *)
Theorem C95_keywords ck talker msgID mode hp v ud cks payload kw kw' :
  Permutation kw kw' -> NoDup (map fst kw) ->
  NMEAMessage ck talker msgID mode hp v ud cks payload kw = NMEAMessage ck talker msgID mode hp v ud cks payload kw'.
Proof.
  intros P N. pose proof (lookup_perm _ _ P N) as L.
  assert (forall k, has_key k kw = has_key k kw') as Hk by (intros k; unfold has_key; rewrite L; reflexivity).
  apply message_keywords; [|unfold kw_clash; cbn [existsb clash_names]; rewrite !Hk; reflexivity|apply Hk|apply Hk].
  intros _. split; [exact L|]. apply groupsize_perm, Permutation_map, P.
Qed.
(* a payload takes precedence: other keywords are ignored, but for the names of parameters of the
   constructor's helpers *)
Theorem C95_payload ck talker msgID mode hp v ud cks fields kw :
  (forall k, In k [u "pindex"; u "pdict"; u "key"; u "gindex"; u "att"; u "mode"] -> ~ In k (map fst kw)) ->
  NMEAMessage ck talker msgID mode hp v ud cks (Some fields) kw = NMEAMessage ck talker msgID mode hp v ud cks (Some fields) [].
Proof.
  intros H. assert (forall k, In k [u "pindex"; u "pdict"; u "key"; u "gindex"; u "att"; u "mode"] -> has_key k kw = false) as Hk.
  { intros k I. specialize (H k I). unfold has_key. destruct (lookup k kw) as [w|] eqn:E; [|reflexivity]. exfalso. apply H.
    apply lookup_In in E. apply in_map_iff. exists (k, w). auto. }
  apply message_keywords; [discriminate| | |].
  - unfold kw_clash. cbn [existsb clash_names]. rewrite !Hk by (cbn; tauto). reflexivity.
  - apply Hk. cbn. tauto.
  - apply Hk. cbn. tauto.
Qed.
(* with a keyword of one of these names nothing is read from the keywords or from the payload: a message that can be
   built at all keeps its payload and has no attributes but the numbered ones of an id without definition *)
Definition helper_parameters : list pystr := [u "pindex"; u "pdict"; u "key"; u "gindex"; u "att"].
Theorem C95_reserved ck talker msgID mode hp v ud cks payload kw n x :
  In n helper_parameters -> In n (map fst kw) -> NMEAMessage ck talker msgID mode hp v ud cks payload kw = Ok x ->
  m_payload x = match payload with Some f => f | None => [] end
  /\ (m_attrs x = [] \/ exists f, payload = Some f /\ m_attrs x = numbered 1 f).
Proof.
  intros N I. assert (C : kw_clash kw = true).
  { unfold kw_clash. apply existsb_exists. exists n. split; [exact N|]. apply has_key_iff, I. }
  unfold NMEAMessage. destruct (negb (valid_mode mode)); [intros H; discriminate H|]. destruct (_ && _); [intros H; discriminate H|].
  set (pl := match payload with Some f => f | None => [] end). set (c := mkctx _ _ _ _ _ _ _ _ _ _).
  assert (G : forall a p k, do_attributes c pl cks = Ok (a, p, k) -> p = pl /\ (a = [] \/ exists f, payload = Some f /\ a = numbered 1 f)).
  { intros a p k. unfold do_attributes. destruct (get_dict c pl) as [[d|]|e]; cbn [bind].
    - destruct d as [|e d]; [|cbn [x_kwargs c]; rewrite C; intros H; discriminate H]. cbn [bind type_errors a_attrs a_payload].
      intros H. injection H as <- <- _. split; [reflexivity|left; reflexivity].
    - cbn [x_streaming c]. unfold pl. destruct payload as [f|].
      + rewrite set_nominal_numbered by (intros j g []). cbn [bind type_errors a_attrs a_payload app]. intros H. injection H as <- <- _.
        split; [reflexivity|right; exists f; split; reflexivity].
      + cbn [type_errors]. intros H. injection H as <- <- _. split; [reflexivity|left; reflexivity].
    - destruct e; intros H; discriminate H. }
  destruct (find_defsource msgID ud), (has_flag v VALMSGID); try (intros H; discriminate H);
    (destruct (do_attributes c pl cks) as [[[a p] k]|e]; cbn [bind]; [|intros H; discriminate H]; intros H; injection H as <-; cbn [m_payload m_attrs]; apply (G _ _ _ eq_refl)).
Qed.
(* so an ordinary id whose definition has attributes cannot be built with them *)
Theorem C95_reserved_error ck talker msgID hp v ud cks payload kw n d :
  In n helper_parameters -> In n (map fst kw) -> has_key talker NMEA_TALKERS = true ->
  has_key msgID NMEA_MSGIDS = true -> str_in msgID NMEA_PREFIX_PROP = false -> lookup (str_upper msgID) NMEA_PAYLOADS_GET = Some d -> d <> [] ->
  NMEAMessage ck talker msgID 0 hp v ud cks payload kw = Raise NMEATypeError.
Proof.
  intros N I T M P L D. assert (C : kw_clash kw = true).
  { unfold kw_clash. apply existsb_exists. exists n. split; [exact N|]. apply has_key_iff, I. }
  unfold NMEAMessage. rewrite T. cbn [negb andb]. change (valid_mode 0) with true. cbn [negb]. unfold find_defsource. rewrite M.
  unfold do_attributes, get_dict, dict_key. cbn [x_msgID x_defsource x_mode x_kwargs]. rewrite P. cbn [bind].
  change (std_table 0) with NMEA_PAYLOADS_GET. rewrite L. cbn [of_lookup bind]. destruct d as [|e d]; [congruence|]. rewrite C. reflexivity.
Qed.
(* the definitions of the user dictionary can be given in any order *)
Theorem C95_definitions m mode v ud ud' :
  Permutation ud ud' -> NoDup (map fst ud) -> same_outcome (parse m mode v ud) (parse m mode v ud').
Proof.
  intros P N. pose proof (lookup_perm _ _ P N) as L.
  assert (forall k, has_key k ud = has_key k ud') as Hk by (intros k; unfold has_key; rewrite L; reflexivity).
  destruct (valid_mode mode) eqn:V; [|rewrite !parse_bad_mode by exact V; reflexivity].
  destruct (get_parts_total m) as [(p & E)|E].
  - apply get_parts_iff in E as (s & T & F & Hd).
    assert (given m (p_content p) (p_cksum p) (p_talker p) (p_msgid p) (p_payload p)) as G by (split; [exists s; auto|exact Hd]).
    rewrite (parse_stream _ _ _ _ _ _ mode v ud G), (parse_stream _ _ _ _ _ _ mode v ud' G). rewrite V. cbn [negb].
    destruct (wants_checksum v && _); [reflexivity|]. unfold known_id. rewrite Hk. destruct (wants_msgid v && _); [reflexivity|].
    destruct (lacks_id mode (p_msgid p) (p_payload p)); [reflexivity|].
    assert (definition_for mode ud (p_msgid p) (p_payload p) = definition_for mode ud' (p_msgid p) (p_payload p)) as D by (unfold definition_for; rewrite Hk, L; reflexivity).
    assert (find_defsource (p_msgid p) ud = find_defsource (p_msgid p) ud') as Ds by (unfold find_defsource; rewrite Hk; reflexivity).
    rewrite D. destruct (definition_for mode ud' (p_msgid p) (p_payload p)) as [d|].
    + unfold stream_result.
      rewrite (set_members_congr (stream_ctx no_clock (p_talker p) (p_msgid p) mode false v ud) (stream_ctx no_clock (p_talker p) (p_msgid p) mode false v ud')).
      * destruct (type_errors _) as [s'|e]; [|reflexivity]. cbn [same_outcome].
        unfold same_message, identity, serialize, serialize_text, str_of_msg. cbn. rewrite Ds. repeat split.
      * intros. reflexivity.
      * intros. unfold group_count, getattr_num. cbn. rewrite Ds. reflexivity.
    + destruct (wants_msgid v); [reflexivity|]. cbn [same_outcome].
      unfold same_message, identity, serialize, serialize_text, str_of_msg. cbn. rewrite Ds. repeat split.
  - pose proof (proj1 (get_parts_fails m) E) as E1. rewrite !parse_no_frame by assumption. destruct (wants_msgid v); reflexivity || exact I.
Qed.

Example C95_example :
  let kw := [(u "lat", VInt (-53)); (u "posMode", VStr (u "A"))] in
  (exists x, NMEAMessage noon (u "GN") (u "GLL") 0 false 0 [] None None (rev kw) = Ok x /\ m_payload x <> [])
  /\ Permutation kw (rev kw) /\ NoDup (map fst kw)
  /\ exists x, NMEAMessage noon (u "GN") (u "GLL") 0 false 0 [] None (Some [u "1"]) kw = Ok x /\ m_payload x = [u "1"].
Proof.
  cbv zeta. split; [eexists; split; [vm_compute; reflexivity|vm_compute; discriminate]|]. split; [apply Permutation_rev|].
  split; [|eexists; split; vm_compute; reflexivity].
  constructor; [|constructor; [intros []|constructor]]. intros [H|[]]. vm_compute in H. discriminate.
Qed.
(* a reserved name is not ignored beside a payload *)
Theorem C95_reserved_refuted :
  (exists x, NMEAMessage noon (u "GN") (u "GLL") 0 false 0 [] None (Some []) [] = Ok x)
  /\ NMEAMessage noon (u "GN") (u "GLL") 0 false 0 [] None (Some []) [(u "key", VInt 1)] = Raise NMEATypeError.
Proof. split; [eexists|]; vm_compute; reflexivity. Qed.
