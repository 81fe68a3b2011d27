(* C98 for proprietary and user-defined message ids. *)
From Coq Require Import Lia.
From Verif Require Import Message Reader BaseLemmas TextLemmas NumLemmas Spec ParseProofs MessageProofs SelectProofs CompleteProofs StreamProofs DecodeProofs TimeSpec CoordSpec ValueSpec KeywordSpec KeywordProofs
  PropsDecode PropsMessage PropsConstruct PropsKeyword GenerateProofs PropsGenerate TableProofs PropsTables PropsValue PropsWrite RewriteSpec RewriteProofs PropsRoundTrip PropsRewrite.
Local Open Scope Z_scope.

(* ------------------------------------------------------------------ the common part *)
Lemma reserved_free msgid d sl n : in_order d -> plain_names_okb (reserved msgid) d = true ->
  expands d sl -> In n (reserved msgid) -> ~ In n (map fst sl).
Proof.
  intros ((Fl & _) & _) Pn X In In'. destruct (PropsRewrite.expands_names _ _ _ Fl X In') as [(ty & It)|It].
  - unfold plain_names_okb in Pn. rewrite forallb_forall in Pn. specialize (Pn _ It). cbn [snd fst] in Pn. apply negb_true_iff in Pn.
    apply str_in_iff in In. congruence.
  - clear - In It. unfold reserved in In. apply in_app_or in In as [In|In].
    + repeat (destruct In as [<-|In]; [cbn in It; intuition discriminate|]). destruct In.
    + destruct (str_in msgid special_ids); [|destruct In]. destruct In as [<-|[]]. cbn in It. intuition discriminate.
Qed.

(* x: the message parsed; y: the message made from its attributes; gs: the rewritten fields *)
Definition comes_back clk (content ck talker msgid : pystr) (fields : list pystr) mode hp v' ud (x : msg) (gs : list pystr) : Prop :=
  exists y, NMEAMessage clk talker msgid mode hp v' ud None None (m_attrs x) = Ok y
    /\ m_attrs y = m_attrs x /\ m_payload y = gs
    /\ (gs = fields -> is_checksum content ck -> serialize y = utf8_encode ([dollar] ++ content ++ [star] ++ ck ++ [cr; lf])).

Lemma comes_back_by clk m content ck talker msgid fields mode v ud x d sl hp v' gs :
  given m content ck talker msgid fields -> parse m mode v ud = Ok (Some x) -> kept_as_is talker msgid fields ->
  definition_for mode ud msgid fields = Some d -> in_order d -> countable d -> good ud -> plain_names_okb (reserved msgid) d = true ->
  layout (int_attr (m_attrs x)) (length fields) 0 d sl -> all_rewritten hp sl fields gs -> hemispheres_agree (m_attrs x) sl fields ->
  (N.of_nat (length fields) < 10 ^ 4300)%N ->
  (wants_msgid v' = true -> has_key talker NMEA_TALKERS = true) -> known_id ud msgid = true ->
  keyword_definition mode ud msgid (m_attrs x) = Some d ->
  comes_back clk content ck talker msgid fields mode hp v' ud x gs.
Proof.
  intros G E K D O Ct Gd Pn L R He Bn Wv Kn Kd.
  assert (wants_msgid v' = true -> has_key talker NMEA_TALKERS = true /\ known_id ud msgid = true) as Wv' by (intros W; split; [apply Wv, W|exact Kn]).
  assert (forall n, In n (reserved msgid) -> ~ In n (map fst (m_attrs x))) as Rs'.
  { intros n In In'. pose proof O as (W & _). destruct (C13_decoded _ _ _ _ _ _ _ _ _ _ _ G E K D W) as (sl' & L' & Dc).
    rewrite (PropsTruncate.decode_names _ _ _ Dc) in In'. apply (reserved_free msgid d sl' n O Pn (layout_expands _ _ _ _ _ L') In). revert In'. apply In_firstn. }
  destruct (C98_rebuilt clk m content ck talker msgid fields mode v ud x d sl hp v' gs) as (y & Y & _ & _ & _ & A & P); try assumption.
  exists y. split; [exact Y|]. split; [exact A|]. split; [exact P|]. intros -> Ck.
  destruct (C98_sentence clk m content ck talker msgid fields mode v ud x d sl hp v') as (y' & Y' & Q); try assumption.
  rewrite Y in Y'. injection Y' as <-. exact Q.
Qed.

(* ------------------------------------------------------------------ proprietary ids *)
(* the built-in proprietary definitions with a group of unstated number and a name with an underscore *)
Definition uncountable : list pystr := [u "QTMSENMSG"; u "QTMVEHMOT"; u "QTMVEHMSG"].
Lemma proprietary_checked : forallb (fun mode => forallb (fun e =>
    (str_in (fst e) uncountable || countableb (snd e)) && plain_names_okb (helper_names) (snd e)) (definitions_proprietary mode)) [0; 1; 2] = true.
Proof. vm_compute. reflexivity. Qed.

Lemma proprietary_in mode k d : (mode = 0 \/ mode = 1 \/ mode = 2) -> lookup k (definitions_proprietary mode) = Some d ->
  in_order d /\ (~ In k uncountable -> countable d) /\ plain_names_okb helper_names d = true.
Proof.
  intros Hm L. apply lookup_In in L.
  assert (In (k, d) builtin_definitions) as Ib.
  { unfold builtin_definitions. unfold definitions_proprietary in L. rewrite !in_app_iff. destruct (mode =? 0); [tauto|]. destruct (mode =? 1); tauto. }
  split; [exact (C13_builtin_in_order _ _ Ib)|]. pose proof proprietary_checked as C. rewrite forallb_forall in C.
  assert (In mode [0; 1; 2]) as Im by (destruct Hm as [->|[->| ->]]; cbn; tauto).
  specialize (C mode Im). rewrite forallb_forall in C. specialize (C _ L). cbn [fst snd] in C. apply andb_true_iff in C as [C1 C2].
  split; [|exact C2]. intros Nu. apply countableb_ok. apply orb_true_iff in C1 as [C1|C1]; [|exact C1]. elim Nu. apply str_in_iff, C1.
Qed.
Lemma reserved_plain msgid : ~ In msgid special_ids -> reserved msgid = helper_names.
Proof.
  intros N. unfold reserved. destruct (str_in msgid special_ids) eqn:S; [elim N; apply str_in_iff, S|]. reflexivity.
Qed.
Lemma keyword_variants_special : forallb (fun r => let '(k, _, _, _, _) := r in str_in k special_ids) keyword_variants = true.
Proof. vm_compute. reflexivity. Qed.
Lemma keyword_variant_same key mode kw : ~ In key special_ids -> keyword_variant key mode kw = Some key.
Proof.
  intros N. unfold keyword_variant.
  match goal with |- context [find ?P keyword_variants] => destruct (find P keyword_variants) as [[[[[k m] y] n] nm]|] eqn:F end.
  - exfalso. apply find_some in F as [F1 F2]. pose proof keyword_variants_special as S. rewrite forallb_forall in S. specialize (S _ F1). cbn in S.
    apply andb_true_iff in F2 as [F2 _]. apply andb_true_iff in F2 as [F2 _]. apply andb_true_iff in F2 as [F2 _]. apply str_eqb_eq in F2. subst k.
    apply N, str_in_iff, S.
  - assert (forall w, In w special_ids -> str_eqb key w = false) as Q by (intros w Iw; apply str_eqb_neq; intros ->; exact (N Iw)).
    rewrite (Q (u "QTMCFGPPS")), (Q (u "QTMCFGGEOFENCE")), (Q (u "STMDRSENMSG")) by (cbn; tauto). reflexivity.
Qed.

(* An id with a definition of its own, that the keywords do not choose among. (A reply of a Quectel
   receiver - OK or ERROR - is decoded by another definition than its id's.) *)
Theorem C98_proprietary clk m content ck talker msgid fields mode v ud x d sl hp v' gs :
  given m content ck talker msgid fields -> parse m mode v ud = Ok (Some x) -> kept_as_is talker msgid fields ->
  has_key msgid NMEA_MSGIDS_PROP = true -> ~ In msgid prefixes -> ~ In (str_upper msgid) special_ids -> ~ In msgid special_ids ->
  ~ In (str_upper msgid) uncountable ->
  variant_of (str_upper msgid) mode fields = str_upper msgid ->
  definition_for mode ud msgid fields = Some d -> good ud ->
  layout (int_attr (m_attrs x)) (length fields) 0 d sl -> all_rewritten hp sl fields gs -> hemispheres_agree (m_attrs x) sl fields ->
  (N.of_nat (length fields) < 10 ^ 4300)%N -> (wants_msgid v' = true -> has_key talker NMEA_TALKERS = true) ->
  comes_back clk content ck talker msgid fields mode hp v' ud x gs.
Proof.
  intros G E K Hp Np Nsu Ns Nu Vr D Gd L R He Bn Wv.
  pose proof (parse_given _ _ _ _ _ E) as (? & ? & ? & ? & ? & _ & Vm & _). apply valid_mode_iff in Vm.
  assert (str_in msgid prefixes = false) as P by (destruct (str_in msgid prefixes) eqn:P; [elim Np; apply str_in_iff, P|reflexivity]).
  assert (has_key msgid NMEA_MSGIDS = false) as Hs.
  { destruct (has_key msgid NMEA_MSGIDS) eqn:S; [|reflexivity]. apply special_not_std in S. destruct S as (_ & _ & _ & S). congruence. }
  assert (lookup (str_upper msgid) (definitions_proprietary mode) = Some d) as Lk.
  { unfold definition_for, lookup_id in D. rewrite Hs, Hp, P, Vr in D. exact D. }
  destruct (proprietary_in _ _ _ Vm Lk) as (O & Ct & Pn).
  apply (comes_back_by clk m content ck talker msgid fields mode v ud x d sl hp v' gs); try assumption.
  - apply Ct, Nu.
  - rewrite (reserved_plain _ Ns). exact Pn.
  - unfold known_id. rewrite Hp, orb_true_r. reflexivity.
  - unfold keyword_definition, keyword_id. rewrite P, Hs, Hp. cbn [orb]. rewrite (keyword_variant_same _ _ _ Nsu). exact Lk.
Qed.

(* prefix-style ids: the definition is chosen by the attribute msgId, which the definition puts first *)
Theorem C98_prefix clk m content ck talker msgid fields mode v ud x d sl hp v' gs :
  given m content ck talker msgid fields -> parse m mode v ud = Ok (Some x) -> kept_as_is talker msgid fields ->
  In msgid prefixes -> definition_for mode ud msgid fields = Some ((u "msgId", ASingle (u "ST")) :: d) -> good ud ->
  layout (int_attr (m_attrs x)) (length fields) 0 ((u "msgId", ASingle (u "ST")) :: d) sl -> all_rewritten hp sl fields gs ->
  hemispheres_agree (m_attrs x) sl fields ->
  (N.of_nat (length fields) < 10 ^ 4300)%N -> (wants_msgid v' = true -> has_key talker NMEA_TALKERS = true) ->
  comes_back clk content ck talker msgid fields mode hp v' ud x gs.
Proof.
  intros G E K Ip D Gd L R He Bn Wv. pose proof (parse_given _ _ _ _ _ E) as (? & ? & ? & ? & ? & _ & Vm & _). apply valid_mode_iff in Vm.
  pose proof Ip as P. apply str_in_iff in P. destruct (prefix_not_id _ P) as (Hs & _).
  pose proof D as Lk. rewrite prefix_definition in Lk by exact Ip.
  assert (~ In msgid special_ids) as Ns.
  { intros Q. clear - Q Ip. cbn [prefixes In] in Ip. destruct Ip as [<-|[<-|[<-|[<-|[<-|[<-|[]]]]]]]; cbn in Q; intuition discriminate. }
  destruct (proprietary_in _ _ _ Vm Lk) as (O & Ct & Pn).
  (* the value of msgId *)
  pose proof O as (W & _). destruct (C13_decoded _ _ _ _ _ _ _ _ _ _ _ G E K D W) as (sl' & L' & Dc).
  inversion L' as [|? ? ? ? sl2 L2|]; subst.
  inversion L as [|? ? ? ? sl3 L3|]; subst. inversion R as [|? ? f g ? fs gs' Rw R']; subst. clear L3.
  cbn [decode] in Dc.
  destruct (decode sl2 fs) as [r|]; [|discriminate]. injection Dc as Dc. rewrite C12_settle_other in Dc by discriminate.
  assert (lookup (u "msgId") (m_attrs x) = Some (VStr f)) as La by (rewrite <- Dc; reflexivity).
  (* the definition *)
  cbn [hd] in *.
  assert (variant_of (lookup_id msgid (f :: fs)) mode (f :: fs) = str_upper (msgid ++ f)) as Vk.
  { unfold lookup_id in *. rewrite P in *. cbn [hd] in *.
    destruct (str_eqb msgid (u "ASHR") && chr_isdigit (nth 1 f 0%N)) eqn:A; [|apply prefix_key, Ip].
    exfalso. apply andb_true_iff in A as [A _]. apply str_eqb_eq in A. subst msgid.
    assert (variant_of (str_upper (u "ASHR")) mode (f :: fs) = u "ASHR") as Q.
    { pose proof (prefix_key (u "ASHR") [] Ip mode (f :: fs)) as Q. rewrite app_nil_r in Q. exact Q. }
    rewrite Q in Lk. clear - Lk Vm. destruct Vm as [->|[->| ->]]; vm_compute in Lk; discriminate. }
  rewrite Vk in Lk.
  apply (comes_back_by clk m content ck talker msgid (f :: fs) mode v ud x ((u "msgId", ASingle (u "ST")) :: d) ((u "msgId", u "ST") :: sl3) hp v' (g :: gs')); try assumption.
  - apply Ct. rewrite Vk, str_upper_app. clear - Ip. intros Q. cbn [prefixes In] in Ip.
    destruct Ip as [<-|[<-|[<-|[<-|[<-|[<-|[]]]]]]]; cbn in Q; intuition discriminate.
  - rewrite (reserved_plain _ Ns). exact Pn.
  - unfold known_id. rewrite P, orb_true_r. reflexivity.
  - rewrite (C21_keyword _ _ _ _ _ Ip La). exact Lk.
Qed.
(* every definition of such a message begins with msgId, except that of a bare ASHR *)
Theorem C98_prefix_definitions mode p k d :
  In mode [0; 1; 2] -> In p prefixes -> In (k, d) (definitions_proprietary mode) -> firstn (length p) k = p -> k <> u "ASHR" ->
  exists d', d = (u "msgId", ASingle (u "ST")) :: d'.
Proof.
  intros Im Ip I Fk Nk. pose proof prefix_first as F. rewrite forallb_forall in F. specialize (F _ Ip). rewrite forallb_forall in F. specialize (F _ Im).
  rewrite forallb_forall in F. specialize (F _ I). cbn [fst snd] in F. rewrite Fk, str_eqb_refl in F. apply str_eqb_neq in Nk. rewrite Nk in F. cbn [negb orb] in F.
  destruct d as [|[k0 [ty|]] d']; try discriminate. apply andb_true_iff in F as [F1 F2]. apply str_eqb_eq in F1, F2. subst. exists d'. reflexivity.
Qed.

(* ------------------------------------------------------------------ ids with several definitions *)
Lemma has_key_names {A B} n (l : list (pystr * A)) (l' : list (pystr * B)) : map fst l = map fst l' -> has_key n l = has_key n l'.
Proof.
  revert l'. induction l as [|[k a] l IH]; intros [|[k' b] l'] H; try discriminate; [reflexivity|]. cbn [map fst] in H. injection H as <- H.
  unfold has_key in *. cbn [lookup]. destruct (str_eqb n k); [reflexivity|]. apply IH, H.
Qed.
Lemma find_same {A} (f g : A -> bool) l : (forall a, f a = g a) -> find f l = find g l.
Proof. intros H. induction l as [|a l IH]; [reflexivity|]. cbn [find]. rewrite H, IH. reflexivity. Qed.
Lemma keyword_variant_names key mode kw kw' : map fst kw = map fst kw' -> key <> u "STMDRSENMSG" ->
  ~ (mode = 1 /\ In key [u "QTMCFGPPS"; u "QTMCFGGEOFENCE"]) -> keyword_variant key mode kw = keyword_variant key mode kw'.
Proof.
  intros Nm N1 N2. unfold keyword_variant.
  match goal with |- match find ?f _ with _ => _ end = match find ?g _ with _ => _ end => assert (find f keyword_variants = find g keyword_variants) as -> end.
  { apply find_same. intros [[[[k m] y] n] nm]. assert (forall l : list pystr, forallb (fun n => has_key n kw) l = forallb (fun n => has_key n kw') l) as H1.
    { intros l. induction l as [|a l IH]; [reflexivity|]. cbn [forallb]. rewrite (has_key_names a kw kw' Nm), IH. reflexivity. }
    assert (forall l : list pystr, forallb (fun n => negb (has_key n kw)) l = forallb (fun n => negb (has_key n kw')) l) as H2.
    { intros l. induction l as [|a l IH]; [reflexivity|]. cbn [forallb]. rewrite (has_key_names a kw kw' Nm), IH. reflexivity. }
    rewrite H1, H2. reflexivity. }
  match goal with |- context [find ?f keyword_variants] => destruct (find f keyword_variants) as [[[[[? ?] ?] ?] ?]|]; [reflexivity|] end.
  apply str_eqb_neq in N1. rewrite N1.
  assert (str_eqb key (u "QTMCFGPPS") && (mode =? 1) = false) as ->.
  { destruct (str_eqb_spec key (u "QTMCFGPPS")) as [->|_]; [|reflexivity]. cbn [andb]. apply Z.eqb_neq. intros ->. apply N2. split; [reflexivity|left; reflexivity]. }
  assert (str_eqb key (u "QTMCFGGEOFENCE") && (mode =? 1) = false) as ->.
  { destruct (str_eqb_spec key (u "QTMCFGGEOFENCE")) as [->|_]; [|reflexivity]. cbn [andb]. apply Z.eqb_neq. intros ->. apply N2. split; [reflexivity|right; left; reflexivity]. }
  reflexivity.
Qed.

(* the definitions of an id that the number of fields chooses among *)
Definition choices (mode : Z) (key : pystr) : list pystr :=
  key :: map (fun v => let '(_, _, _, n) := v in n) (filter (fun v => let '(k, m, _, _) := v in str_eqb k key && (m =? mode)) variants).
Definition only_names (d : pdict) : kwargs := map (fun e => (fst e, VNone)) d.
Definition singleb (e : pystr * adef) : bool := match snd e with ASingle _ => true | _ => false end.
Lemma choices_checked : forallb (fun key => str_eqb key (u "STMDRSENMSG") || forallb (fun mode =>
    ((mode =? 1) && str_in key [u "QTMCFGPPS"; u "QTMCFGGEOFENCE"]) || forallb (fun n =>
      match lookup n (definitions_proprietary mode) with
      | Some d => forallb singleb d && plain_names_okb (reserved key) d && negb (str_in n uncountable)
          && match keyword_variant key mode (only_names d) with Some n' => str_eqb n' n | None => false end
      | None => true
      end) (choices mode key)) [0; 1; 2]) special_ids = true.
Proof. vm_compute. reflexivity. Qed.
Lemma variant_choice mode msgid fields : msgid <> u "STMDRSENMSG" ->
  ~ In (variant_of msgid mode fields) [u "QTMSN_ALT"; u "QTMACK"; u "QTMNAK"] -> In (variant_of msgid mode fields) (choices mode msgid).
Proof.
  intros N. unfold variant_of, choices.
  match goal with |- context [find ?P variants] => destruct (find P variants) as [[[[k m] n] nm]|] eqn:F end.
  - intros _. apply find_some in F as [F1 F2]. apply in_cons. apply in_map_iff. exists (k, m, n, nm). split; [reflexivity|]. apply filter_In. split; [exact F1|].
    apply andb_true_iff in F2 as [F2 _]. exact F2.
  - clear F. generalize (map (fun v : pystr * Z * nat * pystr => let '(_, _, _, n) := v in n)
      (filter (fun v : pystr * Z * nat * pystr => let '(k, m, _, _) := v in str_eqb k msgid && (m =? mode)) variants)) as others.
    intros others Q. apply str_eqb_neq in N. rewrite N in *. clear N.
    destruct (str_eqb msgid (u "QTMSN") && (mode =? 0) && str_isnumeric (hd [] fields)); [elim Q; apply in_eq|].
    destruct (str_eqb (firstn 3 msgid) (u "QTM") && (mode =? 0) && negb (str_in msgid no_ack)); [|apply in_eq].
    destruct fields as [|a [|b [|c fields]]]; try apply in_eq.
    + destruct (str_eqb a (u "OK")); [elim Q; apply in_cons, in_eq|apply in_eq].
    + destruct (str_eqb a (u "ERROR")); [elim Q; apply in_cons, in_cons, in_eq|apply in_eq].
Qed.

(* An id with several definitions: the names of the attributes say which was used. Except in SET mode
   for two ids, where the value of an attribute counts. *)
Theorem C98_variants clk m content ck talker msgid fields mode v ud x d sl hp v' gs :
  given m content ck talker msgid fields -> parse m mode v ud = Ok (Some x) -> kept_as_is talker msgid fields ->
  In msgid [u "QTMCFGGEOFENCE"; u "QTMCFGMSGRATE"; u "QTMCFGPPS"; u "QTMCFGSAT"; u "QTMCFGUART"; u "QTMSN"] ->
  ~ (mode = 1 /\ In msgid [u "QTMCFGPPS"; u "QTMCFGGEOFENCE"]) ->
  ~ In (variant_of msgid mode fields) [u "QTMSN_ALT"; u "QTMACK"; u "QTMNAK"] ->
  definition_for mode ud msgid fields = Some d -> good ud ->
  layout (int_attr (m_attrs x)) (length fields) 0 d sl -> all_rewritten hp sl fields gs -> hemispheres_agree (m_attrs x) sl fields ->
  (N.of_nat (length fields) < 10 ^ 4300)%N -> (wants_msgid v' = true -> has_key talker NMEA_TALKERS = true) ->
  comes_back clk content ck talker msgid fields mode hp v' ud x gs.
Proof.
  intros G E K Im Nm Nv D Gd L R He Bn Wv.
  pose proof (parse_given _ _ _ _ _ E) as (? & ? & ? & ? & ? & _ & Vm & _). apply valid_mode_iff in Vm.
  assert (In msgid special_ids /\ msgid <> u "STMDRSENMSG" /\ str_in msgid prefixes = false /\ str_upper msgid = msgid) as (Is & Nt & P & Um).
  { clear - Im. cbn [In] in Im. destruct Im as [<-|[<-|[<-|[<-|[<-|[<-|[]]]]]]]; (split; [cbn; tauto|split; [discriminate|split; reflexivity]]). }
  pose proof Is as Sp. apply str_in_iff, special_prop in Sp as [Hs Hp].
  assert (lookup (variant_of msgid mode fields) (definitions_proprietary mode) = Some d) as Lk.
  { unfold definition_for, lookup_id in D. rewrite Hs, Hp, P, Um in D. exact D. }
  pose proof (variant_choice mode msgid fields Nt Nv) as Ic. set (nm := variant_of msgid mode fields) in *.
  destruct (proprietary_in _ _ _ Vm Lk) as (O & Ct & _).
  pose proof choices_checked as C. rewrite forallb_forall in C. specialize (C _ Is). apply str_eqb_neq in Nt as Nt'. rewrite Nt' in C. cbn [orb] in C.
  rewrite forallb_forall in C. specialize (C mode ltac:(destruct Vm as [->|[->| ->]]; cbn; tauto)).
  assert ((mode =? 1) && str_in msgid [u "QTMCFGPPS"; u "QTMCFGGEOFENCE"] = false) as Nm'.
  { apply not_true_is_false. intros Q. apply andb_true_iff in Q as [Q1 Q2]. apply Nm. split; [apply Z.eqb_eq, Q1|apply str_in_iff, Q2]. }
  rewrite Nm' in C. cbn [orb] in C. rewrite forallb_forall in C. specialize (C _ Ic). rewrite Lk in C.
  apply andb_true_iff in C as [C C4]. apply andb_true_iff in C as [C C3]. apply andb_true_iff in C as [C1 C2].
  assert (keyword_variant msgid mode (only_names d) = Some nm) as Kv.
  { destruct (keyword_variant msgid mode (only_names d)); [|discriminate]. apply str_eqb_eq in C4. congruence. }
  assert (plain d) as Pd.
  { apply Forall_forall. intros e Ie. rewrite forallb_forall in C1. specialize (C1 _ Ie). unfold singleb in C1. destruct (snd e) as [ty|]; [exists ty; reflexivity|discriminate]. }
  assert (sl = plain_slots d) as -> by (apply expands_plain; [exact Pd|eapply layout_expands, L]).
  assert (map fst (m_attrs x) = map fst (only_names d)) as Na.
  { pose proof O as (W & _). destruct (C13_decoded _ _ _ _ _ _ _ _ _ _ _ G E K D W) as (sl' & L' & Dc).
    assert (sl' = plain_slots d) as -> by (apply expands_plain; [exact Pd|eapply layout_expands, L']).
    rewrite (PropsTruncate.decode_names _ _ _ Dc). destruct (decode_nth _ _ _ Dc) as [Ln _].
    assert (forall s f g, all_rewritten hp s f g -> length s = length f) as Q by (induction 1; [reflexivity|cbn; congruence]).
    specialize (Q _ _ _ R). rewrite firstn_all2.
    - clear - Pd. unfold only_names. rewrite map_map. cbn [fst]. induction Pd as [|[k a] d [ty T] Pd IH]; [reflexivity|].
      cbn in T. subst a. unfold plain_slots in *. cbn. f_equal. exact IH.
    - rewrite map_length, Ln. change (@length (pystr * pystr)) with (@length slot) in *. rewrite Q. lia. }
  apply (comes_back_by clk m content ck talker msgid fields mode v ud x d (plain_slots d) hp v' gs); try assumption.
  - apply Ct. intros Q. apply str_in_iff in Q. rewrite Q in C3. discriminate.
  - unfold known_id. rewrite Hp, orb_true_r. reflexivity.
  - unfold keyword_definition, keyword_id. rewrite P, Hs, Hp, Um. cbn [orb]. rewrite (keyword_variant_names _ _ _ _ Na Nt Nm), Kv. exact Lk.
Qed.

(* ------------------------------------------------------------------ user-defined ids *)
Theorem C98_user clk m content ck talker msgid fields mode v ud x d sl hp v' gs :
  given m content ck talker msgid fields -> parse m mode v ud = Ok (Some x) -> kept_as_is talker msgid fields ->
  has_key msgid NMEA_MSGIDS = false -> has_key msgid NMEA_MSGIDS_PROP = false -> ~ In msgid prefixes -> has_key msgid ud = true ->
  definition_for mode ud msgid fields = Some d -> good ud -> countable d ->
  (forall n ty, In (n, ASingle ty) d -> ~ In n [u "pindex"; u "pdict"; u "key"; u "gindex"; u "att"]) ->
  layout (int_attr (m_attrs x)) (length fields) 0 d sl -> all_rewritten hp sl fields gs -> hemispheres_agree (m_attrs x) sl fields ->
  (N.of_nat (length fields) < 10 ^ 4300)%N -> (wants_msgid v' = true -> has_key talker NMEA_TALKERS = true) ->
  comes_back clk content ck talker msgid fields mode hp v' ud x gs.
Proof.
  intros G E K Hs Hp Np Hu D Gd Ct Nn L R He Bn Wv.
  assert (str_in msgid prefixes = false) as P by (destruct (str_in msgid prefixes) eqn:P; [elim Np; apply str_in_iff, P|reflexivity]).
  assert (lookup (str_upper msgid) ud = Some d) as Lk.
  { unfold definition_for, lookup_id in D. rewrite Hs, Hp, P, Hu in D. exact D. }
  assert (~ In msgid special_ids) as Ns.
  { intros Q. apply str_in_iff, special_prop in Q as [_ Q]. congruence. }
  apply (comes_back_by clk m content ck talker msgid fields mode v ud x d sl hp v' gs); try assumption.
  - apply lookup_In in Lk. exact (Gd _ _ Lk).
  - rewrite (reserved_plain _ Ns). unfold plain_names_okb. apply forallb_forall. intros [n [ty|]] I; [|reflexivity]. cbn [fst snd]. apply negb_true_iff.
    destruct (str_in n helper_names) eqn:Q; [|reflexivity]. elim (Nn n ty I). apply str_in_iff, Q.
  - unfold known_id. rewrite Hu, orb_true_r. reflexivity.
  - unfold keyword_definition, keyword_id. rewrite P, Hs, Hp, Hu. exact Lk.
Qed.

(* ------------------------------------------------------------------ examples *)
Lemma written_decimal hp neg ip fp : plain_decimal ip fp ->
  rewritten hp (u "DE") (minus_sign neg ++ ip ++ u "." ++ fp) (minus_sign neg ++ ip ++ u "." ++ fp).
Proof.
  intros P. pose proof P as (D1 & D2 & N1 & _). apply (rw_decimal hp (minus_sign neg) neg ip fp ip fp); try assumption; [destruct neg; constructor| |reflexivity].
  destruct ip; [elim N1; reflexivity|discriminate].
Qed.
Lemma no_axes (attrs : list (pystr * pyval)) (sl : list slot) (fields : list pystr) :
  forallb (fun s => negb (str_in (snd s) [u "LAD"; u "LND"])) sl = true -> hemispheres_agree attrs sl fields.
Proof.
  intros H pos ty0 hty neg other i j ty h Ia _ _ Nj. exfalso. apply nth_error_In in Nj. rewrite forallb_forall in H. specialize (H _ Nj). cbn [snd] in H.
  apply negb_true_iff in H. assert (str_in hty [u "LAD"; u "LND"] = true) as Q; [|congruence]. apply str_in_iff.
  destruct Ia as [Ia|[Ia|[]]]; injection Ia as _ _ <- _ _; cbn; tauto.
Qed.
Lemma has_parts (b : bool) ip fp : b = forallb (fun c => (48 <=? c) && (c <=? 57))%N (ip ++ fp)
    && negb (str_eqb ip []) && negb (str_eqb fp []) && (length (ip ++ fp) <=? 15)%nat
    && (str_eqb ip (u "0") || negb (hd 0%N ip =? 48)%N) && (str_eqb fp (u "0") || negb (last fp 0%N =? 48)%N)
    && (negb (str_eqb ip (u "0")) || negb (str_eqb (firstn 4 fp) (u "0000"))) -> b = true -> plain_decimal ip fp.
Proof.
  intros -> H. repeat (apply andb_true_iff in H as [H ?]). rewrite forallb_app in H. apply andb_true_iff in H as [H H'].
  assert (forall s, forallb (fun c => (48 <=? c) && (c <=? 57))%N s = true -> digit_text s) as Dt.
  { intros s Q. apply Forall_forall. intros c Ic. rewrite forallb_forall in Q. specialize (Q c Ic). apply andb_true_iff in Q as [Q1 Q2].
    apply N.leb_le in Q1, Q2. split; assumption. }
  split; [apply Dt, H|]. split; [apply Dt, H'|].
  split; [apply str_eqb_neq, negb_true_iff; assumption|]. split; [apply str_eqb_neq, negb_true_iff; assumption|].
  split; [apply Nat.leb_le; assumption|]. split; [|split].
  - intros E. match goal with Q : str_eqb ip (u "0") || negb (hd _ _ =? _)%N = true |- _ => apply orb_true_iff in Q as [Q|Q]; [apply str_eqb_eq, Q|] end.
    rewrite E in *. discriminate.
  - intros E. match goal with Q : str_eqb fp (u "0") || _ = true |- _ => apply orb_true_iff in Q as [Q|Q]; [apply str_eqb_eq, Q|] end.
    rewrite E in *. discriminate.
  - intros E. match goal with Q : negb (str_eqb ip (u "0")) || _ = true |- _ => apply orb_true_iff in Q as [Q|Q]; apply negb_true_iff, str_eqb_neq in Q; [contradiction|exact Q] end.
Qed.

Definition singles (sl : list slot) : pdict := map (fun s => (fst s, ASingle (snd s))) sl.
Definition grmz_slots : list slot := [(u "alt", u "DE"); (u "altUnit", u "CH"); (u "fix", u "IN")].
Definition grmz_fields := [u "-46.5"; u "f"; u "3"].
Example C98_proprietary_example : exists x y,
  parse (MStr (u "$PGRMZ,-46.5,f,3*1F")) 0 1 [] = Ok (Some x)
  /\ has_key (u "GRMZ") NMEA_MSGIDS_PROP = true /\ ~ In (u "GRMZ") prefixes /\ ~ In (u "GRMZ") special_ids /\ ~ In (u "GRMZ") uncountable
  /\ variant_of (u "GRMZ") 0 grmz_fields = u "GRMZ"
  /\ definition_for 0 [] (u "GRMZ") grmz_fields = Some (singles grmz_slots)
  /\ layout (int_attr (m_attrs x)) 3 0 (singles grmz_slots) grmz_slots
  /\ all_rewritten false grmz_slots grmz_fields grmz_fields
  /\ hemispheres_agree (m_attrs x) grmz_slots grmz_fields
  /\ NMEAMessage noon (u "P") (u "GRMZ") 0 false 0 [] None None (m_attrs x) = Ok y
  /\ serialize y = Ok (u "$PGRMZ,-46.5,f,3*1F" ++ [13%N; 10%N]).
Proof.
  eexists. eexists. split; [vm_compute; reflexivity|]. split; [vm_compute; reflexivity|].
  split; [cbn; intuition discriminate|]. split; [cbn; intuition discriminate|]. split; [cbn; intuition discriminate|].
  split; [vm_compute; reflexivity|]. split; [vm_compute; reflexivity|]. split; [repeat constructor|].
  split; [|split; [apply no_axes; vm_compute; reflexivity|split; [vm_compute; reflexivity|vm_compute; reflexivity]]].
  apply ar_cons; [|apply ar_cons; [|apply ar_cons; [|apply ar_nil]]].
  - apply (written_decimal false true (u "46") (u "5")), (has_parts true); vm_compute; reflexivity.
  - apply rw_text. cbn. tauto.
  - apply (rw_integer false [] false (u "3")); [constructor|repeat constructor; discriminate|cbn; lia|].
    exists (u "3"). split; [repeat constructor; discriminate|]. split; [discriminate|]. split; [reflexivity|]. split; [discriminate|reflexivity].
Qed.

Definition patt_slots : list slot := [(u "msgId", u "ST"); (u "yaw", u "DE"); (u "pitch", u "DE"); (u "roll", u "DE")].
Definition patt_fields := [u "GPatt"; u "1.5"; u "-2.25"; []].
Example C98_prefix_example : exists x y,
  parse (MStr (u "$PFEC,GPatt,1.5,-2.25,*7A")) 0 1 [] = Ok (Some x)
  /\ In (u "FEC") prefixes
  /\ definition_for 0 [] (u "FEC") patt_fields = Some (singles patt_slots)
  /\ layout (int_attr (m_attrs x)) 4 0 (singles patt_slots) patt_slots
  /\ all_rewritten false patt_slots patt_fields patt_fields
  /\ hemispheres_agree (m_attrs x) patt_slots patt_fields
  /\ NMEAMessage noon (u "P") (u "FEC") 0 false 0 [] None None (m_attrs x) = Ok y
  /\ serialize y = Ok (u "$PFEC,GPatt,1.5,-2.25,*7A" ++ [13%N; 10%N]).
Proof.
  eexists. eexists. split; [vm_compute; reflexivity|]. split; [cbn; tauto|].
  split; [vm_compute; reflexivity|]. split; [repeat constructor|].
  split; [|split; [apply no_axes; vm_compute; reflexivity|split; [vm_compute; reflexivity|vm_compute; reflexivity]]].
  apply ar_cons; [|apply ar_cons; [|apply ar_cons; [|apply ar_cons; [|apply ar_nil]]]].
  - apply rw_text. cbn. tauto.
  - apply (written_decimal false false (u "1") (u "5")), (has_parts true); vm_compute; reflexivity.
  - apply (written_decimal false true (u "2") (u "25")), (has_parts true); vm_compute; reflexivity.
  - apply rw_empty. cbn. tauto.
Qed.

Definition rate_slots : list slot := [(u "status", u "QS"); (u "msgname", u "ST"); (u "rate", u "IN")].
Definition rate_fields := [u "W"; u "RMC"; u "1"].
Example C98_variants_example : exists x y,
  parse (MStr (u "$PQTMCFGMSGRATE,W,RMC,1*17")) 1 1 [] = Ok (Some x)
  /\ variant_of (u "QTMCFGMSGRATE") 1 rate_fields = u "QTMCFGMSGRATE_NOVER"
  /\ definition_for 1 [] (u "QTMCFGMSGRATE") rate_fields = Some (singles rate_slots)
  /\ layout (int_attr (m_attrs x)) 3 0 (singles rate_slots) rate_slots
  /\ all_rewritten false rate_slots rate_fields rate_fields
  /\ hemispheres_agree (m_attrs x) rate_slots rate_fields
  /\ NMEAMessage noon (u "P") (u "QTMCFGMSGRATE") 1 false 0 [] None None (m_attrs x) = Ok y
  /\ serialize y = Ok (u "$PQTMCFGMSGRATE,W,RMC,1*17" ++ [13%N; 10%N]).
Proof.
  eexists. eexists. split; [vm_compute; reflexivity|]. split; [vm_compute; reflexivity|]. split; [vm_compute; reflexivity|]. split; [repeat constructor|].
  split; [|split; [apply no_axes; vm_compute; reflexivity|split; [vm_compute; reflexivity|vm_compute; reflexivity]]].
  apply ar_cons; [|apply ar_cons; [|apply ar_cons; [|apply ar_nil]]].
  - apply rw_text. cbn. tauto.
  - apply rw_text. cbn. tauto.
  - apply (rw_integer false [] false (u "1")); [constructor|repeat constructor; discriminate|cbn; lia|].
    exists (u "1"). split; [repeat constructor; discriminate|]. split; [discriminate|]. split; [reflexivity|]. split; [discriminate|reflexivity].
Qed.

Definition yyy_slots : list slot := [(u "spam", u "DE"); (u "eggs", u "ST")].
Definition yyy_fields := [u "51.5"; u "x"].
Definition yyy_definitions : userdefs := [(u "YYY", singles yyy_slots)].
Example C98_user_example : exists x y,
  parse (MStr (u "$GPYYY,51.5,x*29")) 0 1 yyy_definitions = Ok (Some x)
  /\ has_key (u "YYY") NMEA_MSGIDS = false /\ has_key (u "YYY") NMEA_MSGIDS_PROP = false /\ ~ In (u "YYY") prefixes
  /\ definition_for 0 yyy_definitions (u "YYY") yyy_fields = Some (singles yyy_slots)
  /\ countable (singles yyy_slots)
  /\ layout (int_attr (m_attrs x)) 2 0 (singles yyy_slots) yyy_slots
  /\ all_rewritten false yyy_slots yyy_fields yyy_fields
  /\ hemispheres_agree (m_attrs x) yyy_slots yyy_fields
  /\ NMEAMessage noon (u "GP") (u "YYY") 0 false 0 yyy_definitions None None (m_attrs x) = Ok y
  /\ serialize y = Ok (u "$GPYYY,51.5,x*29" ++ [13%N; 10%N]).
Proof.
  eexists. eexists. split; [vm_compute; reflexivity|]. split; [vm_compute; reflexivity|]. split; [vm_compute; reflexivity|].
  split; [cbn; intuition discriminate|]. split; [vm_compute; reflexivity|]. split; [apply countableb_ok; vm_compute; reflexivity|].
  split; [repeat constructor|].
  split; [|split; [apply no_axes; vm_compute; reflexivity|split; [vm_compute; reflexivity|vm_compute; reflexivity]]].
  apply ar_cons; [|apply ar_cons; [|apply ar_nil]].
  - apply (written_decimal false false (u "51") (u "5")), (has_parts true); vm_compute; reflexivity.
  - apply rw_text. cbn. tauto.
Qed.

(* What is left out: the keywords can choose another definition than the number of fields did - a
   disabled time pulse loses its other settings - and the OK of a Quectel receiver comes back with the
   fields of the setting it acknowledged. *)
Theorem C98_special_refuted :
  (exists x y, parse (MStr (u "$PQTMCFGPPS,W,1,0,100,1,1,0*25")) 1 0 [] = Ok (Some x)
     /\ length (m_payload x) = 7%nat
     /\ NMEAMessage noon (u "P") (u "QTMCFGPPS") 1 false 0 [] None None (m_attrs x) = Ok y
     /\ m_payload y = [u "W"; u "1"; u "0"])
  /\ (exists x y, parse (MStr (u "$PQTMCFGFIXRATE,OK*60")) 0 0 [] = Ok (Some x)
     /\ NMEAMessage noon (u "P") (u "QTMCFGFIXRATE") 0 false 0 [] None None (m_attrs x) = Ok y
     /\ (length (m_payload x) < length (m_payload y))%nat).
Proof.
  split; eexists; eexists; (split; [vm_compute; reflexivity|]).
  - split; [vm_compute; reflexivity|]. split; [vm_compute; reflexivity|]. vm_compute. reflexivity.
  - split; [vm_compute; reflexivity|]. apply Nat.ltb_lt. vm_compute. reflexivity.
Qed.
