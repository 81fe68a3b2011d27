(* Theorems about messages that are generated and parsed: C11, C16. *)
From Verif Require Import Message Reader BaseLemmas TextLemmas NumLemmas Spec ParseProofs MessageProofs
  SelectProofs DecodeProofs TableProofs StreamProofs KeywordSpec KeywordProofs CompleteProofs PropsMessage PropsDecode
  PropsConstruct PropsKeyword GenerateProofs.
Local Open Scope Z_scope.

(* ------------------------------------------------------------------ C16 *)
(* position attribute, its type, type of the hemisphere field, text for negative and other values *)
Definition axes : list (pystr * pystr * pystr * pystr * pystr) :=
  [ (u "lat", u "LA", u "LAD", u "S", u "N"); (u "lon", u "LN", u "LND", u "W", u "E") ].

Lemma axis_sign mode now kw before k pos ty hty neg other w :
  In (pos, ty, hty, neg, other) axes -> lookup pos before = Some w ->
  value_for mode now kw before k hty = Some (VStr (if below_zero w then neg else other)).
Proof.
  intros [A|[A|[]]] L; inversion A; subst; unfold value_for.
  - change (lookup (u "lat") before = Some w) in L. rewrite L. reflexivity.
  - change (lookup (u "lon") before = Some w) in L. rewrite L. reflexivity.
Qed.
Lemma axis_value mode now kw before pos ty hty neg other w :
  In (pos, ty, hty, neg, other) axes -> lookup pos kw = Some w -> value_for mode now kw before pos ty = Some w.
Proof.
  intros [A|[A|[]]] L; inversion A; subst; unfold value_for; rewrite L; reflexivity.
Qed.
Lemma axis_text pos ty hty neg other hp s :
  In (pos, ty, hty, neg, other) axes -> val2str (VStr s) hty hp = Ok s.
Proof. intros [A|[A|[]]]; inversion A; subst; reflexivity. Qed.

(* the hemisphere field after a position is written from the sign of the position
   supplied, whatever keyword is supplied for the hemisphere *)
Theorem C16_constructed clk talker msgid mode hp v ud cks kw x pos ty hty neg other d1 d2 d3 ns w :
  In (pos, ty, hty, neg, other) axes ->
  good ud -> NMEAMessage clk talker msgid mode hp v ud cks None kw = Ok x ->
  keyword_definition mode ud msgid kw = Some (d1 ++ (pos, ASingle ty) :: d2 ++ (ns, ASingle hty) :: d3) ->
  lookup pos kw = Some w ->
  exists i, nth_error (m_attrs x) i = Some (ns, VStr (if below_zero w then neg else other))
    /\ nth_error (m_payload x) i = Some (if below_zero w then neg else other).
Proof.
  intros A G E D L. destruct (C68_built _ _ _ _ _ _ _ _ _ _ G E) as (_ & _ & _ & B). rewrite D in B.
  pose proof (keyword_definition_order _ _ _ _ _ G D) as ((_ & U & _) & _).
  destruct (builds_slots _ _ _ _ _ _ _ _ B) as (sl & X & F).
  destruct (expands_app _ _ _ X) as (s1 & s2 & X1 & X2 & ->). inversion X2 as [|? ? ? s2' X2'|]; subst.
  destruct (expands_app _ _ _ X2') as (s3 & s4 & X3 & X4 & ->). inversion X4 as [|? ? ? s5 X5|]; subst.
  destruct (fills_names _ _ _ _ _ _ _ _ F) as [Nm Ln].
  pose proof (nth_error_split_at s1 (s3 ++ (ns, hty) :: s5) (pos, ty)) as N1.
  destruct (fills_nth _ _ _ _ _ _ _ _ _ _ _ F N1) as (w' & f1 & P1 & _ & _ & V1).
  assert (w' = w) as ->.
  { rewrite (axis_value mode _ _ _ _ _ _ _ _ w A L) in V1. injection V1 as <-. reflexivity. }
  set (i := length (s1 ++ (pos, ty) :: s3)). exists i.
  assert (nth_error (s1 ++ (pos, ty) :: s3 ++ (ns, hty) :: s5) i = Some (ns, hty)) as N2.
  { pose proof (nth_error_split_at (s1 ++ (pos, ty) :: s3) s5 (ns, hty)) as H. rewrite <- app_assoc in H. exact H. }
  destruct (fills_nth _ _ _ _ _ _ _ _ _ _ _ F N2) as (w' & f2 & P2 & P3 & V2 & V3).
  assert (lookup pos (firstn i (m_attrs x)) = Some w) as Lk.
  { apply In_lookup_nodup.
    - rewrite <- firstn_map. apply NoDup_firstn. rewrite Nm. apply U, X.
    - eapply firstn_In; [exact P1|]. unfold i. rewrite app_length. cbn [length]. lia. }
  cbn [app] in V3. rewrite (axis_sign mode (clk (length (@nil (pystr * pyval)) + i)%nat) kw _ ns _ _ _ _ _ w A Lk) in V3.
  injection V3 as <-. rewrite P2, P3. split; [reflexivity|].
  rewrite (axis_text _ _ _ _ _ hp _ A) in V2. injection V2 as <-. reflexivity.
Qed.

(* ------------------------------------------------------------------ C11 *)
Definition no_framing (content : pystr) : Prop :=
  ~ In star content /\ (forall c r, content = c :: r -> ~ framing c).

Lemma generated_given clk talker msgid mode hp v0 ud kw x d b :
  NMEAMessage clk talker msgid mode hp v0 ud None None kw = Ok x ->
  keyword_definition mode ud msgid kw = Some d ->
  header (content_of talker msgid (m_payload x)) talker msgid (m_payload x) ->
  no_framing (content_of talker msgid (m_payload x)) -> serialize x = Ok b ->
  exists k, m_checksum x = Some k /\ is_checksum (content_of talker msgid (m_payload x)) k /\ str_upper k = k
    /\ given (MBytes b) (content_of talker msgid (m_payload x)) k talker msgid (m_payload x).
Proof.
  intros E D H [N1 N2] S. pose proof (C10_checksum_keywords _ _ _ _ _ _ _ _ _ E) as Ck. rewrite D in Ck.
  destruct Ck as (k & K1 & K2). exists k. split; [exact K1|]. split; [exact K2|].
  apply is_checksum_iff in K2. split; [rewrite K2; apply calc_checksum_upper|].
  split; [|exact H]. exists (sentence talker msgid (m_payload x) k). split.
  - cbn [text_of]. rewrite <- S, C10_serialize, K1.
    assert (m_talker x = talker /\ m_msgID x = msgid) as [-> ->]; [|reflexivity].
    rewrite NMEAMessage_keywords in E.
    destruct (valid_mode mode) eqn:V; cbn [negb] in E; [|discriminate].
    destruct (wants_msgid v0 && _); [discriminate|]. destruct (keyword_id msgid kw); [|discriminate].
    destruct (key_blocked msgid kw || no_variant mode msgid kw); [discriminate|]. rewrite D in E.
    destruct (kw_result _ d) as [s|e]; [|discriminate]. injection E as <-. split; reflexivity.
  - apply sentence_frame; [exact N1|exact N2|]. subst k. apply calc_checksum_clean.
Qed.

Theorem C11_accepted clk talker msgid mode hp v0 v ud kw x d b :
  good ud -> NMEAMessage clk talker msgid mode hp v0 ud None None kw = Ok x ->
  keyword_definition mode ud msgid kw = Some d ->
  definition_for mode ud msgid (m_payload x) = Some d -> lacks_id mode msgid (m_payload x) = false ->
  header (content_of talker msgid (m_payload x)) talker msgid (m_payload x) ->
  no_framing (content_of talker msgid (m_payload x)) -> kept_as_is talker msgid (m_payload x) ->
  (wants_msgid v = true -> wants_msgid v0 = true) ->
  readable d x -> serialize x = Ok b ->
  exists y, parse (MBytes b) mode v ud = Ok (Some y)
    /\ m_talker y = talker /\ m_msgID y = msgid /\ m_payload y = m_payload x /\ m_checksum y = m_checksum x
    /\ map fst (m_attrs y) = map fst (m_attrs x) /\ decoded_by d (m_payload x) (m_attrs y).
Proof.
  intros G E D Df La H N K W R S.
  destruct (generated_given _ _ _ _ _ _ _ _ _ _ _ E D H N S) as (k & K1 & K2 & K3 & Gv).
  destruct (C68_built _ _ _ _ _ _ _ _ _ _ G E) as (_ & _ & _ & B). rewrite D in B.
  pose proof (keyword_definition_order _ _ _ _ _ G D) as O.
  destruct (built_decodes _ _ _ _ _ _ O B R) as (sl & attrs & L & Dc & _ & Nm).
  assert (decoded_by d (m_payload x) attrs) as Db by (exists sl; split; assumption).
  destruct (C13_complete _ _ _ _ _ _ mode v ud d Gv) as [I _]; try assumption.
  - apply valid_mode_iff. eapply keyword_ok_mode, E.
  - intros _. rewrite K3. exact K2.
  - intros Wm. specialize (W Wm). pose proof (keyword_ok_mode _ _ _ _ _ _ _ _ _ _ E) as Vm.
    rewrite NMEAMessage_keywords, Vm, W in E. cbn [negb andb] in E.
    destruct (has_key talker NMEA_TALKERS && known_id ud msgid) eqn:Q; [|discriminate]. apply andb_true_iff, Q.
  - apply I in Db as (y & Py & Ay & Fy). exists y. split; [exact Py|].
    destruct (parse_given _ _ _ _ _ Py) as (c' & k' & t' & i' & f' & G' & _ & _ & _ & _ & T1 & T2 & _ & _ & _ & _ & _ & _ & T3 & _).
    destruct (given_functional _ _ _ _ _ _ _ _ _ _ _ G' Gv) as (-> & -> & -> & -> & ->).
    rewrite Ay. split; [exact T1|]. split; [exact T2|]. split; [exact Fy|]. split; [congruence|].
    split; [exact Nm|]. exists sl. split; assumption.
Qed.

(* --- the definition used for generating is the one used for parsing --- *)
Definition counted_ids : list pystr :=
  [u "QTMCFGGEOFENCE"; u "QTMCFGMSGRATE"; u "QTMCFGPPS"; u "QTMCFGSAT"; u "QTMCFGUART"].
Definition by_count (key : pystr) (mode : Z) (n : nat) : option pystr :=
  match find (fun v => let '(k, m, c, _) := v in str_eqb k key && (m =? mode)%Z && Nat.eqb c n) variants with
  | Some (_, _, _, name) => Some name
  | None => None
  end.
Definition outcomes (key : pystr) (mode : Z) : list pystr :=
  key :: map (fun r => let '(_, _, _, _, name) := r in name)
             (filter (fun r => let '(k, m, _, _, _) := r in str_eqb k key && (m =? mode)) keyword_variants)
  ++ (if str_eqb key (u "QTMCFGPPS") && (mode =? 1) then [u "QTMCFGPPS_DIS"] else [])
  ++ (if str_eqb key (u "QTMCFGGEOFENCE") && (mode =? 1) then [u "QTMCFGGEOFENCE_DIS"] else []).
Lemma outcomes_ok : forallb (fun key => forallb (fun mode => forallb (fun name =>
    match lookup name (definitions_proprietary mode) with
    | None => true
    | Some d => plainb d && (2 <? length d)%nat
                && match by_count key mode (length d) with
                   | Some n' => str_eqb n' name
                   | None => str_eqb key name
                   end || (plainb d && str_in key no_ack
                           && match by_count key mode (length d) with
                              | Some n' => str_eqb n' name
                              | None => str_eqb key name
                              end) || (plainb d && negb (mode =? 0)
                           && match by_count key mode (length d) with
                              | Some n' => str_eqb n' name
                              | None => str_eqb key name
                              end)
    end) (outcomes key mode)) [0; 1; 2]) counted_ids = true.
Proof. vm_compute. reflexivity. Qed.

Lemma pick_outcome (a b c d : bool) (x y k name : pystr) l :
  (if a && b then Some x else if c && d then Some y else Some k) = Some name ->
  In name (k :: l ++ (if a then [x] else []) ++ (if c then [y] else [])).
Proof.
  intros H. cbn [In]. rewrite !in_app_iff. destruct a, b, c, d; cbn [andb] in H; injection H as <-; cbn [In]; tauto.
Qed.
Lemma counted_variant key mode kw name :
  In key counted_ids -> keyword_variant key mode kw = Some name -> In name (outcomes key mode).
Proof.
  intros K H. assert (str_eqb key (u "STMDRSENMSG") = false) as Ns
    by (cbn [counted_ids In] in K; destruct K as [<-|[<-|[<-|[<-|[<-|[]]]]]]; vm_compute; reflexivity).
  unfold keyword_variant in H. unfold outcomes.
  match type of H with context [find ?g keyword_variants] => destruct (find g keyword_variants) as [[[[[k m] y] n] nm]|] eqn:F end.
  - injection H as ->. apply find_some in F as [F1 F2]. right. apply in_or_app. left.
    apply in_map_iff. exists (k, m, y, n, name). split; [reflexivity|]. apply filter_In. split; [exact F1|].
    rewrite !andb_true_iff in *. tauto.
  - rewrite Ns in H. eapply pick_outcome, H.
Qed.

Lemma counted_definition key mode kw name d fields :
  In key counted_ids -> (mode = 0 \/ mode = 1 \/ mode = 2) ->
  keyword_variant key mode kw = Some name -> lookup name (definitions_proprietary mode) = Some d ->
  plain d /\ (length fields = length d -> variant_of key mode fields = name).
Proof.
  intros K V H L. pose proof (counted_variant _ _ _ _ K H) as O. pose proof outcomes_ok as B.
  rewrite forallb_forall in B. specialize (B _ K). rewrite forallb_forall in B.
  specialize (B mode ltac:(cbn [In]; intuition)). rewrite forallb_forall in B. specialize (B _ O). rewrite L in B.
  assert (plain d /\ match by_count key mode (length d) with Some n' => n' = name | None => key = name end
    /\ ((2 < length d)%nat \/ str_in key no_ack = true \/ mode <> 0)) as (P & C & A).
  { assert (forall q, q && match by_count key mode (length d) with
                   | Some n' => str_eqb n' name | None => str_eqb key name end = true ->
       q = true /\ match by_count key mode (length d) with Some n' => n' = name | None => key = name end) as Q.
    { intros q Hq. apply andb_true_iff in Hq as [Hq1 Hq2]. split; [exact Hq1|].
      destruct (by_count key mode (length d)); apply str_eqb_eq, Hq2. }
    apply orb_true_iff in B as [B|B]; [apply orb_true_iff in B as [B|B]|]; apply Q in B as [B C];
      apply andb_true_iff in B as [B1 B2]; (split; [apply plainb_ok, B1|split; [exact C|]]).
    - left. apply Nat.ltb_lt, B2.
    - right. left. exact B2.
    - right. right. apply negb_true_iff, Z.eqb_neq in B2. exact B2. }
  split; [exact P|]. intros Ln. unfold variant_of. unfold by_count in C. rewrite Ln.
  match type of C with context [find ?g variants] => destruct (find g variants) as [[[[k m] c] nm]|] end; [exact C|]. subst name.
  assert (str_eqb key (u "QTMSN") = false /\ str_eqb key (u "STMDRSENMSG") = false) as [-> ->]
    by (cbn [counted_ids In] in K; destruct K as [<-|[<-|[<-|[<-|[<-|[]]]]]]; split; reflexivity).
  cbn [andb]. destruct A as [A|[A|A]].
  - destruct (str_eqb (firstn 3 key) (u "QTM") && (mode =? 0) && negb (str_in key no_ack)); [|reflexivity].
    destruct fields as [|a [|b [|c r]]]; cbn [length] in Ln; try lia. reflexivity.
  - rewrite A, andb_false_r. reflexivity.
  - apply Z.eqb_neq in A. rewrite A, andb_false_r. reflexivity.
Qed.

(* every definition of a prefix-style id starts with the msgId *)
Lemma prefix_first : forallb (fun p => forallb (fun m => forallb (fun e =>
    negb (str_eqb (firstn (length p) (fst e)) p) || str_eqb (fst e) (u "ASHR")
    || match snd e with (k, ASingle ty) :: _ => str_eqb k (u "msgId") && str_eqb ty (u "ST") | _ => false end)
    (definitions_proprietary m)) [0; 1; 2]) prefixes = true.
Proof. vm_compute. reflexivity. Qed.
Lemma stm_first : forallb (fun m => forallb (fun e =>
    negb (str_eqb (firstn 11 (fst e)) (u "STMDRSENMSG"))
    || match snd e with (k, ASingle ty) :: _ => str_eqb k (u "msgtype") && str_eqb ty (u "IN") | _ => false end)
    (definitions_proprietary m)) [0; 1; 2] = true.
Proof. vm_compute. reflexivity. Qed.
Lemma firstn_app_exact {A} (a b : list A) : firstn (length a) (a ++ b) = a.
Proof. rewrite firstn_app, firstn_all, Nat.sub_diag. cbn. apply app_nil_r. Qed.

(* exceptions: an acknowledgement, a numeric QTMSN, and ASHR ids that read as another sentence *)
Definition reads_differently (mode : Z) (msgid : pystr) (fields : list pystr) : Prop :=
  (mode = 0 /\ (fields = [u "OK"] \/ exists e, fields = [u "ERROR"; e]))
  \/ (mode = 0 /\ msgid = u "QTMSN" /\ str_isnumeric (hd [] fields) = true)
  \/ (msgid = u "ASHR" /\ ((length (hd [] fields) < 2)%nat \/ chr_isdigit (nth 1 (hd [] fields) 0%N) = true)).

Lemma upper_char_nonempty c : upper_char c <> [].
Proof.
  unfold upper_char. destruct (c <? 128)%N; [destruct ((97 <=? c) && (c <=? 122))%N; discriminate|].
  destruct (find _ upper_table) as [p|] eqn:F; [|discriminate]. apply find_some in F as [F _].
  assert (forallb (fun p => match snd p with [] => false | _ => true end) upper_table = true) as U by (vm_compute; reflexivity).
  rewrite forallb_forall in U. specialize (U _ F). destruct (snd p); [discriminate U|discriminate].
Qed.
Lemma plain_value mode now kw before k ty w :
  lookup k kw = Some w -> ty = u "ST" \/ ty = u "IN" -> value_for mode now kw before k ty = Some w.
Proof. intros L [-> | ->]; unfold value_for; rewrite L; reflexivity. Qed.

Theorem C11_same_definition clk talker msgid mode hp v ud cks kw x d :
  good ud -> NMEAMessage clk talker msgid mode hp v ud cks None kw = Ok x ->
  keyword_definition mode ud msgid kw = Some d -> ~ reads_differently mode msgid (m_payload x) ->
  (msgid = u "ASHR" -> lookup (u "msgId") kw <> Some (VStr [])) ->
  (msgid = u "QTMSN" -> mode = 0 -> m_payload x <> []) ->
  definition_for mode ud msgid (m_payload x) = Some d /\ lacks_id mode msgid (m_payload x) = false.
Proof.
  intros G E D Rd Na Nq. pose proof (keyword_ok_mode _ _ _ _ _ _ _ _ _ _ E) as V. apply valid_mode_iff in V.
  destruct (C68_built _ _ _ _ _ _ _ _ _ _ G E) as (_ & _ & _ & B). rewrite D in B. revert Rd Nq B.
  generalize (m_attrs x) as attrs, (m_payload x) as fields. intros attrs fields Rd Nq B.
  destruct (str_in msgid prefixes) eqn:P.
  - (* prefix-style *)
    pose proof P as P'. apply str_in_iff in P'.
    assert (exists s, lookup (u "msgId") kw = Some (VStr s)) as (s & L).
    { unfold keyword_definition, keyword_id in D. rewrite P in D.
      destruct (lookup (u "msgId") kw) as [[s| | | | | | |]|]; try discriminate. exists s. reflexivity. }
    rewrite (C21_keyword _ _ _ _ _ P' L) in D.
    assert (str_upper (msgid ++ s) = u "ASHR" -> msgid = u "ASHR" /\ s = []) as Bare.
    { intros H. rewrite str_upper_app in H. cbn [prefixes In] in P'.
      destruct P' as [<-|[<-|[<-|[<-|[<-|[<-|[]]]]]]]; try (exfalso; apply (f_equal (firstn 1)) in H; vm_compute in H; discriminate).
      split; [reflexivity|]. destruct s as [|c s]; [reflexivity|]. exfalso.
      change (str_upper (u "ASHR")) with (u "ASHR") in H.
      assert (str_upper (c :: s) = []) as H0 by (apply (app_inv_head (u "ASHR")); rewrite app_nil_r; exact H).
      cbn [str_upper flat_map] in H0. apply app_eq_nil in H0 as [H0 _]. exact (upper_char_nonempty c H0). }
    assert (exists d', d = (u "msgId", ASingle (u "ST")) :: d') as (d' & ->).
    { pose proof prefix_first as F. rewrite forallb_forall in F. specialize (F _ P'). rewrite forallb_forall in F.
      specialize (F mode ltac:(cbn [In]; intuition)). rewrite forallb_forall in F. apply lookup_In in D as D'.
      specialize (F _ D'). cbn [fst snd] in F. rewrite str_upper_app in F.
      assert (str_upper msgid = msgid) as Um
        by (clear -P'; cbn [prefixes In] in P'; destruct P' as [<-|[<-|[<-|[<-|[<-|[<-|[]]]]]]]; reflexivity).
      rewrite Um, firstn_app_exact, str_eqb_refl in F. cbn [negb orb] in F.
      apply orb_true_iff in F as [F|F].
      - apply str_eqb_eq in F. destruct (Bare ltac:(rewrite str_upper_app, Um; exact F)) as [B1 B2].
        elim (Na B1). rewrite L, B2. reflexivity.
      - destruct d as [|[k [ty|]] d']; try discriminate. apply andb_true_iff in F as [F1 F2].
        apply str_eqb_eq in F1, F2. subst. exists d'. reflexivity. }
    inversion B as [|? ? ? ? val f r fs Hv Hf B'|]; subst.
    assert (f = s) as ->.
    { pose proof (plain_value mode (clk (length (@nil (pystr * pyval)))) kw [] _ (u "ST") _ L ltac:(left; reflexivity)) as Hw.
      assert (Some val = Some (VStr s)) as Hs by (etransitivity; [symmetry; exact Hv|exact Hw]).
      injection Hs as ->. change (Ok s = Ok f) in Hf. injection Hf as <-. reflexivity. }
    assert ((msgid = u "ASHR" -> (2 <= length s)%nat /\ chr_isdigit (nth 1 s 0%N) = false)) as As.
    { intros ->. split.
      - destruct (Nat.le_gt_cases 2 (length s)) as [Q|Q]; [exact Q|]. elim Rd. right. right. split; [reflexivity|]. left. exact Q.
      - destruct (chr_isdigit (nth 1 s 0%N)) eqn:Q; [|reflexivity]. elim Rd. right. right. split; [reflexivity|]. right. exact Q. }
    split.
    + rewrite prefix_definition by exact P'. unfold lookup_id. rewrite P. cbn [hd].
      destruct (str_eqb_spec msgid (u "ASHR")) as [Ea|_]; cbn [andb].
      * destruct (As Ea) as [_ ->]. rewrite prefix_key by exact P'. exact D.
      * rewrite prefix_key by exact P'. exact D.
    + unfold lacks_id. rewrite P. cbn [andb orb]. rewrite orb_false_r.
      destruct (str_eqb_spec msgid (u "ASHR")) as [Ea|_]; [|reflexivity]. cbn [andb].
      destruct (As Ea) as [As1 _]. apply Nat.ltb_ge. exact As1.
  - assert (keyword_id msgid kw = Some (str_upper msgid)) as K by (unfold keyword_id; rewrite P; reflexivity).
    assert (lookup_id msgid fields = str_upper msgid) as K' by (unfold lookup_id; rewrite P; reflexivity).
    unfold keyword_definition in D. rewrite K in D. unfold definition_for. rewrite K', P in *. rewrite orb_false_r in *.
    destruct (has_key msgid NMEA_MSGIDS) eqn:S1.
    { split; [exact D|]. destruct (special_not_std _ S1) as (Q1 & Q2 & _).
      unfold lacks_id. rewrite P, Q1, Q2. cbn [andb orb]. apply andb_false_r. }
    destruct (has_key msgid NMEA_MSGIDS_PROP) eqn:S2.
    2:{ assert (lacks_id mode msgid fields = false) as La.
        { unfold lacks_id. rewrite P. destruct (str_eqb_spec msgid (u "QTMSN")) as [->|_]; [vm_compute in S2; discriminate|].
          destruct (str_eqb_spec msgid (u "STMDRSENMSG")) as [->|_]; [vm_compute in S2; discriminate|]. cbn [andb orb]. apply andb_false_r. }
        split; [|exact La]. destruct (has_key msgid ud); exact D. }
    destruct (keyword_variant (str_upper msgid) mode kw) as [name|] eqn:Kv; [|discriminate].
    destruct (str_in msgid special_ids) eqn:Sp.
    + assert (str_upper msgid = msgid) as Um.
      { apply str_in_iff in Sp. cbn [special_ids In] in Sp. clear -Sp.
        destruct Sp as [<-|[<-|[<-|[<-|[<-|[<-|[<-|[]]]]]]]]; reflexivity. }
      rewrite Um in *. destruct (str_in msgid counted_ids) eqn:Sc.
      * apply str_in_iff in Sc. destruct (counted_definition _ _ _ _ _ fields Sc V Kv D) as [Pd Hc].
        destruct (builds_plain _ _ _ _ _ _ _ _ Pd B) as (_ & Lf & _). rewrite (Hc Lf). split; [exact D|].
        unfold lacks_id. rewrite P. clear -Sc. cbn [counted_ids In] in Sc.
        destruct Sc as [<-|[<-|[<-|[<-|[<-|[]]]]]]; cbn [andb orb str_eqb]; apply andb_false_r.
      * assert (msgid = u "QTMSN" \/ msgid = u "STMDRSENMSG") as [-> | ->].
        { apply str_in_iff in Sp. cbn [special_ids In] in Sp. clear -Sp Sc.
          destruct Sp as [<-|[<-|[<-|[<-|[<-|[<-|[<-|[]]]]]]]]; try (vm_compute in Sc; discriminate); auto. }
        -- change (Some (u "QTMSN") = Some name) in Kv. injection Kv as <-.
           assert (variant_of (u "QTMSN") mode fields = u "QTMSN") as ->.
           { change (variant_of (u "QTMSN") mode fields)
               with (if (mode =? 0) && str_isnumeric (hd [] fields) then u "QTMSN_ALT"
                     else if (mode =? 0) && false then match fields with
                       | [a] => if str_eqb a (u "OK") then u "QTMACK" else u "QTMSN"
                       | [a; _] => if str_eqb a (u "ERROR") then u "QTMNAK" else u "QTMSN"
                       | _ => u "QTMSN" end else u "QTMSN").
             rewrite andb_false_r. destruct ((mode =? 0) && str_isnumeric (hd [] fields)) eqn:Q; [|reflexivity].
             apply andb_true_iff in Q as [Q1 Q2]. apply Z.eqb_eq in Q1. elim Rd. right. left. auto. }
           split; [exact D|]. unfold lacks_id. rewrite P. cbn [andb orb].
           destruct fields as [|f fs]; [|reflexivity]. destruct (mode =? 0) eqn:Q; [|reflexivity].
           apply Z.eqb_eq in Q. elim (Nq eq_refl Q). reflexivity.
        -- change (match lookup (u "msgtype") kw with
                   | None => Some (u "STMDRSENMSG_")
                   | Some v => match str_of_val v with Ok t => Some (u "STMDRSENMSG_" ++ t) | Raise _ => None end
                   end = Some name) in Kv.
           destruct (lookup (u "msgtype") kw) as [w|] eqn:L.
           2:{ injection Kv as <-. destruct V as [->|[->| ->]]; vm_compute in D; discriminate. }
           destruct (str_of_val w) as [t|] eqn:T; [|discriminate]. assert (name = u "STMDRSENMSG_" ++ t) as -> by congruence.
           assert (exists d', d = (u "msgtype", ASingle (u "IN")) :: d') as (d' & ->).
           { pose proof stm_first as F. rewrite forallb_forall in F.
             specialize (F mode ltac:(cbn [In]; intuition)). rewrite forallb_forall in F. apply lookup_In in D as D'.
             specialize (F _ D'). cbn [fst snd] in F.
             change (firstn 11 (u "STMDRSENMSG_" ++ t)) with (u "STMDRSENMSG") in F. rewrite str_eqb_refl in F. cbn [negb orb] in F.
             destruct d as [|[k [ty|]] d']; try discriminate. apply andb_true_iff in F as [F1 F2].
             apply str_eqb_eq in F1, F2. subst. exists d'. reflexivity. }
           inversion B as [|? ? ? ? val f r fs Hv Hf B'|]; subst.
           assert (f = t) as ->.
           { pose proof (plain_value mode (clk (length (@nil (pystr * pyval)))) kw [] _ (u "IN") _ L ltac:(right; reflexivity)) as Hw.
             assert (Some val = Some w) as Hs by (etransitivity; [symmetry; exact Hv|exact Hw]).
             injection Hs as ->. change (str_of_val w = Ok f) in Hf. congruence. }
           split; [exact D|reflexivity].
    +
      pose proof (special_upper msgid kw (str_upper msgid) ltac:(rewrite S2; reflexivity) K) as Su. rewrite Sp in Su.
      assert (forall w, In w special_ids -> str_eqb (str_upper msgid) w = false) as Ne.
      { intros w Hw. apply str_eqb_neq. intros H. rewrite <- H in Hw. apply str_in_iff in Hw. congruence. }
      assert (name = str_upper msgid) as ->.
      { unfold keyword_variant, keyword_variants in Kv. cbn [find] in Kv.
        rewrite (str_eqb_sym (u "QTMCFGUART")), (str_eqb_sym (u "QTMCFGMSGRATE")),
          (str_eqb_sym (u "QTMCFGSAT")), (str_eqb_sym (u "QTMCFGGEOFENCE")) in Kv.
        rewrite !Ne in Kv by (cbn [special_ids In]; tauto). cbn [andb] in Kv. injection Kv as <-. reflexivity. }
      assert (variant_of (str_upper msgid) mode fields = str_upper msgid) as ->.
      { unfold variant_of, variants. cbn [find].
        rewrite (str_eqb_sym (u "QTMCFGUART")), (str_eqb_sym (u "QTMCFGMSGRATE")), (str_eqb_sym (u "QTMCFGPPS")),
          (str_eqb_sym (u "QTMCFGSAT")), (str_eqb_sym (u "QTMCFGGEOFENCE")).
        rewrite !Ne by (cbn [special_ids In]; tauto). cbn [andb].
        destruct (str_eqb (firstn 3 (str_upper msgid)) (u "QTM") && (mode =? 0) && _) eqn:Q; [|reflexivity].
        apply andb_true_iff in Q as [Q _]. apply andb_true_iff in Q as [_ Q]. apply Z.eqb_eq in Q.
        destruct fields as [|a [|b [|c r]]]; try reflexivity.
        - destruct (str_eqb_spec a (u "OK")) as [->|_]; [|reflexivity]. elim Rd. left. split; [exact Q|left; reflexivity].
        - destruct (str_eqb_spec a (u "ERROR")) as [->|_]; [|reflexivity]. elim Rd. left. split; [exact Q|]. right. exists b. reflexivity. }
      split; [exact D|]. unfold lacks_id. rewrite P.
      assert (str_eqb msgid (u "QTMSN") = false /\ str_eqb msgid (u "STMDRSENMSG") = false) as [-> ->].
      { split; apply str_eqb_neq; intros ->; vm_compute in Sp; discriminate. }
      cbn [andb orb]. apply andb_false_r.
Qed.

(* a field that its type cannot read back is not accepted *)
Theorem C11_unreadable_refuted :
  exists x b, NMEAMessage noon (u "GN") (u "GGA") 0 false 1 [] None None [(u "numSV", VStr (u "many"))] = Ok x
    /\ serialize x = Ok b /\ parse (MBytes b) 0 1 [] = Raise NMEATypeError.
Proof. eexists _, _. split; [vm_compute; reflexivity|]. split; [vm_compute; reflexivity|vm_compute; reflexivity]. Qed.
(* nor is a field text with a comma read as one field *)
Theorem C11_comma_refuted :
  exists x y b, NMEAMessage noon (u "GN") (u "GLL") 0 false 1 [] None None [(u "status", VStr (u "A,B"))] = Ok x
    /\ serialize x = Ok b /\ parse (MBytes b) 0 1 [] = Ok (Some y) /\ m_payload y <> m_payload x.
Proof.
  eexists _, _, _. split; [vm_compute; reflexivity|]. split; [vm_compute; reflexivity|].
  split; [vm_compute; reflexivity|]. vm_compute. discriminate.
Qed.

Definition gsv_kw : kwargs :=
  [(u "numMsg", VInt 1); (u "msgNum", VInt 1); (u "numSV", VInt 2); (u "svid_01", VInt 7); (u "svid_02", VInt 9);
   (u "signalID", VStr (u "1"))].
Example C11_example :
  exists x d b, NMEAMessage noon (u "GN") (u "GSV") 0 false 3 [] None None gsv_kw = Ok x
    /\ keyword_definition 0 [] (u "GSV") gsv_kw = Some d
    /\ ~ reads_differently 0 (u "GSV") (m_payload x)
    /\ header (content_of (u "GN") (u "GSV") (m_payload x)) (u "GN") (u "GSV") (m_payload x)
    /\ no_framing (content_of (u "GN") (u "GSV") (m_payload x)) /\ kept_as_is (u "GN") (u "GSV") (m_payload x)
    /\ length (m_payload x) = 12%nat /\ serialize x = Ok b
    /\ exists y, parse (MBytes b) 0 3 [] = Ok (Some y) /\ m_payload y = m_payload x /\ m_attrs y = m_attrs x.
Proof.
  eexists _, _, _. split; [vm_compute; reflexivity|]. split; [vm_compute; reflexivity|].
  split. { unfold reads_differently. cbn [m_payload]. intros [(_ & [H|(e & H)])|[(_ & H & _)|(H & _)]]; discriminate. }
  split. { apply header_get. vm_compute. repeat split. }
  split. { split; [vm_compute; intuition discriminate|]. intros c r H. vm_compute in H. injection H as <- _.
           unfold framing, dollar, cr, lf. intuition discriminate. }
  split. { left. intros y H. discriminate H. }
  split; [vm_compute; reflexivity|]. split; [vm_compute; reflexivity|].
  eexists. split; [vm_compute; reflexivity|]. split; [vm_compute; reflexivity|vm_compute; reflexivity].
Qed.
Example C11_readable_example :
  exists x d, NMEAMessage noon (u "GN") (u "GLL") 0 false 3 [] None None [(u "lat", VInt (-53))] = Ok x
    /\ keyword_definition 0 [] (u "GLL") [(u "lat", VInt (-53))] = Some d /\ readable d x.
Proof.
  eexists _, _. split; [vm_compute; reflexivity|]. split; [vm_compute; reflexivity|].
  intros sl i k ty f X _ N F. apply expands_plain in X; [|apply plainb_ok; vm_compute; reflexivity]. subst sl. vm_compute in N, F.
  do 7 (destruct i as [|i]; [cbn in N, F; injection N as <- <-; injection F as <-; eexists; vm_compute; reflexivity|]).
  destruct i; discriminate.
Qed.

(* --------------------------------------------------------- C16, parsed *)
Definition without_type (ty : pystr) (d : pdict) : Prop := forall sl, expands d sl -> Forall (fun s => snd s <> ty) sl.

Lemma axis_settle pos ty hty neg other val later h :
  In (pos, ty, hty, neg, other) axes -> last_of hty later = Some h ->
  settle pos (VFloat val) later = VFloat (if str_eqb h neg then SFopp (SFabs val) else SFabs val).
Proof.
  intros [A|[A|[]]] L; inversion A; subst; unfold settle.
  - change (last_of (u "LAD") later = Some h) in L. cbn [str_eqb]. rewrite L. reflexivity.
  - change (last_of (u "LND") later = Some h) in L. cbn [str_eqb]. rewrite L. reflexivity.
Qed.

Lemma axis_neg pos ty hty neg other b :
  In (pos, ty, hty, neg, other) axes -> str_eqb (if b : bool then neg else other) neg = b.
Proof. intros [A|[A|[]]]; inversion A; subst; destruct b; reflexivity. Qed.

Lemma combine_app_eq {A B} (a1 a2 : list A) (b1 b2 : list B) :
  length a1 = length b1 -> combine (a1 ++ a2) (b1 ++ b2) = combine a1 b1 ++ combine a2 b2.
Proof. revert b1. induction a1 as [|x a1 IH]; intros [|y b1] L; try discriminate; [reflexivity|]. cbn. f_equal. apply IH. injection L as L. exact L. Qed.
Lemma nth_error_skip {A} k (l : list A) n : nth_error (skipn k l) n = nth_error l (k + n)%nat.
Proof. revert l. induction k as [|k IH]; intros [|x l]; try reflexivity; [destruct n; reflexivity|]. apply IH. Qed.
Lemma combine_no_type ty (sl : list slot) (fs : list pystr) :
  Forall (fun s => snd s <> ty) sl -> forall k' f', ~ In ((k', ty), f') (combine sl fs).
Proof. intros H k' f' I. apply in_combine_l in I. rewrite Forall_forall in H. apply (H _ I). reflexivity. Qed.

(* the sign of the position supplied is recovered; its magnitude is that of the field *)
Theorem C16_recovered clk talker msgid mode hp v0 v ud kw x b pos ty hty neg other d1 d2 d3 ns w :
  In (pos, ty, hty, neg, other) axes -> without_type hty d3 ->
  let d := d1 ++ (pos, ASingle ty) :: d2 ++ (ns, ASingle hty) :: d3 in
  good ud -> NMEAMessage clk talker msgid mode hp v0 ud None None kw = Ok x ->
  keyword_definition mode ud msgid kw = Some d -> lookup pos kw = Some w ->
  definition_for mode ud msgid (m_payload x) = Some d -> lacks_id mode msgid (m_payload x) = false ->
  header (content_of talker msgid (m_payload x)) talker msgid (m_payload x) ->
  no_framing (content_of talker msgid (m_payload x)) -> kept_as_is talker msgid (m_payload x) ->
  (wants_msgid v = true -> wants_msgid v0 = true) ->
  readable d x -> serialize x = Ok b ->
  exists y i f, parse (MBytes b) mode v ud = Ok (Some y)
    /\ nth_error (m_attrs x) i = Some (pos, w) /\ nth_error (m_payload y) i = Some f /\ val2str w ty hp = Ok f
    /\ forall m, str2val f ty = Ok (VFloat m) ->
       lookup pos (m_attrs y) = Some (VFloat (if below_zero w then SFopp (SFabs m) else SFabs m)).
Proof.
  intros A N3 d G E D L Df La H N K W R S.
  destruct (C11_accepted _ _ _ _ _ _ _ _ _ _ _ _ G E D Df La H N K W R S) as (y & Py & _ & _ & Pl & _ & Nm & _).
  destruct (generated_given _ _ _ _ _ _ _ _ _ _ _ E D H N S) as (k & _ & _ & _ & Gv).
  destruct (C68_built _ _ _ _ _ _ _ _ _ _ G E) as (_ & _ & _ & B). rewrite D in B.
  pose proof (keyword_definition_order _ _ _ _ _ G D) as O. pose proof O as ((_ & U & _) & _).
  destruct (built_decodes _ _ _ _ _ _ O B R) as (sl & attrs & Ly & Dc & F & _).
  assert (m_attrs y = attrs) as Ay.
  { assert (decoded_by d (m_payload x) attrs) as Db by (exists sl; split; assumption).
    destruct (C13_complete _ _ _ _ _ _ mode v ud d Gv) as [I _]; try assumption.
    - apply valid_mode_iff. eapply keyword_ok_mode, E.
    - intros Wc. destruct (parse_given _ _ _ _ _ Py) as (c' & k' & t' & i' & f' & G' & _ & Q & _).
      destruct (given_functional _ _ _ _ _ _ _ _ _ _ _ G' Gv) as (-> & -> & _). apply is_checksum_iff, Q, Wc.
    - intros Wm. destruct (parse_given _ _ _ _ _ Py) as (c' & k' & t' & i' & f' & G' & _ & _ & Q & _).
      destruct (given_functional _ _ _ _ _ _ _ _ _ _ _ G' Gv) as (_ & _ & -> & -> & _). apply Q, Wm.
    - apply I in Db as (y' & Py' & Ay & _). rewrite Py in Py'. injection Py' as <-. exact Ay. }
  pose proof (layout_expands _ _ _ _ _ Ly) as X.
  destruct (expands_app _ _ _ X) as (s1 & s2 & X1 & X2 & ->). inversion X2 as [|? ? ? s2' X2'|]; subst s2.
  destruct (expands_app _ _ _ X2') as (s3 & s4 & X3 & X4 & ->). inversion X4 as [|? ? ? s5 X5|]; subst s4.
  subst. destruct (fills_names _ _ _ _ _ _ _ _ F) as [Nmx Ln].
  set (i := length s1).
  pose proof (nth_error_split_at s1 (s3 ++ (ns, hty) :: s5) (pos, ty)) as N1. fold i in N1.
  destruct (fills_nth _ _ _ _ _ _ _ _ _ _ _ F N1) as (w' & f & P1 & P2 & P3 & V1).
  rewrite (axis_value mode _ _ _ _ _ _ _ _ w A L) in V1. injection V1 as <-.
  exists y, i, f. split; [exact Py|]. split; [exact P1|]. split; [rewrite Pl; exact P2|]. split; [exact P3|].
  intros m Hm. destruct (decode_nth _ _ _ Dc) as [_ Hd]. destruct (Hd i pos ty f N1 P2) as (val & Hv & Hi).
  rewrite Hm in Hv. injection Hv as <-.
  (* the hemisphere field *)
  set (j := length (s1 ++ (pos, ty) :: s3)).
  assert (nth_error (s1 ++ (pos, ty) :: s3 ++ (ns, hty) :: s5) j = Some (ns, hty)) as N2.
  { pose proof (nth_error_split_at (s1 ++ (pos, ty) :: s3) s5 (ns, hty)) as Q. rewrite <- app_assoc in Q. exact Q. }
  destruct (fills_nth _ _ _ _ _ _ _ _ _ _ _ F N2) as (w' & h & _ & Q2 & Q3 & V3).
  assert (lookup pos (firstn j (m_attrs x)) = Some w) as Lk.
  { apply In_lookup_nodup.
    - rewrite <- firstn_map. apply NoDup_firstn. rewrite Nmx. apply U, X.
    - eapply firstn_In; [exact P1|]. unfold i, j. rewrite app_length. cbn [length]. lia. }
  cbn [app] in V3. rewrite (axis_sign mode _ kw _ ns _ _ _ _ _ w A Lk) in V3. injection V3 as <-.
  rewrite (axis_text _ _ _ _ _ hp _ A) in Q3. injection Q3 as <-.
  assert (last_of hty (combine (skipn (Datatypes.S i) (s1 ++ (pos, ty) :: s3 ++ (ns, hty) :: s5))
            (skipn (Datatypes.S i) (m_payload x))) = Some (if below_zero w then neg else other)) as Lo.
  { apply final_last.
    assert (skipn (Datatypes.S i) (s1 ++ (pos, ty) :: s3 ++ (ns, hty) :: s5) = s3 ++ (ns, hty) :: s5) as ->.
    { unfold i. replace (Datatypes.S (length s1)) with (length (s1 ++ [(pos, ty)])) by (rewrite app_length; cbn; lia).
      replace (s1 ++ (pos, ty) :: s3 ++ (ns, hty) :: s5) with ((s1 ++ [(pos, ty)]) ++ s3 ++ (ns, hty) :: s5)
        by (rewrite <- app_assoc; reflexivity). rewrite skipn_app, skipn_all, Nat.sub_diag. reflexivity. }
    set (fs := skipn (Datatypes.S i) (m_payload x)).
    assert (nth_error fs (length s3) = Some (if below_zero w then neg else other)) as Nf.
    { unfold fs. rewrite <- Q2. rewrite nth_error_skip. f_equal. unfold i, j. rewrite app_length. cbn [length]. lia. }
    apply nth_error_split in Nf as (fa & fb & -> & Lfa).
    exists (combine s3 fa), ns, (combine s5 fb). split; [rewrite combine_app_eq by (symmetry; exact Lfa); reflexivity|].
    apply combine_no_type, N3, X5. }
  rewrite (axis_settle _ _ _ _ _ _ _ _ A Lo) in Hi. rewrite (axis_neg _ _ _ _ _ _ A) in Hi.
  apply In_lookup_nodup; [|eapply nth_error_In, Hi]. rewrite Nm, Nmx. apply U, X.
Qed.
Example C16_example :
  exists x d b, NMEAMessage noon (u "GN") (u "GLL") 0 false 3 [] None None
      [(u "lat", VInt (-53)); (u "NS", VStr (u "N"))] = Ok x
    /\ keyword_definition 0 [] (u "GLL") [(u "lat", VInt (-53)); (u "NS", VStr (u "N"))] = Some d
    /\ (exists d3, d = [] ++ (u "lat", ASingle (u "LA")) :: [] ++ (u "NS", ASingle (u "LAD")) :: d3 /\ without_type (u "LAD") d3)
    /\ serialize x = Ok b /\ nth_error (m_payload x) 1 = Some (u "S")
    /\ exists y m, parse (MBytes b) 0 3 [] = Ok (Some y) /\ lookup (u "lat") (m_attrs y) = Some (VFloat m) /\ fltb m fzero = true.
Proof.
  eexists _, _, _. split; [vm_compute; reflexivity|]. split; [vm_compute; reflexivity|].
  split. { eexists. split; [reflexivity|]. intros sl X. apply expands_plain in X; [|apply plainb_ok; vm_compute; reflexivity].
           subst sl. vm_compute. repeat constructor; discriminate. }
  split; [vm_compute; reflexivity|]. split; [vm_compute; reflexivity|].
  eexists _, _. split; [vm_compute; reflexivity|]. split; [vm_compute; reflexivity|vm_compute; reflexivity].
Qed.
