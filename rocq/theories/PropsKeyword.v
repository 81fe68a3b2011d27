(* Theorems about messages built from keyword arguments, continued: C53, C67, C68, C16, C11. *)
From Verif Require Import Message Reader BaseLemmas TextLemmas NumLemmas Spec ParseProofs MessageProofs
  SelectProofs DecodeProofs TableProofs StreamProofs KeywordSpec KeywordProofs CompleteProofs PropsMessage PropsDecode
  PropsConstruct.
Local Open Scope Z_scope.

(* ------------------------------------------------------- attribute types *)
Definition types_inb (l : list pystr) (d : pdict) : bool :=
  forallb (fun e => match snd e with
                    | ASingle t => str_in t l
                    | AGroup _ ms => forallb (fun m => match snd m with ASingle t => str_in t l | _ => false end) ms
                    end) d.
Lemma types_inb_ok l d : types_inb l d = true -> types_in l d.
Proof.
  intros H sl E. induction E as [|k ty d sl E IH|k n ms d sl cnt E IH]; [constructor| |];
    unfold types_inb in H, IH; cbn [forallb snd] in H; apply andb_true_iff in H as [H1 H2]; specialize (IH H2).
  - constructor; [apply str_in_iff, H1|exact IH].
  - apply Forall_app. split; [|exact IH].
    assert (forall s, In s (plain_slots ms) -> In (snd s) l) as Q.
    { intros s Hs. unfold plain_slots in Hs. apply in_flat_map in Hs as ([k' a] & Hin & Hs).
      rewrite forallb_forall in H1. apply H1 in Hin. cbn [snd fst] in *. destruct a as [t|]; [|discriminate].
      destruct Hs as [<-|[]]. apply str_in_iff, Hin. }
    clear -Q. generalize 1%N. induction cnt as [|cnt IHc]; intros i; [constructor|]. cbn [group_slots].
    apply Forall_app. split; [|apply IHc]. apply Forall_forall. intros s Hs.
    apply in_map_iff in Hs as (s' & <- & Hs'). cbn [snd]. apply Q, Hs'.
Qed.

Lemma nominal_type ty mode now : In ty attribute_types ->
  exists nom, lookup ty (nominal_values mode now) = Some nom
    /\ (forall hp, exists f, val2str nom ty hp = Ok f)
    /\ (ty = u "IN" -> nom = VInt 0).
Proof.
  intros H. cbn [attribute_types In] in H. decompose [or] H; clear H; try contradiction; subst ty;
    (eexists; split; [reflexivity|]; split; [|(discriminate || reflexivity)]); intros hp; eexists; reflexivity.
Qed.

(* ------------------------------------------------------------------ C53 *)
(* every type used by a built-in definition (except the placeholder FOO) is known ... *)
Theorem C53_types k d : In (k, d) builtin_definitions -> k <> u "FOO" -> types_in attribute_types d.
Proof.
  intros H N. apply types_inb_ok.
  assert (forallb (fun e => str_eqb (fst e) (u "FOO") || types_inb attribute_types (snd e)) builtin_definitions = true) as G
    by (vm_compute; reflexivity).
  rewrite forallb_forall in G. specialize (G _ H). cbn [fst snd] in G.
  apply str_eqb_neq in N. rewrite N in G. exact G.
Qed.
(* ... to nomval and val2str, whatever the value and the clock ... *)
Theorem C53_generate ty mode now hp val :
  In ty attribute_types -> (mode = 0 \/ mode = 1 \/ mode = 2) ->
  (exists nom, nomval ty mode now = Ok nom /\ exists f, val2str nom ty hp = Ok f)
  /\ val2str val ty hp <> Raise NMEATypeError.
Proof.
  intros H V. split.
  - destruct (nominal_type ty mode now H) as (nom & L & F & _). exists nom. split; [|apply F].
    rewrite nomval_table by (apply valid_mode_iff, V). rewrite L. reflexivity.
  - assert (forall v, str_of_val v <> Raise NMEATypeError) as S.
    { intros v E. apply str_of_val_exc in E. discriminate. }
    assert (forall z, f_of_Z z <> Raise NMEATypeError) as FZ.
    { intros z. unfold f_of_Z. destruct (f_norm z 0); discriminate. }
    assert (forall v a b, ddd2dmm v a b <> Raise NMEATypeError) as D.
    { intros v a b. destruct v as [|z|x|b0| | | |]; try discriminate.
      - cbn [ddd2dmm]. unfold ddd2dmm_int. intros E. apply bind_Raise in E as [E|(? & _ & E)]; [|discriminate].
        elim (FZ _ E).
      - cbn [ddd2dmm]. unfold ddd2dmm_float. destruct (fdivmod _ _) as [dv md].
        destruct (int_of_float _) as [z|e] eqn:I.
        + intros E. apply bind_Raise in E as [E|(? & _ & E)]; [|discriminate]. elim (FZ _ E).
        + unfold int_of_float in I. destruct (fmul dv f100); try discriminate; injection I as <-; discriminate.
      - cbn [ddd2dmm]. unfold ddd2dmm_int. intros E. apply bind_Raise in E as [E|(? & _ & E)]; [|discriminate].
        elim (FZ _ E). }
    unfold val2str. cbn [attribute_types In] in H. decompose [or] H; clear H; try contradiction; subst ty;
      cbn [str_in existsb]; try apply S; try apply D;
      try (destruct val; discriminate).
Qed.
(* ... and to str2val, except DTL *)
Theorem C53_parse ty f : In ty attribute_types -> ty <> u "DTL" -> str2val f ty <> Raise NMEATypeError.
Proof.
  intros H N. cbn [attribute_types In] in H. decompose [or] H; clear H; try contradiction; subst ty;
    try contradiction; try discriminate.
  - unfold str2val. cbn [text_type]. destruct f; [discriminate|]. intros E. apply bind_Raise in E as [E|(? & _ & E)]; [|discriminate].
    apply float_of_str_exc in E. discriminate.
  - unfold str2val. destruct f; [discriminate|]. intros E. apply bind_Raise in E as [E|(? & _ & E)]; [|discriminate].
    apply int_of_str_exc in E. discriminate.
Qed.
(* so a sentence whose definition uses DTL can be generated but never parsed *)
Theorem C53_refuted :
  (exists k d, In (k, d) builtin_definitions /\ In (u "DTL") (map snd (plain_slots d)))
  /\ (forall f, str2val f (u "DTL") = Raise NMEATypeError)
  /\ (exists d, lookup (u "FOO") NMEA_PAYLOADS_GET = Some d /\ ~ types_in attribute_types d).
Proof.
  split; [|split].
  - exists (u "LR2"). eexists. split.
    + unfold builtin_definitions. rewrite !in_app_iff. left. apply lookup_In. vm_compute. reflexivity.
    + vm_compute. tauto.
  - reflexivity.
  - exists [(u "spam", ASingle (u "Z2")); (u "eggs", ASingle (u "Y1"))]. split; [vm_compute; reflexivity|]. intros H.
    specialize (H [(u "spam", u "Z2"); (u "eggs", u "Y1")] ltac:(repeat constructor)).
    inversion H as [|? ? H1 _]; subst. cbn [snd attribute_types In] in H1. decompose [or] H1; try discriminate; contradiction.
Qed.

(* ------------------------------------------------ when construction succeeds *)
Lemma lookup_app {A} k (a b : list (pystr * A)) :
  lookup k (a ++ b) = match lookup k a with Some v => Some v | None => lookup k b end.
Proof.
  induction a as [|[k' v] a IH]; [reflexivity|]. cbn [app lookup]. destruct (str_eqb k k'); [reflexivity|exact IH].
Qed.
Lemma some_expansion d : exists sl, expands d sl.
Proof.
  induction d as [|[k [t|n ms]] d [sl X]]; [exists []; constructor| |].
  - exists ((k, t) :: sl). constructor. exact X.
  - exists (group_slots 0 1 ms ++ sl). constructor. exact X.
Qed.

Definition convertible (hp : bool) (kw : kwargs) (sl : list slot) : Prop :=
  forall k ty v, In (k, ty) sl -> lookup k kw = Some v -> exists f, val2str v ty hp = Ok f.

Lemma value_exists mode now kw before k ty hp :
  In ty attribute_types -> (forall v, lookup k kw = Some v -> exists f, val2str v ty hp = Ok f) ->
  exists v f, value_for mode now kw before k ty = Some v /\ val2str v ty hp = Ok f
    /\ (ty = u "IN" -> v = match lookup k kw with Some g => g | None => VInt 0 end).
Proof.
  intros T C. destruct (nominal_type ty mode now T) as (nom & L & F & I). unfold value_for. rewrite L.
  assert (exists f, val2str (match lookup k kw with Some v => v | None => nom end) ty hp = Ok f) as G.
  { destruct (lookup k kw) as [v|]; [apply C; reflexivity|apply F]. }
  destruct (str_eqb_spec ty (u "LAD")) as [->|N1].
  { destruct (lookup (u "lat") before) as [w|].
    - exists (VStr (if below_zero w then u "S" else u "N")), (if below_zero w then u "S" else u "N").
      split; [reflexivity|]. split; [reflexivity|discriminate].
    - destruct G as (f & G). eexists _, f. split; [reflexivity|]. split; [exact G|discriminate]. }
  destruct (str_eqb_spec ty (u "LND")) as [->|N2].
  { destruct (lookup (u "lon") before) as [w|].
    - exists (VStr (if below_zero w then u "W" else u "E")), (if below_zero w then u "W" else u "E").
      split; [reflexivity|]. split; [reflexivity|discriminate].
    - destruct G as (f & G). eexists _, f. split; [reflexivity|]. split; [exact G|discriminate]. }
  destruct G as (f & G). eexists _, f. split; [reflexivity|]. split; [exact G|].
  intros E. rewrite (I E). reflexivity.
Qed.

Lemma fills_exist clk mode hp kw sl : forall before,
  Forall (fun s => In (snd s) attribute_types) sl -> convertible hp kw sl ->
  exists r fs, fills clk mode hp kw before sl r fs.
Proof.
  induction sl as [|[k ty] sl IH]; intros before T C; [exists [], []; constructor|].
  inversion T as [|? ? T1 T2]; subst. cbn [snd] in T1.
  destruct (value_exists mode (clk (length before)) kw before k ty hp T1) as (v & f & Hv & Hf & _).
  { intros v L. apply (C k ty v); [left; reflexivity|exact L]. }
  destruct (IH (before ++ [(k, v)]) T2) as (r & fs & F).
  { intros k' ty' v' H L. apply (C k' ty' v'); [right; exact H|exact L]. }
  exists ((k, v) :: r), (f :: fs). econstructor; eassumption.
Qed.

Lemma builds_exist clk mode hp kw d : forall before earlier,
  types_in attribute_types d -> counts_earlier earlier d ->
  (forall sl, expands d sl -> convertible hp kw sl) ->
  (no_indeterminate d \/ exists g, groupsize (map fst kw) = Ok g) ->
  (forall name v, In name (count_names d) -> lookup name kw = Some v -> exists z, v = VInt z) ->
  (forall name, In name (count_names d) -> In (name, u "IN") earlier -> exists z, int_attr before name = Some z) ->
  (forall sl, expands d sl -> NoDup (map fst before ++ map fst sl)) ->
  exists r fs, builds clk mode hp kw before d r fs.
Proof.
  induction d as [|[k a] d IH]; intros before earlier T C Cv Gs Kc Hc ND; [exists [], []; constructor|].
  destruct (some_expansion d) as [sl0 X0].
  assert (no_indeterminate d \/ exists g, groupsize (map fst kw) = Ok g) as Gs'.
  { destruct Gs as [Gs|Gs]; [left; inversion Gs; assumption|right; exact Gs]. }
  assert (forall name, In name (count_names d) -> In name (count_names ((k, a) :: d))) as Sub.
  { intros name H. unfold count_names. cbn [flat_map]. apply in_or_app. right. exact H. }
  destruct a as [ty|n ms].
  - assert (In ty attribute_types) as T1.
    { specialize (T ((k, ty) :: sl0) ltac:(constructor; exact X0)). inversion T; subst. assumption. }
    destruct (value_exists mode (clk (length before)) kw before k ty hp T1) as (v & f & Hv & Hf & Hi).
    { intros v L. apply (Cv ((k, ty) :: sl0) ltac:(constructor; exact X0) k ty v); [left; reflexivity|exact L]. }
    destruct (IH (before ++ [(k, v)]) (earlier ++ [(k, ty)])) as (r & fs & B); try assumption.
    + intros sl X. specialize (T ((k, ty) :: sl) ltac:(constructor; exact X)). inversion T; subst. assumption.
    + intros sl X k' ty' v' H L. apply (Cv ((k, ty) :: sl) ltac:(constructor; exact X) k' ty' v'); [right; exact H|exact L].
    + intros name Hn Hin. unfold int_attr. rewrite lookup_app.
      apply in_app_or in Hin as [Hin|[[= <- ->]|[]]].
      * destruct (Hc name (Sub _ Hn) Hin) as (z & Hz). unfold int_attr in Hz.
        destruct (lookup name before) as [w|]; [exists z; exact Hz|discriminate].
      * assert (lookup k before = None) as ->.
        { apply lookup_None. intros H. specialize (ND ((k, u "IN") :: sl0) ltac:(constructor; exact X0)).
          cbn [map fst] in ND. apply NoDup_remove_2 in ND. apply ND. apply in_or_app. left. exact H. }
        cbn [lookup]. rewrite str_eqb_refl. rewrite (Hi eq_refl).
        destruct (lookup k kw) as [w|] eqn:L; [|exists 0; reflexivity].
        destruct (Kc k w (Sub _ Hn) L) as (z & ->). exists z. reflexivity.
    + intros sl X. specialize (ND ((k, ty) :: sl) ltac:(constructor; exact X)).
      rewrite map_app, <- app_assoc. exact ND.
    + exists ((k, v) :: r), (f :: fs). econstructor; eassumption.
  - assert (exists cnt, kw_repeats kw before n cnt) as (cnt & Hr).
    { unfold kw_repeats. destruct n as [z|name]; [eexists; reflexivity|].
      cbn [counts_earlier] in C. destruct (str_eqb_spec name (u "None")) as [->|Nn].
      - destruct Gs as [Gs|(g & Gs)]; [inversion Gs as [|? ? X _]; subst; cbn in X; congruence|].
        eexists _, g. split; [exact Gs|reflexivity].
      - destruct C as [[->|C] _]; [congruence|]. destruct (Hc name) as (z & Hz); [|exact C|].
        + unfold count_names. cbn [flat_map snd]. apply str_eqb_neq in Nn. rewrite Nn. left. reflexivity.
        + eexists _, z. split; [exact Hz|reflexivity]. }
    destruct (fills_exist clk mode hp kw (group_slots cnt 1 ms) before) as (a1 & f1 & F).
    + specialize (T (group_slots cnt 1 ms ++ sl0) ltac:(constructor; exact X0)). apply Forall_app in T. apply T.
    + intros k' ty' v' H L. apply (Cv (group_slots cnt 1 ms ++ sl0) ltac:(constructor; exact X0) k' ty' v');
        [apply in_or_app; left; exact H|exact L].
    + destruct (fills_names _ _ _ _ _ _ _ _ F) as [Nm _].
      destruct (IH (before ++ a1) earlier) as (r & fs & B); try assumption.
      * intros sl X. specialize (T (group_slots cnt 1 ms ++ sl) ltac:(constructor; exact X)). apply Forall_app in T. apply T.
      * destruct n; cbn in C; [exact C|apply C].
      * intros sl X k' ty' v' H L. apply (Cv (group_slots cnt 1 ms ++ sl) ltac:(constructor; exact X) k' ty' v');
          [apply in_or_app; right; exact H|exact L].
      * intros name w Hn. apply Kc, Sub, Hn.
      * intros name Hn Hin. destruct (Hc name (Sub _ Hn) Hin) as (z & Hz). exists z. unfold int_attr in *.
        rewrite lookup_app. destruct (lookup name before); [exact Hz|discriminate].
      * intros sl X. specialize (ND (group_slots cnt 1 ms ++ sl) ltac:(constructor; exact X)).
        rewrite map_app, <- app_assoc, Nm, <- map_app. exact ND.
      * exists (a1 ++ r), (f1 ++ fs). econstructor; eassumption.
Qed.

(* construction succeeds whenever the supplied values can be written *)
Theorem C68_succeeds clk talker msgid mode hp v ud cks kw d :
  good ud -> (mode = 0 \/ mode = 1 \/ mode = 2) ->
  (wants_msgid v = true -> has_key talker NMEA_TALKERS = true /\ known_id ud msgid = true) ->
  (forall n, In n (reserved msgid) -> ~ In n (map fst kw)) ->
  keyword_definition mode ud msgid kw = Some d -> types_in attribute_types d ->
  (forall sl, expands d sl -> convertible hp kw sl) ->
  (forall name val, In name (count_names d) -> lookup name kw = Some val -> exists z, val = VInt z) ->
  (no_indeterminate d \/ exists g, groupsize (map fst kw) = Ok g) ->
  exists x, NMEAMessage clk talker msgid mode hp v ud cks None kw = Ok x.
Proof.
  intros G V Kn R D T Cv Kc Gs. pose proof (keyword_definition_order _ _ _ _ _ G D) as (W & _ & C & _).
  destruct (builds_exist clk mode hp kw d [] []) as (r & fs & B); try assumption.
  - intros name _ [].
  - intros sl X. apply W, X.
  - destruct (C68_complete clk talker msgid mode hp v ud cks kw d r fs G V Kn R D B) as (x & E & _).
    exists x. exact E.
Qed.

(* ------------------------------------------------------------------ C67 *)
(* keywords that only select the definition: none, or the message id of a prefix-style id *)
Definition selecting (kw : kwargs) : Prop := kw = [] \/ exists s, kw = [(u "msgId", VStr s)].

Theorem C67_nominal clk talker msgid mode hp v ud kw d :
  good ud -> (mode = 0 \/ mode = 1 \/ mode = 2) ->
  (wants_msgid v = true -> has_key talker NMEA_TALKERS = true /\ known_id ud msgid = true) ->
  selecting kw -> keyword_definition mode ud msgid kw = Some d -> types_in attribute_types d ->
  exists x k, NMEAMessage clk talker msgid mode hp v ud None None kw = Ok x
    /\ builds clk mode hp kw [] d (m_attrs x) (m_payload x)
    /\ m_checksum x = Some k /\ is_checksum (content_of talker msgid (m_payload x)) k.
Proof.
  intros G V Kn S D T.
  pose proof (keyword_definition_order _ _ _ _ _ G D) as (W & N & C & _).
  assert (exists x, NMEAMessage clk talker msgid mode hp v ud None None kw = Ok x) as (x & E).
  { eapply C68_succeeds; try eassumption.
    - intros n Hn Hin. destruct S as [->|(s & ->)]; [exact Hin|]. destruct Hin as [<-|[]]. cbn [fst] in Hn.
      unfold reserved in Hn. apply in_app_or in Hn as [Hn|Hn].
      + cbn [In] in Hn. decompose [or] Hn; try discriminate; contradiction.
      + destruct (str_in msgid special_ids); [|exact Hn]. destruct Hn as [Hn|[]]. discriminate.
    - intros sl X k ty val H L. destruct S as [->|(s & ->)]; [discriminate|]. cbn [lookup] in L.
      destruct (str_eqb_spec k (u "msgId")) as [->|_]; [|discriminate]. injection L as <-.
      specialize (N sl X). rewrite Forall_forall in N. destruct (N _ H) as [_ N']. specialize (N' eq_refl).
      cbn [snd text_types In] in N'. decompose [or] N'; try contradiction; subst ty; exists s; reflexivity.
    - intros name val Hn L. exfalso. destruct S as [->|(s & ->)]; [discriminate|]. cbn [lookup] in L.
      destruct (str_eqb_spec name (u "msgId")) as [->|_]; [|discriminate].
      (* a repeat count is an integer attribute, msgId is textual *)
      assert (forall earlier d, counts_earlier earlier d -> In (u "msgId") (count_names d) ->
        exists sl, expands d sl /\ In (u "msgId", u "IN") (earlier ++ sl)) as Q.
      { clear. intros earlier d. revert earlier.
        induction d as [|[k [ty|[z|name] ms]] d IH]; intros e C H; [contradiction| | |];
          unfold count_names in H; cbn [flat_map snd] in H; cbn [counts_earlier] in C.
        - destruct (IH _ C H) as (sl & X & Hin). exists ((k, ty) :: sl). split; [constructor; exact X|].
          rewrite <- app_assoc in Hin. exact Hin.
        - destruct (IH _ C H) as (sl & X & Hin). exists (group_slots 0 1 ms ++ sl). split; [constructor; exact X|exact Hin].
        - destruct C as [C1 C2]. apply in_app_or in H as [H|H].
          + destruct (some_expansion d) as [sl X]. exists (group_slots 0 1 ms ++ sl). split; [constructor; exact X|].
            destruct (str_eqb_spec name (u "None")) as [->|Nn]; [contradiction H|].
            destruct H as [->|[]]. destruct C1 as [C1|C1]; [discriminate|]. apply in_or_app. left. exact C1.
          + destruct (IH _ C2 H) as (sl & X & Hin). exists (group_slots 0 1 ms ++ sl). split; [constructor; exact X|exact Hin]. }
      destruct (Q [] d C Hn) as (sl & X & Hin). cbn [app] in Hin.
      specialize (N sl X). rewrite Forall_forall in N. destruct (N _ Hin) as [_ N']. specialize (N' eq_refl).
      cbn [snd text_types In] in N'. decompose [or] N'; try discriminate; contradiction.
    - right. exists 0. destruct S as [->|(s & ->)]; reflexivity. }
  pose proof (C10_checksum_keywords _ _ _ _ _ _ _ _ _ E) as Ck. rewrite D in Ck. destruct Ck as (k & K1 & K2).
  destruct (C68_built _ _ _ _ _ _ _ _ _ _ G E) as (_ & _ & _ & B). rewrite D in B.
  exists x, k. repeat split; assumption.
Qed.
(* which applies to every built-in definition except FOO *)
Corollary C67_builtin clk talker msgid mode hp v kw d :
  (mode = 0 \/ mode = 1 \/ mode = 2) ->
  (wants_msgid v = true -> has_key talker NMEA_TALKERS = true /\ known_id [] msgid = true) ->
  selecting kw -> keyword_definition mode [] msgid kw = Some d -> str_upper msgid <> u "FOO" ->
  exists x k, NMEAMessage clk talker msgid mode hp v [] None None kw = Ok x
    /\ builds clk mode hp kw [] d (m_attrs x) (m_payload x)
    /\ m_checksum x = Some k /\ is_checksum (content_of talker msgid (m_payload x)) k.
Proof.
  intros V Kn S D N. apply C67_nominal; try assumption; [intros k0 d0 []|].
  unfold keyword_definition in D. destruct (keyword_id msgid kw) as [key|] eqn:K; [|discriminate].
  assert (key <> u "FOO") as Nk.
  { unfold keyword_id in K. destruct (str_in msgid prefixes) eqn:P; [|injection K as <-; exact N].
    destruct (lookup (u "msgId") kw) as [[s| | | | | | |]|]; try discriminate. injection K as <-. rewrite str_upper_app.
    apply str_in_iff in P. cbn [prefixes In] in P.
    destruct P as [<-|[<-|[<-|[<-|[<-|[<-|[]]]]]]]; intros H; apply (f_equal (firstn 2)) in H; vm_compute in H; discriminate. }
  assert (forall m k, lookup k (definitions_standard m) = Some d -> k <> u "FOO" -> types_in attribute_types d) as Sd.
  { intros m k L Hk. apply (C53_types k); [|exact Hk]. apply lookup_In in L. unfold builtin_definitions, definitions_standard in *.
    rewrite !in_app_iff. destruct (m =? 0)%Z; [tauto|]. destruct (m =? 1)%Z; tauto. }
  destruct (has_key msgid NMEA_MSGIDS); [eapply Sd; eassumption|].
  destruct (has_key msgid NMEA_MSGIDS_PROP || str_in msgid prefixes);
    [|change (lookup key (definitions_standard mode) = Some d) in D; eapply Sd; eassumption].
  destruct (keyword_variant key mode kw) as [k|]; [|discriminate].
  assert (forallb (fun m => forallb (fun e => types_inb attribute_types (snd e)) (definitions_proprietary m)) [0; 1; 2] = true) as B
    by (vm_compute; reflexivity).
  rewrite forallb_forall in B. specialize (B mode ltac:(cbn; intuition)). rewrite forallb_forall in B.
  apply lookup_In in D. apply types_inb_ok, (B _ D).
Qed.
Theorem C67_refuted :
  NMEAMessage noon (u "GP") (u "FOO") 0 false 0 [] None None [] = Raise NMEATypeError.
Proof. vm_compute. reflexivity. Qed.
Example C67_example :
  selecting [] /\ selecting [(u "msgId", VStr (u "03"))]
  /\ (exists d, keyword_definition 0 [] (u "UBX") [(u "msgId", VStr (u "03"))] = Some d /\ length d = 3%nat)
  /\ exists x, NMEAMessage noon (u "GN") (u "RMC") 0 false 0 [] None None [] = Ok x
       /\ m_payload x = [u "123456.78"; []; []; u "N"; []; u "E"; u "0.0"; u "0.0"; u "290224"; u "0.0"; []; []; []].
Proof.
  split; [left; reflexivity|]. split; [right; eexists; reflexivity|].
  split; eexists; (split; [vm_compute; reflexivity|vm_compute; reflexivity]).
Qed.
Example C53_example :
  In (u "LA") attribute_types /\ nomval (u "LA") 0 (noon 0%nat) = Ok (VStr []) /\ val2str (VInt (-53)) (u "LA") false = Ok (u "5300.00000")
  /\ str2val (u "5300.00000") (u "LA") <> Raise NMEATypeError /\ val2str (VInt 1) (u "XX") false = Raise NMEATypeError.
Proof. split; [cbn; tauto|]. repeat split; vm_compute; try reflexivity. discriminate. Qed.
