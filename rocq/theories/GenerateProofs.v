(* A message built from keywords, written out and parsed: proofs for C11 and C16. *)
From Verif Require Import Message Reader BaseLemmas TextLemmas NumLemmas Spec ParseProofs MessageProofs
  SelectProofs DecodeProofs TableProofs StreamProofs KeywordSpec KeywordProofs CompleteProofs PropsMessage PropsDecode
  PropsConstruct PropsKeyword.
Local Open Scope Z_scope.

Lemma fills_app ck mode hp kw b s1 s2 a1 a2 f1 f2 :
  fills ck mode hp kw b s1 a1 f1 -> fills ck mode hp kw (b ++ a1) s2 a2 f2 ->
  fills ck mode hp kw b (s1 ++ s2) (a1 ++ a2) (f1 ++ f2).
Proof.
  intros F. revert s2 a2 f2. induction F as [|b k ty sl v f attrs fields Hv Hf F IH]; intros s2 a2 f2 G.
  - rewrite app_nil_r in G. exact G.
  - cbn [app]. econstructor; [exact Hv|exact Hf|]. apply IH. rewrite <- app_assoc. exact G.
Qed.

(* what is built for a definition fills the slots of the definition ... *)
Lemma builds_slots ck mode hp kw b d attrs fields :
  builds ck mode hp kw b d attrs fields ->
  exists sl, expands d sl /\ fills ck mode hp kw b sl attrs fields.
Proof.
  induction 1 as [b|b k ty d v f attrs fields Hv Hf B (sl & X & F)|b k n ms d cnt a1 f1 a2 f2 Hc Hf B (sl & X & F)].
  - exists []. split; constructor.
  - exists ((k, ty) :: sl). split; [constructor; exact X|econstructor; eassumption].
  - exists (group_slots cnt 1 ms ++ sl). split; [constructor; exact X|eapply fills_app; eassumption].
Qed.

(* ... and these are the slots the decoder lays over the payload *)
Lemma builds_layout ck mode hp kw b d attrs fields val pos :
  flat d -> short_tail d ->
  (forall name z, In name (count_names d) -> int_attr (b ++ attrs) name = Some z -> val name = Some z) ->
  builds ck mode hp kw b d attrs fields ->
  exists sl, fills ck mode hp kw b sl attrs fields /\ layout val (pos + length fields) pos d sl.
Proof.
  intros Fl St Hv B. revert pos Fl St Hv.
  induction B as [b|b k ty d v f attrs fields V F B IH|b k n ms d cnt a1 f1 a2 f2 Hc Hf B IH];
    intros pos Fl St Hv; [exists []; split; constructor| |];
    inversion Fl as [|? ? F1 F2]; subst; cbn [snd] in F1.
  - destruct (IH (S pos) F2 St) as (sl & G & L).
    { intros name z Hn Hz. apply Hv; [exact Hn|]. rewrite <- app_assoc in Hz. exact Hz. }
    exists ((k, ty) :: sl). split; [econstructor; eassumption|]. constructor.
    cbn [length]. replace (pos + S (length fields))%nat with (S pos + length fields)%nat by lia. exact L.
  - destruct F1 as [Pm Ne].
    destruct (fills_names _ _ _ _ _ _ _ _ Hf) as [_ Lf]. rewrite group_slots_length in Lf by exact Pm.
    assert (short_tail d) as St' by (destruct n; cbn [short_tail] in St; [exact St|apply St]).
    destruct (IH (pos + cnt * length ms)%nat F2 St') as (sl & G & L).
    { intros name z Hn Hz. apply Hv; [unfold count_names in *; cbn [flat_map snd]; destruct n; [exact Hn|apply in_or_app; right; exact Hn]|].
      rewrite <- app_assoc in Hz. exact Hz. }
    exists (group_slots cnt 1 ms ++ sl). split; [eapply fills_app; eassumption|].
    constructor.
    + unfold repeats. unfold kw_repeats in Hc. destruct n as [z|name]; [exact Hc|].
      destruct (str_eqb_spec name (u "None")) as [->|Nn].
      * cbn [short_tail] in St. destruct St as [St _]. destruct (St eq_refl) as [Pd Ld].
        destruct (builds_plain _ _ _ _ _ _ _ _ Pd B) as (_ & L2 & _).
        rewrite app_length, Lf, L2.
        replace (pos + (cnt * length ms + length d) - pos)%nat with (length d + cnt * length ms)%nat by lia.
        rewrite Nat.div_add by lia. rewrite Nat.div_small by exact Ld. reflexivity.
      * destruct Hc as (z & Hz & ->). exists z. split; [|reflexivity]. apply Hv.
        -- unfold count_names. cbn [flat_map snd]. apply str_eqb_neq in Nn. rewrite Nn. left. reflexivity.
        -- unfold int_attr in *. rewrite lookup_app. destruct (lookup name b); [exact Hz|discriminate].
    + rewrite app_length, Lf, Nat.add_assoc. exact L.
Qed.

(* the value written in slot i *)
Lemma fills_nth ck mode hp kw b sl attrs fields i k ty :
  fills ck mode hp kw b sl attrs fields -> nth_error sl i = Some (k, ty) ->
  exists v f, nth_error attrs i = Some (k, v) /\ nth_error fields i = Some f /\ val2str v ty hp = Ok f
    /\ value_for mode (ck (length b + i)%nat) kw (b ++ firstn i attrs) k ty = Some v.
Proof.
  intros F. revert i. induction F as [|b k0 ty0 sl v f attrs fields Hv Hf F IH]; intros i E; [destruct i; discriminate|].
  destruct i as [|i]; cbn [nth_error] in *.
  - injection E as <- <-. exists v, f. rewrite Nat.add_0_r. cbn [firstn]. rewrite app_nil_r. auto.
  - destruct (IH i E) as (w & g & E1 & E2 & E3 & E4). exists w, g. repeat (split; [assumption|]).
    cbn [firstn]. rewrite <- app_assoc, app_length in E4. cbn [app length] in E4.
    replace (length b + S i)%nat with (length b + 1 + i)%nat by lia. exact E4.
Qed.

Lemma In_lookup_nodup {A} (l : list (pystr * A)) k v :
  NoDup (map fst l) -> In (k, v) l -> lookup k l = Some v.
Proof.
  induction l as [|[k' v'] l IH]; intros ND H; [contradiction|]. cbn [map fst] in ND. inversion ND; subst. cbn [lookup].
  destruct H as [[= -> ->]|H]; [rewrite str_eqb_refl; reflexivity|].
  destruct (str_eqb_spec k k') as [->|_]; [|apply IH; assumption].
  apply (in_map fst) in H. contradiction.
Qed.

(* an integer count survives printing and reading *)
Lemma int_attr_read v f hp w : 
  match v with VInt z => Some z | VBool b => Some (if b then 1 else 0) | _ => None end <> None ->
  val2str v (u "IN") hp = Ok f -> str2val f (u "IN") = Ok w ->
  exists z, v = VInt z /\ w = VInt z.
Proof.
  intros H E W. change (val2str v (u "IN") hp) with (str_of_val v) in E.
  destruct v as [| z | | b | | | |]; try (contradiction H; reflexivity).
  - cbn [str_of_val] in E. exists z. split; [reflexivity|].
    change (str2val f (u "IN")) with (match f with [] => Ok (VStr []) | _ => let! z := int_of_str f in Ok (VInt z) end) in W.
    pose proof (int_of_str_of_Z z f E) as I. destruct f as [|c f]; [discriminate I|].
    rewrite I in W. injection W as <-. reflexivity.
  - cbn in E. destruct b; injection E as <-; discriminate W.
Qed.

Definition readable (d : pdict) (x : msg) : Prop :=
  forall sl i k ty f, expands d sl -> map fst sl = map fst (m_attrs x) ->
    nth_error sl i = Some (k, ty) -> nth_error (m_payload x) i = Some f -> exists w, str2val f ty = Ok w.

Lemma decode_some sl fields :
  (forall i k ty f, nth_error sl i = Some (k, ty) -> nth_error fields i = Some f -> exists w, str2val f ty = Ok w) ->
  exists attrs, decode sl fields = Some attrs.
Proof.
  revert fields. induction sl as [|[k ty] sl IH]; intros fields H; [eexists; reflexivity|].
  destruct fields as [|f fields]; [eexists; reflexivity|]. cbn [decode].
  destruct (H 0%nat k ty f eq_refl eq_refl) as (w & ->).
  destruct (IH fields) as (r & ->); [|eexists; reflexivity].
  intros i k' ty' f' E1 E2. apply (H (S i) k' ty' f' E1 E2).
Qed.

Lemma layout_mono val val' total pos d sl :
  (forall name z, In name (count_names d) -> val name = Some z -> val' name = Some z) ->
  layout val total pos d sl -> layout val' total pos d sl.
Proof.
  intros H L. induction L as [|pos k ty d sl L IH|pos k n ms d sl cnt R L IH]; [constructor|constructor; apply IH, H|].
  constructor; [|apply IH; intros name z Hn; apply H; unfold count_names; cbn [flat_map snd]; apply in_or_app; right; exact Hn].
  unfold repeats in *. destruct n as [z|name]; [exact R|]. destruct (str_eqb_spec name (u "None")) as [->|Nn]; [exact R|].
  destruct R as (z & Hz & ->). exists z. split; [|reflexivity]. apply H; [|exact Hz].
  unfold count_names. cbn [flat_map snd]. apply str_eqb_neq in Nn. rewrite Nn. left. reflexivity.
Qed.

Lemma counts_in d : forall earlier sl name,
  counts_earlier earlier d -> In name (count_names d) -> expands d sl -> In (name, u "IN") (earlier ++ sl).
Proof.
  induction d as [|[k [ty|[z|nm] ms]] d IH]; intros e sl name C H X; [contradiction| | |];
    unfold count_names in H; cbn [flat_map snd app] in H; cbn [counts_earlier] in C; inversion X; subst.
  - match goal with Y : expands d ?s |- _ => pose proof (IH (e ++ [(k, ty)]) s name C H Y) as Hin end.
    rewrite <- app_assoc in Hin. exact Hin.
  - pose proof (IH e _ name C H ltac:(eassumption)) as Hin. rewrite !in_app_iff in *. tauto.
  - destruct C as [C1 C2]. apply in_app_or in H as [H|H].
    + destruct (str_eqb_spec nm (u "None")) as [->|Nn]; [contradiction H|].
      destruct H as [->|[]]. destruct C1 as [C1|C1]; [congruence|]. rewrite in_app_iff. left. exact C1.
    + pose proof (IH e _ name C2 H ltac:(eassumption)) as Hin. rewrite !in_app_iff in *. tauto.
Qed.
Lemma count_public d name : public_counts d -> In name (count_names d) -> name <> u "lat" /\ name <> u "lon".
Proof.
  intros P H. unfold count_names in H. apply in_flat_map in H as ([k a] & Hin & H). cbn [snd] in H.
  unfold public_counts in P. rewrite Forall_forall in P. specialize (P _ Hin). cbn [snd] in P.
  destruct a as [|[|nm] ms]; try contradiction. destruct (str_eqb_spec nm (u "None")) as [->|Nn]; [contradiction|].
  destruct H as [->|[]]. destruct P as [P|P]; [contradiction|]. tauto.
Qed.

Lemma decode_names sl fields attrs :
  decode sl fields = Some attrs -> length fields = length sl -> map fst attrs = map fst sl.
Proof.
  revert fields attrs. induction sl as [|[k ty] sl IH]; intros fields attrs D Ln.
  - injection D as <-. reflexivity.
  - destruct fields as [|f fields]; [discriminate Ln|]. cbn [decode] in D.
    destruct (str2val f ty); [|discriminate]. destruct (decode sl fields) as [r|] eqn:E; [|discriminate].
    injection D as <-. cbn [map fst]. f_equal. apply (IH fields); [exact E|]. cbn in Ln. lia.
Qed.

Lemma built_decodes clk mode hp kw d x :
  in_order d -> builds clk mode hp kw [] d (m_attrs x) (m_payload x) -> readable d x ->
  exists sl attrs, layout (int_attr attrs) (length (m_payload x)) 0 d sl /\ decode sl (m_payload x) = Some attrs
    /\ fills clk mode hp kw [] sl (m_attrs x) (m_payload x) /\ map fst attrs = map fst (m_attrs x).
Proof.
  intros (W & N & C & S) B R. destruct W as (Fl & U & P).
  destruct (builds_layout clk mode hp kw [] d (m_attrs x) (m_payload x) (int_attr (m_attrs x)) 0%nat Fl S) as (sl & F & L);
    [intros name z _ H; exact H|exact B|]. cbn [Nat.add] in L.
  pose proof (layout_expands _ _ _ _ _ L) as X.
  destruct (fills_names _ _ _ _ _ _ _ _ F) as [Nm Ln].
  destruct (decode_some sl (m_payload x)) as (attrs & D).
  { intros i k ty f. apply (R sl i k ty f X). symmetry. exact Nm. }
  pose proof (decode_nth _ _ _ D) as [L1 H1].
  pose proof (decode_names _ _ _ D Ln) as Nm'.
  exists sl, attrs. split; [|split; [exact D|split; [exact F|congruence]]].
  eapply layout_mono; [|exact L]. intros name z Hn Hz.
  pose proof (counts_in d [] sl name C Hn X) as Hin. cbn [app] in Hin. apply In_nth_error in Hin as (i & Hi).
  destruct (fills_nth _ _ _ _ _ _ _ _ _ _ _ F Hi) as (v & f & E1 & E2 & E3 & _).
  destruct (H1 i name (u "IN") f Hi E2) as (w & W1 & W2).
  destruct (count_public d name P Hn) as [Q1 Q2].
  assert (settle name w (combine (skipn (Datatypes.S i) sl) (skipn (Datatypes.S i) (m_payload x))) = w) as Sw.
  { unfold settle. apply str_eqb_neq in Q1, Q2. rewrite Q1, Q2. reflexivity. }
  rewrite Sw in W2. apply nth_error_In in E1, W2. pose proof (U sl X) as ND.
  apply In_lookup_nodup in E1; [|rewrite Nm; exact ND]. apply In_lookup_nodup in W2; [|rewrite Nm'; exact ND].
  unfold int_attr in *. rewrite E1 in Hz. rewrite W2.
  destruct (int_attr_read v f hp w) as (z' & -> & ->); [rewrite Hz; discriminate|exact E3|exact W1|exact Hz].
Qed.

Lemma expands_app d1 d2 sl : expands (d1 ++ d2) sl -> exists s1 s2, expands d1 s1 /\ expands d2 s2 /\ sl = s1 ++ s2.
Proof.
  revert sl. induction d1 as [|[k a] d1 IH]; intros sl X; cbn [app] in X.
  - exists [], sl. split; [constructor|]. split; [exact X|reflexivity].
  - inversion X as [|? ty ? sl' X'|? n ms ? sl' cnt X']; subst; destruct (IH _ X') as (s1 & s2 & X1 & X2 & ->).
    + exists ((k, ty) :: s1), s2. split; [constructor; exact X1|]. split; [exact X2|reflexivity].
    + exists (group_slots cnt 1 ms ++ s1), s2. split; [constructor; exact X1|]. split; [exact X2|apply app_assoc].
Qed.
Lemma nth_error_split_at {A} (l1 l2 : list A) x : nth_error (l1 ++ x :: l2) (length l1) = Some x.
Proof. rewrite nth_error_app2 by lia. rewrite Nat.sub_diag. reflexivity. Qed.
Lemma firstn_In {A} (l : list A) i j x : nth_error l i = Some x -> (i < j)%nat -> In x (firstn j l).
Proof.
  revert i j. induction l as [|y l IH]; intros [|i] [|j] E H; try discriminate; try lia; cbn in *.
  - injection E as ->. left. reflexivity.
  - right. apply (IH i j E). lia.
Qed.
Lemma NoDup_firstn {A} (l : list A) n : NoDup l -> NoDup (firstn n l).
Proof.
  intros H. revert n. induction H as [|x l N _ IH]; intros [|n]; cbn; constructor; [|apply IH].
  intros Hin. apply N. rewrite <- (firstn_skipn n l). apply in_or_app. left. exact Hin.
Qed.
