(* C14 for definitions with repeating groups: dropping trailing fields, adding fields. *)
From Verif Require Import Message Reader BaseLemmas TextLemmas NumLemmas Spec ParseProofs MessageProofs
  SelectProofs DecodeProofs TableProofs StreamProofs KeywordSpec KeywordProofs CompleteProofs PropsMessage PropsDecode PropsConstruct.
Local Open Scope Z_scope.

(* names of decoded attributes *)
Lemma decode_names sl fs r : decode sl fs = Some r -> map fst r = firstn (length r) (map fst sl).
Proof.
  revert fs r. induction sl as [|[k t] sl IH]; intros [|f fs] r D; cbn [decode] in D;
    try (injection D as <-; reflexivity).
  destruct (str2val f t); [|discriminate]. destruct (decode sl fs) as [r'|] eqn:D'; [|discriminate].
  injection D as <-. cbn. f_equal. apply (IH fs r' D').
Qed.

(* without indeterminate groups the number of fields does not enter the layout *)
Lemma layout_total val t t' pos d sl : no_indeterminate d -> layout val t pos d sl -> layout val t' pos d sl.
Proof.
  intros N L. induction L as [|pos k ty d sl L IH|pos k n ms d sl cnt R L IH].
  - constructor.
  - constructor. apply IH. inversion N; assumption.
  - inversion N as [|? ? N1 N2]; subst. constructor; [|apply IH, N2].
    destruct n as [z|name]; [exact R|]. cbn [snd] in N1. unfold repeats in *.
    destruct (str_eqb_spec name (u "None")) as [E|_]; [elim (N1 E)|exact R].
Qed.

(* only the counts matter *)
Lemma layout_val val val' t pos d sl : (forall name, In name (count_names d) -> val name = val' name) ->
  layout val t pos d sl -> layout val' t pos d sl.
Proof.
  intros H L. induction L as [|pos k ty d sl L IH|pos k n ms d sl cnt R L IH].
  - constructor.
  - constructor. apply IH. intros name I. apply H. exact I.
  - constructor.
    + destruct n as [z|name]; [exact R|]. unfold repeats in *. unfold count_names in H. cbn [flat_map snd] in H.
      destruct (str_eqb name (u "None")); [exact R|].
      rewrite <- H; [exact R|]. left. reflexivity.
    + apply IH. intros name I. apply H. unfold count_names. cbn [flat_map snd]. apply in_or_app. right. exact I.
Qed.

Lemma count_names_public d name : public_counts d -> In name (count_names d) -> name <> u "lat" /\ name <> u "lon".
Proof.
  intros P H. unfold count_names in H. apply in_flat_map in H as ([k a] & I & H). cbn [snd] in H.
  destruct a as [ty|[z|n] ms]; [elim H|elim H|]. destruct (str_eqb_spec n (u "None")) as [_|Nn]; [elim H|].
  destruct H as [->|[]]. unfold public_counts in P. rewrite Forall_forall in P. specialize (P _ I). cbn in P.
  destruct P as [E|(_ & A & B & _)]; [elim (Nn E)|split; assumption].
Qed.

(* an attribute named like slot i of a layout is the conversion of field i *)
Lemma attr_at sl fs r i k ty v : NoDup (map fst sl) -> decode sl fs = Some r ->
  nth_error sl i = Some (k, ty) -> k <> u "lat" -> k <> u "lon" -> lookup k r = Some v ->
  exists f, nth_error fs i = Some f /\ str2val f ty = Ok v.
Proof.
  intros ND D E N1 N2 Lk. destruct (decode_nth _ _ _ D) as [Ln Hn]. pose proof (decode_names _ _ _ D) as Nm.
  assert (In k (map fst r)) as I.
  { clear -Lk. induction r as [|[k' v'] r IH]; cbn in *; [discriminate|].
    destruct (str_eqb_spec k k') as [->|_]; [left; reflexivity|right; apply IH, Lk]. }
  apply In_nth_error in I as (j & Ej).
  assert (nth_error (map fst sl) j = Some k) as Ej'.
  { rewrite Nm in Ej. clear -Ej. revert j Ej. generalize (map fst sl) as l. induction (length r) as [|n IH]; intros l j Ej.
    - destruct j; discriminate.
    - destruct l as [|a l]; [destruct j; discriminate|]. destruct j as [|j]; [exact Ej|]. cbn in *. apply IH, Ej. }
  assert (j = i) as ->.
  { apply (proj1 (NoDup_nth_error (map fst sl)) ND).
    - apply nth_error_Some. rewrite Ej'. discriminate.
    - rewrite Ej', nth_error_map, E. reflexivity. }
  assert (i < length r)%nat as Li.
  { rewrite <- (map_length fst). apply nth_error_Some. rewrite Ej. discriminate. }
  destruct (nth_error fs i) as [f|] eqn:F.
  2:{ apply nth_error_None in F. lia. }
  exists f. split; [reflexivity|]. destruct (Hn i k ty f E F) as (val & Hv & Hi).
  rewrite C12_settle_other in Hi by assumption.
  assert (lookup k r = Some val) as Lk'.
  { apply lookup_NoDup; [|apply nth_error_In in Hi; exact Hi]. rewrite Nm.
    rewrite <- (firstn_skipn (length r) (map fst sl)) in ND. apply NoDup_prefix in ND. exact ND. }
  congruence.
Qed.

(* two layouts whose counts come from the same fields agree *)
Lemma layouts_agree d : forall earlier pre sl1 sl2 val1 val2 t1 t2 pos,
  counts_earlier earlier d -> incl earlier pre -> no_indeterminate d ->
  (forall p s1 s2 name ty z1 z2, pre ++ sl1 = p ++ s1 -> pre ++ sl2 = p ++ s2 -> In (name, ty) p -> In name (count_names d) ->
     val1 name = Some z1 -> val2 name = Some z2 -> z1 = z2) ->
  layout val1 t1 pos d sl1 -> layout val2 t2 pos d sl2 -> sl1 = sl2.
Proof.
  induction d as [|[k a] d IH]; intros earlier pre sl1 sl2 val1 val2 t1 t2 pos C I N H L1 L2.
  - inversion L1; inversion L2; reflexivity.
  - inversion N as [|? ? N1 N2]; subst. cbn [snd] in N1. destruct a as [ty|n ms].
    + inversion L1 as [|? ? ? ? s1 L1'|]; subst. inversion L2 as [|? ? ? ? s2 L2'|]; subst. f_equal.
      apply (IH (earlier ++ [(k, ty)]) (pre ++ [(k, ty)]) s1 s2 val1 val2 t1 t2 (S pos)); try assumption.
      * intros e He. apply in_app_iff in He as [He|He]; apply in_app_iff; [left; apply I, He|right; exact He].
      * intros p q1 q2 name ty' z1 z2 E1 E2. rewrite <- app_assoc in E1, E2. apply (H p q1 q2 name ty' z1 z2 E1 E2).
    + inversion L1 as [| |? ? ? ? ? s1 c1 R1 L1']; subst. inversion L2 as [| |? ? ? ? ? s2 c2 R2 L2']; subst.
      assert (c1 = c2) as ->.
      { destruct n as [z|name]; cbn [repeats] in R1, R2; [congruence|].
        destruct (str_eqb_spec name (u "None")) as [E|Nn]; [elim (N1 E)|].
        destruct R1 as (z1 & V1 & ->). destruct R2 as (z2 & V2 & ->). f_equal.
        cbn [counts_earlier] in C. destruct C as [[E|C] _]; [elim (Nn E)|].
        apply (H pre (group_slots (Z.to_nat z1) 1 ms ++ s1) (group_slots (Z.to_nat z2) 1 ms ++ s2) name (u "IN") z1 z2 eq_refl eq_refl (I _ C)); [|exact V1|exact V2].
        unfold count_names. cbn [flat_map snd]. destruct (str_eqb_spec name (u "None")) as [E|_]; [elim (Nn E)|]. left. reflexivity. }
      f_equal. apply (IH earlier (pre ++ group_slots c2 1 ms) s1 s2 val1 val2 t1 t2 (pos + c2 * length ms)%nat); try assumption.
      * cbn [counts_earlier] in C. destruct n; [exact C|apply C].
      * intros e He. apply in_app_iff. left. apply I, He.
      * intros p q1 q2 name ty' z1 z2 E1 E2 Hp Hc. rewrite <- app_assoc in E1, E2.
        apply (H p q1 q2 name ty' z1 z2 E1 E2 Hp). unfold count_names. cbn [flat_map]. apply in_or_app. right. exact Hc.
Qed.

Lemma int_attr_some attrs name z : int_attr attrs name = Some z -> exists v, lookup name attrs = Some v /\ int_attr attrs name = Some z.
Proof. unfold int_attr. destruct (lookup name attrs) as [v|]; [intros H; exists v; split; [reflexivity|exact H]|discriminate]. Qed.

Lemma nth_error_prefix {A} (a b : list A) i x : nth_error a i = Some x -> nth_error (a ++ b) i = Some x.
Proof. intros H. rewrite nth_error_app1; [exact H|]. apply nth_error_Some. rewrite H. discriminate. Qed.

(* layouts over a payload and over a prefix of it *)
Lemma decoded_same_layout d fs gs a1 a2 sl1 sl2 t1 t2 : in_order d -> no_indeterminate d ->
  layout (int_attr a1) t1 0 d sl1 -> decode sl1 (fs ++ gs) = Some a1 ->
  layout (int_attr a2) t2 0 d sl2 -> decode sl2 fs = Some a2 -> sl1 = sl2.
Proof.
  intros (W & _ & C & _) N L1 D1 L2 D2. destruct W as (Fl & U & P).
  apply (layouts_agree d [] [] sl1 sl2 (int_attr a1) (int_attr a2) t1 t2 0 C); try assumption.
  - intros x [].
  - cbn [app]. intros p s1 s2 name ty z1 z2 E1 E2 Hp Hc V1 V2.
    destruct (count_names_public d name P Hc) as [Na Nb].
    apply In_nth_error in Hp as (i & Ei).
    destruct (int_attr_some _ _ _ V1) as (v1 & Lk1 & _). destruct (int_attr_some _ _ _ V2) as (v2 & Lk2 & _).
    assert (nth_error sl1 i = Some (name, ty)) as N1 by (rewrite E1; apply nth_error_prefix, Ei).
    assert (nth_error sl2 i = Some (name, ty)) as N2 by (rewrite E2; apply nth_error_prefix, Ei).
    destruct (attr_at _ _ _ _ _ _ _ (U _ (layout_expands _ _ _ _ _ L1)) D1 N1 Na Nb Lk1) as (f1 & F1 & S1).
    destruct (attr_at _ _ _ _ _ _ _ (U _ (layout_expands _ _ _ _ _ L2)) D2 N2 Na Nb Lk2) as (f2 & F2 & S2).
    apply (nth_error_prefix _ gs) in F2. rewrite F1 in F2. injection F2 as <-. rewrite S1 in S2. injection S2 as <-.
    unfold int_attr in V1, V2. rewrite Lk1 in V1. rewrite Lk2 in V2. congruence.
Qed.

(* dropping trailing fields of a sentence that parses, its definition having no indeterminate group:
   what is left is a prefix of the attributes; unless the field holding the number of
   repeats of a group is among those dropped: NMEATypeError *)
Theorem C14_prefix_groups m1 m2 content1 content2 ck1 ck2 talker msgid fields rest mode v ud x d :
  given m1 content1 ck1 talker msgid (fields ++ rest) -> given m2 content2 ck2 talker msgid fields ->
  (wants_checksum v = true -> is_checksum content2 (str_upper ck2)) ->
  kept_as_is talker msgid (fields ++ rest) ->
  lacks_id mode msgid fields = false ->
  definition_for mode ud msgid (fields ++ rest) = Some d -> definition_for mode ud msgid fields = Some d ->
  in_order d -> no_indeterminate d ->
  parse m1 mode v ud = Ok (Some x) ->
  let left := firstn (length fields) (map fst (m_attrs x)) in
  ((forall name, In name (count_names d) -> In name left) ->
     exists y, parse m2 mode v ud = Ok (Some y)
       /\ map fst (m_attrs y) = left
       /\ forall i k val, nth_error (m_attrs y) i = Some (k, val) -> k <> u "lat" -> k <> u "lon" ->
          nth_error (m_attrs x) i = Some (k, val))
  /\ (forall name, In name (count_names d) -> ~ In name left -> parse m2 mode v ud = Raise NMEATypeError).
Proof.
  intros G1 G2 C K L D1 D2 O Ni E left.
  destruct (parse_given _ _ _ _ _ E) as (c' & k' & t' & i' & f' & G' & V & _ & Kn & _).
  destruct (given_functional _ _ _ _ _ _ _ _ _ _ _ G' G1) as (_ & _ & -> & -> & ->).
  assert (decoded_by d (fields ++ rest) (m_attrs x)) as (sl & Ly & Dc).
  { apply (C13_decoded m1 content1 ck1 talker msgid (fields ++ rest) mode v ud x d G1 E K D1), O. }
  assert (kept_as_is talker msgid fields) as K'.
  { destruct K as [K|K]; [left; exact K|right]. apply Forall_app in K. apply K. }
  destruct (C13_complete m2 content2 ck2 talker msgid fields mode v ud d G2 (proj1 (valid_mode_iff mode) V) C Kn L K' D2 O) as [Cm Cn].
  destruct (decode_app _ _ _ _ Dc) as (r' & D' & N' & H').
  assert (map fst r' = left) as Nl by (rewrite N'; unfold left; rewrite firstn_map; reflexivity).
  destruct O as (W & No & Ce & St). destruct W as (Fl & U & P).
  pose proof (U _ (layout_expands _ _ _ _ _ Ly)) as ND.
  split.
  - intros All. assert (decoded_by d fields r') as Db.
    { exists sl. split; [|exact D']. apply (layout_total _ (length (fields ++ rest))); [exact Ni|].
      apply (layout_val (int_attr (m_attrs x))); [|exact Ly].
      intros name I. destruct (count_names_public d name P I) as [Na Nb].
      specialize (All _ I). rewrite <- Nl in All. unfold int_attr.
      assert (lookup name r' = lookup name (m_attrs x)) as ->; [|reflexivity].
      apply in_map_iff in All as ([k val] & <- & Hin). cbn [fst].
      assert (NoDup (map fst (m_attrs x))) as NDx.
      { rewrite (decode_names _ _ _ Dc). rewrite <- (firstn_skipn (length (m_attrs x)) (map fst sl)) in ND. apply NoDup_prefix in ND. exact ND. }
      assert (NoDup (map fst r')) as NDr.
      { rewrite (decode_names _ _ _ D'). rewrite <- (firstn_skipn (length r') (map fst sl)) in ND. apply NoDup_prefix in ND. exact ND. }
      rewrite (lookup_NoDup k val r' NDr Hin). symmetry. apply lookup_NoDup; [exact NDx|].
      apply In_nth_error in Hin as (i & Hi). apply (nth_error_In _ i). apply (H' i k val Hi Na Nb). }
    apply Cm in Db as (y & Ey & Ay & _). exists y. split; [exact Ey|]. rewrite Ay. split; assumption.
  - intros name I Nn. apply Cn. intros a2 (sl2 & L2 & Dc2).
    pose proof (decoded_same_layout d fields rest (m_attrs x) a2 sl sl2 _ _ (conj (conj Fl (conj U P)) (conj No (conj Ce St))) Ni Ly Dc L2 Dc2) as <-.
    rewrite Dc2 in D'. injection D' as ->. apply Nn. rewrite <- Nl.
    clear -L2 I Ni. revert Ni. induction L2 as [|pos k ty d sl L IH|pos k n ms d sl cnt R L IH]; intros Ni; [elim I|apply IH; [exact I|inversion Ni; assumption]|].
    inversion Ni as [|? ? N1 N2]; subst. unfold count_names in I. cbn [flat_map snd] in I. apply in_app_iff in I as [I|I]; [|apply IH; assumption].
    destruct n as [z|nm]; [elim I|]. cbn [snd] in N1. cbn [repeats] in R.
    destruct (str_eqb_spec nm (u "None")) as [En|_]; [elim (N1 En)|]. destruct I as [->|[]]. destruct R as (z & V & _).
    destruct (int_attr_some _ _ _ V) as (v & Lk & _). clear -Lk.
    induction r' as [|[k' v'] r IH]; cbn in *; [discriminate|].
    destruct (str_eqb_spec name k') as [->|_]; [left; reflexivity|right; apply IH, Lk].
Qed.

(* fields beyond the definition change nothing *)
Theorem C14_extra_fields m1 m2 content1 content2 ck1 ck2 talker msgid fields rest mode v ud x d sl :
  given m1 content1 ck1 talker msgid fields -> given m2 content2 ck2 talker msgid (fields ++ rest) ->
  (wants_checksum v = true -> is_checksum content2 (str_upper ck2)) ->
  kept_as_is talker msgid (fields ++ rest) ->
  lacks_id mode msgid (fields ++ rest) = false ->
  definition_for mode ud msgid fields = Some d -> definition_for mode ud msgid (fields ++ rest) = Some d ->
  in_order d -> no_indeterminate d ->
  parse m1 mode v ud = Ok (Some x) ->
  layout (int_attr (m_attrs x)) (length fields) 0 d sl -> (length sl <= length fields)%nat ->
  exists y, parse m2 mode v ud = Ok (Some y) /\ m_attrs y = m_attrs x /\ m_payload y = fields ++ rest.
Proof.
  intros G1 G2 C K L D1 D2 O Ni E Ly Ls.
  destruct (parse_given _ _ _ _ _ E) as (c' & k' & t' & i' & f' & G' & V & _ & Kn & _).
  destruct (given_functional _ _ _ _ _ _ _ _ _ _ _ G' G1) as (_ & _ & -> & -> & ->).
  assert (kept_as_is talker msgid fields) as K'.
  { destruct K as [K|K]; [left; exact K|right]. apply Forall_app in K. apply K. }
  assert (decoded_by d fields (m_attrs x)) as (sl' & Ly' & Dc).
  { apply (C13_decoded m1 content1 ck1 talker msgid fields mode v ud x d G1 E K' D1), O. }
  pose proof (layout_functional _ _ _ _ _ _ Ly Ly') as <-.
  destruct (C13_complete m2 content2 ck2 talker msgid (fields ++ rest) mode v ud d G2 (proj1 (valid_mode_iff mode) V) C Kn L K D2 O) as [Cm _].
  apply Cm. exists sl. split; [apply (layout_total _ (length fields)); assumption|].
  rewrite C14_extra by exact Ls. exact Dc.
Qed.

(* both apply to a sentence with a counted group *)
Example C14_groups_example :
  let long := split_all 44 (u "1,1,5,2,a,b,3,c,d,7") in let short := split_all 44 (u "1,1,5,2,a,b") in
  exists d x y, definition_for 0 [] (u "ALC") long = Some d /\ definition_for 0 [] (u "ALC") short = Some d
    /\ in_order d /\ no_indeterminate d /\ count_names d = [u "numAlerts"]
    /\ parse (MStr (u "$GPALC,1,1,5,2,a,b,3,c,d,7*00")) 0 0 [] = Ok (Some x)
    /\ parse (MStr (u "$GPALC,1,1,5,2,a,b*00")) 0 0 [] = Ok (Some y)
    /\ m_attrs y = firstn 6 (m_attrs x)
    /\ parse (MStr (u "$GPALC,1,1,5,2,a,b,3,c,d,7,extra,more*00")) 0 0 [] <> Ok None
    /\ parse (MStr (u "$GPALC,1,1,5*00")) 0 0 [] = Raise NMEATypeError.
Proof.
  intros long short.
  destruct (definition_for 0 [] (u "ALC") long) as [d|] eqn:D; [|vm_compute in D; discriminate].
  exists d. eexists _, _. split; [reflexivity|]. split; [rewrite <- D; vm_compute; reflexivity|].
  split. { apply (builtin_in_order (u "ALC")). unfold builtin_definitions. apply in_or_app. left.
           apply lookup_In. rewrite <- D. vm_compute. reflexivity. }
  vm_compute in D. injection D as <-.
  split; [repeat constructor; discriminate|].
  split; [vm_compute; reflexivity|]. split; [vm_compute; reflexivity|]. split; [vm_compute; reflexivity|].
  split; [vm_compute; reflexivity|]. split; [vm_compute; discriminate|]. vm_compute. reflexivity.
Qed.
