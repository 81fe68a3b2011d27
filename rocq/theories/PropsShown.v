(* C109: a received message can always be shown: identity, str, repr, serialize and printing never fail. *)
From Coq Require Import Lia.
From Verif Require Import Message Reader Repr BaseLemmas TextLemmas NumLemmas Spec MessageProofs StreamProofs TableProofs ValueSpec PropsValue PropsWrite JsonProofs
  PropsServer PropsHttp XmlProofs PropsDms.
Local Open Scope Z_scope.

(* text that can be written as UTF-8 *)
Definition encodable (s : pystr) : Prop := exists b, utf8_encode s = Ok b.
(* names inside groups are not empty *)
Fixpoint named (a : adef) : Prop :=
  match a with
  | ASingle _ => True
  | AGroup _ ms => (fix go (l : list (pystr * adef)) : Prop :=
                      match l with [] => True | (k, d) :: r => k <> [] /\ encodable k /\ named d /\ go r end) ms
  end.
(* a definition whose attribute names can be shown *)
Definition showable (d : pdict) : Prop := Forall (fun e => fst e <> [] /\ encodable (fst e) /\ named (snd e)) d.

(* and whose msgId, if it has one, is a text - the built-in definitions *)
Definition showable_id (id : bool) (d : pdict) : Prop :=
  Forall (fun e => fst e <> [] /\ encodable (fst e) /\ named (snd e)
                   /\ (id = true -> fst e = u "msgId" -> forall ty, snd e = ASingle ty -> In ty text_types)) d.

(* ------------------------------------------------------------- texts *)
Definition scal (s : pystr) : Prop := Forall (fun c => is_scalar c = true) s.
Lemma scal_iff s : encodable s <-> scal s.
Proof.
  unfold encodable, utf8_encode, scal. rewrite Forall_forall. split.
  - intros [b H]. destruct (forallb is_scalar s) eqn:F; [|discriminate H]. apply forallb_forall. exact F.
  - intros H. apply forallb_forall in H. rewrite H. eexists. reflexivity.
Qed.
Lemma scal_app a b : scal (a ++ b) <-> scal a /\ scal b.
Proof. apply Forall_app. Qed.
Lemma low_scal s : Forall low s -> scal s.
Proof. apply Forall_impl. intros c H. unfold low in H. unfold is_scalar. apply andb_true_iff. split; [apply N.leb_le; lia|]. replace (55296 <=? c)%N with false by (symmetry; apply N.leb_gt; lia). reflexivity. Qed.
Ltac scal_lit := first [apply low_scal; low_literal | unfold scal; repeat (apply Forall_cons; [reflexivity|]); apply Forall_nil].
Lemma scal_remove x s : scal s -> scal (remove_char x s).
Proof. intros H. unfold remove_char. apply Forall_forall. intros c I0. apply filter_In in I0 as [I0 _]. exact (proj1 (Forall_forall _ _) H c I0). Qed.
Lemma low_pad n z : Forall low (pad n z).
Proof. apply low_zfill, low_dec. Qed.
Lemma scal_date d : scal (str_of_date d).
Proof. apply low_scal. unfold str_of_date. apply Forall_app; split; [apply low_pad|]. apply Forall_app; split; [low_literal|]. apply Forall_app; split; [apply low_pad|]. apply Forall_app; split; [low_literal|apply low_pad]. Qed.
Lemma scal_time t : scal (str_of_time t).
Proof.
  apply low_scal. unfold str_of_time. apply Forall_app; split; [apply low_pad|]. apply Forall_app; split; [low_literal|]. apply Forall_app; split; [apply low_pad|].
  apply Forall_app; split; [low_literal|]. apply Forall_app; split; [apply low_pad|].
  destruct (_ =? _); [constructor|]. apply Forall_app. split; [low_literal|apply low_pad].
Qed.
Lemma scal_int z t : str_of_Z z = Ok t -> scal t.
Proof. intros E. apply low_scal. exact (low_json_value (VInt z) t E). Qed.
Lemma scal_index i : scal (fmt_02d i).
Proof. apply low_scal, low_zfill, low_dec. Qed.
Lemma scal_suffix gi : scal (suffix gi).
Proof. unfold suffix. apply Forall_flat_map, Forall_forall. intros i _. constructor; [reflexivity|apply scal_index]. Qed.

(* ------------------------------------------------------------- values *)
Definition shown (v : pyval) : Prop := exists t, str_of_val v = Ok t /\ scal t.
Lemma shown_int z t : str_of_Z z = Ok t -> shown (VInt z).
Proof. intros E. exists t. split; [exact E|exact (scal_int z t E)]. Qed.
Lemma shown_read f ty v : scal f -> str2val f ty = Ok v -> shown v.
Proof.
  intros F E. destruct (C71_typed ty f v E) as [[->|[[T' _]|[[-> [z ->]]|[[_ [x ->]]|[[_ [t [-> _]]]|[_ [d [-> _]]]]]]]] _].
  - exists []. split; [reflexivity|constructor].
  - rewrite (PropsDecode.C12_text f ty T') in E. injection E as <-. exists f. split; [reflexivity|exact F].
  - apply str2val_integer in E. destruct (int_writes _ _ E) as (t & Et). exact (shown_int z t Et).
  - exists (str_of_float x). split; [reflexivity|apply low_scal, low_float].
  - exists (str_of_time t). split; [reflexivity|apply scal_time].
  - exists (str_of_date d). split; [reflexivity|apply scal_date].
Qed.
Lemma int_abs z t : str_of_Z z = Ok t -> (exists t', str_of_Z (Z.abs z) = Ok t') /\ exists t', str_of_Z (- Z.abs z) = Ok t'.
Proof.
  unfold str_of_Z. cbv zeta. replace (Z.abs_N (- Z.abs z)) with (Z.abs_N z) by lia. replace (Z.abs_N (Z.abs z)) with (Z.abs_N z) by lia.
  destruct (_ <? _)%N; [discriminate|]. intros _. split; eexists; reflexivity.
Qed.
Lemma shown_sign v : shown v -> shown (val_abs v) /\ shown (val_negabs v).
Proof.
  intros (t & E & S). destruct v as [s|z|x|b| |d|t0|d t0]; cbn [val_abs val_negabs]; try (split; exists t; split; assumption).
  - cbn [str_of_val] in E. destruct (int_abs z t E) as [[t1 E1] [t2 E2]]. split; [exact (shown_int _ _ E1)|exact (shown_int _ _ E2)].
  - split; eexists; (split; [reflexivity|apply low_scal, low_float]).
  - split; [apply (shown_int _ (if b then u "1" else u "0"))|apply (shown_int _ (if b then u "-1" else u "0"))]; destruct b; reflexivity.
Qed.

(* ------------------------------------------------------------- decoding *)
Section Decoding.
Variable id : bool.
Definition goodattr (e : pystr * pyval) : Prop :=
  fst e <> [] /\ scal (fst e) /\ shown (snd e) /\ (id = true -> fst e = u "msgId" -> exists s, snd e = VStr s).
Definition goodstate (s : ast) : Prop := Forall goodattr (a_attrs s) /\ Forall scal (a_payload s).
Lemma dict_set_good k v d : Forall goodattr d -> goodattr (k, v) -> Forall goodattr (dict_set k v d).
Proof.
  intros F G. induction F as [|[k' v'] d H F IH]; cbn [dict_set]; [constructor; [exact G|constructor]|].
  destruct (str_eqb_spec k k') as [<-|N0]; constructor; assumption.
Qed.
Lemma lookup_good k v d : Forall goodattr d -> lookup k d = Some v -> goodattr (k, v).
Proof. intros F L. apply lookup_In in L. exact (proj1 (Forall_forall _ _) F _ L). Qed.
Lemma override_good att val d : Forall goodattr d -> Forall goodattr (override_sign att val d).
Proof.
  assert (forall (n : pystr) (b : bool), n <> u "msgId" -> Forall goodattr d -> Forall goodattr (match lookup n d with
    | Some v => if numeric v then dict_set n (if b then val_negabs v else val_abs v) d else d | None => d end)) as G.
  { intros n b Nn F. destruct (lookup n d) as [v|] eqn:L; [|exact F]. destruct (numeric v); [|exact F].
    destruct (lookup_good n v d F L) as (A & B & C & _). apply dict_set_good; [exact F|]. cbn [fst snd] in *. destruct (shown_sign v C) as [C1 C2].
    split; [exact A|]. split; [exact B|]. split; [destruct b; assumption|]. intros _ E. elim (Nn E). }
  intros F. unfold override_sign. cbv zeta. destruct (str_eqb att ty_LND && has_key n_lon d); [apply G; [discriminate|exact F]|].
  destruct (str_eqb att ty_LAD && has_key n_lat d); [apply G; [discriminate|exact F]|exact F].
Qed.
Lemma list_set_scal l : forall i f, Forall scal l -> scal f -> Forall scal (list_set l i f).
Proof. induction l as [|x l IH]; intros [|i] f F S; cbn [list_set]; [exact F|exact F|inversion F; constructor; assumption|inversion F; constructor; [assumption|apply IH; assumption]]. Qed.
Lemma suffix_last gi i : exists r c, suffix (gi ++ [i]) = r ++ [c] /\ (48 <= c <= 57)%N.
Proof.
  unfold suffix. rewrite flat_map_app. cbn [flat_map]. rewrite app_nil_r. unfold fmt_02d, zfill.
  destruct (exists_last (dec_of_N_nonempty i)) as (l & c & E). rewrite E.
  exists (flat_map (fun i => 95%N :: zfill 2 (dec_of_N i)) gi ++ 95%N :: repeat 48%N (2 - length (l ++ [c])) ++ l), c.
  split; [rewrite <- !app_assoc; cbn [app]; rewrite <- !app_assoc; reflexivity|].
  pose proof (dec_of_N_ascii i) as A. rewrite E in A. apply Forall_app in A as [_ A]. inversion A; subst. assumption.
Qed.
Lemma single_good c att key gi s s' : x_streaming c = true -> goodstate s -> key <> [] -> scal key -> (id = true -> gi = [] -> key = u "msgId" -> In att text_types) ->
  set_single c att key gi s = Ok s' -> goodstate s'.
Proof.
  intros St [Ga Gp] Kn Ks Km E. unfold set_single in E. cbv zeta in E. rewrite St in E.
  destruct (fetch c s) as [[pl f]|e] eqn:Fe.
  - assert (scal f /\ Forall scal pl) as [Sf Sp].
    { unfold fetch in Fe. destruct (identity_of _ _ _) as [i|]; [|discriminate Fe]. cbn [bind] in Fe. destruct (py_index _ _) as [f0|] eqn:P; [|discriminate Fe]. cbn [bind] in Fe.
      assert (scal f0) as S0.
      { unfold py_index in P. destruct (nth_error (a_payload s) (a_pindex s)) as [g|] eqn:N0; [|discriminate P]. injection P as <-.
        apply nth_error_In in N0. exact (proj1 (Forall_forall _ _) Gp _ N0). }
      destruct (str_eqb i _); injection Fe as <- <-; [|split; assumption].
      assert (scal (remove_char 93 (remove_char 91 f0))) as S1 by (apply scal_remove, scal_remove, S0). split; [exact S1|apply list_set_scal; assumption]. }
    destruct (str2val f att) as [val|] eqn:V; [|discriminate E]. cbn [bind] in E. unfold setattr in E. destruct (str_in _ _); [discriminate E|]. cbn [bind a_pindex a_attrs a_payload] in E.
    injection E as <-. split; cbn [a_attrs a_payload]; [|exact Sp]. apply override_good, dict_set_good; [exact Ga|].
    split; cbn [fst snd]; [destruct key; [elim Kn; reflexivity|discriminate]|]. split; [apply scal_app; split; [exact Ks|apply scal_suffix]|]. split; [exact (shown_read f att val Sf V)|].
    intros Ic M. destruct gi as [|i0 gi0] using rev_ind.
    + cbn [suffix flat_map] in M. rewrite app_nil_r in M. specialize (Km Ic eq_refl M). rewrite (PropsDecode.C12_text f att Km) in V. injection V as <-. eexists. reflexivity.
    + exfalso. destruct (suffix_last gi0 i0) as (r & ch & Sx & B). rewrite Sx, app_assoc in M. change (u "msgId") with (u "msgI" ++ [100%N]) in M. apply app_inj_tail in M as [_ M]. lia.
  - destruct e; try discriminate E. injection E as <-. split; assumption.
Qed.
Lemma named_group n ms : named (AGroup n ms) <-> Forall (fun e => fst e <> [] /\ encodable (fst e) /\ named (snd e)) ms.
Proof.
  cbn [named]. induction ms as [|[k d] ms IH]; [split; [constructor|constructor]|]. split.
  - intros (A & B & C & D). constructor; [repeat split; assumption|apply IH, D].
  - intros F. inversion F as [|? ? (A & B & C) D]; subst. repeat split; [exact A|exact B|exact C|apply IH, D].
Qed.
Lemma attribute_good c a : x_streaming c = true -> named a -> forall key gi s s', goodstate s -> key <> [] -> scal key ->
  (id = true -> gi = [] -> key = u "msgId" -> forall ty, a = ASingle ty -> In ty text_types) -> set_attribute c a key gi s = Ok s' -> goodstate s'.
Proof.
  intros St. induction a as [ty|n ms IH] using adef_ind'; intros Nm key gi s s' G Kn Ks Km E.
  - cbn [set_attribute] in E. eapply single_good; [exact St|exact G|exact Kn|exact Ks| |exact E]. intros I0 A B. exact (Km I0 A B ty eq_refl).
  - rewrite set_attribute_group in E. destruct (group_count c n ms s) as [rng|]; [|discriminate E]. cbn [bind] in E.
    refine (repeat_from_inv (fun s s' => goodstate s -> goodstate s') (fun _ H => H) (fun _ _ _ H1 H2 H => H2 (H1 H)) _ _ _ _ _ _ E G).
    apply named_group in Nm. clear - St IH Nm. intros i s s' E.
    revert s E. induction ms as [|[k d] ms IHm]; intros s E G; cbn [set_members] in E; [injection E as <-; exact G|].
    inversion IH as [|? ? IHd IHr]; subst. inversion Nm as [|? ? (A & B & C) D]; subst. cbn [fst snd] in *.
    destruct (set_attribute c d k (gi ++ [i]) s) as [s1|] eqn:E1; [|discriminate E]. cbn [bind] in E.
    apply (IHm IHr D s1 E). eapply IHd; [exact C|exact G|exact A|apply scal_iff; exact B| |exact E1]. intros _ H. destruct gi; discriminate H.
Qed.
Lemma members_good c d : x_streaming c = true -> showable_id id d -> forall s s', goodstate s -> set_members c d [] s = Ok s' -> goodstate s'.
Proof.
  intros St. induction d as [|[k a] d IH]; intros Sh s s' G E; cbn [set_members] in E; [injection E as <-; exact G|].
  inversion Sh as [|? ? (A & B & C & D) F]; subst. cbn [fst snd] in *. destruct (set_attribute c a k [] s) as [s1|] eqn:E1; [|discriminate E]. cbn [bind] in E.
  apply (IH F s1 s'); [|exact E]. eapply attribute_good; [exact St|exact C|exact G|exact A|apply scal_iff; exact B| |exact E1]. intros I0 _ M ty Et. exact (D I0 M ty Et).
Qed.
Lemma numbered_good fields : forall i, Forall scal fields -> Forall goodattr (numbered i fields).
Proof.
  induction fields as [|f r IH]; intros i F; cbn [numbered]; [constructor|]. inversion F as [|? ? F1 F2]; subst. constructor; [|apply IH, F2].
  split; cbn [fst snd]; [discriminate|]. split; [apply scal_app; split; [scal_lit|apply scal_index]|]. split; [exists f; split; [reflexivity|exact F1]|].
  intros _ _. exists f. reflexivity.
Qed.

End Decoding.

(* the built-in definitions *)
Fixpoint namedb (a : adef) : bool :=
  match a with
  | ASingle _ => true
  | AGroup _ ms => (fix go (l : list (pystr * adef)) : bool :=
                      match l with [] => true | (k, d) :: r => negb (str_eqb k []) && forallb (fun c => c <? 128)%N k && namedb d && go r end) ms
  end.
Definition showableb (d : pdict) : bool :=
  forallb (fun e => negb (str_eqb (fst e) []) && forallb (fun c => c <? 128)%N (fst e) && namedb (snd e)
                    && (negb (str_eqb (fst e) (u "msgId")) || match snd e with ASingle ty => str_in ty text_types | _ => true end)) d.
Lemma encodable_ascii k : forallb (fun c => c <? 128)%N k = true -> encodable k.
Proof. intros H. exists k. apply ascii_utf8, H. Qed.
Lemma nonempty_b k : negb (str_eqb k []) = true -> k <> [].
Proof. intros H ->. discriminate H. Qed.
Lemma namedb_ok a : namedb a = true -> named a.
Proof.
  induction a as [ty|n ms IH] using adef_ind'; intros H; [exact Logic.I|]. apply named_group. cbn [namedb] in H.
  induction ms as [|[k d] ms IHm]; [constructor|]. apply andb_true_iff in H as [H H4]. apply andb_true_iff in H as [H H3]. apply andb_true_iff in H as [H1 H2].
  inversion IH as [|? ? I1 I2]; subst. constructor; [|apply IHm; assumption]. split; [apply nonempty_b, H1|]. split; [apply encodable_ascii, H2|apply I1, H3].
Qed.
Lemma showableb_ok d : showableb d = true -> showable_id true d.
Proof.
  unfold showableb, showable_id. intros H. rewrite forallb_forall in H. apply Forall_forall. intros [k a] I0. specialize (H _ I0). cbn [fst snd] in *.
  apply andb_true_iff in H as [H H4]. apply andb_true_iff in H as [H H3]. apply andb_true_iff in H as [H1 H2].
  split; [apply nonempty_b, H1|]. split; [apply encodable_ascii, H2|]. split; [apply namedb_ok, H3|].
  intros _ -> ty ->. rewrite str_eqb_refl in H4. cbn [negb orb] in H4. apply existsb_exists in H4 as (t & I1 & E). apply str_eqb_eq in E as ->. exact I1.
Qed.
Lemma builtin_showable k d : In (k, d) builtin_definitions -> showable_id true d.
Proof.
  assert (forallb (fun e => showableb (snd e)) builtin_definitions = true) as B by (vm_compute; reflexivity).
  intros I0. rewrite forallb_forall in B. specialize (B _ I0). apply showableb_ok, B.
Qed.

(* ------------------------------------------------------------- showing *)
Lemma attrs_shown id l : Forall (goodattr id) l -> exists t, str_attrs l = Ok t /\ scal t.
Proof.
  induction 1 as [|[n v] l (A & B & (tv & C1 & C2) & _) F (t & E & S)]; cbn [str_attrs fst snd] in *; [exists []; split; [reflexivity|constructor]|].
  destruct n as [|c0 n]; [elim A; reflexivity|]. destruct (c0 =? 95)%N; [exists t; split; assumption|]. rewrite C1. cbn [bind]. rewrite E. cbn [bind]. eexists. split; [reflexivity|].
  apply scal_app. split; [scal_lit|]. apply scal_app. split; [exact B|]. apply scal_app. split; [scal_lit|]. apply scal_app. split; assumption.
Qed.
Lemma identity_shown talker msgid l : scal talker -> scal msgid -> Forall (goodattr (str_in msgid NMEA_PREFIX_PROP)) l -> exists i, identity_of talker msgid l = Ok i /\ scal i.
Proof.
  intros A B F. unfold identity_of. destruct (str_in msgid NMEA_PREFIX_PROP) eqn:Pr; [destruct (str_eqb talker _); cbn [andb]|rewrite andb_false_r].
  - destruct (lookup (u "msgId") l) as [v|] eqn:L.
    + destruct (lookup_good _ _ _ _ F L) as (_ & _ & (t & E & S) & M). cbn [fst snd] in *. destruct (M eq_refl eq_refl) as (s & ->). injection E as ->.
      eexists. split; [reflexivity|]. apply scal_app. split; [exact A|apply scal_app; split; assumption].
    + eexists. split; [reflexivity|apply scal_app; split; assumption].
  - eexists. split; [reflexivity|apply scal_app; split; assumption].
  - eexists. split; [reflexivity|apply scal_app; split; assumption].
Qed.
Lemma serialize_fold pl : forall o, scal o -> Forall scal pl -> scal (fold_left (fun out att => out ++ [c_comma] ++ att) pl o).
Proof.
  induction pl as [|p pl IH]; intros o O F; [exact O|]. inversion F as [|? ? F1 F2]; subst. cbn [fold_left]. apply IH; [|exact F2].
  apply scal_app. split; [exact O|]. apply scal_app. split; [scal_lit|exact F1].
Qed.

Lemma not_prefix msgid : known_id [] msgid = false -> str_in msgid NMEA_PREFIX_PROP = false.
Proof. unfold known_id. intros H. apply orb_false_iff in H as [H _]. apply orb_false_iff in H as [_ H]. exact H. Qed.

(* Whatever is received as bytes, or as a text that can be encoded, under any mode, flags and user definitions in order: once it is
   parsed, its identity, str(), repr() and serialize() all succeed, and what str() gives can be printed as UTF-8. *)
Theorem C109_shown m s mode v ud x :
  text_of m s -> encodable s -> (forall k d, In (k, d) ud -> showable d) -> parse m mode v ud = Ok (Some x) ->
  (exists i, identity x = Ok i /\ encodable i) /\ (exists t, str_of_msg x = Ok t /\ encodable t)
  /\ (exists r, repr_of_msg x = Ok r) /\ exists b, serialize x = Ok b.
Proof.
  intros T En Ud P. pose proof P as P0. apply parse_given in P as (content & ck & talker & msgid & fields & [(s' & T' & Fr) Hd] & Vm & _ & _ & _ & Xt & Xi & Xm & _ & _ & _ & _ & _ & Xc & _ & D).
  assert (s' = s) as ->.
  { destruct m as [b|t|]; cbn [text_of] in T, T'; [|congruence|contradiction]. apply utf8_decode_iff in T, T'. congruence. }
  apply scal_iff in En. destruct Fr as (pre & post & -> & _). apply scal_app in En as [_ En]. apply scal_app in En as [Sc En]. apply scal_app in En as [_ En]. apply scal_app in En as [Sk _].
  destruct Hd as (-> & _). apply scal_app in Sc as [St Sc]. apply scal_app in Sc as [Si Sf].
  assert (Forall scal fields) as Sfs.
  { clear - Sf. induction fields as [|f r IH]; [constructor|]. cbn [flat_map] in Sf. apply scal_app in Sf as [A B]. inversion A; subst. constructor; [assumption|apply IH, B]. }
  assert (Forall (goodattr (str_in msgid NMEA_PREFIX_PROP)) (m_attrs x) /\ Forall scal (m_payload x)) as [Ga Gp].
  { destruct (definition_for mode ud msgid fields) as [d|] eqn:Df.
    - destruct D as (s' & E & -> & ->). assert (showable_id (str_in msgid NMEA_PREFIX_PROP) d) as Sh.
      { apply definition_in in Df as [(k & I0)|(Kn & k & I0)].
        - eapply Forall_impl; [|exact (builtin_showable k d I0)]. intros e (A & B & C & E0). repeat split; try assumption. intros _. exact (E0 eq_refl).
        - replace (str_in msgid NMEA_PREFIX_PROP) with false by (symmetry; exact (not_prefix msgid Kn)).
          eapply Forall_impl; [|exact (Ud k d I0)]. intros e (A & B & C). repeat split; try assumption. intros H. discriminate H. }
      refine (members_good _ _ d _ Sh _ s' _ E); [reflexivity|split; [constructor|exact Sfs]].
    - destruct D as (_ & -> & ->). split; [apply numbered_good, Sfs|exact Sfs]. }
  destruct (identity_shown talker msgid (m_attrs x) St Si Ga) as (i & Ei & S1). destruct (attrs_shown _ _ Ga) as (ta & Ea & S2).
  assert (identity x = Ok i) as Ex by (unfold identity; rewrite Xt, Xi; exact Ei).
  split; [exists i; split; [exact Ex|apply scal_iff, S1]|]. split; [|split].
  - unfold str_of_msg. rewrite Ex, Ea. cbn [bind]. eexists. split; [reflexivity|]. apply scal_iff.
    apply scal_app. split; [scal_lit|]. apply scal_app. split; [exact S1|]. apply scal_app. split; [destruct (m_defsource x); first [exact (Forall_nil _)|scal_lit]|].
    apply scal_app. split; [exact S2|scal_lit].
  - unfold repr_of_msg. rewrite Xm. assert (mode = 0 \/ mode = 1 \/ mode = 2) as Mo by (unfold valid_mode, GET, SET, POLL in Vm; lia).
    destruct Mo as [->|[->| ->]]; (eexists; reflexivity).
  - apply scal_iff. unfold serialize_text. rewrite Xt, Xi, Xc. cbn [cksum_text]. apply scal_app. split.
    + apply serialize_fold; [|exact Gp]. apply (proj2 (scal_app [c_dollar] (talker ++ msgid))). split; [scal_lit|apply scal_app; split; assumption].
    + apply (proj2 (scal_app [c_star] _)). split; [scal_lit|]. apply scal_app. split; [exact Sk|scal_lit].
Qed.
(* Bytes always qualify, and with the built-in definitions there is no condition at all. *)
Theorem C109_received raw mode v x : parse (MBytes raw) mode v [] = Ok (Some x) ->
  (exists i, identity x = Ok i /\ encodable i) /\ (exists t, str_of_msg x = Ok t /\ encodable t)
  /\ (exists r, repr_of_msg x = Ok r) /\ exists b, serialize x = Ok b.
Proof.
  intros P. pose proof P as P0. apply parse_given in P0 as (content & ck & talker & msgid & fields & [(s & T & _) _] & _).
  apply (C109_shown (MBytes raw) s mode v []); [exact T|exists raw; exact T|intros k d []|exact P].
Qed.
Theorem C109_builtin k d : In (k, d) builtin_definitions -> showable_id true d.
Proof. exact (builtin_showable k d). Qed.
Definition ex_ud : userdefs := [(u "XYZ", [(u "n", ASingle (u "IN")); (u "g", AGroup (NInt 2) [(u "s", ASingle (u "ST"))])])].
Example C109_example :
  (exists x, parse (MBytes (u "$GPXYZ,-12," ++ [195; 169]%N ++ u "*00")) 0 0 ex_ud = Ok (Some x)
     /\ str_of_msg x = Ok (u "<NMEA(GPXYZ, n=-12, s_01=" ++ [233%N] ++ u ")>"))
  /\ forall k d, In (k, d) ex_ud -> showable d.
Proof.
  split; [eexists; split; [vm_compute; reflexivity|vm_compute; reflexivity]|]. intros k d [E|[]]. injection E as <- <-.
  assert (forall s, forallb (fun c => c <? 128)%N s = true -> encodable s) as A by exact encodable_ascii.
  apply Forall_cons; [split; [discriminate|]; split; [apply A; reflexivity|exact Logic.I]|].
  apply Forall_cons; [|apply Forall_nil]. split; [discriminate|]. split; [apply A; reflexivity|].
  apply named_group. apply Forall_cons; [split; [discriminate|]; split; [apply A; reflexivity|exact Logic.I]|apply Forall_nil].
Qed.
(* with an empty attribute name in a user definition the message is there, but str() raises IndexError; a str (not bytes) with a lone
   surrogate parses, but serialize() raises UnicodeEncodeError *)
Theorem C109_refuted :
  (exists x, parse (MBytes (u "$GPXYZ,1*00")) 0 0 [(u "XYZ", [([], ASingle (u "ST"))])] = Ok (Some x) /\ str_of_msg x = Raise IndexError)
  /\ exists x, parse (MStr (u "$GPXYZ," ++ [55296%N] ++ u "*00")) 0 0 [] = Ok (Some x) /\ serialize x = Raise UnicodeEncodeError.
Proof. split; [eexists; split; [vm_compute; reflexivity|vm_compute; reflexivity]|]. eexists. split; [vm_compute; reflexivity|vm_compute; reflexivity]. Qed.
