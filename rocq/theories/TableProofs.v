(* Facts about the definition tables *)
From Verif Require Import Message BaseLemmas NumLemmas Spec ParseProofs MessageProofs SelectProofs DecodeProofs.
Local Open Scope N_scope.

Definition all_digits (s : pystr) : bool := forallb (fun c => (48 <=? c) && (c <=? 57)) s.
Fixpoint starts_with (p s : pystr) : option pystr :=
  match p, s with
  | [], _ => Some s
  | a :: p', b :: s' => if a =? b then starts_with p' s' else None
  | _, [] => None
  end.
(* s is m ++ "_" ++ digits *)
Definition suffixed (m s : pystr) : bool :=
  match starts_with (m ++ [95]) s with Some r => all_digits r | None => false end.

Lemma starts_with_app p r : starts_with p (p ++ r) = Some r.
Proof. induction p as [|a p IH]; cbn; [reflexivity|]. rewrite N.eqb_refl. exact IH. Qed.
Lemma index_digits i : all_digits (index_text i) = true.
Proof.
  apply forallb_forall. intros c Hc. pose proof (index_text_no_us i) as F. rewrite Forall_forall in F.
  apply F in Hc. apply andb_true_iff. split; apply N.leb_le; lia.
Qed.
Lemma suffixed_true m i : suffixed m (m ++ [95] ++ index_text i) = true.
Proof. unfold suffixed. rewrite app_assoc, starts_with_app. apply index_digits. Qed.

(* the last underscore separates the name and the index *)
Lemma suffix_inj m1 i1 m2 i2 :
  m1 ++ [95] ++ index_text i1 = m2 ++ [95] ++ index_text i2 -> m1 = m2 /\ i1 = i2.
Proof.
  intros E.
  assert (forall a b x y : pystr, ~ In 95 x -> ~ In 95 y -> a ++ 95 :: x = b ++ 95 :: y -> a = b /\ x = y) as G.
  { intros a. induction a as [|c a IH]; intros [|d b] x y Hx Hy E'; cbn in E'.
    - injection E' as ->. split; reflexivity.
    - injection E' as _ ->. elim Hx. apply in_or_app. right. left. reflexivity.
    - injection E' as _ <-. elim Hy. apply in_or_app. right. left. reflexivity.
    - injection E' as -> E'. apply IH in E' as [-> ->]; try assumption. split; reflexivity. }
  assert (forall i, ~ In 95 (index_text i)) as H.
  { intros i Hi. pose proof (index_text_no_us i) as F. rewrite Forall_forall in F. apply F in Hi. lia. }
  cbn [app] in E. apply G in E as [-> E]; [|apply H..]. apply index_text_inj in E. split; [reflexivity|exact E].
Qed.

(* ------------------------------------------------ decidable versions *)
Definition plainb (d : pdict) : bool := forallb (fun e => match snd e with ASingle _ => true | _ => false end) d.
Definition flatb (d : pdict) : bool :=
  forallb (fun e => match snd e with
                    | ASingle _ => true
                    | AGroup _ [] => false
                    | AGroup _ ms => plainb ms end) d.
Lemma plainb_ok d : plainb d = true -> plain d.
Proof.
  unfold plainb, plain. rewrite forallb_forall, Forall_forall. intros H e He. apply H in He.
  destruct (snd e) as [t|]; [exists t; reflexivity|discriminate].
Qed.
Lemma flatb_ok d : flatb d = true -> flat d.
Proof.
  unfold flatb, flat. rewrite forallb_forall, Forall_forall. intros H e He. apply H in He.
  destruct (snd e) as [t|n [|m ms]]; [exact I|discriminate|]. split; [apply plainb_ok, He|discriminate].
Qed.

Definition public_name (name : pystr) : bool :=
  str_eqb name (u "None")
  || (negb (str_eqb name (u "msgmode")) && negb (str_eqb name (u "lat")) && negb (str_eqb name (u "lon"))
      && negb (hd 0 name =? 95)).
Definition public_countsb (d : pdict) : bool :=
  forallb (fun e => match snd e with AGroup (NStr name) _ => public_name name | _ => true end) d.
Lemma public_countsb_ok d : public_countsb d = true -> public_counts d.
Proof.
  unfold public_countsb, public_counts. rewrite forallb_forall, Forall_forall. intros H e He. apply H in He.
  destruct (snd e) as [t|[z|name] ms]; try exact I. unfold public_name in He.
  apply orb_true_iff in He as [He|He]; [left; apply str_eqb_eq, He|right].
  apply andb_true_iff in He as [He H4]. apply andb_true_iff in He as [He H3]. apply andb_true_iff in He as [H1 H2].
  apply negb_true_iff in H1, H2, H3, H4. apply str_eqb_neq in H1, H2, H3. apply N.eqb_neq in H4. auto.
Qed.

(* could name k occur in an expansion of d? *)
Definition may_occur (k : pystr) (d : pdict) : bool :=
  existsb (fun e => match snd e with
                    | ASingle _ => str_eqb k (fst e)
                    | AGroup _ ms => existsb (fun m => suffixed (fst m) k) ms end) d.
(* could m with some index occur in an expansion of d? *)
Definition may_occur_suffixed (m : pystr) (d : pdict) : bool :=
  existsb (fun e => match snd e with
                    | ASingle _ => suffixed m (fst e)
                    | AGroup _ ms => str_in m (map fst ms) end) d.
Fixpoint nodupb (l : list pystr) : bool :=
  match l with [] => true | a :: r => negb (str_in a r) && nodupb r end.
Fixpoint unambiguousb (d : pdict) : bool :=
  match d with
  | [] => true
  | (k, ASingle _) :: d' => negb (may_occur k d') && unambiguousb d'
  | (_, AGroup _ ms) :: d' =>
      nodupb (map fst ms) && forallb (fun m => negb (may_occur_suffixed (fst m) d')) ms && unambiguousb d'
  end.

Lemma nodupb_ok l : nodupb l = true -> NoDup l.
Proof.
  induction l as [|a l IH]; cbn; intros H; [constructor|]. apply andb_true_iff in H as [H1 H2].
  constructor; [|apply IH, H2]. intros Hin. apply str_in_iff in Hin. rewrite Hin in H1. discriminate.
Qed.

Lemma NoDup_app_disjoint {A} (a b : list A) :
  NoDup a -> NoDup b -> (forall x, In x a -> ~ In x b) -> NoDup (a ++ b).
Proof.
  induction a as [|x a IH]; intros H1 H2 H3; [exact H2|]. inversion H1; subst. cbn. constructor.
  - rewrite in_app_iff. intros [X|X]; [contradiction|]. apply (H3 x); [left; reflexivity|exact X].
  - apply IH; [assumption..|]. intros y Hy. apply H3. right. exact Hy.
Qed.

Lemma plain_slots_names ms : plain ms -> map fst (plain_slots ms) = map fst ms.
Proof.
  induction ms as [|[k a] ms IH]; intros H; [reflexivity|]. inversion H as [|? ? [t E] H']; subst. cbn in E.
  subst a. unfold plain_slots. cbn [flat_map snd fst app map]. fold (plain_slots ms). f_equal. apply IH, H'.
Qed.

Lemma group_names n i ms name :
  plain ms -> In name (map fst (group_slots n i ms)) ->
  exists m j, In m (map fst ms) /\ i <= j /\ name = m ++ [95] ++ index_text j.
Proof.
  intros P. revert i. induction n as [|n IH]; intros i H; [contradiction H|]. cbn [group_slots] in H.
  rewrite map_app, map_map, in_app_iff in H. destruct H as [H|H].
  - apply in_map_iff in H as (s & <- & Hs). exists (fst s), i. cbn [fst].
    split; [rewrite <- plain_slots_names by exact P; apply in_map, Hs|]. split; [lia|reflexivity].
  - apply IH in H as (m & j & Hm & Hj & ->). exists m, j. repeat split; [exact Hm|lia].
Qed.

Lemma group_nodup n i ms : plain ms -> NoDup (map fst ms) -> NoDup (map fst (group_slots n i ms)).
Proof.
  intros P ND. revert i. induction n as [|n IH]; intros i; [constructor|]. cbn [group_slots].
  rewrite map_app, map_map. cbn [fst].
  assert (NoDup (map (fun s : slot => fst s ++ [95] ++ index_text i) (plain_slots ms))) as H1.
  { pose proof (map_map fst (fun k : pystr => k ++ [95] ++ index_text i) (plain_slots ms)) as Q.
    eapply eq_ind; [|exact Q]. rewrite (plain_slots_names ms P).
    apply FinFun.Injective_map_NoDup; [|exact ND]. intros a b E. apply suffix_inj in E. apply E. }
  assert (forall x, In x (map (fun s : slot => fst s ++ [95] ++ index_text i) (plain_slots ms)) ->
          ~ In x (map fst (group_slots n (N.succ i) ms))) as H2.
  { intros x Hx Hy. apply in_map_iff in Hx as (s & <- & _).
    apply (group_names n (N.succ i) ms) in Hy as (m & j & _ & Hj & E); [|exact P].
    apply suffix_inj in E as [_ E]. lia. }
  apply NoDup_app_disjoint; [exact H1|apply IH|exact H2].
Qed.

Lemma expands_names d sl name :
  flat d -> expands d sl -> In name (map fst sl) -> may_occur name d = true.
Proof.
  intros Fl E. induction E as [|k ty d sl _ IH|k n ms d sl cnt _ IH]; intros H; [contradiction H| |];
    inversion Fl as [|? ? F1 F2]; subst; unfold may_occur in *; cbn [existsb snd fst map] in *.
  - destruct H as [<-|H]; [rewrite str_eqb_refl; reflexivity|]. rewrite (IH F2 H). apply orb_true_r.
  - rewrite map_app, in_app_iff in H. destruct H as [H|H].
    + apply group_names in H as (m & j & Hm & _ & ->); [|apply F1].
      apply orb_true_iff. left. apply existsb_exists. apply in_map_iff in Hm as (e & <- & He).
      exists e. split; [exact He|apply suffixed_true].
    + rewrite (IH F2 H). apply orb_true_r.
Qed.
Lemma expands_names_suffixed d sl m j :
  flat d -> expands d sl -> In (m ++ [95] ++ index_text j) (map fst sl) -> may_occur_suffixed m d = true.
Proof.
  intros Fl E. induction E as [|k ty d sl _ IH|k n ms d sl cnt _ IH]; intros H; [contradiction H| |];
    inversion Fl as [|? ? F1 F2]; subst; unfold may_occur_suffixed in *; cbn [existsb snd fst map] in *.
  - destruct H as [->|H]; [rewrite suffixed_true; reflexivity|]. rewrite (IH F2 H). apply orb_true_r.
  - rewrite map_app, in_app_iff in H. destruct H as [H|H].
    + apply group_names in H as (m' & j' & Hm & _ & E'); [|apply F1]. apply suffix_inj in E' as [-> _].
      apply orb_true_iff. left. apply str_in_iff, Hm.
    + rewrite (IH F2 H). apply orb_true_r.
Qed.

Lemma unambiguousb_ok d : flat d -> unambiguousb d = true -> unambiguous d.
Proof.
  intros Fl B sl E. induction E as [|k ty d sl E IH|k n ms d sl cnt E IH]; [constructor| |];
    inversion Fl as [|? ? F1 F2]; subst; cbn [unambiguousb] in B.
  - apply andb_true_iff in B as [B1 B2]. cbn [map fst]. constructor; [|apply IH; assumption].
    intros H. rewrite (expands_names d sl k F2 E H) in B1. discriminate.
  - apply andb_true_iff in B as [B B3]. apply andb_true_iff in B as [B1 B2].
    specialize (IH F2 B3). rewrite map_app.
    assert (NoDup (map fst (group_slots cnt 1 ms))) as H1 by (apply group_nodup; [apply F1|apply nodupb_ok, B1]).
    assert (forall x, In x (map fst (group_slots cnt 1 ms)) -> ~ In x (map fst sl)) as H2.
    { intros x Hx Hy. apply group_names in Hx as (m & j & Hm & _ & ->); [|apply F1].
      apply (expands_names_suffixed d sl m j F2 E) in Hy.
      apply in_map_iff in Hm as (e & <- & He). rewrite forallb_forall in B2. apply B2 in He.
      rewrite Hy in He. discriminate. }
    apply NoDup_app_disjoint; assumption.
Qed.

Definition well_formedb (d : pdict) : bool := flatb d && unambiguousb d && public_countsb d.
Lemma well_formedb_ok d : well_formedb d = true -> well_formed d.
Proof.
  unfold well_formedb. intros H. apply andb_true_iff in H as [H H3]. apply andb_true_iff in H as [H1 H2].
  split; [apply flatb_ok, H1|]. split; [apply unambiguousb_ok; [apply flatb_ok, H1|exact H2]|].
  apply public_countsb_ok, H3.
Qed.

Definition clash_words := [u "identity"; u "talker"; u "msgID"; u "msgmode"; u "payload"; u "checksum"].
(* a word that does not end in "_" digits *)
Definition no_clashb (d : pdict) : bool :=
  forallb (fun w => negb (may_occur w d)) clash_words
  && forallb (fun e => match snd e with
                       | ASingle t => negb (str_eqb (fst e) (u "msgId")) || str_in t text_types
                       | _ => true end) d.
Lemma msgId_not_suffixed m : suffixed m (u "msgId") = false.
Proof.
  unfold suffixed. destruct (starts_with (m ++ [95]) (u "msgId")) as [r|] eqn:E; [|reflexivity]. exfalso.
  assert (forall p s r, starts_with p s = Some r -> s = p ++ r) as G.
  { intros p. induction p as [|a p IH]; intros s r0 H; cbn in H; [cbn; congruence|].
    destruct s as [|b s]; [discriminate|]. destruct (N.eqb_spec a b) as [->|_]; [|discriminate].
    cbn. f_equal. apply IH, H. }
  apply G in E. assert (In 95 (u "msgId")) as H.
  { rewrite E, <- app_assoc. apply in_or_app. right. left. reflexivity. }
  cbn in H. decompose [or] H; try discriminate; assumption.
Qed.
Lemma no_clashb_ok d : flat d -> no_clashb d = true -> no_clash d.
Proof.
  intros Fl B sl E. unfold no_clashb in B. apply andb_true_iff in B as [B1 B2]. apply Forall_forall.
  intros s Hs. split.
  - intros Hin. rewrite forallb_forall in B1. specialize (B1 _ Hin).
    rewrite (expands_names d sl (fst s) Fl E (in_map fst _ _ Hs)) in B1. discriminate.
  - intros Es. clear B1. induction E as [|k ty d sl E IH|k n ms d sl cnt E IH]; [contradiction Hs| |];
      inversion Fl as [|? ? F1 F2]; subst; cbn [forallb snd fst] in B2; apply andb_true_iff in B2 as [B2 B3].
    + destruct Hs as [<-|Hs]; [|apply IH; assumption]. cbn [fst snd] in *.
      apply orb_true_iff in B2 as [B2|B2].
      * rewrite Es, str_eqb_refl in B2. discriminate.
      * apply str_in_iff, B2.
    + apply in_app_or in Hs as [Hs|Hs]; [|apply IH; assumption]. exfalso.
      apply (in_map fst) in Hs. apply group_names in Hs as (m & j & _ & _ & E'); [|apply F1].
      pose proof (suffixed_true m j) as X. rewrite <- E', Es, msgId_not_suffixed in X. discriminate.
Qed.

Lemma builtin_check : forallb (fun e => well_formedb (snd e) && no_clashb (snd e)) builtin_definitions = true.
Proof. vm_compute. reflexivity. Qed.

Lemma builtin_well_formed k d : In (k, d) builtin_definitions -> well_formed d.
Proof.
  intros H. pose proof builtin_check as B. rewrite forallb_forall in B. apply B in H. cbn [snd] in H.
  apply andb_true_iff in H as [H _]. apply well_formedb_ok, H.
Qed.
Lemma builtin_no_clash k d : In (k, d) builtin_definitions -> no_clash d.
Proof.
  intros H. pose proof (builtin_well_formed k d H) as [Fl _].
  pose proof builtin_check as B. rewrite forallb_forall in B. apply B in H. cbn [snd] in H.
  apply andb_true_iff in H as [_ H]. apply no_clashb_ok; assumption.
Qed.

(* where a definition comes from *)
Lemma definition_in mode ud msgid fields d :
  definition_for mode ud msgid fields = Some d ->
  (exists k, In (k, d) builtin_definitions)
  \/ (known_id [] msgid = false /\ exists k, In (k, d) ud).
Proof.
  unfold definition_for, known_id. intros H.
  assert (forall m k, lookup k (definitions_standard m) = Some d -> exists k', In (k', d) builtin_definitions) as S.
  { intros m k L. exists k. apply lookup_In in L. unfold builtin_definitions, definitions_standard in *.
    rewrite !in_app_iff. destruct (m =? 0)%Z; [tauto|]. destruct (m =? 1)%Z; tauto. }
  assert (forall m k, lookup k (definitions_proprietary m) = Some d -> exists k', In (k', d) builtin_definitions) as P.
  { intros m k L. exists k. apply lookup_In in L. unfold builtin_definitions, definitions_proprietary in *.
    rewrite !in_app_iff. destruct (m =? 0)%Z; [tauto|]. destruct (m =? 1)%Z; tauto. }
  destruct (has_key msgid NMEA_MSGIDS); [left; eapply S, H|].
  destruct (has_key msgid NMEA_MSGIDS_PROP); cbn [orb] in *; [left; eapply P, H|].
  destruct (str_in msgid prefixes); cbn [orb] in *; [left; eapply P, H|].
  destruct (has_key msgid ud); [|left; eapply S, H].
  right. split; [reflexivity|]. eexists. apply lookup_In in H. exact H.
Qed.
