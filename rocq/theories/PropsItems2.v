(* C104, definitions with repeating groups. *)
From Verif Require Import Message Items BaseLemmas TextLemmas NumLemmas Spec ParseProofs MessageProofs SelectProofs DecodeProofs TableProofs PropsItems.
Local Open Scope Z_scope.

Definition item_slot (c : ctx) (x : slot) (s : ist) : result ist := set_single_i c (snd x) (fst x) [] s.
Global Arguments item_slot : simpl never.
Fixpoint run_items (c : ctx) (l : list slot) (s : ist) : result ist :=
  match l with
  | [] => Ok s
  | x :: l' => let! s' := item_slot c x s in run_items c l' s'
  end.
Lemma single_item_slot c att key gi s : set_single_i c att key gi s = item_slot c (@pair pystr pystr (key ++ suffix gi) att) s.
Proof. unfold item_slot, set_single_i. cbn [fst snd suffix flat_map]. rewrite app_nil_r. reflexivity. Qed.
Lemma run_items_app c a b s : run_items c (a ++ b) s = let! s' := run_items c a s in run_items c b s'.
Proof.
  revert s. induction a as [|x a IH]; intros s; cbn; [reflexivity|].
  destruct (item_slot c x s); cbn; [apply IH|reflexivity].
Qed.
Lemma members_i_plain c ms gi s :
  plain ms ->
  set_members_i c ms gi s = run_items c (map (fun x => (fst x ++ suffix gi, snd x)) (plain_slots ms)) s.
Proof.
  intros H. revert s. induction H as [|[k d] ms [ty E] _ IH]; intros s; [reflexivity|].
  cbn in E. subst d. cbn [set_members_i plain_slots flat_map app map fst snd run_items].
  cbn [set_attribute_i]. rewrite single_item_slot. destruct (item_slot c _ s); cbn [bind]; [apply IH|reflexivity].
Qed.
Lemma repeat_i_group c ms n i s :
  plain ms ->
  repeat_i n i (fun i s0 => set_members_i c ms ([] ++ [i]) s0) s = run_items c (group_slots n i ms) s.
Proof.
  intros H. revert i s. induction n as [|n IH]; intros i s; [reflexivity|].
  cbn [repeat_i group_slots]. rewrite run_items_app, members_i_plain by exact H.
  cbn [app suffix flat_map]. rewrite app_nil_r.
  destruct (run_items c _ s); cbn [bind]; [apply IH|reflexivity].
Qed.

Section Ordinary.
Variable c : ctx.
Hypothesis O : ordinary (x_talker c) (x_msgID c).

Lemma item_slot_Ok x s s' : item_slot c x s = Ok s' ->
  (nth_error (i_payload s) (i_pindex s) = None /\ s' = s)
  \/ (exists f v, nth_error (i_payload s) (i_pindex s) = Some f /\ item2val f (snd x) = Ok v
        /\ s' = mkist (S (i_pindex s)) (override_sign (snd x) v (dict_set (fst x) v (i_attrs s))) (i_payload s)).
Proof.
  unfold item_slot, set_single_i. rewrite fetch_ordinary by exact O. cbn [suffix flat_map]. rewrite app_nil_r.
  destruct (nth_error (i_payload s) (i_pindex s)) as [f|].
  2:{ intros [= <-]. left. split; reflexivity. }
  intros H. apply bind_Ok in H as (v & Hv & H). apply bind_Ok in H as (s1 & H1 & [= <-]).
  right. exists f, v. split; [reflexivity|]. split; [exact Hv|].
  unfold setattr_i in H1. destruct (str_in (fst x) property_names); [discriminate H1|]. injection H1 as <-. reflexivity.
Qed.
Lemma run_items_payload sl s s' : run_items c sl s = Ok s' -> i_payload s' = i_payload s.
Proof.
  revert s. induction sl as [|x sl IH]; intros s E; cbn in E; [injection E as <-; reflexivity|].
  apply bind_Ok in E as (s1 & E1 & E2). apply item_slot_Ok in E1. rewrite (IH s1 E2).
  destruct E1 as [[_ ->]|(f & v & _ & _ & ->)]; reflexivity.
Qed.
Lemma run_items_pindex sl s s' : (i_pindex s <= length (i_payload s))%nat -> run_items c sl s = Ok s' ->
  i_pindex s' = Nat.min (i_pindex s + length sl) (length (i_payload s)).
Proof.
  revert s. induction sl as [|x sl IH]; intros s L E; cbn in E.
  - injection E as <-. cbn. lia.
  - apply bind_Ok in E as (s1 & E1 & E2). apply item_slot_Ok in E1.
    destruct E1 as [[N ->]|(f & v & N & _ & ->)].
    + apply nth_error_None in N. apply IH in E2; [|exact L]. cbn [length]. lia.
    + assert (i_pindex s < length (i_payload s))%nat by (apply nth_error_Some; congruence).
      apply IH in E2; cbn [i_pindex i_payload length] in *; lia.
Qed.
Lemma run_items_lookup sl s s' k : run_items c sl s = Ok s' ->
  ~ In k (map fst sl) -> k <> n_lat -> k <> n_lon -> lookup k (i_attrs s') = lookup k (i_attrs s).
Proof.
  intros E N N1 N2. revert s E. induction sl as [|x sl IH]; intros s E; cbn in E.
  - injection E as <-. reflexivity.
  - apply bind_Ok in E as (s1 & E1 & E2). apply item_slot_Ok in E1.
    cbn in N. destruct E1 as [[_ ->]|(f & v & _ & _ & ->)].
    + apply IH; tauto.
    + apply IH in E2; [|tauto]. rewrite E2. cbn [i_attrs].
      rewrite override_lookup by assumption. apply lookup_dict_set_other. intros ->. tauto.
Qed.
Lemma run_items_names sl s s' : NoDup (map fst (i_attrs s) ++ map fst sl) -> run_items c sl s = Ok s' ->
  map fst (i_attrs s') = map fst (i_attrs s) ++ map fst (firstn (length (i_payload s) - i_pindex s) sl).
Proof.
  revert s. induction sl as [|x sl IH]; intros s ND E; cbn in E.
  - injection E as <-. rewrite firstn_nil. cbn. rewrite app_nil_r. reflexivity.
  - apply bind_Ok in E as (s1 & E1 & E2). apply item_slot_Ok in E1.
    destruct E1 as [[N ->]|(f & v & N & _ & ->)].
    + apply nth_error_None in N. apply IH in E2.
      * rewrite E2. replace (length (i_payload s) - i_pindex s)%nat with 0%nat by lia. reflexivity.
      * cbn in ND. apply NoDup_remove_1 in ND. exact ND.
    + assert (i_pindex s < length (i_payload s))%nat by (apply nth_error_Some; congruence).
      assert (map fst (override_sign (snd x) v (dict_set (fst x) v (i_attrs s))) = map fst (i_attrs s) ++ [fst x]) as K.
      { rewrite override_keys, dict_set_fresh, map_app; [reflexivity|].
        cbn in ND. apply NoDup_remove_2 in ND. rewrite in_app_iff in ND. tauto. }
      apply IH in E2; cbn [i_attrs i_payload i_pindex] in *.
      * rewrite E2, K. replace (length (i_payload s) - i_pindex s)%nat with (S (length (i_payload s) - S (i_pindex s))) by lia.
        cbn. rewrite <- app_assoc. reflexivity.
      * rewrite K, <- app_assoc. exact ND.
Qed.
(* the values: every item that meets a slot is read by the slot's type *)
Lemma run_items_values sl : forall s s', NoDup (map fst sl) -> run_items c sl s = Ok s' ->
  forall i k ty x, nth_error sl i = Some (k, ty) -> nth_error (i_payload s) (i_pindex s + i) = Some x ->
  exists w, item2val x ty = Ok w /\ (k <> n_lat -> k <> n_lon -> lookup k (i_attrs s') = Some w).
Proof.
  induction sl as [|y sl IH]; intros s s' ND E i k ty x N P; [destruct i; discriminate N|].
  cbn in E. apply bind_Ok in E as (s1 & E1 & E2). apply item_slot_Ok in E1. cbn [map] in ND. inversion ND as [|? ? Ny ND']; subst.
  destruct E1 as [[N1 ->]|(f & v & N1 & V & ->)].
  - exfalso. apply nth_error_None in N1. assert (i_pindex s + i < length (i_payload s))%nat by (apply nth_error_Some; congruence). lia.
  - destruct i as [|i]; cbn [nth_error] in N.
    + injection N as ->. cbn [fst snd] in *. rewrite Nat.add_0_r in P. assert (f = x) as -> by congruence.
      exists v. split; [exact V|]. intros K1 K2. rewrite (run_items_lookup _ _ _ _ E2 Ny K1 K2). cbn [i_attrs].
      rewrite override_lookup by assumption. apply lookup_dict_set_same.
    + eapply (IH _ _ ND' E2 i k ty x N). cbn [i_payload i_pindex]. replace (S (i_pindex s) + i)%nat with (i_pindex s + S i)%nat by lia. exact P.
Qed.

(* a definition is a list of slots *)
Lemma members_items d s s' pos :
  flat d -> public_counts d ->
  i_pindex s = Nat.min pos (length (i_payload s)) ->
  set_members_i c d [] s = Ok s' ->
  exists sl, expands d sl /\ run_items c sl s = Ok s'
    /\ (NoDup (map fst (i_attrs s) ++ map fst sl) ->
        layout (int_attr (i_attrs s')) (length (i_payload s)) pos d sl).
Proof.
  intros Hf. revert s pos. induction Hf as [|[k a] d Ha _ IH]; intros s pos Hp Hx E.
  - cbn in E. injection E as <-. exists []. split; [constructor|]. split; [reflexivity|]. constructor.
  - cbn [set_members_i] in E. apply bind_Ok in E as (s1 & E1 & E2).
    inversion Hp as [|? ? Hp1 Hp2]; subst. cbn [snd] in Ha, Hp1.
    destruct a as [ty|n ms].
    + cbn [set_attribute_i] in E1. rewrite single_item_slot in E1. cbn [suffix flat_map] in E1. rewrite app_nil_r in E1.
      assert (run_items c [(k, ty)] s = Ok s1) as R1 by (cbn [run_items]; rewrite E1; reflexivity).
      assert (i_payload s1 = i_payload s) as Pl by (eapply run_items_payload; eassumption).
      pose proof (run_items_pindex [(k, ty)] s s1 ltac:(lia) R1) as Px. cbn [length] in Px.
      destruct (IH s1 (S pos)) as (sl & X1 & X2 & X3); [exact Hp2|rewrite Pl; lia|exact E2|].
      exists ((k, ty) :: sl). split; [constructor; exact X1|].
      split; [cbn; rewrite E1; exact X2|].
      intros ND. constructor. rewrite <- Pl. apply X3.
      assert (map fst (i_attrs s1) = map fst (i_attrs s) ++ map fst (firstn (length (i_payload s) - i_pindex s) [(k, ty)])) as Nm.
      { eapply run_items_names; [|exact R1]. cbn. cbn in ND.
        replace (map fst (i_attrs s) ++ k :: map fst sl) with ((map fst (i_attrs s) ++ [k]) ++ map fst sl) in ND
          by (rewrite <- app_assoc; reflexivity).
        apply NoDup_prefix in ND. exact ND. }
      rewrite Nm. destruct (length (i_payload s) - i_pindex s)%nat; cbn [firstn map fst].
      * rewrite app_nil_r. cbn in ND. apply NoDup_remove_1 in ND. exact ND.
      * rewrite firstn_nil. cbn [map]. rewrite <- app_assoc. exact ND.
    + destruct Ha as [Hms Hne]. rewrite group_i in E1.
      apply bind_Ok in E1 as (rng & Ec & E1). rewrite repeat_i_group in E1 by exact Hms.
      assert (i_payload s1 = i_payload s) as Pl by (eapply run_items_payload; eassumption).
      pose proof (run_items_pindex _ s s1 ltac:(lia) E1) as Px.
      rewrite group_slots_length in Px by exact Hms.
      destruct (IH s1 (pos + Z.to_nat rng * length ms)%nat) as (sl & X1 & X2 & X3);
        [exact Hp2|rewrite Pl; lia|exact E2|].
      exists (group_slots (Z.to_nat rng) 1 ms ++ sl). split; [constructor; exact X1|].
      split; [rewrite run_items_app, E1; exact X2|].
      intros ND. rewrite map_app in ND.
      apply layout_group.
      * unfold repeats. destruct n as [z|name].
        -- cbn in Ec. injection Ec as <-. reflexivity.
        -- unfold group_count_i in Ec.
           destruct (str_eqb_spec name (u "None")) as [->|Nn].
           ++ destruct ms as [|m0 ms0]; [contradiction|].
              injection Ec as <-.
              set (L := length (m0 :: ms0)) in *.
              assert (0 < Z.of_nat L) by (subst L; cbn; lia).
              change (Z.pos (Pos.of_succ_nat (length ms0))) with (Z.of_nat L).
              rewrite Z.quot_div_nonneg by lia.
              rewrite <- Nat2Z.inj_sub by lia. rewrite <- Nat2Z.inj_div, Nat2Z.id. f_equal. lia.
           ++ destruct Hp1 as [->|(M1 & M2 & M3 & M4)]; [congruence|].
              unfold getattr_num in Ec. cbn [a_attrs] in Ec.
              destruct (str_eqb_spec name (u "msgmode")) as [->|_]; [contradiction|].
              assert (forall r, name = 95%N :: r -> False) as Np by (intros r ->; apply M4; reflexivity).
              destruct (lookup name (i_attrs s)) as [v|] eqn:Lk.
              ** exists rng. split; [|reflexivity]. unfold int_attr.
                 assert (In name (map fst (i_attrs s))) as Hin by (eapply lookup_Some_key, Lk).
                 assert (~ In name (map fst (group_slots (Z.to_nat rng) 1 ms ++ sl))) as Hni.
                 { rewrite map_app. intros H. apply in_split in Hin as (l1 & l2 & Hin). rewrite Hin in ND.
                   rewrite <- app_assoc in ND. cbn in ND. apply NoDup_remove_2 in ND. apply ND.
                   rewrite !in_app_iff in *. tauto. }
                 rewrite (run_items_lookup (group_slots (Z.to_nat rng) 1 ms ++ sl) s s' name), Lk.
                 --- destruct v; try discriminate; injection Ec as <-; reflexivity.
                 --- rewrite run_items_app, E1. exact X2.
                 --- exact Hni.
                 --- exact M2.
                 --- exact M3.
              ** exfalso.
                 repeat match type of Ec with
                   | (if str_eqb name ?x then _ else _) = _ =>
                       destruct (str_eqb_spec name x) as [Q|_]; [eapply Np; rewrite Q; reflexivity|]
                   end. discriminate.
      * rewrite <- Pl. apply X3.
        rewrite (run_items_names (group_slots (Z.to_nat rng) 1 ms) s s1); [|rewrite app_assoc in ND; eapply NoDup_prefix, ND|exact E1].
        rewrite <- app_assoc.
        rewrite <- (firstn_skipn (length (i_payload s) - i_pindex s) (group_slots (Z.to_nat rng) 1 ms)) in ND.
        rewrite map_app, <- !app_assoc in ND. rewrite app_assoc in ND.
        rewrite app_assoc. eapply NoDup_drop_mid, ND.
Qed.

(* failures become NMEATypeError *)
Definition converted (e : exc) : Prop := type_errors (@Raise unit e) = Raise NMEATypeError.
(* why a slot fails: the item has no value of the slot's type, or the slot's name is that of a property of the object *)
Definition unread (k ty : pystr) (x : pyval) : Prop := (exists e, item2val x ty = Raise e) \/ In k property_names.
Lemma item_slot_exc x s e : item_slot c x s = Raise e ->
  converted e /\ exists f, nth_error (i_payload s) (i_pindex s) = Some f /\ unread (fst x) (snd x) f.
Proof.
  unfold item_slot, set_single_i. rewrite fetch_ordinary by exact O. cbn [suffix flat_map]. rewrite app_nil_r.
  destruct (nth_error (i_payload s) (i_pindex s)) as [f|]; [|intros H; discriminate H].
  destruct (item2val f (snd x)) as [v|e'] eqn:V; cbn [bind].
  - unfold setattr_i. destruct (str_in (fst x) property_names) eqn:P; cbn [bind]; intros [= <-].
    split; [reflexivity|]. exists f. split; [reflexivity|]. right. apply str_in_iff, P.
  - intros [= <-]. split; [exact (item2val_exc _ _ _ V)|]. exists f. split; [reflexivity|]. left. eexists. exact V.
Qed.
Lemma run_items_exc sl : forall s e, run_items c sl s = Raise e ->
  converted e /\ exists i k ty f, nth_error sl i = Some (k, ty) /\ nth_error (i_payload s) (i_pindex s + i) = Some f /\ unread k ty f.
Proof.
  induction sl as [|[k ty] sl IH]; intros s e E; cbn in E; [discriminate E|].
  destruct (item_slot c (k, ty) s) as [s1|e1] eqn:E1; cbn [bind] in E.
  - destruct (IH _ _ E) as (Cv & i & k' & ty' & f & N & P & U). split; [exact Cv|].
    destruct (item_slot_Ok _ _ _ E1) as [[N1 ->]|(g & v & N1 & _ & ->)].
    + apply nth_error_None in N1. assert (i_pindex s + i < length (i_payload s))%nat by (apply nth_error_Some; congruence). lia.
    + exists (S i), k', ty', f. split; [exact N|]. split; [|exact U]. cbn [i_payload i_pindex] in P.
      replace (i_pindex s + S i)%nat with (S (i_pindex s) + i)%nat by lia. exact P.
  - injection E as <-. destruct (item_slot_exc _ _ _ E1) as (Cv & f & P & U). split; [exact Cv|].
    exists 0%nat, k, ty, f. rewrite Nat.add_0_r. split; [reflexivity|]. split; assumption.
Qed.
Lemma members_fail d : forall s e, set_members_i c d [] s = Raise e ->
  exists d1 k a d2 s1, d = d1 ++ (k, a) :: d2 /\ set_members_i c d1 [] s = Ok s1 /\ set_attribute_i c a k [] s1 = Raise e.
Proof.
  induction d as [|[k a] d IH]; intros s e E; [discriminate E|]. cbn [set_members_i] in E.
  destruct (set_attribute_i c a k [] s) as [s1|e1] eqn:E1; cbn [bind] in E.
  - destruct (IH _ _ E) as (d1 & k' & a' & d2 & s2 & -> & M & F). exists ((k, a) :: d1), k', a', d2, s2.
    split; [reflexivity|]. split; [|exact F]. cbn [set_members_i]. rewrite E1. exact M.
  - injection E as <-. exists [], k, a, d, s. split; [reflexivity|]. split; [reflexivity|exact E1].
Qed.
Lemma expands_app d1 : forall d2 sl1 sl2, expands d1 sl1 -> expands d2 sl2 -> expands (d1 ++ d2) (sl1 ++ sl2).
Proof.
  intros d2 sl1 sl2 H H2. induction H as [|k ty d sl _ IH|k n ms d sl cnt _ IH]; [exact H2|cbn; constructor; exact IH|].
  cbn [app]. rewrite <- app_assoc. constructor. exact IH.
Qed.
Lemma expands_some d : exists sl, expands d sl.
Proof.
  induction d as [|[k [ty|n ms]] d [sl IH]]; [exists []; constructor|exists ((k, ty) :: sl); constructor; exact IH|].
  exists (group_slots 0 1 ms ++ sl). constructor. exact IH.
Qed.
(* the reasons: an item that has no value of the type of its place, or a repeat count that is not an integer *)
Definition refused_because (d : pdict) (items : list pyval) : Prop :=
  (exists sl i k ty x, expands d sl /\ nth_error sl i = Some (k, ty) /\ nth_error items i = Some x /\ unread k ty x)
  \/ (exists d1 k name ms d2 sl1, d = d1 ++ (k, AGroup (NStr name) ms) :: d2 /\ name <> u "None" /\ expands d1 sl1
       /\ forall i ty x z, nth_error sl1 i = Some (name, ty) -> nth_error items i = Some x -> item2val x ty <> Ok (VInt z)).
Lemma members_items_exc d items e : flat d -> unambiguous d -> public_counts d ->
  set_members_i c d [] (mkist 0 [] items) = Raise e -> converted e /\ refused_because d items.
Proof.
  intros Fl Un Pc E. destruct (members_fail _ _ _ E) as (d1 & k & a & d2 & s1 & -> & M & F).
  unfold flat in Fl. unfold public_counts in Pc. apply Forall_app in Fl as [Fl1 Fl2]. apply Forall_app in Pc as [Pc1 Pc2].
  destruct (members_items d1 (mkist 0 [] items) s1 0 Fl1 Pc1 eq_refl M) as (sl1 & X1 & R & _).
  pose proof (run_items_payload _ _ _ R) as P. cbn [i_payload] in P.
  pose proof (run_items_pindex sl1 (mkist 0 [] items) s1 (Nat.le_0_l _) R) as Px. cbn [i_payload i_pindex] in Px.
  destruct (expands_some d2) as [sl2 X2].
  assert (At : forall sl i k' ty x, nth_error sl i = Some (k', ty) -> nth_error (i_payload s1) (i_pindex s1 + i) = Some x ->
     nth_error (sl1 ++ sl ++ sl2) (length sl1 + i) = Some (k', ty) /\ nth_error items (length sl1 + i) = Some x).
  { intros sl i k' ty x N1 N2. rewrite P in N2.
    assert (i_pindex s1 + i < length items)%nat by (apply nth_error_Some; congruence).
    assert (i_pindex s1 = length sl1) as <- by lia. split; [|exact N2].
    rewrite nth_error_app2 by lia. replace (i_pindex s1 + i - length sl1)%nat with i by lia.
    rewrite nth_error_app1; [exact N1|]. apply nth_error_Some. congruence. }
  assert (Slot : forall sl, expands ((k, a) :: d2) (sl ++ sl2) ->
     (exists i k' ty x, nth_error sl i = Some (k', ty) /\ nth_error (i_payload s1) (i_pindex s1 + i) = Some x /\ unread k' ty x) ->
     refused_because (d1 ++ (k, a) :: d2) items).
  { intros sl Xs (i & k' & ty & x & N1 & N2 & U). destruct (At sl i k' ty x N1 N2) as [A B]. left.
    exists (sl1 ++ sl ++ sl2), (length sl1 + i)%nat, k', ty, x. split; [apply expands_app; assumption|]. split; [exact A|]. split; assumption. }
  inversion Fl2 as [|? ? Ha _]; subst. inversion Pc2 as [|? ? Hp _]; subst. cbn [snd] in Ha, Hp.
  destruct a as [ty|n ms].
  - cbn [set_attribute_i] in F. rewrite single_item_slot in F. cbn [suffix flat_map] in F. rewrite app_nil_r in F.
    destruct (item_slot_exc _ _ _ F) as (Cv & f & N & U). split; [exact Cv|].
    apply (Slot [(k, ty)]); [constructor; exact X2|]. exists 0%nat, k, ty, f. rewrite Nat.add_0_r. split; [reflexivity|]. split; assumption.
  - destruct Ha as [Hms Hne]. rewrite group_i in F. destruct (group_count_i c n ms s1) as [z|e1] eqn:G; cbn [bind] in F.
    + rewrite repeat_i_group in F by exact Hms. destruct (run_items_exc _ _ _ F) as (Cv & B). split; [exact Cv|].
      apply (Slot (group_slots (Z.to_nat z) 1 ms)); [constructor; exact X2|exact B].
    + injection F as <-. unfold group_count_i in G. destruct n as [z|name]; [discriminate G|].
      destruct (str_eqb_spec name (u "None")) as [->|Nn]; [destruct ms; [contradiction|discriminate G]|].
      destruct Hp as [->|(M1 & M2 & M3 & M4)]; [congruence|].
      unfold getattr_num in G. cbn [a_attrs] in G. destruct (str_eqb_spec name (u "msgmode")) as [->|_]; [contradiction|].
      split.
      * destruct (lookup name (i_attrs s1)) as [[]|]; try discriminate G; try (injection G as <-; reflexivity).
        repeat match type of G with (if ?b then _ else _) = _ => destruct b; [discriminate G|] end. injection G as <-. reflexivity.
      * right. exists d1, k, name, ms, d2, sl1. split; [reflexivity|]. split; [exact Nn|]. split; [exact X1|].
        intros i ty x z N1 N2 V.
        assert (ND : NoDup (map fst sl1)).
        { pose proof (Un _ (expands_app _ _ _ _ X1 (expands_group k (NStr name) ms d2 sl2 0 X2))) as U. rewrite map_app in U. exact (NoDup_prefix _ _ U). }
        destruct (run_items_values sl1 _ _ ND R i name ty x N1 N2) as (w & V' & Lk). assert (w = VInt z) as -> by congruence.
        rewrite (Lk M2 M3) in G. discriminate G.
Qed.
End Ordinary.

(* what an item of the list becomes: the slots of the definition, laid over the list, in order *)
Definition items_decoded (d : pdict) (items : list pyval) (attrs : list (pystr * pyval)) : Prop :=
  exists sl, layout (int_attr attrs) (length items) 0 d sl
    /\ map fst attrs = firstn (length items) (map fst sl)
    /\ forall i k ty x, nth_error sl i = Some (k, ty) -> nth_error items i = Some x ->
         exists w, item2val x ty = Ok w /\ (k <> u "lat" -> k <> u "lon" -> nth_error attrs i = Some (k, w)).

(* Definitions with repeating groups: the message is made, with the items laid over the definition as texts would be (C13), or
   refused with NMEATypeError and nothing else. *)
Theorem C104_groups clk talker msgid mode hp v ud cks items d :
  mode = 0 \/ mode = 1 \/ mode = 2 -> ordinary talker msgid ->
  (wants_msgid v = true -> has_key talker NMEA_TALKERS = true /\ known_id ud msgid = true) ->
  definition_for mode ud msgid (seen_as items) = Some d -> well_formed d ->
  (exists m, NMEAMessage_i clk talker msgid mode hp v ud cks items [] = Ok m
     /\ y_talker m = talker /\ y_msgID m = msgid /\ y_mode m = mode /\ y_payload m = items
     /\ items_decoded d items (y_attrs m))
  \/ (NMEAMessage_i clk talker msgid mode hp v ud cks items [] = Raise NMEATypeError
     /\ (refused_because d items \/ (cks = None /\ exists x e, In x items /\ str_of_val x = Raise e))).
Proof.
  intros Md O W D (Fl & Un & Pc). rewrite construct_ordinary by assumption. rewrite D.
  assert (Wb : wants_msgid v && negb (has_key talker NMEA_TALKERS && known_id ud msgid) = false).
  { destruct (wants_msgid v); [|reflexivity]. destruct (W eq_refl) as [-> ->]. reflexivity. }
  rewrite Wb. cbn zeta.
  set (c := mkctx talker msgid mode hp v ud (find_defsource msgid ud) true [] clk).
  assert (O' : ordinary (x_talker c) (x_msgID c)) by exact O.
  destruct (set_members_i c d [] (mkist 0 [] items)) as [s|e] eqn:E; cbn [bind].
  2:{ right. destruct (members_items_exc c O' d items e Fl Un Pc E) as [X B]. split; [|left; exact B]. unfold converted in X.
      destruct e; cbn [type_errors bind] in X |- *; try discriminate X; reflexivity. }
  destruct (members_items c O' d (mkist 0 [] items) s 0 Fl Pc eq_refl E) as (sl & X & R & L). cbn [i_attrs i_payload map app] in L.
  specialize (L (Un _ X)).
  pose proof (run_items_payload c O' _ _ _ R) as P. cbn [i_payload] in P.
  assert (Dc : items_decoded d items (i_attrs s)).
  { exists sl. split; [exact L|].
    assert (Nm : map fst (i_attrs s) = firstn (length items) (map fst sl)).
    { rewrite (run_items_names c O' sl (mkist 0 [] items) s (Un _ X) R). cbn [i_attrs i_payload i_pindex map app]. rewrite Nat.sub_0_r, firstn_map. reflexivity. }
    split; [exact Nm|]. intros i k ty x N1 N2.
    destruct (run_items_values c O' sl _ _ (Un _ X) R i k ty x N1 N2) as (w & V & Lk).
    exists w. split; [exact V|]. intros K1 K2. specialize (Lk K1 K2).
    assert (Hk : nth_error (map fst (i_attrs s)) i = Some k).
    { rewrite Nm. assert (i < length items)%nat by (apply nth_error_Some; congruence).
      assert (Q : forall (l : list pystr) n i, (i < n)%nat -> nth_error (firstn n l) i = nth_error l i).
      { clear. induction l as [|x l IH]; intros [|n] [|i] H; cbn; try reflexivity; try lia. apply IH. lia. }
      rewrite Q by assumption. exact (map_nth_error fst i sl N1). }
    rewrite nth_error_map in Hk. destruct (nth_error (i_attrs s) i) as [[k' w']|] eqn:A; [|discriminate Hk]. cbn in Hk. injection Hk as ->.
    assert (ND : NoDup (map fst (i_attrs s))).
    { rewrite Nm. pose proof (Un _ X) as U. rewrite <- (firstn_skipn (length items) (map fst sl)) in U. exact (NoDup_prefix _ _ U). }
    assert (lookup k (i_attrs s) = Some w') as Q.
    { apply lookup_NoDup; [exact ND|]. eapply nth_error_In, A. }
    congruence. }
  destruct cks as [k|].
  - left. eexists. split; [cbn [type_errors bind]; reflexivity|]. cbn [y_talker y_msgID y_mode y_payload y_attrs].
    repeat (split; [first [reflexivity|exact P]|]). exact Dc.
  - rewrite P. destruct (texts_of items) as [ts|e] eqn:T; cbn [bind].
    + left. eexists. split; [cbn [type_errors bind]; reflexivity|]. cbn [y_talker y_msgID y_mode y_payload y_attrs].
      repeat (split; [first [reflexivity|exact P]|]). exact Dc.
    + right. destruct (texts_of_exc _ _ T) as (x & I & Q). split; [destruct (str_of_val_exc _ _ Q) as [-> | ->]; reflexivity|].
      right. split; [reflexivity|]. exists x, e. split; assumption.
Qed.
(* which applies to every built-in definition *)
Corollary C104_builtin clk talker msgid mode hp v ud cks items d :
  mode = 0 \/ mode = 1 \/ mode = 2 -> ordinary talker msgid -> known_id [] msgid = true ->
  (wants_msgid v = true -> has_key talker NMEA_TALKERS = true) ->
  definition_for mode ud msgid (seen_as items) = Some d ->
  (exists m, NMEAMessage_i clk talker msgid mode hp v ud cks items [] = Ok m /\ y_payload m = items /\ items_decoded d items (y_attrs m))
  \/ (NMEAMessage_i clk talker msgid mode hp v ud cks items [] = Raise NMEATypeError
     /\ (refused_because d items \/ (cks = None /\ exists x e, In x items /\ str_of_val x = Raise e))).
Proof.
  intros Md O Kn W D.
  assert (Wf : well_formed d).
  { apply definition_in in D as [(k & B)|(N & _)]; [apply (builtin_well_formed k d B)|congruence]. }
  assert (K' : known_id ud msgid = true) by (unfold known_id in *; change (has_key msgid []) with false in Kn; rewrite orb_false_r in Kn; rewrite Kn; reflexivity).
  destruct (C104_groups clk talker msgid mode hp v ud cks items d Md O (fun H => conj (W H) K') D Wf) as [(m & E & _ & _ & _ & P & Dc)|R].
  - left. exists m. split; [exact E|]. split; assumption.
  - right. exact R.
Qed.
(* satellites in view, the numbers given as numbers; and a count that is a text without a number *)
Example C104_groups_example : exists d m,
  let items := [VInt 1; VInt 1; VInt 2; VStr (u "04"); VInt 70; VFloat (f_norm 120 0); VStr []; VInt 11; VBool true; VStr (u "33"); VInt 40] in
  ordinary (u "GP") (u "GSV") /\ definition_for 0 [] (u "GSV") (seen_as items) = Some d /\ ~ plain d
  /\ NMEAMessage_i clock0 (u "GP") (u "GSV") 0 false 3 [] None items [] = Ok m
  /\ lookup (u "svid_02") (y_attrs m) = Some (VInt 11) /\ lookup (u "az_01") (y_attrs m) = Some (VInt 120)
  /\ lookup (u "cno_02") (y_attrs m) = Some (VInt 40) /\ lookup (u "elv_02") (y_attrs m) = Some (VInt 1).
Proof.
  eexists. eexists. cbn zeta. split; [|split; [vm_compute; reflexivity|split; [|split; [vm_compute; reflexivity|split; [vm_compute; reflexivity|split; [vm_compute; reflexivity|split; vm_compute; reflexivity]]]]]].
  - split; [vm_compute; intuition discriminate|]. split; [vm_compute; discriminate|]. split; vm_compute; discriminate.
  - intros P. apply Forall_forall with (x := nth 3 def_g_GSV (u "", ASingle (u ""))) in P.
    + destruct P as [t P]. discriminate P.
    + apply nth_In. vm_compute. lia.
Qed.
