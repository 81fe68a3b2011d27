(* Proofs about the decoding of payloads: slots, repeating groups, signs. *)
From Verif Require Import Reader BaseLemmas TextLemmas NumLemmas Spec ParseProofs MessageProofs SelectProofs.
Local Open Scope Z_scope.

Definition set_slot (c : ctx) (x : slot) (s : ast) : result ast := set_single c (snd x) (fst x) [] s.
Global Arguments set_slot : simpl never.
Fixpoint run_slots (c : ctx) (l : list slot) (s : ast) : result ast :=
  match l with
  | [] => Ok s
  | x :: l' => let! s' := set_slot c x s in run_slots c l' s'
  end.

Lemma set_single_slot c att key gi s : set_single c att key gi s = set_slot c (@pair pystr pystr (key ++ suffix gi) att) s.
Proof. unfold set_slot, set_single. cbn [fst snd suffix flat_map]. rewrite app_nil_r. reflexivity. Qed.

Lemma run_slots_app c a b s : run_slots c (a ++ b) s = let! s' := run_slots c a s in run_slots c b s'.
Proof.
  revert s. induction a as [|x a IH]; intros s; cbn; [reflexivity|].
  destruct (set_slot c x s); cbn; [apply IH|reflexivity].
Qed.

Lemma set_members_plain c ms gi s :
  plain ms ->
  set_members c ms gi s = run_slots c (map (fun x => (fst x ++ suffix gi, snd x)) (plain_slots ms)) s.
Proof.
  intros H. revert s. induction H as [|[k d] ms [ty E] _ IH]; intros s; [reflexivity|].
  cbn in E. subst d. cbn [set_members plain_slots flat_map app map fst snd run_slots].
  cbn [set_attribute]. rewrite set_single_slot. destruct (set_slot c _ s); cbn [bind]; [apply IH|reflexivity].
Qed.

Lemma repeat_group c ms n i s :
  plain ms ->
  repeat_from n i (fun i s0 => set_members c ms ([] ++ [i]) s0) s = run_slots c (group_slots n i ms) s.
Proof.
  intros H. revert i s. induction n as [|n IH]; intros i s; [reflexivity|].
  cbn [repeat_from group_slots]. rewrite run_slots_app, set_members_plain by exact H.
  cbn [app suffix flat_map]. rewrite app_nil_r.
  destruct (run_slots c _ s); cbn [bind]; [apply IH|reflexivity].
Qed.

Lemma plain_slots_length ms : plain ms -> length (plain_slots ms) = length ms.
Proof. unfold plain_slots. induction 1 as [|[k d] ms [ty E] _ IH]; [reflexivity|]. cbn in E. subst d. cbn. rewrite IH. reflexivity. Qed.
Lemma group_slots_length n i ms : plain ms -> length (group_slots n i ms) = (n * length ms)%nat.
Proof.
  intros H. revert i. induction n as [|n IH]; intros i; [reflexivity|].
  cbn [group_slots]. rewrite app_length, map_length, plain_slots_length, IH by exact H. reflexivity.
Qed.

(* a streaming context whose payload is left alone *)
Definition streams (c : ctx) (fields : list pystr) : Prop :=
  x_streaming c = true /\ kept_as_is (x_talker c) (x_msgID c) fields.

(* the effect of one slot *)
Lemma slot_stream c x s s' :
  streams c (a_payload s) -> set_slot c x s = Ok s' ->
  (nth_error (a_payload s) (a_pindex s) = None /\ s' = s)
  \/ (exists f v, nth_error (a_payload s) (a_pindex s) = Some f /\ str2val f (snd x) = Ok v
        /\ str_in (fst x) property_names = false
        /\ s' = mkast (S (a_pindex s)) (override_sign (snd x) v (dict_set (fst x) v (a_attrs s))) (a_payload s)).
Proof.
  intros [St K]. unfold set_slot, set_single. rewrite St, fetch_kept by exact K.
  cbn [suffix flat_map]. rewrite app_nil_r.
  destruct (identity_of _ _ _) as [i|e] eqn:I; cbn [bind].
  2:{ apply identity_of_exc in I. subst e. discriminate. }
  unfold py_index. destruct (nth_error (a_payload s) (a_pindex s)) as [f|] eqn:F; cbn [bind].
  2:{ intros [= <-]. left. split; reflexivity. }
  intros H. apply bind_Ok in H as (v & Hv & H). apply bind_Ok in H as (s1 & H1 & [= <-]).
  right. exists f, v. split; [reflexivity|]. split; [exact Hv|].
  unfold setattr in H1. destruct (str_in (fst x) property_names) eqn:P; [discriminate|].
  injection H1 as <-. split; reflexivity.
Qed.

Lemma run_slots_payload c sl s s' :
  streams c (a_payload s) -> run_slots c sl s = Ok s' -> a_payload s' = a_payload s.
Proof.
  revert s. induction sl as [|x sl IH]; intros s St E; cbn in E; [injection E as <-; reflexivity|].
  apply bind_Ok in E as (s1 & E1 & E2). apply slot_stream in E1; [|exact St].
  assert (a_payload s1 = a_payload s) as P by (destruct E1 as [[_ ->]|(f & v & _ & _ & _ & ->)]; reflexivity).
  rewrite <- P in St. rewrite (IH s1 St E2). exact P.
Qed.

Lemma run_slots_pindex c sl s s' :
  streams c (a_payload s) -> (a_pindex s <= length (a_payload s))%nat -> run_slots c sl s = Ok s' ->
  a_pindex s' = Nat.min (a_pindex s + length sl) (length (a_payload s)).
Proof.
  revert s. induction sl as [|x sl IH]; intros s St L E; cbn in E.
  - injection E as <-. cbn. lia.
  - apply bind_Ok in E as (s1 & E1 & E2). apply slot_stream in E1; [|exact St].
    destruct E1 as [[N ->]|(f & v & N & _ & _ & ->)].
    + apply nth_error_None in N. apply IH in E2; [|exact St|exact L]. cbn [length]. lia.
    + assert (a_pindex s < length (a_payload s))%nat by (apply nth_error_Some; congruence).
      apply IH in E2; cbn [a_pindex a_payload length] in *; [lia|exact St|lia].
Qed.

Lemma override_lookup att v attrs k :
  k <> n_lat -> k <> n_lon -> lookup k (override_sign att v attrs) = lookup k attrs.
Proof.
  intros N1 N2. unfold override_sign.
  destruct (str_eqb att ty_LND && has_key n_lon attrs).
  - destruct (lookup n_lon attrs) as [w|]; [|reflexivity]. destruct (numeric w); [|reflexivity].
    apply lookup_dict_set_other, N2.
  - destruct (str_eqb att ty_LAD && has_key n_lat attrs); [|reflexivity].
    destruct (lookup n_lat attrs) as [w|]; [|reflexivity]. destruct (numeric w); [|reflexivity].
    apply lookup_dict_set_other, N1.
Qed.
Lemma override_keys att v attrs : map fst (override_sign att v attrs) = map fst attrs.
Proof.
  unfold override_sign.
  destruct (str_eqb att ty_LND && has_key n_lon attrs) eqn:E1.
  - apply andb_true_iff in E1 as [_ E1]. apply has_key_iff in E1.
    destruct (lookup n_lon attrs) as [w|]; [|reflexivity]. destruct (numeric w); [|reflexivity].
    apply dict_set_keys, E1.
  - destruct (str_eqb att ty_LAD && has_key n_lat attrs) eqn:E2; [|reflexivity].
    apply andb_true_iff in E2 as [_ E2]. apply has_key_iff in E2.
    destruct (lookup n_lat attrs) as [w|]; [|reflexivity]. destruct (numeric w); [|reflexivity].
    apply dict_set_keys, E2.
Qed.

Lemma run_slots_lookup c sl s s' k :
  streams c (a_payload s) -> run_slots c sl s = Ok s' ->
  ~ In k (map fst sl) -> k <> n_lat -> k <> n_lon ->
  lookup k (a_attrs s') = lookup k (a_attrs s).
Proof.
  intros St E N N1 N2. revert s St E. induction sl as [|x sl IH]; intros s St E; cbn in E.
  - injection E as <-. reflexivity.
  - apply bind_Ok in E as (s1 & E1 & E2). apply slot_stream in E1; [|exact St].
    cbn in N. destruct E1 as [[_ ->]|(f & v & _ & _ & _ & ->)].
    + apply IH; tauto.
    + apply IH in E2; [|tauto|exact St]. rewrite E2. cbn [a_attrs].
      rewrite override_lookup by assumption. apply lookup_dict_set_other. intros ->. tauto.
Qed.

Lemma run_slots_names c sl s s' :
  streams c (a_payload s) -> NoDup (map fst (a_attrs s) ++ map fst sl) -> run_slots c sl s = Ok s' ->
  map fst (a_attrs s') = map fst (a_attrs s) ++ map fst (firstn (length (a_payload s) - a_pindex s) sl).
Proof.
  revert s. induction sl as [|x sl IH]; intros s St ND E; cbn in E.
  - injection E as <-. rewrite firstn_nil. cbn. rewrite app_nil_r. reflexivity.
  - apply bind_Ok in E as (s1 & E1 & E2). apply slot_stream in E1; [|exact St].
    destruct E1 as [[N ->]|(f & v & N & _ & _ & ->)].
    + apply nth_error_None in N. apply IH in E2; [|exact St|].
      * rewrite E2. replace (length (a_payload s) - a_pindex s)%nat with 0%nat by lia. reflexivity.
      * cbn in ND. apply NoDup_remove_1 in ND. exact ND.
    + assert (a_pindex s < length (a_payload s))%nat by (apply nth_error_Some; congruence).
      assert (map fst (override_sign (snd x) v (dict_set (fst x) v (a_attrs s))) = map fst (a_attrs s) ++ [fst x]) as K.
      { rewrite override_keys, dict_set_fresh, map_app; [reflexivity|].
        cbn in ND. apply NoDup_remove_2 in ND. rewrite in_app_iff in ND. tauto. }
      apply IH in E2; cbn [a_attrs a_payload a_pindex] in *; [|exact St|].
      * rewrite E2, K. replace (length (a_payload s) - a_pindex s)%nat with (S (length (a_payload s) - S (a_pindex s))) by lia.
        cbn. rewrite <- app_assoc. reflexivity.
      * rewrite K, <- app_assoc. exact ND.
Qed.

Lemma NoDup_drop_mid {A} (a r c : list A) : NoDup (a ++ r ++ c) -> NoDup (a ++ c).
Proof. induction r as [|x r IH]; cbn; intros H; [exact H|]. apply IH. eapply NoDup_remove_1, H. Qed.
Lemma NoDup_prefix {A} (a c : list A) : NoDup (a ++ c) -> NoDup a.
Proof. intros H. rewrite <- (app_nil_r a). apply (NoDup_drop_mid a c []). rewrite app_nil_r. exact H. Qed.

(* a definition is a list of slots *)
Lemma members_slots c d s s' pos :
  flat d -> public_counts d -> streams c (a_payload s) ->
  a_pindex s = Nat.min pos (length (a_payload s)) ->
  set_members c d [] s = Ok s' ->
  exists sl, expands d sl /\ run_slots c sl s = Ok s'
    /\ (NoDup (map fst (a_attrs s) ++ map fst sl) ->
        layout (int_attr (a_attrs s')) (length (a_payload s)) pos d sl).
Proof.
  intros Hf. revert s pos. induction Hf as [|[k a] d Ha _ IH]; intros s pos Hp St Hx E.
  - cbn in E. injection E as <-. exists []. split; [constructor|]. split; [reflexivity|]. constructor.
  - cbn [set_members] in E. apply bind_Ok in E as (s1 & E1 & E2).
    inversion Hp as [|? ? Hp1 Hp2]; subst. cbn [snd] in Ha, Hp1.
    destruct a as [ty|n ms].
    + cbn [set_attribute] in E1. rewrite set_single_slot in E1. cbn [suffix flat_map] in E1. rewrite app_nil_r in E1.
      assert (run_slots c [(k, ty)] s = Ok s1) as R1 by (cbn [run_slots]; rewrite E1; reflexivity).
      assert (a_payload s1 = a_payload s) as Pl by (eapply run_slots_payload; eassumption).
      pose proof (run_slots_pindex c [(k, ty)] s s1 St ltac:(lia) R1) as Px. cbn [length] in Px.
      destruct (IH s1 (S pos)) as (sl & X1 & X2 & X3); [exact Hp2|rewrite Pl; exact St|rewrite Pl; lia|exact E2|].
      exists ((k, ty) :: sl). split; [constructor; exact X1|].
      split; [cbn; rewrite E1; exact X2|].
      intros ND. constructor. rewrite <- Pl. apply X3.
      assert (map fst (a_attrs s1) = map fst (a_attrs s) ++ map fst (firstn (length (a_payload s) - a_pindex s) [(k, ty)])) as Nm.
      { eapply run_slots_names; [exact St| |exact R1]. cbn. cbn in ND.
        replace (map fst (a_attrs s) ++ k :: map fst sl) with ((map fst (a_attrs s) ++ [k]) ++ map fst sl) in ND
          by (rewrite <- app_assoc; reflexivity).
        apply NoDup_prefix in ND. exact ND. }
      rewrite Nm. destruct (length (a_payload s) - a_pindex s)%nat; cbn [firstn map fst].
      * rewrite app_nil_r. cbn in ND. apply NoDup_remove_1 in ND. exact ND.
      * rewrite firstn_nil. cbn [map]. rewrite <- app_assoc. exact ND.
    + destruct Ha as [Hms Hne]. rewrite set_attribute_group in E1.
      apply bind_Ok in E1 as (rng & Ec & E1). rewrite repeat_group in E1 by exact Hms.
      assert (a_payload s1 = a_payload s) as Pl by (eapply run_slots_payload; eassumption).
      pose proof (run_slots_pindex c _ s s1 St ltac:(lia) E1) as Px.
      rewrite group_slots_length in Px by exact Hms.
      destruct (IH s1 (pos + Z.to_nat rng * length ms)%nat) as (sl & X1 & X2 & X3);
        [exact Hp2|rewrite Pl; exact St|rewrite Pl; lia|exact E2|].
      exists (group_slots (Z.to_nat rng) 1 ms ++ sl). split; [constructor; exact X1|].
      split; [rewrite run_slots_app, E1; exact X2|].
      intros ND. rewrite map_app in ND.
      apply layout_group.
      * unfold repeats. destruct n as [z|name].
        -- cbn in Ec. injection Ec as <-. reflexivity.
        -- unfold group_count in Ec. destruct St as [St K]. rewrite St in Ec.
           destruct (str_eqb_spec name (u "None")) as [->|Nn].
           ++ unfold calc_num_repeats in Ec. destruct ms as [|m0 ms0]; [contradiction|].
              injection Ec as <-.
              set (L := length (m0 :: ms0)) in *.
              assert (0 < Z.of_nat L) by (subst L; cbn; lia).
              change (Z.pos (Pos.of_succ_nat (length ms0))) with (Z.of_nat L).
              rewrite Z.quot_div_nonneg by lia.
              rewrite <- Nat2Z.inj_sub by lia. rewrite <- Nat2Z.inj_div, Nat2Z.id. f_equal. lia.
           ++ destruct Hp1 as [->|(M1 & M2 & M3 & M4)]; [congruence|].
              unfold getattr_num in Ec.
              destruct (str_eqb_spec name (u "msgmode")) as [->|_]; [contradiction|].
              assert (forall r, name = 95%N :: r -> False) as Np by (intros r ->; apply M4; reflexivity).
              destruct (lookup name (a_attrs s)) as [v|] eqn:Lk.
              ** exists rng. split; [|reflexivity]. unfold int_attr.
                 assert (In name (map fst (a_attrs s))) as Hin by (eapply lookup_Some_key, Lk).
                 assert (~ In name (map fst (group_slots (Z.to_nat rng) 1 ms ++ sl))) as Hni.
                 { rewrite map_app. intros H. apply in_split in Hin as (l1 & l2 & Hin). rewrite Hin in ND.
                   rewrite <- app_assoc in ND. cbn in ND. apply NoDup_remove_2 in ND. apply ND.
                   rewrite !in_app_iff in *. tauto. }
                 rewrite (run_slots_lookup c (group_slots (Z.to_nat rng) 1 ms ++ sl) s s' name), Lk.
                 --- destruct v; try discriminate; injection Ec as <-; reflexivity.
                 --- split; assumption.
                 --- rewrite run_slots_app, E1. exact X2.
                 --- exact Hni.
                 --- exact M2.
                 --- exact M3.
              ** exfalso.
                 repeat match type of Ec with
                   | (if str_eqb name ?x then _ else _) = _ =>
                       destruct (str_eqb_spec name x) as [Q|_]; [eapply Np; rewrite Q; reflexivity|]
                   end. discriminate.
      * rewrite <- Pl. apply X3.
        rewrite (run_slots_names c (group_slots (Z.to_nat rng) 1 ms) s s1 St); [|rewrite app_assoc in ND; eapply NoDup_prefix, ND|exact E1].
        rewrite <- app_assoc.
        rewrite <- (firstn_skipn (length (a_payload s) - a_pindex s) (group_slots (Z.to_nat rng) 1 ms)) in ND.
        rewrite map_app, <- !app_assoc in ND. rewrite app_assoc in ND.
        rewrite app_assoc. eapply NoDup_drop_mid, ND.
Qed.

(* ------------------------------------------------------------- values *)
Lemma with_sign_app neg o1 o2 v :
  with_sign neg o2 (with_sign neg o1 v) = with_sign neg (match o2 with Some g => Some g | None => o1 end) v.
Proof.
  destruct o2 as [g|]; [|reflexivity]. destruct o1 as [f|]; [|reflexivity].
  cbn [with_sign]. destruct v as [| z|x|b| | | |]; try reflexivity.
  - destruct (str_eqb f neg), (str_eqb g neg); f_equal; lia.
  - destruct x as [[]|[]| |[] ? ?]; destruct (str_eqb f neg), (str_eqb g neg); reflexivity.
  - destruct b, (str_eqb f neg), (str_eqb g neg); reflexivity.
Qed.

Lemma settle_cons k v x f r :
  settle k (settle k v [(x, f)]) r = settle k v ((x, f) :: r).
Proof.
  unfold settle. destruct x as [k' t].
  destruct (str_eqb k (u "lat")); [|destruct (str_eqb k (u "lon")); [|reflexivity]].
  - rewrite with_sign_app. cbn [last_of]. destruct (last_of (u "LAD") r); [reflexivity|].
    destruct (str_eqb t (u "LAD")); reflexivity.
  - rewrite with_sign_app. cbn [last_of]. destruct (last_of (u "LND") r); [reflexivity|].
    destruct (str_eqb t (u "LND")); reflexivity.
Qed.
Lemma settle_nil k v : settle k v [] = v.
Proof. unfold settle. destruct (str_eqb k (u "lat")), (str_eqb k (u "lon")); reflexivity. Qed.

Definition resign (later : list (slot * pystr)) (attrs : list (pystr * pyval)) : list (pystr * pyval) :=
  map (fun e => (fst e, settle (fst e) (snd e) later)) attrs.

Lemma resign_cons x f r a : resign r (resign [(x, f)] a) = resign ((x, f) :: r) a.
Proof.
  unfold resign. rewrite map_map. apply map_ext. intros [k v]. cbn [fst snd]. rewrite settle_cons. reflexivity.
Qed.
Lemma resign_nil a : resign [] a = a.
Proof.
  unfold resign. rewrite <- (map_id a) at 2. apply map_ext. intros [k v]. cbn. rewrite settle_nil. reflexivity.
Qed.

Lemma resign_id later a :
  (forall k v, In (k, v) a -> settle k v later = v) -> resign later a = a.
Proof.
  intros H. unfold resign. rewrite <- (map_id a) at 2. apply map_ext_in. intros [k v] Hin. cbn.
  rewrite H by exact Hin. reflexivity.
Qed.

Lemma text_LAD f t v : (t = ty_LAD \/ t = ty_LND) -> str2val f t = Ok v -> v = VStr f.
Proof. intros [->| ->]; cbn; intros [= <-]; reflexivity. Qed.

(* changing the one entry named k *)
Lemma dict_set_map (k : pystr) (g : pystr -> pyval -> pyval) v a :
  NoDup (map fst a) -> lookup k a = Some v ->
  (forall k' w, k' <> k -> g k' w = w) ->
  dict_set k (g k v) a = map (fun e => (fst e, g (fst e) (snd e))) a.
Proof.
  intros ND L H. induction a as [|[k' w] a IH]; [discriminate|].
  cbn in *. inversion ND as [|? ? Hn ND']; subst.
  destruct (str_eqb_spec k k') as [->|N].
  - injection L as ->. f_equal.
    rewrite <- (map_id a) at 1. apply map_ext_in. intros [k2 w2] Hin. cbn. f_equal. symmetry. apply H.
    intros ->. apply Hn. apply (in_map fst) in Hin. exact Hin.
  - rewrite (H k' w) by congruence. f_equal. apply IH; assumption.
Qed.

Lemma override_resign k t f v a :
  NoDup (map fst a) -> str2val f t = Ok v ->
  override_sign t v a = resign [((k, t), f)] a.
Proof.
  intros ND Hv. unfold override_sign.
  destruct (str_eqb_spec t ty_LND) as [->|N1].
  - cbn [andb]. apply text_LAD in Hv; [|right; reflexivity]. subst v.
    assert (forall k' w, k' <> n_lon -> settle k' w [((k, ty_LND), f)] = w) as Hs.
    { intros k' w N. unfold settle. destruct (str_eqb k' (u "lat")); [reflexivity|].
      destruct (str_eqb_spec k' (u "lon")) as [->|_]; [contradiction N; reflexivity|reflexivity]. }
    unfold has_key. destruct (lookup n_lon a) as [w|] eqn:L.
    + assert (settle n_lon w [((k, ty_LND), f)] =
              if numeric w then (if str_eqb f (u "W") then val_negabs w else val_abs w) else w) as Hw.
      { change (settle n_lon w [((k, ty_LND), f)]) with (with_sign (u "W") (Some f) w).
        unfold with_sign. destruct w as [| |x|[]| | | |]; cbn [numeric val_abs val_negabs val_of_bool]; try reflexivity;
          destruct (str_eqb f (u "W")); reflexivity. }
      destruct (numeric w) eqn:Nw.
      * rewrite <- Hw. apply (dict_set_map n_lon (fun k' w' => settle k' w' [((k, ty_LND), f)])); assumption.
      * symmetry. apply resign_id. intros k' w' Hin.
        destruct (str_eq_dec k' n_lon) as [->|N]; [|apply Hs, N].
        apply lookup_NoDup in Hin; [|exact ND]. replace w' with w by congruence. exact Hw.
    + cbn [andb]. replace (str_eqb ty_LND ty_LAD) with false by reflexivity. cbn [andb].
      symmetry. apply resign_id. intros k' w' Hin. apply Hs. intros ->.
      apply lookup_None in L. apply L. apply (in_map fst) in Hin. exact Hin.
  - cbn [andb]. destruct (str_eqb_spec t ty_LAD) as [->|N2].
    + cbn [andb]. apply text_LAD in Hv; [|left; reflexivity]. subst v.
      assert (forall k' w, k' <> n_lat -> settle k' w [((k, ty_LAD), f)] = w) as Hs.
      { intros k' w N. unfold settle.
        destruct (str_eqb_spec k' (u "lat")) as [->|_]; [contradiction N; reflexivity|].
        destruct (str_eqb k' (u "lon")); reflexivity. }
      unfold has_key. destruct (lookup n_lat a) as [w|] eqn:L.
      * assert (settle n_lat w [((k, ty_LAD), f)] =
              if numeric w then (if str_eqb f (u "S") then val_negabs w else val_abs w) else w) as Hw.
        { change (settle n_lat w [((k, ty_LAD), f)]) with (with_sign (u "S") (Some f) w).
          unfold with_sign. destruct w as [| |x|[]| | | |]; cbn [numeric val_abs val_negabs val_of_bool]; try reflexivity;
            destruct (str_eqb f (u "S")); reflexivity. }
        destruct (numeric w) eqn:Nw.
        -- rewrite <- Hw. apply (dict_set_map n_lat (fun k' w' => settle k' w' [((k, ty_LAD), f)])); assumption.
        -- symmetry. apply resign_id. intros k' w' Hin.
           destruct (str_eq_dec k' n_lat) as [->|N]; [|apply Hs, N].
           apply lookup_NoDup in Hin; [|exact ND]. replace w' with w by congruence. exact Hw.
      * symmetry. apply resign_id. intros k' w' Hin. apply Hs. intros ->.
        apply lookup_None in L. apply L. apply (in_map fst) in Hin. exact Hin.
    + cbn [andb]. symmetry. apply resign_id. intros k' w' _. unfold settle, last_of.
      apply str_eqb_neq in N1, N2. unfold ty_LND, ty_LAD in *. rewrite N1, N2.
      destruct (str_eqb k' (u "lat")), (str_eqb k' (u "lon")); reflexivity.
Qed.

Lemma skipn_nth {A} n (l : list A) x : nth_error l n = Some x -> skipn n l = x :: skipn (S n) l.
Proof. revert l; induction n as [|n IH]; intros [|y l]; cbn; intros E; try congruence. apply IH, E. Qed.

(* the attributes are the decoded slots *)
Lemma run_slots_decode c sl s s' :
  streams c (a_payload s) -> NoDup (map fst (a_attrs s) ++ map fst sl) -> run_slots c sl s = Ok s' ->
  let fs := skipn (a_pindex s) (a_payload s) in
  exists r, decode sl fs = Some r /\ a_attrs s' = resign (combine sl fs) (a_attrs s) ++ r.
Proof.
  revert s. induction sl as [|[k t] sl IH]; intros s St ND E; cbn in E.
  - injection E as <-. exists []. split; [reflexivity|]. cbn. rewrite resign_nil, app_nil_r. reflexivity.
  - apply bind_Ok in E as (s1 & E1 & E2). apply slot_stream in E1; [|exact St]. cbn [fst snd] in E1.
    destruct E1 as [[N ->]|(f & v & N & Hv & _ & ->)].
    + apply nth_error_None in N. rewrite skipn_all2 by exact N. cbv zeta.
      exists []. split; [reflexivity|].
      apply IH in E2; [|exact St|cbn in ND; apply NoDup_remove_1 in ND; exact ND].
      rewrite skipn_all2 in E2 by exact N. cbv zeta in E2. destruct E2 as (r & D & ->).
      cbn [combine]. destruct sl as [|[k0 t0] sl0]; cbn in D; injection D as <-; reflexivity.
    + cbv zeta. rewrite (skipn_nth _ _ _ N). cbn [decode combine]. rewrite Hv.
      assert (~ In k (map fst (a_attrs s))) as Nk.
      { cbn in ND. apply NoDup_remove_2 in ND. rewrite in_app_iff in ND. tauto. }
      assert (NoDup (map fst (dict_set k v (a_attrs s)))) as ND1.
      { rewrite dict_set_fresh, map_app by exact Nk. cbn.
        apply (NoDup_prefix _ (map fst sl)). rewrite <- app_assoc. exact ND. }
      rewrite (override_resign k t f v _ ND1 Hv) in E2.
      apply IH in E2; cbn [a_attrs a_payload a_pindex] in *.
      2:{ exact St. }
      2:{ unfold resign. rewrite map_map. cbn [fst]. rewrite dict_set_fresh, map_app by exact Nk.
          rewrite <- app_assoc. exact ND. }
      cbv zeta in E2. destruct E2 as (r & D & E3). rewrite D. eexists. split; [reflexivity|].
      rewrite E3, resign_cons, dict_set_fresh by exact Nk.
      unfold resign at 1. rewrite map_app. cbn [map fst snd]. rewrite <- app_assoc. cbn [app].
      rewrite <- settle_cons.
      match goal with |- context [settle k (settle k v ?l)] => assert (settle k v l = v) as Q end.
      2:{ rewrite Q. reflexivity. }
      unfold settle. cbn [last_of].
      destruct (str_eqb k (u "lat")).
      * destruct (str_eqb_spec t (u "LAD")) as [->|_]; [|reflexivity].
        apply text_LAD in Hv; [|left; reflexivity]. subst v. reflexivity.
      * destruct (str_eqb k (u "lon")); [|reflexivity].
        destruct (str_eqb_spec t (u "LND")) as [->|_]; [|reflexivity].
        apply text_LAD in Hv; [|right; reflexivity]. subst v. reflexivity.
Qed.

(* whole definitions *)
Lemma members_decode c d fields s' :
  well_formed d -> streams c fields ->
  set_members c d [] (mkast 0 [] fields) = Ok s' ->
  exists sl, expands d sl /\ layout (int_attr (a_attrs s')) (length fields) 0 d sl
             /\ decode sl fields = Some (a_attrs s') /\ a_payload s' = fields.
Proof.
  intros (Hf & Hu & Hp) St E.
  destruct (members_slots c d (mkast 0 [] fields) s' 0 Hf Hp St) as (sl & X1 & X2 & X3);
    [reflexivity|exact E|].
  pose proof (Hu sl X1) as ND.
  exists sl. split; [exact X1|]. split; [apply X3; exact ND|].
  destruct (run_slots_decode c sl (mkast 0 [] fields) s' St ND X2) as (r & D & A).
  cbn in D, A. rewrite A. split; [exact D|].
  apply (run_slots_payload c sl (mkast 0 [] fields) s' St X2).
Qed.

(* plain definitions *)
Lemma expands_plain d sl : plain d -> expands d sl -> sl = plain_slots d.
Proof.
  intros H E. induction E as [|k ty d sl _ IH|k n ms d sl cnt _ IH]; [reflexivity| |];
    inversion H as [|? ? [ty' E'] H']; subst; cbn in E'.
  - rewrite IH by exact H'. reflexivity.
  - discriminate.
Qed.
