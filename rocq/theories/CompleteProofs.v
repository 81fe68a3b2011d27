(* Decoding succeeds on every payload that can be laid out and converted. *)
From Verif Require Import Message Reader BaseLemmas TextLemmas NumLemmas Spec ParseProofs MessageProofs
  SelectProofs DecodeProofs TableProofs StreamProofs KeywordSpec.
Local Open Scope Z_scope.

Fixpoint counts_earlierb (earlier : list slot) (d : pdict) : bool :=
  match d with
  | [] => true
  | (k, ASingle ty) :: d' => counts_earlierb (earlier ++ [(k, ty)]) d'
  | (_, AGroup (NStr name) _) :: d' =>
      (str_eqb name (u "None") || existsb (fun s => str_eqb name (fst s) && str_eqb (u "IN") (snd s)) earlier)
      && counts_earlierb earlier d'
  | (_, AGroup (NInt _) _) :: d' => counts_earlierb earlier d'
  end.
Lemma counts_earlierb_ok e d : counts_earlierb e d = true -> counts_earlier e d.
Proof.
  revert e. induction d as [|[k [ty|[z|name] ms]] d IH]; intros e H; cbn [counts_earlierb counts_earlier] in *; [exact I|apply IH, H|apply IH, H|].
  apply andb_true_iff in H as [H1 H2]. split; [|apply IH, H2].
  apply orb_true_iff in H1 as [H1|H1]; [left; apply str_eqb_eq, H1|right].
  apply existsb_exists in H1 as ([a b] & Hin & H). apply andb_true_iff in H as [Ha Hb].
  apply str_eqb_eq in Ha, Hb. cbn [fst snd] in Ha, Hb. subst. exact Hin.
Qed.
Fixpoint short_tailb (d : pdict) : bool :=
  match d with
  | [] => true
  | (_, AGroup (NStr name) ms) :: d' =>
      (negb (str_eqb name (u "None")) || (plainb d' && (length d' <? length ms)%nat)) && short_tailb d'
  | _ :: d' => short_tailb d'
  end.
Lemma short_tailb_ok d : short_tailb d = true -> short_tail d.
Proof.
  induction d as [|[k [ty|[z|name] ms]] d IH]; intros H; cbn [short_tailb short_tail] in *; [exact I|apply IH, H|apply IH, H|].
  apply andb_true_iff in H as [H1 H2]. split; [|apply IH, H2]. intros ->.
  rewrite str_eqb_refl in H1. cbn in H1. apply andb_true_iff in H1 as [H1 H3].
  split; [apply plainb_ok, H1|apply Nat.ltb_lt, H3].
Qed.

Lemma builtin_counts : forallb (fun e => counts_earlierb [] (snd e) && short_tailb (snd e)) builtin_definitions = true.
Proof. vm_compute. reflexivity. Qed.
Lemma builtin_in_order k d : In (k, d) builtin_definitions -> in_order d.
Proof.
  intros H. pose proof builtin_counts as B. rewrite forallb_forall in B. pose proof (B _ H) as B'. cbn [snd] in B'.
  apply andb_true_iff in B' as [B1 B2].
  split; [apply (builtin_well_formed k d H)|]. split; [apply (builtin_no_clash k d H)|].
  split; [apply counts_earlierb_ok, B1|apply short_tailb_ok, B2].
Qed.

(* the layout leads the decoder *)
Lemma members_layout c d : forall sl earlier s s' pos,
  flat d -> public_counts d -> counts_earlier earlier d -> streams c (a_payload s) ->
  a_pindex s = Nat.min pos (length (a_payload s)) ->
  NoDup (map fst earlier ++ map fst sl) ->
  layout (int_attr (a_attrs s')) (length (a_payload s)) pos d sl ->
  run_slots c sl s = Ok s' ->
  set_members c d [] s = Ok s'.
Proof.
  induction d as [|[k a] d IH]; intros sl earlier s s' pos Fl P C St Hx ND L R.
  - inversion L; subst. exact R.
  - inversion Fl as [|? ? F1 F2]; subst. inversion P as [|? ? P1 P2]; subst. cbn [snd] in F1, P1.
    inversion L as [|? ? ty ? sl' L'|? ? n ms ? sl' cnt Rp L']; subst.
    + cbn [set_members set_attribute]. rewrite set_single_slot. cbn [suffix flat_map]. rewrite app_nil_r.
      cbn [run_slots] in R. apply bind_Ok in R as (s1 & E1 & E2).
      assert (run_slots c [(k, ty)] s = Ok s1) as R1 by (cbn [run_slots]; rewrite E1; reflexivity).
      assert (a_payload s1 = a_payload s) as Pl by (eapply run_slots_payload; eassumption).
      pose proof (run_slots_pindex c [(k, ty)] s s1 St ltac:(lia) R1) as Px. cbn [length] in Px.
      rewrite E1. cbn [bind]. cbn [counts_earlier] in C.
      apply (IH sl' (earlier ++ [(k, ty)]) s1 s' (S pos)); try assumption.
      * rewrite Pl. exact St.
      * rewrite Pl. lia.
      * rewrite map_app, <- app_assoc. exact ND.
      * rewrite Pl. exact L'.
    + destruct F1 as [Pm Ne]. cbn [set_members]. rewrite set_attribute_group.
      rewrite run_slots_app in R. apply bind_Ok in R as (s1 & R1 & R2).
      assert (a_payload s1 = a_payload s) as Pl by (eapply run_slots_payload; eassumption).
      pose proof (run_slots_pindex c _ s s1 St ltac:(lia) R1) as Px.
      rewrite group_slots_length in Px by exact Pm.
      assert (exists rng, group_count c n ms s = Ok rng /\ cnt = Z.to_nat rng) as (rng & Ec & ->).
      { unfold repeats in Rp. unfold group_count. destruct n as [z|name]; [exists z; split; [reflexivity|exact Rp]|].
        destruct St as [St K]. rewrite St. destruct (str_eqb_spec name (u "None")) as [->|Nn].
        - unfold calc_num_repeats. destruct ms as [|m0 ms0]; [contradiction Ne; reflexivity|].
          eexists. split; [reflexivity|]. rewrite Rp.
          set (Ln := length (m0 :: ms0)) in *.
          assert (0 < Z.of_nat Ln) by (subst Ln; cbn; lia).
          rewrite Z.quot_div_nonneg by lia.
          rewrite <- Nat2Z.inj_sub by lia. rewrite <- Nat2Z.inj_div, Nat2Z.id. f_equal. lia.
        - destruct Rp as (z & Hv & ->). cbn [counts_earlier] in C.
          destruct C as [[->|Cin] _]; [congruence|].
          destruct P1 as [->|(M1 & M2 & M3 & M4)]; [congruence|].
          assert (lookup name (a_attrs s') = lookup name (a_attrs s)) as Lk.
          { apply (run_slots_lookup c (group_slots (Z.to_nat z) 1 ms ++ sl') s s' name).
            - split; assumption.
            - rewrite run_slots_app, R1. exact R2.
            - intros H. apply (in_map fst) in Cin. cbn [fst] in Cin.
              apply in_split in Cin as (l1 & l2 & Cin). rewrite Cin, <- app_assoc in ND. cbn in ND.
              apply NoDup_remove_2 in ND. apply ND. rewrite !in_app_iff. tauto.
            - exact M2.
            - exact M3. }
          unfold int_attr in Hv. rewrite Lk in Hv. unfold getattr_num.
          apply str_eqb_neq in M1. rewrite M1.
          destruct (lookup name (a_attrs s)) as [[| z'| |b| | | |]|]; try discriminate; injection Hv as <-;
            eexists; (split; [reflexivity|reflexivity]). }
      rewrite Ec. cbn [bind]. rewrite repeat_group by exact Pm. rewrite R1. cbn [bind].
      apply (IH sl' (earlier ++ group_slots (Z.to_nat rng) 1 ms) s1 s' (pos + Z.to_nat rng * length ms)%nat); try assumption.
      * assert (forall d e e', incl e e' -> counts_earlier e d -> counts_earlier e' d) as Mono.
        { clear. induction d as [|[k [ty|[z|name] ms]] d IH]; intros e e' I H; cbn in *; try exact Logic.I.
          - eapply IH; [|exact H]. intros x Hx. apply in_app_or in Hx. apply in_or_app.
            destruct Hx; [left; apply I; assumption|right; assumption].
          - eapply IH; eassumption.
          - destruct H as [[->|H] H']; (split; [|eapply IH; eassumption]); [left; reflexivity|right; apply I, H]. }
        apply (Mono d earlier); [intros x0 Hx0; apply in_or_app; left; exact Hx0|].
        destruct n; cbn in C; [exact C|apply C].
      * rewrite Pl. exact St.
      * rewrite Pl. lia.
      * rewrite map_app, <- app_assoc, <- map_app. exact ND.
      * rewrite Pl. exact L'.
Qed.

(* a definition in good order: decoding succeeds exactly when the payload can be laid out and converted *)
Lemma members_iff c d fields attrs :
  in_order d -> streams c fields ->
  (exists s, set_members c d [] (mkast 0 [] fields) = Ok s /\ a_attrs s = attrs /\ a_payload s = fields)
  <-> decoded_by d fields attrs.
Proof.
  intros (W & N & C & _) St. split.
  - intros (s & E & <- & _). destruct (members_decode c d fields s W St E) as (sl & _ & L & D & _).
    exists sl. split; assumption.
  - intros (sl & L & D). pose proof (layout_expands _ _ _ _ _ L) as X.
    destruct (run_slots_complete c sl (mkast 0 [] fields) attrs St D (N _ X) I) as (s & E).
    destruct W as (Fl & U & P). pose proof (U sl X) as ND.
    destruct (run_slots_decode c sl (mkast 0 [] fields) s St ND E) as (r & D' & A). cbn in D', A.
    cbn [skipn] in D'. rewrite D in D'. injection D' as <-.
    pose proof (run_slots_payload c sl (mkast 0 [] fields) s St E) as Pl. cbn [a_payload] in Pl.
    exists s. split; [|split; assumption].
    eapply (members_layout c d sl [] _ s 0%nat); try eassumption; [reflexivity|]. cbn [a_payload]. rewrite A. exact L.
Qed.
