(* Proofs about the construction of message objects. *)
From Verif Require Import Reader BaseLemmas TextLemmas NumLemmas Spec ParseProofs.
Local Open Scope Z_scope.

(* ----------------------------------------------- induction on definitions *)
Section AdefInd.
  Variable P : adef -> Prop.
  Hypothesis Hs : forall ty, P (ASingle ty).
  Hypothesis Hg : forall n ms, Forall (fun e => P (snd e)) ms -> P (AGroup n ms).
  Fixpoint adef_ind' (a : adef) : P a :=
    match a with
    | ASingle ty => Hs ty
    | AGroup n ms =>
        Hg n ms ((fix go (l : list (pystr * adef)) : Forall (fun e => P (snd e)) l :=
                    match l with
                    | [] => Forall_nil _
                    | e :: l' => Forall_cons e (adef_ind' (snd e)) (go l')
                    end) ms)
    end.
End AdefInd.

Lemma repeat_from_ext n i f g s :
  (forall i s, f i s = g i s) -> repeat_from n i f s = repeat_from n i g s.
Proof.
  intros H. revert i s. induction n as [|n IH]; intros i s; cbn; [reflexivity|].
  rewrite H. destruct (g i s); cbn; [apply IH|reflexivity].
Qed.

Lemma set_attribute_group c n ms key gi s :
  set_attribute c (AGroup n ms) key gi s =
  let! rng := group_count c n ms s in
  repeat_from (Z.to_nat rng) 1 (fun i s0 => set_members c ms (gi ++ [i]) s0) s.
Proof.
  cbn [set_attribute]. destruct (group_count c n ms s) as [rng|e]; cbn [bind]; [|reflexivity].
  apply repeat_from_ext. intros i s0. revert s0.
  induction ms as [|[k d] ms IH]; intros s0; [reflexivity|].
  cbn [set_members]. destruct (set_attribute c d k (gi ++ [i]) s0); cbn [bind]; [apply IH|reflexivity].
Qed.

(* whatever every single step preserves, the whole preserves *)
Section Invariant.
  Variable c : ctx.
  Variable P : ast -> ast -> Prop.
  Hypothesis Prefl : forall s, P s s.
  Hypothesis Ptrans : forall a b d, P a b -> P b d -> P a d.
  Hypothesis Pstep : forall att key gi s s', set_single c att key gi s = Ok s' -> P s s'.

  Lemma repeat_from_inv n i f s s' :
    (forall i s s', f i s = Ok s' -> P s s') -> repeat_from n i f s = Ok s' -> P s s'.
  Proof.
    intros H. revert i s. induction n as [|n IH]; intros i s; cbn; intros E.
    - injection E as <-. apply Prefl.
    - apply bind_Ok in E as (s1 & E1 & E2). eapply Ptrans; [eapply H, E1|eapply IH, E2].
  Qed.

  Lemma set_members_inv' ms gi s s' :
    Forall (fun e => forall key gi s s', set_attribute c (snd e) key gi s = Ok s' -> P s s') ms ->
    set_members c ms gi s = Ok s' -> P s s'.
  Proof.
    intros F. revert s. induction F as [|[k d] ms H _ IH]; intros s E; cbn in E.
    - injection E as <-. apply Prefl.
    - apply bind_Ok in E as (s1 & E1 & E2). eapply Ptrans; [eapply H, E1|eapply IH, E2].
  Qed.

  Lemma set_attribute_inv a : forall key gi s s', set_attribute c a key gi s = Ok s' -> P s s'.
  Proof.
    induction a as [ty|n ms IH] using adef_ind'; intros key gi s s' E.
    - eapply Pstep, E.
    - rewrite set_attribute_group in E. apply bind_Ok in E as (rng & _ & E).
      eapply repeat_from_inv; [|exact E]. intros i s1 s2 E1. eapply set_members_inv'; [exact IH|exact E1].
  Qed.
  Lemma set_members_inv d gi s s' : set_members c d gi s = Ok s' -> P s s'.
  Proof.
    apply set_members_inv'. apply Forall_forall. intros [k a] _. apply set_attribute_inv.
  Qed.
End Invariant.

(* which exceptions can come out *)
Section Exceptions.
  Variable c : ctx.
  Variable E : exc -> Prop.
  Hypothesis Estep : forall att key gi s e, set_single c att key gi s = Raise e -> E e.
  Hypothesis Ecount : forall n ms s e, group_count c n ms s = Raise e -> E e.

  Lemma repeat_from_exc n i f s e :
    (forall i s e, f i s = Raise e -> E e) -> repeat_from n i f s = Raise e -> E e.
  Proof.
    intros H. revert i s. induction n as [|n IH]; intros i s; cbn; intros R; [discriminate|].
    apply bind_Raise in R as [R|(s1 & _ & R)]; [eapply H, R|eapply IH, R].
  Qed.
  Lemma set_members_exc' ms gi s e :
    Forall (fun x => forall key gi s e, set_attribute c (snd x) key gi s = Raise e -> E e) ms ->
    set_members c ms gi s = Raise e -> E e.
  Proof.
    intros F. revert s. induction F as [|[k d] ms H _ IH]; intros s R; cbn in R; [discriminate|].
    apply bind_Raise in R as [R|(s1 & _ & R)]; [eapply H, R|eapply IH, R].
  Qed.
  Lemma set_attribute_exc a : forall key gi s e, set_attribute c a key gi s = Raise e -> E e.
  Proof.
    induction a as [ty|n ms IH] using adef_ind'; intros key gi s e R.
    - eapply Estep, R.
    - rewrite set_attribute_group in R. apply bind_Raise in R as [R|(rng & _ & R)]; [eapply Ecount, R|].
      eapply repeat_from_exc; [|exact R]. intros i s1 e1 R1. eapply set_members_exc'; [exact IH|exact R1].
  Qed.
  Lemma set_members_exc d gi s e : set_members c d gi s = Raise e -> E e.
  Proof.
    apply set_members_exc'. apply Forall_forall. intros [k a] _. apply set_attribute_exc.
  Qed.
End Exceptions.

(* two contexts that agree on single steps and counts agree *)
Section Congruence.
  Variables c c' : ctx.
  Hypothesis Hstep : forall att key gi s, set_single c att key gi s = set_single c' att key gi s.
  Hypothesis Hcount : forall n ms s, group_count c n ms s = group_count c' n ms s.

  Lemma set_members_congr' ms gi s :
    Forall (fun x => forall key gi s, set_attribute c (snd x) key gi s = set_attribute c' (snd x) key gi s) ms ->
    set_members c ms gi s = set_members c' ms gi s.
  Proof.
    intros F. revert s. induction F as [|[k d] ms H _ IH]; intros s; cbn; [reflexivity|].
    cbn in H. rewrite H. destruct (set_attribute c' d k gi s); cbn; [apply IH|reflexivity].
  Qed.
  Lemma set_attribute_congr a : forall key gi s, set_attribute c a key gi s = set_attribute c' a key gi s.
  Proof.
    induction a as [ty|n ms IH] using adef_ind'; intros key gi s.
    - apply Hstep.
    - rewrite !set_attribute_group, Hcount. destruct (group_count c' n ms s); cbn; [|reflexivity].
      apply repeat_from_ext. intros i s1. apply set_members_congr', IH.
  Qed.
  Lemma set_members_congr d gi s : set_members c d gi s = set_members c' d gi s.
  Proof. apply set_members_congr'. apply Forall_forall. intros [k a] _. apply set_attribute_congr. Qed.
End Congruence.

(* ------------------------------------------------------ streaming mode *)
Lemma remove_char_id x s : ~ In x s -> remove_char x s = s.
Proof.
  intros H. unfold remove_char. induction s as [|y s IH]; cbn; [reflexivity|].
  destruct (N.eqb_spec y x) as [->|N]; [exfalso; apply H; left; reflexivity|]. cbn.
  rewrite IH; [reflexivity|]. intros E. apply H. right. exact E.
Qed.
Lemma list_set_same {A} (l : list A) i v : nth_error l i = Some v -> list_set l i v = l.
Proof. revert i; induction l as [|x l IH]; intros [|i]; cbn; intros E; try congruence. rewrite IH by exact E. reflexivity. Qed.

Lemma identity_form talker msgID attrs i :
  identity_of talker msgID attrs = Ok i -> exists x, i = talker ++ msgID ++ x.
Proof.
  unfold identity_of. destruct (_ && _).
  - destruct (lookup _ attrs) as [[s| | | | | | |]|]; intros [= <-].
    + exists s. reflexivity.
    + exists []. rewrite app_nil_r. reflexivity.
  - intros [= <-]. exists []. rewrite app_nil_r. reflexivity.
Qed.

(* the payload field is used as it is *)
Lemma fetch_kept c s :
  kept_as_is (x_talker c) (x_msgID c) (a_payload s) ->
  fetch c s = let! _ := identity_of (x_talker c) (x_msgID c) (a_attrs s) in
              let! f := py_index (a_payload s) (a_pindex s) in Ok (a_payload s, f).
Proof.
  intros K. unfold fetch. destruct (identity_of _ _ _) as [i|e] eqn:I; cbn [bind]; [|reflexivity].
  unfold py_index. destruct (nth_error (a_payload s) (a_pindex s)) as [f|] eqn:F; cbn [bind]; [|reflexivity].
  destruct (str_eqb_spec i (u "PSSNSNC")) as [->|N]; [|reflexivity].
  destruct K as [K|K].
  - apply identity_form in I as (x & E). exfalso. eapply K. symmetry. exact E.
  - rewrite Forall_forall in K. specialize (K f (nth_error_In _ _ F)) as [K1 K2].
    rewrite (remove_char_id 91), (remove_char_id 93), list_set_same by assumption. reflexivity.
Qed.

Lemma single_payload_kept c att key gi s s' :
  x_streaming c = true -> kept_as_is (x_talker c) (x_msgID c) (a_payload s) ->
  set_single c att key gi s = Ok s' -> a_payload s' = a_payload s.
Proof.
  intros St K. unfold set_single. rewrite St. rewrite fetch_kept by exact K.
  destruct (identity_of _ _ _) as [i|e] eqn:I; cbn [bind].
  2:{ destruct e; try discriminate. intros [= <-]. reflexivity. }
  unfold py_index. destruct (nth_error (a_payload s) (a_pindex s)) as [f|] eqn:F; cbn [bind].
  2:{ intros [= <-]. reflexivity. }
  intros H. apply bind_Ok in H as (v & _ & H). apply bind_Ok in H as (s1 & H1 & [= <-]).
  unfold setattr in H1. destruct (str_in _ _); [discriminate|]. injection H1 as <-. reflexivity.
Qed.

Lemma members_payload_kept c d gi s s' :
  x_streaming c = true -> kept_as_is (x_talker c) (x_msgID c) (a_payload s) ->
  set_members c d gi s = Ok s' -> a_payload s' = a_payload s.
Proof.
  intros St K H.
  assert (kept_as_is (x_talker c) (x_msgID c) (a_payload s) -> a_payload s' = a_payload s) as G; [|exact (G K)].
  revert H. apply (set_members_inv c (fun s s' => kept_as_is (x_talker c) (x_msgID c) (a_payload s) -> a_payload s' = a_payload s)).
  - reflexivity.
  - intros a b e H1 H2 Ka. rewrite H2, H1; [reflexivity|exact Ka|]. rewrite H1; exact Ka.
  - intros att key gi0 s0 s1 E Ka. eapply single_payload_kept; eassumption.
Qed.

(* clock, high precision flag and keywords play no part in streaming mode *)
Definition set_clock (c : ctx) (k : clock) : ctx :=
  mkctx (x_talker c) (x_msgID c) (x_mode c) (x_hp c) (x_validate c) (x_userdefined c)
        (x_defsource c) (x_streaming c) (x_kwargs c) k.
Lemma streaming_clock c k d gi s :
  x_streaming c = true -> set_members c d gi s = set_members (set_clock c k) d gi s.
Proof.
  intros St. apply set_members_congr.
  - intros att key gi0 s0. unfold set_single. cbn. rewrite St. reflexivity.
  - intros n ms s0. unfold group_count. destruct n; [reflexivity|]. cbn. rewrite St. reflexivity.
Qed.

(* ------------------------------------------------- exceptions, streaming *)
Definition caught (e : exc) : Prop :=
  e = ValueError \/ e = NMEATypeError \/ e = AttributeError \/ e = TypeError \/ e = ZeroDivisionError.

Lemma int_of_str_exc s e : int_of_str s = Raise e -> e = ValueError.
Proof.
  unfold int_of_str. destruct (split_sign _) as [neg r]. destruct (us_digits _ _ _); [|congruence].
  destruct (_ <? _)%N; congruence.
Qed.
Lemma float_of_str_exc s e : float_of_str s = Raise e -> e = ValueError.
Proof.
  unfold float_of_str. destruct (us_ok _ _); [|congruence].
  destruct (split_sign _) as [neg r]. destruct (parse_unsigned _ _); congruence.
Qed.
Lemma str2val_exc f t e : str2val f t = Raise e -> e = ValueError \/ e = NMEATypeError.
Proof.
  unfold str2val. repeat match goal with |- context [if ?b then _ else _] => destruct b end; try discriminate;
    intros H; try (right; congruence); left.
  - apply bind_Raise in H as [H|(x & _ & H)]; [|discriminate].
    eapply float_of_str_exc, H.
  - apply bind_Raise in H as [H|(x & _ & H)]; [|discriminate].
    eapply int_of_str_exc, H.
Qed.

Lemma identity_of_exc t m a e : identity_of t m a = Raise e -> e = TypeError.
Proof.
  unfold identity_of. destruct (_ && _); [|discriminate].
  destruct (lookup _ a) as [[s| | | | | | |]|]; congruence.
Qed.

Lemma single_exc c att key gi s e :
  x_streaming c = true -> set_single c att key gi s = Raise e -> caught e.
Proof.
  intros St. unfold set_single. rewrite St. unfold caught.
  destruct (fetch c s) as [[pl f]|e1] eqn:F.
  - intros H. apply bind_Raise in H as [H|(v & _ & H)].
    + apply str2val_exc in H. tauto.
    + apply bind_Raise in H as [H|(s1 & _ & H)]; [|discriminate].
      unfold setattr in H. destruct (str_in _ _); [|discriminate]. injection H as <-. tauto.
  - unfold fetch in F. apply bind_Raise in F as [F|(i & _ & F)].
    + apply identity_of_exc in F. subst. intros [= <-]. tauto.
    + apply bind_Raise in F as [F|(f & _ & F)].
      * unfold py_index in F. destruct (nth_error _ _); [discriminate|]. injection F as <-. discriminate.
      * destruct (str_eqb _ _); discriminate.
Qed.

Lemma count_exc c n ms s e :
  x_streaming c = true -> group_count c n ms s = Raise e ->
  e = AttributeError \/ e = TypeError \/ (e = ZeroDivisionError /\ ms = []).
Proof.
  intros St. unfold group_count. destruct n as [z|name]; [discriminate|].
  rewrite St. destruct (str_eqb name _).
  - unfold calc_num_repeats. destruct ms; [|discriminate]. intros [= <-]. tauto.
  - unfold getattr_num. destruct (str_eqb _ _); [discriminate|].
    destruct (lookup name (a_attrs s)) as [[]|]; try (intros [= <-]; tauto); try discriminate.
    repeat (destruct (str_eqb _ _); [discriminate|]). intros [= <-]. tauto.
Qed.

Lemma members_exc c d gi s e :
  x_streaming c = true -> set_members c d gi s = Raise e -> caught e.
Proof.
  intros St. apply set_members_exc.
  - intros att key gi0 s0 e0. apply single_exc, St.
  - intros n ms s0 e0 H. apply count_exc in H; [|exact St]. unfold caught. tauto.
Qed.

(* definitions without empty groups, at any depth *)


Lemma attribute_zero c a : 
  x_streaming c = true -> no_empty_group a ->
  forall key gi s, set_attribute c a key gi s <> Raise ZeroDivisionError.
Proof.
  intros St. induction a as [ty|n ms IH] using adef_ind'; intros Hn key gi s R.
  - cbn in R. unfold set_single in R. rewrite St in R.
    destruct (fetch c s) as [[pl f]|e1] eqn:F.
    + apply bind_Raise in R as [R|(v & _ & R)].
      * apply str2val_exc in R. destruct R; discriminate.
      * apply bind_Raise in R as [R|(s1 & _ & R)]; [|discriminate].
        unfold setattr in R. destruct (str_in _ _); discriminate.
    + unfold fetch in F. apply bind_Raise in F as [F|(i & _ & F)].
      * apply identity_of_exc in F. subst. discriminate.
      * apply bind_Raise in F as [F|(f & _ & F)].
        -- unfold py_index in F. destruct (nth_error _ _); [discriminate|]. injection F as <-. discriminate.
        -- destruct (str_eqb _ _); discriminate.
  - inversion Hn as [|? ? Hne Hall]; subst. rewrite set_attribute_group in R.
    apply bind_Raise in R as [R|(rng & _ & R)].
    + apply count_exc in R as [R|[R|[_ R]]]; [discriminate|discriminate|contradiction|exact St].
    + revert R. generalize (Z.to_nat rng) as k. generalize 1%N as i. intros i k. revert i s.
      induction k as [|k IHk]; intros i s; cbn; [discriminate|].
      intros R. apply bind_Raise in R as [R|(s1 & _ & R)]; [|eapply IHk, R].
      clear -IH Hall R. revert s R. generalize (gi ++ [i]). intros gj.
      induction ms as [|[k d] ms IHm]; intros s; cbn; [discriminate|].
      inversion IH; subst. inversion Hall; subst.
      intros R. apply bind_Raise in R as [R|(s1 & _ & R)]; [|eapply IHm; eassumption].
      eapply H1; [exact H3|exact R].
Qed.
Lemma members_zero c d :
  x_streaming c = true -> Forall (fun e => no_empty_group (snd e)) d ->
  forall gi s, set_members c d gi s <> Raise ZeroDivisionError.
Proof.
  intros St H gi s. revert s. induction H as [|[k a] d H _ IH]; intros s; cbn; [discriminate|].
  intros R. apply bind_Raise in R as [R|(s1 & _ & R)]; [|eapply IH, R].
  eapply attribute_zero; [exact St|exact H|exact R].
Qed.
