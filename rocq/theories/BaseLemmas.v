(* Lemmas about the Python base layer. *)
From Verif Require Import PyBase.
From Coq Require Export ZifyBool ZifyNat ZifyN.
Ltac Zify.zify_post_hook ::= Z.div_mod_to_equations.
Global Arguments N.pow : simpl never.
Global Arguments Z.pow : simpl never.
Local Open Scope N_scope.

Lemma str_eqb_refl a : str_eqb a a = true.
Proof. induction a as [|x a IH]; cbn; [reflexivity|]. rewrite N.eqb_refl, IH. reflexivity. Qed.

Lemma str_eqb_eq a b : str_eqb a b = true <-> a = b.
Proof.
  split; [|intros ->; apply str_eqb_refl].
  revert b; induction a as [|x a IH]; intros [|y b]; cbn; intros H; try congruence.
  apply andb_true_iff in H as [H1 H2]. apply N.eqb_eq in H1. subst y.
  f_equal. apply IH, H2.
Qed.

Lemma str_eqb_neq a b : str_eqb a b = false <-> a <> b.
Proof.
  split; intros H.
  - intros E. apply str_eqb_eq in E. congruence.
  - destruct (str_eqb a b) eqn:E; [|reflexivity]. apply str_eqb_eq in E. contradiction.
Qed.

Lemma str_eqb_spec a b : reflect (a = b) (str_eqb a b).
Proof.
  destruct (str_eqb a b) eqn:E; constructor.
  - apply str_eqb_eq, E.
  - apply str_eqb_neq, E.
Qed.

Lemma str_eqb_sym a b : str_eqb a b = str_eqb b a.
Proof.
  destruct (str_eqb_spec a b) as [->|H].
  - rewrite str_eqb_refl. reflexivity.
  - symmetry. apply str_eqb_neq. congruence.
Qed.

Lemma str_eq_dec (a b : pystr) : {a = b} + {a <> b}.
Proof. destruct (str_eqb_spec a b); [left|right]; assumption. Qed.

Lemma str_in_iff x l : str_in x l = true <-> In x l.
Proof.
  unfold str_in. rewrite existsb_exists. split.
  - intros (y & Hy & E). apply str_eqb_eq in E. subst. exact Hy.
  - intros H. exists x. split; [exact H|apply str_eqb_refl].
Qed.

Lemma memc_iff c l : memc c l = true <-> In c l.
Proof.
  unfold memc. rewrite existsb_exists. split.
  - intros (y & Hy & E). apply N.eqb_eq in E. subst. exact Hy.
  - intros H. exists c. split; [exact H|apply N.eqb_refl].
Qed.
Lemma memc_false c l : memc c l = false <-> ~ In c l.
Proof. rewrite <- memc_iff. destruct (memc c l); split; congruence. Qed.

(* dictionaries *)
Lemma lookup_In {A} k (d : list (pystr * A)) v : lookup k d = Some v -> In (k, v) d.
Proof.
  induction d as [|[k' v'] d IH]; cbn; [congruence|].
  destruct (str_eqb_spec k k') as [->|N].
  - intros [= ->]. left. reflexivity.
  - intros H. right. apply IH, H.
Qed.

Lemma lookup_None {A} k (d : list (pystr * A)) : lookup k d = None <-> ~ In k (map fst d).
Proof.
  induction d as [|[k' v'] d IH]; cbn; [tauto|].
  destruct (str_eqb_spec k k') as [->|N].
  - split; [congruence|]. intros H. exfalso. apply H. left. reflexivity.
  - rewrite IH. split; [intros H [E|E]|intros H E]; [congruence|tauto|tauto].
Qed.

Lemma lookup_Some_key {A} k (d : list (pystr * A)) v : lookup k d = Some v -> In k (map fst d).
Proof. intros H. apply lookup_In in H. apply (in_map fst) in H. exact H. Qed.

Lemma In_lookup {A} k (d : list (pystr * A)) : In k (map fst d) -> exists v, lookup k d = Some v.
Proof.
  intros H. destruct (lookup k d) as [v|] eqn:E; [exists v; reflexivity|].
  apply lookup_None in E. contradiction.
Qed.

Lemma lookup_NoDup {A} k v (d : list (pystr * A)) :
  NoDup (map fst d) -> In (k, v) d -> lookup k d = Some v.
Proof.
  induction d as [|[k' v'] d IH]; cbn; intros ND H; [contradiction|].
  inversion ND as [|? ? Hn ND']; subst.
  destruct H as [[= -> ->]|H]; [rewrite str_eqb_refl; reflexivity|].
  destruct (str_eqb_spec k k') as [->|N]; [|apply IH; assumption].
  exfalso. apply Hn. apply (in_map fst) in H. exact H.
Qed.

Lemma has_key_iff {A} k (d : list (pystr * A)) : has_key k d = true <-> In k (map fst d).
Proof.
  unfold has_key. destruct (lookup k d) eqn:E.
  - split; [intros _|reflexivity]. eapply lookup_Some_key, E.
  - split; [congruence|]. intros H. apply lookup_None in E. contradiction.
Qed.

Lemma dict_set_fresh {A} k (v : A) d : ~ In k (map fst d) -> dict_set k v d = d ++ [(k, v)].
Proof.
  induction d as [|[k' v'] d IH]; cbn; intros H; [reflexivity|].
  destruct (str_eqb_spec k k') as [->|N]; [exfalso; apply H; left; reflexivity|].
  rewrite IH; tauto.
Qed.

Lemma dict_set_keys {A} k (v : A) d : In k (map fst d) -> map fst (dict_set k v d) = map fst d.
Proof.
  induction d as [|[k' v'] d IH]; cbn; intros H; [contradiction|].
  destruct (str_eqb_spec k k') as [->|N]; cbn; [reflexivity|].
  rewrite IH; [reflexivity|]. destruct H; [congruence|assumption].
Qed.

Lemma lookup_dict_set_same {A} k (v : A) d : lookup k (dict_set k v d) = Some v.
Proof.
  induction d as [|[k' v'] d IH]; cbn; [rewrite str_eqb_refl; reflexivity|].
  destruct (str_eqb_spec k k') as [->|N]; cbn.
  - rewrite str_eqb_refl. reflexivity.
  - destruct (str_eqb_spec k k'); [contradiction|]. exact IH.
Qed.

Lemma lookup_dict_set_other {A} k k0 (v : A) d : k0 <> k -> lookup k0 (dict_set k v d) = lookup k0 d.
Proof.
  intros N. induction d as [|[k' v'] d IH]; cbn.
  - destruct (str_eqb_spec k0 k); [contradiction|reflexivity].
  - destruct (str_eqb_spec k k') as [->|N']; cbn.
    + destruct (str_eqb_spec k0 k'); [contradiction|reflexivity].
    + rewrite IH. reflexivity.
Qed.

(* split / join *)
Lemma split_all_nonempty c s : split_all c s <> [].
Proof.
  destruct s as [|x s]; cbn; [congruence|].
  destruct (x =? c); [congruence|]. destruct (split_all c s); congruence.
Qed.

Lemma split_all_no_sep c s : ~ In c s -> split_all c s = [s].
Proof.
  induction s as [|x s IH]; cbn; intros H; [reflexivity|].
  destruct (N.eqb_spec x c) as [->|N]; [exfalso; apply H; left; reflexivity|].
  rewrite IH by tauto. reflexivity.
Qed.

Lemma split_all_app c a s : ~ In c a -> split_all c (a ++ c :: s) = a :: split_all c s.
Proof.
  induction a as [|x a IH]; cbn; intros H.
  - rewrite N.eqb_refl. reflexivity.
  - destruct (N.eqb_spec x c) as [->|N]; [exfalso; apply H; left; reflexivity|].
    rewrite IH by tauto. reflexivity.
Qed.

(* the parts contain no separator, and concatenated with it give the text back *)
Lemma split_all_parts c s : Forall (fun p => ~ In c p) (split_all c s).
Proof.
  induction s as [|x s IH]; cbn.
  - constructor; [intros []|constructor].
  - destruct (N.eqb_spec x c) as [->|N].
    + constructor; [intros []|exact IH].
    + destruct (split_all c s) as [|p ps].
      * constructor; [|constructor]. intros [E|[]]. congruence.
      * inversion IH as [|? ? H1 H2]; subst. constructor; [|exact H2].
        intros [E|E]; [congruence|contradiction].
Qed.

Lemma split_all_rebuild c s h t :
  split_all c s = h :: t -> s = h ++ flat_map (fun f => c :: f) t.
Proof.
  revert h t; induction s as [|x s IH]; cbn; intros h t H.
  - injection H as <- <-. reflexivity.
  - destruct (N.eqb_spec x c) as [->|N].
    + injection H as <- <-. destruct (split_all c s) as [|p ps] eqn:E; [exfalso; eapply split_all_nonempty, E|].
      cbn. f_equal. apply IH. reflexivity.
    + destruct (split_all c s) as [|p ps] eqn:E; [exfalso; eapply split_all_nonempty, E|].
      injection H as <- <-. cbn. f_equal. apply IH. reflexivity.
Qed.

Lemma split_all_build c h t :
  ~ In c h -> Forall (fun p => ~ In c p) t ->
  split_all c (h ++ flat_map (fun f => c :: f) t) = h :: t.
Proof.
  intros Hh Ht. revert h Hh. induction t as [|f t IH]; intros h Hh; cbn.
  - rewrite app_nil_r. apply split_all_no_sep, Hh.
  - inversion Ht as [|? ? H1 H2]; subst. rewrite split_all_app by exact Hh.
    rewrite IH by assumption. reflexivity.
Qed.

Lemma split_first_None c s : split_first c s = None <-> ~ In c s.
Proof.
  induction s as [|x s IH]; cbn; [tauto|].
  destruct (N.eqb_spec x c) as [->|N].
  - split; [congruence|]. intros H. exfalso. apply H. left. reflexivity.
  - destruct (split_first c s) as [[a b]|].
    + split; [congruence|]. intros H. exfalso.
      assert (~ In c s) as H' by tauto. apply IH in H'. congruence.
    + split; [|reflexivity]. intros _ [E|E]; [congruence|]. apply IH in E; [exact E|reflexivity].
Qed.

Lemma split_first_Some c s a b : split_first c s = Some (a, b) <-> s = a ++ c :: b /\ ~ In c a.
Proof.
  split.
  - revert a b; induction s as [|x s IH]; cbn; intros a b H; [congruence|].
    destruct (N.eqb_spec x c) as [->|N].
    + injection H as <- <-. split; [reflexivity|intros []].
    + destruct (split_first c s) as [[a' b']|]; [|congruence].
      injection H as <- <-. destruct (IH _ _ eq_refl) as [-> Ha].
      split; [reflexivity|]. intros [E|E]; [congruence|contradiction].
  - intros [-> Ha]. induction a as [|x a IH]; cbn.
    + rewrite N.eqb_refl. reflexivity.
    + destruct (N.eqb_spec x c) as [->|N]; [exfalso; apply Ha; left; reflexivity|].
      rewrite IH; [reflexivity|]. intros H; apply Ha; right; exact H.
Qed.

(* strip *)
Lemma lstrip_if_spec p s :
  exists pre, s = pre ++ lstrip_if p s /\ forallb p pre = true
              /\ match lstrip_if p s with [] => True | x :: _ => p x = false end.
Proof.
  induction s as [|x s (pre & E & H1 & H2)]; cbn.
  - exists []. repeat split.
  - destruct (p x) eqn:Px.
    + exists (x :: pre). cbn. rewrite Px. split; [congruence|]. split; assumption.
    + exists []. repeat split. exact Px.
Qed.

Lemma lstrip_if_id p s : match s with [] => True | x :: _ => p x = false end -> lstrip_if p s = s.
Proof. destruct s as [|x s]; cbn; intros H; [reflexivity|]. rewrite H. reflexivity. Qed.

Lemma lstrip_if_app p pre s : forallb p pre = true -> lstrip_if p (pre ++ s) = lstrip_if p s.
Proof.
  induction pre as [|x pre IH]; cbn; intros H; [reflexivity|].
  apply andb_true_iff in H as [H1 H2]. rewrite H1. apply IH, H2.
Qed.

Lemma forallb_rev {A} (p : A -> bool) l : forallb p (rev l) = forallb p l.
Proof.
  induction l as [|x l IH]; cbn; [reflexivity|].
  rewrite forallb_app, IH. cbn. rewrite andb_true_r. apply andb_comm.
Qed.

(* the stripped text: s = pre ++ strip s ++ post, pre and post made of stripped
   characters, and the middle does not start or end with one *)
Definition clean_ends (p : N -> bool) (s : pystr) : Prop :=
  match s with [] => True | x :: _ => p x = false end
  /\ match rev s with [] => True | x :: _ => p x = false end.

Lemma rstrip_if_spec p s :
  exists post, s = rstrip_if p s ++ post /\ forallb p post = true
               /\ match rev (rstrip_if p s) with [] => True | x :: _ => p x = false end.
Proof.
  unfold rstrip_if. destruct (lstrip_if_spec p (rev s)) as (pre & E & H1 & H2).
  exists (rev pre). rewrite <- rev_app_distr, <- E, rev_involutive, rev_involutive, forallb_rev.
  repeat split; assumption.
Qed.

Lemma strip_if_spec p s :
  exists pre post, s = pre ++ strip_if p s ++ post /\ forallb p pre = true /\ forallb p post = true
                   /\ clean_ends p (strip_if p s).
Proof.
  unfold strip_if. destruct (lstrip_if_spec p s) as (pre & E & H1 & H2).
  destruct (rstrip_if_spec p (lstrip_if p s)) as (post & E' & H1' & H2').
  exists pre, post. split; [rewrite <- E'; exact E|]. split; [exact H1|]. split; [exact H1'|].
  split; [|exact H2'].
  destruct (rstrip_if p (lstrip_if p s)) as [|x r] eqn:R; [exact I|].
  rewrite E' in H2. cbn in H2. exact H2.
Qed.

Lemma strip_if_wrap p pre mid post :
  forallb p pre = true -> forallb p post = true -> clean_ends p mid -> mid <> [] ->
  strip_if p (pre ++ mid ++ post) = mid.
Proof.
  intros H1 H2 [C1 C2] N. unfold strip_if. rewrite lstrip_if_app by exact H1.
  destruct mid as [|x mid]; [congruence|].
  rewrite (lstrip_if_id p ((x :: mid) ++ post)) by exact C1.
  unfold rstrip_if. rewrite rev_app_distr, lstrip_if_app by (rewrite forallb_rev; exact H2).
  rewrite (lstrip_if_id p (rev (x :: mid))) by exact C2. apply rev_involutive.
Qed.

Lemma strip_if_all p s : forallb p s = true -> strip_if p s = [].
Proof.
  intros H. unfold strip_if. replace (lstrip_if p s) with (@nil N); [reflexivity|].
  induction s as [|x s IH]; cbn in *; [reflexivity|].
  apply andb_true_iff in H as [H1 H2]. rewrite H1. apply IH, H2.
Qed.

Lemma strip_if_idem p s : clean_ends p s -> strip_if p s = s.
Proof.
  intros C. destruct s as [|x s]; [reflexivity|].
  pose proof (strip_if_wrap p [] (x :: s) [] eq_refl eq_refl C) as H. cbn [app] in H.
  rewrite app_nil_r in H. apply H. congruence.
Qed.

(* results *)
Lemma bind_Ok {A B} (r : result A) (f : A -> result B) b :
  bind r f = Ok b <-> exists a, r = Ok a /\ f a = Ok b.
Proof.
  destruct r as [a|e]; cbn; split.
  - intros H. exists a. split; [reflexivity|exact H].
  - intros (a' & [= <-] & H). exact H.
  - discriminate.
  - intros (a & H & _). discriminate.
Qed.
Lemma bind_Raise {A B} (r : result A) (f : A -> result B) e :
  bind r f = Raise e <-> r = Raise e \/ exists a, r = Ok a /\ f a = Raise e.
Proof.
  destruct r as [a|e']; cbn; split.
  - intros H. right. exists a. split; [reflexivity|exact H].
  - intros [H|(a' & [= <-] & H)]; [discriminate|exact H].
  - intros [= ->]. left. reflexivity.
  - intros [[= ->]|(a & H & _)]; [reflexivity|discriminate].
Qed.

Lemma flat_map_fold {A} (l : list A) (sep : pystr) (f : A -> pystr) acc :
  fold_left (fun o x => o ++ sep ++ f x) l acc = acc ++ flat_map (fun x => sep ++ f x) l.
Proof.
  revert acc; induction l as [|x l IH]; intros acc; cbn; [rewrite app_nil_r; reflexivity|].
  rewrite IH, <- !app_assoc. reflexivity.
Qed.

Lemma list_set_length {A} (l : list A) i v : length (list_set l i v) = length l.
Proof. revert i; induction l as [|x l IH]; intros [|i]; cbn; [reflexivity..|]. rewrite IH. reflexivity. Qed.

Lemma zfill_length n s : length (zfill n s) = Nat.max n (length s).
Proof. unfold zfill. rewrite app_length, repeat_length. lia. Qed.
