(* C92: message objects and the lists they refer to *)
From Coq Require Import Lia.
From Verif Require Import Message Reader Objects BaseLemmas TextLemmas Spec ParseProofs MessageProofs PropsObject.
Local Open Scope Z_scope.

(* -------------------------------------------------- the caller's list *)
Definition strip (f : pystr) : pystr := remove_char 93 (remove_char 91 f).
Definition stripped (f f' : pystr) : Prop := f' = f \/ f' = strip f.
Lemma strip_strip f : strip (strip f) = strip f.
Proof.
  assert (forall x y s, remove_char x (remove_char y s) = remove_char y (remove_char x s)) as Comm.
  { intros x y s. unfold remove_char. induction s as [|z s IH]; [reflexivity|]. cbn. destruct (z =? y)%N eqn:A, (z =? x)%N eqn:B; cbn; rewrite ?A, ?B; cbn; congruence. }
  assert (forall x s, remove_char x (remove_char x s) = remove_char x s) as Idem.
  { intros x s. unfold remove_char. induction s as [|z s IH]; [reflexivity|]. cbn. destruct (z =? x)%N eqn:A; cbn; rewrite ?A; cbn; congruence. }
  unfold strip. rewrite (Comm 91%N 93%N), Idem, Idem. reflexivity.
Qed.
Lemma stripped_refl l : Forall2 stripped l l.
Proof. induction l; constructor; [left; reflexivity|assumption]. Qed.
Lemma stripped_trans l1 l2 : Forall2 stripped l1 l2 -> forall l3, Forall2 stripped l2 l3 -> Forall2 stripped l1 l3.
Proof.
  induction 1 as [|a b l1 l2 A _ IH]; intros l3 H; inversion H as [|b' c l2' l3' B C]; subst; constructor; [|apply IH, C].
  destruct A as [ -> | -> ], B as [ -> | -> ]; [left|right|right|right; rewrite strip_strip]; reflexivity.
Qed.
Lemma stripped_set l i f : nth_error l i = Some f -> Forall2 stripped l (list_set l i (strip f)).
Proof.
  revert i. induction l as [|x l IH]; intros [|i] H; try discriminate; cbn.
  - injection H as ->. constructor; [right; reflexivity|apply stripped_refl].
  - constructor; [left; reflexivity|apply IH, H].
Qed.

Section Lists.
Variable c : ctx.
Hypothesis St : x_streaming c = true.
(* the list relation between the beginning and the end *)
Variable R : list pystr -> list pystr -> Prop.
Hypothesis Rrefl : forall l, R l l.
Hypothesis Rtrans : forall a b d, R a b -> R b d -> R a d.
Hypothesis Rfetch : forall s pl f, fetch c s = Ok (pl, f) -> R (a_payload s) pl.
Definition fits (s : ast) (x : outcome_list) (r : result ast) : Prop :=
  fst x = r /\ (forall s', r = Ok s' -> snd x = a_payload s') /\ R (a_payload s) (snd x).
Lemma fits_single att key gi s : fits s (single_list c att key gi s) (set_single c att key gi s).
Proof.
  unfold single_list, fits. split; [reflexivity|]. cbn [fst snd]. split.
  - intros s' E. unfold set_single in E. rewrite St in E. destruct (fetch c s) as [[pl f]|e] eqn:F.
    + destruct (str2val f att); [|discriminate]. cbn [bind] in E. unfold setattr in E. destruct (str_in _ property_names); [discriminate|].
      cbn [bind a_payload] in E. injection E as <-. reflexivity.
    + destruct e; try discriminate E. injection E as <-. reflexivity.
  - destruct (fetch c s) as [[pl f]|e] eqn:F; [eapply Rfetch, F|apply Rrefl].
Qed.
Lemma fits_then s x r f g :
  fits s x r -> (forall s', fits s' (f s') (g s')) -> fits s (and_then x f) (bind r g).
Proof.
  intros (A & B & D) H. destruct x as [x l]. cbn [fst snd] in *. subst x. destruct r as [s'|e]; cbn [and_then bind].
  - destruct (H s') as (H1 & H2 & H3). split; [exact H1|]. split; [exact H2|]. eapply Rtrans; [exact D|]. rewrite (B s' eq_refl). exact H3.
  - split; [reflexivity|]. split; [discriminate|exact D].
Qed.
Lemma fits_repeat n f g : (forall i s, fits s (f i s) (g i s)) -> forall i s, fits s (repeat_list n i f s) (repeat_from n i g s).
Proof.
  intros H. induction n as [|n IH]; intros i s; cbn [repeat_list repeat_from].
  - split; [reflexivity|]. split; [intros s' E; injection E as <-; reflexivity|apply Rrefl].
  - apply fits_then; [apply H|apply IH].
Qed.
Lemma fits_members' ms gi : Forall (fun x => forall key gi s, fits s (attribute_list c (snd x) key gi s) (set_attribute c (snd x) key gi s)) ms ->
  forall s, fits s (members_list c ms gi s) (set_members c ms gi s).
Proof.
  induction 1 as [|[k d] ms H _ IH]; intros s; cbn [members_list set_members].
  - split; [reflexivity|]. split; [intros s' E; injection E as <-; reflexivity|apply Rrefl].
  - apply fits_then; [apply H|apply IH].
Qed.
Lemma attribute_list_group n ms key gi s : attribute_list c (AGroup n ms) key gi s =
  match group_count c n ms s with
  | Raise e => (Raise e, a_payload s)
  | Ok rng => repeat_list (Z.to_nat rng) 1 (fun i s0 => members_list c ms (gi ++ [i]) s0) s
  end.
Proof.
  cbn [attribute_list]. destruct (group_count c n ms s); [|reflexivity].
  assert (forall i s0, (fix go (l : list (pystr * adef)) (s1 : ast) {struct l} : outcome_list :=
                  match l with
                  | [] => (Ok s1, a_payload s1)
                  | (k, d) :: l' => and_then (attribute_list c d k (gi ++ [i]) s1) (go l')
                  end) ms s0 = members_list c ms (gi ++ [i]) s0) as Q.
  { intros i. induction ms as [|[k d] ms IH]; intros s0; [reflexivity|]. cbn [members_list]. unfold and_then.
    destruct (attribute_list c d k (gi ++ [i]) s0) as [[s'|e] l]; [apply IH|reflexivity]. }
  generalize (Z.to_nat a) as n0, 1%N as i. intros n0. revert s. induction n0 as [|n0 IH]; intros s i; [reflexivity|]. cbn [repeat_list]. rewrite Q.
  unfold and_then. destruct (members_list c ms (gi ++ [i]) s) as [[s'|e] l]; [apply IH|reflexivity].
Qed.
Lemma fits_attribute a : forall key gi s, fits s (attribute_list c a key gi s) (set_attribute c a key gi s).
Proof.
  induction a as [ty|n ms IH] using adef_ind'; intros key gi s; [apply fits_single|].
  rewrite attribute_list_group, set_attribute_group. destruct (group_count c n ms s) as [z|e]; cbn [bind].
  - apply fits_repeat. intros i s0. apply fits_members', IH.
  - split; [reflexivity|]. split; [discriminate|apply Rrefl].
Qed.
Lemma fits_members ms gi s : fits s (members_list c ms gi s) (set_members c ms gi s).
Proof. apply fits_members'. apply Forall_forall. intros x _. apply fits_attribute. Qed.
End Lists.

Lemma fetch_stripped c s pl f : fetch c s = Ok (pl, f) -> Forall2 stripped (a_payload s) pl.
Proof.
  unfold fetch. destruct (identity_of _ _ _); [|discriminate]. cbn [bind]. unfold py_index.
  destruct (nth_error (a_payload s) (a_pindex s)) as [g|] eqn:N; [|discriminate]. cbn [bind].
  destruct (str_eqb _ _); intros E; injection E as <- _; [apply stripped_set, N|apply stripped_refl].
Qed.
Lemma fetch_same c s pl f : (forall x, x_talker c ++ x_msgID c ++ x <> u "PSSNSNC") -> fetch c s = Ok (pl, f) -> a_payload s = pl.
Proof.
  intros K. unfold fetch. destruct (identity_of _ _ _) as [i|] eqn:I; [|discriminate]. cbn [bind]. unfold py_index.
  destruct (nth_error (a_payload s) (a_pindex s)) as [g|] eqn:N; [|discriminate]. cbn [bind].
  destruct (str_eqb_spec i (u "PSSNSNC")) as [->|_]; intros E; [|injection E as <- _; reflexivity].
  apply identity_form in I as (x & I). elim (K x). symmetry. exact I.
Qed.

(* the constructor's edits of the list and the message it makes agree *)
Lemma payload_after_ok ck talker msgid mode hp v ud cks l kw x :
  NMEAMessage ck talker msgid mode hp v ud cks (Some l) kw = Ok x -> payload_after ck talker msgid mode hp v ud l kw = m_payload x.
Proof.
  unfold NMEAMessage, payload_after. destruct (negb (valid_mode mode)); [discriminate|]. destruct (negb _ && _); [discriminate|]. cbv zeta.
  assert (forall ds, bind (do_attributes (mkctx talker msgid mode hp v ud ds true kw ck) l cks)
            (fun p => let '(attrs, pl', ck') := p in Ok (mkmsg talker msgid mode hp v ud ds true ck' pl' attrs true)) = Ok x ->
          match get_dict (mkctx talker msgid mode hp v ud ds true kw ck) l with
          | Ok (Some (e :: d)) => if kw_clash kw then l else snd (members_list (mkctx talker msgid mode hp v ud ds true kw ck) (e :: d) [] (mkast 0 [] l))
          | _ => l end = m_payload x) as H.
  { intros ds. set (c := mkctx _ _ _ _ _ _ _ _ _ _). unfold do_attributes. change (x_kwargs c) with kw. change (x_streaming c) with true. cbv iota. change (x_talker c) with talker. change (x_msgID c) with msgid.
    destruct (get_dict c l) as [[d|]|e]; cbn [bind].
    - destruct d as [|e d].
      + cbn [bind type_errors]. intros E. injection E as <-. reflexivity.
      + destruct (kw_clash kw); [discriminate|].
        destruct (fits_members c eq_refl (fun _ _ => True) (fun _ => I) (fun _ _ _ _ _ => I) (fun _ _ _ _ => I) (e :: d) [] (mkast 0 [] l)) as (_ & F2 & _).
        destruct (set_members c (e :: d) [] _) as [s|e']; [|destruct e'; discriminate]. cbn [bind type_errors]. intros E. injection E as <-. apply F2. reflexivity.
    - assert (forall n f s s', set_nominal n f s = Ok s' -> a_payload s' = a_payload s) as Nm.
      { intros n f. revert n. induction f as [|g f IH]; intros n s s' E; cbn [set_nominal] in E; [injection E as <-; reflexivity|].
        destruct (setattr _ _ s) as [s1|] eqn:S1; [|discriminate]. cbn [bind] in E. rewrite (IH _ _ _ E). unfold setattr in S1. destruct (str_in _ _); [discriminate|]. injection S1 as <-. reflexivity. }
      destruct (set_nominal 1 l _) as [s|e] eqn:Sn; [|destruct e; discriminate]. cbn [bind type_errors]. intros E. injection E as <-. cbn. symmetry. apply Nm in Sn. exact Sn.
    - destruct e; discriminate. }
  destruct (find_defsource msgid ud), (has_flag v VALMSGID); try discriminate; apply H.
Qed.
Lemma payload_after_rel ck talker msgid mode hp v ud l kw (R : list pystr -> list pystr -> Prop) :
  (forall l, R l l) -> (forall a b d, R a b -> R b d -> R a d) ->
  (forall c s pl f, x_talker c = talker -> x_msgID c = msgid -> fetch c s = Ok (pl, f) -> R (a_payload s) pl) ->
  R l (payload_after ck talker msgid mode hp v ud l kw).
Proof.
  intros A B D. unfold payload_after. destruct (negb (valid_mode mode)); [apply A|]. destruct (negb _ && _); [apply A|]. cbv zeta.
  assert (forall ds, R l match get_dict (mkctx talker msgid mode hp v ud ds true kw ck) l with
          | Ok (Some (e :: d)) => if kw_clash kw then l else snd (members_list (mkctx talker msgid mode hp v ud ds true kw ck) (e :: d) [] (mkast 0 [] l))
          | _ => l end) as H.
  { intros ds. set (c := mkctx _ _ _ _ _ _ _ _ _ _). destruct (get_dict c l) as [[[|e d]|]|]; try apply A. destruct (kw_clash kw); [apply A|].
    apply (fits_members c eq_refl R A B (fun s pl f => D c s pl f eq_refl eq_refl) (e :: d) [] (mkast 0 [] l)). }
  destruct (find_defsource msgid ud), (has_flag v VALMSGID); try apply A; apply H.
Qed.
Lemma payload_after_stripped ck talker msgid mode hp v ud l kw : Forall2 stripped l (payload_after ck talker msgid mode hp v ud l kw).
Proof. apply payload_after_rel; [apply stripped_refl|intros a b d X Y; eapply stripped_trans; eassumption|]. intros c s pl f _ _. apply fetch_stripped. Qed.
Lemma payload_after_same ck talker msgid mode hp v ud l kw :
  (forall x, talker ++ msgid ++ x <> u "PSSNSNC") -> payload_after ck talker msgid mode hp v ud l kw = l.
Proof. intros K. symmetry. apply payload_after_rel; [reflexivity|intros; congruence|]. intros c s pl f <- <-. apply fetch_same, K. Qed.

(* ------------------------------------------------------- the world *)
Definition reachable (w : world) : Prop := exists ops, w = fst (wrun start ops).
Record sane (w : world) : Prop := {
  sane_list : forall i o, nth_error (w_objs w) i = Some o -> (o_list o < length (w_lists w))%nat;
  sane_imm : forall i o, nth_error (w_objs w) i = Some o -> m_immutable (o_msg o) = true }.

Lemma list_set_length {A} (l : list A) i v : length (list_set l i v) = length l.
Proof. revert i. induction l as [|x l IH]; intros [|i]; cbn; congruence. Qed.
Lemma list_set_nth {A} (l : list A) i j v : nth_error (list_set l i v) j = if (i =? j)%nat && (j <? length l)%nat then Some v else nth_error l j.
Proof.
  revert i j. induction l as [|x l IH]; intros i j; [destruct i, j; cbn; rewrite ?andb_false_r; reflexivity|].
  destruct i as [|i], j as [|j]; cbn [list_set nth_error]; try reflexivity. rewrite IH. reflexivity.
Qed.
Lemma nth_snoc {A} (l : list A) x j : nth_error (l ++ [x]) j = if (j =? length l)%nat then Some x else nth_error l j.
Proof.
  revert j. induction l as [|y l IH]; intros [|j]; try reflexivity; [destruct j; reflexivity|]. cbn [app nth_error length Nat.eqb]. apply IH.
Qed.

(* the kinds of changes a step makes *)
Inductive change (w : world) : world -> Prop :=
| ch_none : change w w
| ch_lists a l : change w (mkworld (list_set (w_lists w) a l) (w_objs w))
| ch_list l : change w (mkworld (w_lists w ++ [l]) (w_objs w))
| ch_obj x a : m_immutable x = true -> (a < length (w_lists w))%nat -> change w (mkworld (w_lists w) (w_objs w ++ [mkobj x a]))
| ch_both x a l : m_immutable x = true -> (a < length (w_lists w))%nat ->
    change w (mkworld (list_set (w_lists w) a l) (w_objs w ++ [mkobj x a]))
| ch_new x : m_immutable x = true -> change w (mkworld (w_lists w ++ [m_payload x]) (w_objs w ++ [mkobj x (length (w_lists w))]))
| ch_del i o m' : nth_error (w_objs w) i = Some o -> m_immutable m' = true -> change w (mkworld (w_lists w) (list_set (w_objs w) i (mkobj m' (o_list o)))).

Lemma constructed_immutable ck t i m hp v ud cks pl kw x : NMEAMessage ck t i m hp v ud cks pl kw = Ok x -> m_immutable x = true.
Proof. intros E. apply constructed in E. tauto. Qed.
Lemma parsed_immutable m mode v ud x : parse m mode v ud = Ok (Some x) -> m_immutable x = true.
Proof. intros E. apply parse_Some in E as (_ & s & content & ck & t & i & f & _ & _ & _ & _ & E). eapply constructed_immutable, E. Qed.

Lemma view_parts w i o m : nth_error (w_objs w) i = Some o -> view w i = Some m ->
  exists l, nth_error (w_lists w) (o_list o) = Some l /\ m = with_payload (o_msg o) l.
Proof. unfold view. intros ->. destruct (nth_error (w_lists w) (o_list o)) as [l|]; [|discriminate]. intros E. injection E as <-. eauto. Qed.

Lemma step_change w o : sane w -> change w (fst (wstep w o)).
Proof.
  intros S. assert (forall i f, (forall ob m, nth_error (w_objs w) i = Some ob -> view w i = Some m -> change w (fst (f ob m))) -> change w (fst (with_obj w i f))) as Wo.
  { intros i f H. unfold with_obj. destruct (nth_error (w_objs w) i) as [ob|] eqn:N; [|apply ch_none]. destruct (view w i) as [m|] eqn:V; [|apply ch_none]. apply H; auto. }
  destruct o as [l|a l|m mode v ud|ck t i mode hp v ud cks [a|] kw|i|i n v|i n|i|i]; cbn [wstep].
  - apply ch_list.
  - destruct (_ <? _)%nat; [apply ch_lists|apply ch_none].
  - destruct (parse m mode v ud) as [[x|]|] eqn:E; [|apply ch_none|apply ch_none]. apply ch_new. eapply parsed_immutable, E.
  - destruct (nth_error (w_lists w) a) as [l|] eqn:N; [|apply ch_none]. cbv zeta.
    destruct (NMEAMessage _ _ _ _ _ _ _ _ _ _) as [x|] eqn:E; [|apply ch_lists].
    unfold add_obj. cbn [fst w_lists w_objs]. apply ch_both; [eapply constructed_immutable, E|]. apply nth_error_Some. congruence.
  - destruct (NMEAMessage _ _ _ _ _ _ _ _ _ _) as [x|] eqn:E; [|apply ch_none]. apply ch_new. eapply constructed_immutable, E.
  - apply Wo. intros. apply ch_none.
  - apply Wo. intros ob m N V. apply view_parts with (o := ob) in V as (l & _ & ->); [|exact N].
    cbn [mstep]. change (m_immutable (with_payload (o_msg ob) l)) with (m_immutable (o_msg ob)). rewrite (sane_imm w S i ob N). apply ch_none.
  - apply Wo. intros ob m N V. apply view_parts with (o := ob) in V as (l & _ & ->); [|exact N].
    cbn [mstep]. destruct (has_key n _); [|apply ch_none]. apply ch_del with (o := ob); [exact N|exact (sane_imm w S i ob N)].
  - apply Wo. intros ob m N V. apply view_parts with (o := ob) in V as (l & _ & ->); [|exact N].
    apply ch_obj; [exact (sane_imm w S i ob N)|exact (sane_list w S i ob N)].
  - apply Wo. intros ob m N V. apply view_parts with (o := ob) in V as (l & _ & ->); [|exact N]. apply ch_new. exact (sane_imm w S i ob N).
Qed.
Lemma change_sane w w' : sane w -> change w w' -> sane w'.
Proof.
  intros S C. destruct C as [|a l|l|x a I L|x a l I L|x I|i o m' N I]; [exact S| | | | | |].
  - split; cbn; [rewrite list_set_length; apply S|apply S].
  - split; cbn; [|apply S]. intros j o N. rewrite app_length. pose proof (sane_list w S j o N). lia.
  - split; cbn; intros j o; rewrite nth_snoc; destruct (j =? length (w_objs w))%nat; intros N; try (injection N as <-; assumption); [apply (sane_list w S j o N)|apply (sane_imm w S j o N)].
  - split; cbn; intros j o; rewrite ?list_set_length, nth_snoc; destruct (j =? length (w_objs w))%nat; intros N; try (injection N as <-; assumption); [apply (sane_list w S j o N)|apply (sane_imm w S j o N)].
  - split; cbn; intros j o; rewrite nth_snoc; destruct (j =? length (w_objs w))%nat; intros N; try (injection N as <-; try assumption; cbn; rewrite app_length; cbn; lia);
      [rewrite app_length; pose proof (sane_list w S j o N); lia|apply (sane_imm w S j o N)].
  - split; cbn; intros j o'; rewrite list_set_nth; destruct ((i =? j)%nat && _); intros E; try (injection E as <-; cbn; assumption || apply (sane_list w S i o N));
      [apply (sane_list w S j o' E)|apply (sane_imm w S j o' E)].
Qed.
Lemma run_sane ops : forall w, sane w -> sane (fst (wrun w ops)).
Proof.
  induction ops as [|o ops IH]; intros w S; [exact S|]. cbn [wrun]. destruct (wstep w o) as [w1 x] eqn:E. destruct (wrun w1 ops) as [w2 xs] eqn:E2. cbn [fst].
  specialize (IH w1). rewrite E2 in IH. apply IH. apply (change_sane w); [exact S|]. pose proof (step_change w o S) as C. rewrite E in C. exact C.
Qed.
Lemma reachable_sane w : reachable w -> sane w.
Proof. intros (ops & ->). apply run_sane. split; intros [|i] o N; discriminate. Qed.

(* ------------------------------------------------------------------ C92 *)
(* [o] does not change the list [a]: it is no edit of that list, and no construction of a PSSNSNC message from it *)
Definition harmless (a : nat) (o : wop) : Prop :=
  match o with
  | EditList b _ => b <> a
  | Build _ talker msgid _ _ _ _ _ (Some b) _ => b <> a \/ forall x, talker ++ msgid ++ x <> u "PSSNSNC"
  | _ => True
  end.
Definition deletes (i : nat) (o : wop) : Prop := match o with Delete j _ => j = i | _ => False end.

Lemma step_obj w op i o : sane w -> nth_error (w_objs w) i = Some o -> ~ deletes i op -> nth_error (w_objs (fst (wstep w op))) i = Some o.
Proof.
  intros S N D.
  assert (forall x, nth_error (w_objs w ++ [x]) i = Some o) as Sn.
  { intros x. rewrite nth_error_app1; [exact N|]. apply nth_error_Some. congruence. }
  assert (forall j f, (forall ob m, nth_error (w_objs w) j = Some ob -> view w j = Some m -> nth_error (w_objs (fst (f ob m))) i = Some o) -> nth_error (w_objs (fst (with_obj w j f))) i = Some o) as Wo.
  { intros j f H. unfold with_obj. destruct (nth_error (w_objs w) j) as [ob|] eqn:Nj; [|exact N]. destruct (view w j) as [m|] eqn:V; [|exact N]. apply H; auto. }
  destruct op as [l|a l|m mode v ud|ck t j mode hp v ud cks [a|] kw|j|j n v|j n|j|j]; cbn [wstep].
  - exact N.
  - destruct (_ <? _)%nat; exact N.
  - destruct (parse m mode v ud) as [[x|]|]; [apply Sn|exact N|exact N].
  - destruct (nth_error (w_lists w) a) as [l|]; [|exact N]. cbv zeta. destruct (NMEAMessage _ _ _ _ _ _ _ _ _ _); [apply Sn|exact N].
  - destruct (NMEAMessage _ _ _ _ _ _ _ _ _ _); [apply Sn|exact N].
  - apply Wo. intros. exact N.
  - apply Wo. intros ob m Nj V. destruct (view_parts _ _ _ _ Nj V) as (l & _ & ->). cbn [mstep]. change (m_immutable (with_payload (o_msg ob) l)) with (m_immutable (o_msg ob)).
    rewrite (sane_imm w S j ob Nj). exact N.
  - apply Wo. intros ob m Nj V. cbn [mstep]. destruct (has_key n _); [|exact N]. cbn [fst w_objs]. rewrite list_set_nth.
    destruct (Nat.eqb_spec j i) as [->|_]; [elim D; reflexivity|exact N].
  - apply Wo. intros. apply Sn.
  - apply Wo. intros. apply Sn.
Qed.
Lemma step_list w op a l : nth_error (w_lists w) a = Some l -> harmless a op -> nth_error (w_lists (fst (wstep w op))) a = Some l.
Proof.
  intros N H.
  assert (forall x, nth_error (w_lists w ++ [x]) a = Some l) as Sn.
  { intros x. rewrite nth_error_app1; [exact N|]. apply nth_error_Some. congruence. }
  assert (forall j f, (forall ob m, nth_error (w_lists (fst (f ob m))) a = Some l) -> nth_error (w_lists (fst (with_obj w j f))) a = Some l) as Wo.
  { intros j f F. unfold with_obj. destruct (nth_error (w_objs w) j) as [ob|]; [|exact N]. destruct (view w j) as [m|]; [|exact N]. apply F. }
  destruct op as [l'|b l'|m mode v ud|ck t j mode hp v ud cks [b|] kw|j|j n v|j n|j|j]; cbn [wstep].
  - apply Sn.
  - destruct (_ <? _)%nat; [|exact N]. cbn [fst w_lists]. rewrite list_set_nth. destruct (Nat.eqb_spec b a) as [->|_]; [elim H; reflexivity|exact N].
  - destruct (parse m mode v ud) as [[x|]|]; [apply Sn|exact N|exact N].
  - destruct (nth_error (w_lists w) b) as [l'|] eqn:Nb; [|exact N]. cbv zeta.
    assert (nth_error (list_set (w_lists w) b (payload_after ck t j mode hp v ud l' kw)) a = Some l) as X.
    { destruct H as [H|H].
      - rewrite list_set_nth. destruct (Nat.eqb_spec b a) as [->|_]; [elim H; reflexivity|exact N].
      - rewrite payload_after_same by exact H. rewrite list_set_same by exact Nb. exact N. }
    destruct (NMEAMessage _ _ _ _ _ _ _ _ _ _); exact X.
  - destruct (NMEAMessage _ _ _ _ _ _ _ _ _ _); [apply Sn|exact N].
  - apply Wo. intros. exact N.
  - apply Wo. intros ob m. destruct (mstep m (OpSet n v)) as [[e|] m']; exact N.
  - apply Wo. intros ob m. destruct (mstep m (OpDel n)) as [[e|] m']; exact N.
  - apply Wo. intros. exact N.
  - apply Wo. intros. apply Sn.
Qed.
Lemma step_sane w op : sane w -> sane (fst (wstep w op)).
Proof. intros S. eapply change_sane; [exact S|apply step_change, S]. Qed.
Lemma run_fst w op ops : fst (wrun w (op :: ops)) = fst (wrun (fst (wstep w op)) ops).
Proof. cbn [wrun]. destruct (wstep w op) as [w1 x]. cbn [fst]. destruct (wrun w1 ops). reflexivity. Qed.
Lemma run_obj ops : forall w i o, sane w -> nth_error (w_objs w) i = Some o -> Forall (fun op => ~ deletes i op) ops -> nth_error (w_objs (fst (wrun w ops))) i = Some o.
Proof.
  induction ops as [|op ops IH]; intros w i o S N F; [exact N|]. rewrite run_fst. inversion F; subst. apply IH; [apply step_sane, S|apply step_obj; assumption|assumption].
Qed.
Lemma run_list ops : forall w a l, nth_error (w_lists w) a = Some l -> Forall (harmless a) ops -> nth_error (w_lists (fst (wrun w ops))) a = Some l.
Proof.
  induction ops as [|op ops IH]; intros w a l N F; [exact N|]. rewrite run_fst. inversion F; subst. apply IH; [apply step_list; assumption|assumption].
Qed.

(* Assignment is refused on every object that a program can have, copies included. *)
Theorem C92_assign w i name v x :
  reachable w -> view w i = Some x -> wstep w (Assign i name v) = (w, RExc NMEAMessageError).
Proof.
  intros R V. apply reachable_sane in R. cbn [wstep]. unfold with_obj. rewrite V. unfold view in V.
  destruct (nth_error (w_objs w) i) as [o|] eqn:N; [|discriminate]. destruct (nth_error (w_lists w) (o_list o)) as [l|]; [|discriminate]. injection V as <-.
  cbn [mstep]. change (m_immutable (with_payload (o_msg o) l)) with (m_immutable (o_msg o)). rewrite (sane_imm w R i o N). reflexivity.
Qed.
(* .payload hands out the list itself, and whatever happens to other lists a message stays as it is,
   over any history in which its own list is left alone and none of its attributes is deleted. *)
Theorem C92_stable w i x a ops :
  reachable w -> view w i = Some x -> snd (wstep w (GetPayload i)) = RList a ->
  Forall (harmless a) ops -> Forall (fun op => ~ deletes i op) ops ->
  view (fst (wrun w ops)) i = Some x.
Proof.
  intros R V G F D. apply reachable_sane in R. cbn [wstep] in G. unfold with_obj in G. rewrite V in G. unfold view in V |- *.
  destruct (nth_error (w_objs w) i) as [o|] eqn:N; [|discriminate]. cbn [snd] in G. injection G as <-.
  destruct (nth_error (w_lists w) (o_list o)) as [l|] eqn:L; [|discriminate].
  rewrite (run_obj ops w i o R N D), (run_list ops w _ l L F). exact V.
Qed.
(* Whatever happens to lists - its own included - everything but its payload stays: talker, msgID, mode,
   checksum, attributes, and so identity and str(). *)
Theorem C92_attributes w i x ops :
  reachable w -> view w i = Some x -> Forall (fun op => ~ deletes i op) ops ->
  exists l, view (fst (wrun w ops)) i = Some (with_payload x l)
    /\ identity (with_payload x l) = identity x /\ str_of_msg (with_payload x l) = str_of_msg x.
Proof.
  intros R V D. apply reachable_sane in R. unfold view in V |- *. destruct (nth_error (w_objs w) i) as [o|] eqn:N; [|discriminate].
  destruct (nth_error (w_lists w) (o_list o)) as [l|] eqn:L; [|discriminate]. injection V as <-.
  pose proof (run_obj ops w i o R N D) as N'. rewrite N'. pose proof (sane_list _ (run_sane ops w R) i o N') as Lt. apply nth_error_Some in Lt.
  destruct (nth_error (w_lists (fst (wrun w ops))) (o_list o)) as [l'|]; [|congruence]. exists l'. split; [reflexivity|]. split; reflexivity.
Qed.
(* A message from parse(), one built from keywords and a deep copy have a list of their own: no
   other object has it, and no list known before is it. *)
Definition fresh_maker (op : wop) : Prop :=
  match op with Parse _ _ _ _ => True | Build _ _ _ _ _ _ _ _ None _ => True | DeepCopy _ => True | _ => False end.
Theorem C92_private w op w' i a :
  reachable w -> fresh_maker op -> wstep w op = (w', RObj i) -> snd (wstep w' (GetPayload i)) = RList a ->
  a = length (w_lists w)
  /\ forall j b, j <> i -> snd (wstep w' (GetPayload j)) = RList b -> b <> a.
Proof.
  intros R F E G. apply reachable_sane in R.
  assert (exists x, w' = mkworld (w_lists w ++ [m_payload x]) (w_objs w ++ [mkobj x (length (w_lists w))]) /\ i = length (w_objs w)) as (x & -> & ->).
  { destruct op as [l|b l|m mode v ud|ck t j mode hp v ud cks [b|] kw|j|j n v|j n|j|j]; try destruct F; cbn [wstep] in E.
    - destruct (parse m mode v ud) as [[x|]|]; try discriminate. injection E as <- <-. eauto.
    - destruct (NMEAMessage _ _ _ _ _ _ _ _ _ _) as [x|]; try discriminate. injection E as <- <-. eauto.
    - unfold with_obj in E. destruct (nth_error (w_objs w) j); [|discriminate]. destruct (view w j) as [m|]; [|discriminate]. injection E as <- <-. eauto. }
  cbn [wstep] in G |- *. unfold with_obj in *. cbn [w_objs] in *. rewrite nth_snoc, Nat.eqb_refl in G. destruct (view _ (length (w_objs w))); [|discriminate]. injection G as <-.
  split; [reflexivity|]. intros j b J G. rewrite nth_snoc in G. destruct (Nat.eqb_spec j (length (w_objs w))) as [->|_]; [congruence|].
  destruct (nth_error (w_objs w) j) as [o|] eqn:N; [|discriminate]. destruct (view _ j); [|discriminate]. injection G as <-.
  pose proof (sane_list w R j o N). cbn [o_list]. lia.
Qed.
(* so a message from parse() is what it was for ever, unless the application changes the list it got from its .payload *)
Corollary C92_parsed w m mode v ud w' i ops a :
  reachable w -> wstep w (Parse m mode v ud) = (w', RObj i) -> snd (wstep w' (GetPayload i)) = RList a ->
  Forall (harmless a) ops -> Forall (fun op => ~ deletes i op) ops ->
  exists x, parse m mode v ud = Ok (Some x) /\ view (fst (wrun w' ops)) i = Some x.
Proof.
  intros (ops0 & ->) E G F D. set (w := fst (wrun start ops0)) in *.
  assert (reachable w') as R'.
  { exists (ops0 ++ [Parse m mode v ud]). clear G. subst w. revert E. generalize start. induction ops0 as [|o ops0 IH]; intros w0 E.
    - cbn [app wrun fst] in *. rewrite E. reflexivity.
    - rewrite <- app_comm_cons, run_fst. rewrite run_fst in E. apply IH, E. }
  cbn [wstep] in E. destruct (parse m mode v ud) as [[x|]|]; try discriminate. exists x. split; [reflexivity|].
  apply (C92_stable w' i x a ops R'); [|exact G|exact F|exact D].
  injection E as <- <-. unfold view. cbn [w_objs w_lists]. rewrite nth_snoc, Nat.eqb_refl. cbn [o_list o_msg]. rewrite nth_snoc, Nat.eqb_refl. destruct x. reflexivity.
Qed.
(* A message built with payload=lst refers to lst: whatever is done later, it shows what lst then contains. *)
Theorem C92_shared w ck talker msgid mode hp v ud cks a kw w' i ops :
  reachable w -> wstep w (Build ck talker msgid mode hp v ud cks (Some a) kw) = (w', RObj i) ->
  Forall (fun op => ~ deletes i op) ops ->
  exists l x, nth_error (w_lists w) a = Some l /\ NMEAMessage ck talker msgid mode hp v ud cks (Some l) kw = Ok x
    /\ view w' i = Some x
    /\ exists l', nth_error (w_lists (fst (wrun w' ops))) a = Some l' /\ view (fst (wrun w' ops)) i = Some (with_payload x l').
Proof.
  intros R E D. apply reachable_sane in R. pose proof (step_sane w (Build ck talker msgid mode hp v ud cks (Some a) kw) R) as R'. rewrite E in R'. cbn [fst] in R'.
  cbn [wstep] in E. destruct (nth_error (w_lists w) a) as [l|] eqn:N; [|discriminate]. cbv zeta in E.
  destruct (NMEAMessage ck talker msgid mode hp v ud cks (Some l) kw) as [x|] eqn:M; [|discriminate]. exists l, x. split; [reflexivity|]. split; [exact M|].
  unfold add_obj in E. injection E as <- <-. cbn [w_lists w_objs] in *. set (w' := mkworld _ _) in *.
  assert (nth_error (w_objs w') (length (w_objs w)) = Some (mkobj x a)) as No by (cbn; rewrite nth_snoc, Nat.eqb_refl; reflexivity).
  split.
  - unfold view. rewrite No. cbn [o_list w_lists w' o_msg]. rewrite list_set_nth, Nat.eqb_refl.
    assert (a < length (w_lists w))%nat as Lt by (apply nth_error_Some; congruence). destruct (Nat.ltb_spec a (length (w_lists w))); [|lia]. cbn [andb].
    rewrite (payload_after_ok _ _ _ _ _ _ _ _ _ _ _ M). destruct x. reflexivity.
  - pose proof (run_obj ops w' _ _ R' No D) as No'. pose proof (sane_list _ (run_sane ops w' R') _ _ No') as Lt. cbn [o_list] in Lt. apply nth_error_Some in Lt.
    destruct (nth_error (w_lists (fst (wrun w' ops))) a) as [l'|] eqn:L'; [|congruence]. exists l'. split; [reflexivity|]. unfold view. rewrite No'. cbn [o_list o_msg]. rewrite L'. reflexivity.
Qed.
(* The constructor leaves the list it is given alone, whether it succeeds or raises - but for PSSNSNC messages,
   where it removes "[" and "]" from some of the fields, in the caller's own list. *)
Theorem C92_argument w ck talker msgid mode hp v ud cks a kw l :
  nth_error (w_lists w) a = Some l ->
  exists l', nth_error (w_lists (fst (wstep w (Build ck talker msgid mode hp v ud cks (Some a) kw)))) a = Some l'
    /\ Forall2 (fun f f' => f' = f \/ f' = remove_char 93 (remove_char 91 f)) l l'
    /\ ((forall x, talker ++ msgid ++ x <> u "PSSNSNC") -> l' = l)
    /\ forall b, b <> a -> nth_error (w_lists (fst (wstep w (Build ck talker msgid mode hp v ud cks (Some a) kw)))) b = nth_error (w_lists w) b.
Proof.
  intros N. exists (payload_after ck talker msgid mode hp v ud l kw). cbn [wstep]. rewrite N. cbv zeta.
  assert (a < length (w_lists w))%nat as Lt by (apply nth_error_Some; congruence).
  assert (forall b, nth_error (w_lists (fst (match NMEAMessage ck talker msgid mode hp v ud cks (Some l) kw with
            | Ok x => add_obj (mkworld (list_set (w_lists w) a (payload_after ck talker msgid mode hp v ud l kw)) (w_objs w)) x a
            | Raise e => (mkworld (list_set (w_lists w) a (payload_after ck talker msgid mode hp v ud l kw)) (w_objs w), RExc e) end))) b
          = nth_error (list_set (w_lists w) a (payload_after ck talker msgid mode hp v ud l kw)) b) as X by (intros b; destruct (NMEAMessage _ _ _ _ _ _ _ _ _ _); reflexivity).
  split; [rewrite X, list_set_nth, Nat.eqb_refl; destruct (Nat.ltb_spec a (length (w_lists w))); [reflexivity|lia]|].
  split; [apply payload_after_stripped|]. split; [apply payload_after_same|].
  intros b B. rewrite X, list_set_nth. destruct (Nat.eqb_spec a b); [congruence|reflexivity].
Qed.
(* copy.copy shares the list, copy.deepcopy (and pickle) copies it; both show the same message at first *)
Theorem C92_copies w i x a :
  reachable w -> view w i = Some x -> snd (wstep w (GetPayload i)) = RList a ->
  (exists w1 j, wstep w (Copy i) = (w1, RObj j) /\ view w1 j = Some x /\ snd (wstep w1 (GetPayload j)) = RList a)
  /\ (exists w2 k b, wstep w (DeepCopy i) = (w2, RObj k) /\ view w2 k = Some x /\ snd (wstep w2 (GetPayload k)) = RList b /\ b <> a).
Proof.
  intros R V G. apply reachable_sane in R. cbn [wstep] in *. unfold with_obj in *. rewrite V in *. pose proof V as V0. unfold view in V.
  destruct (nth_error (w_objs w) i) as [o|] eqn:N; [|discriminate]. cbn [snd] in G. injection G as <-.
  destruct (nth_error (w_lists w) (o_list o)) as [l|] eqn:L; [|discriminate]. injection V as <-. pose proof (sane_list w R i o N) as Lt. split.
  - unfold add_obj. do 2 eexists. split; [reflexivity|]. unfold view. cbn [w_objs w_lists wstep]. rewrite nth_snoc, Nat.eqb_refl. cbn [o_list o_msg]. rewrite L. split; reflexivity.
  - unfold add_obj_list. do 3 eexists. split; [reflexivity|]. unfold view. cbn [w_objs w_lists wstep]. rewrite nth_snoc, Nat.eqb_refl. cbn [o_list o_msg]. rewrite nth_snoc, Nat.eqb_refl.
    split; [reflexivity|]. split; [reflexivity|]. lia.
Qed.

(* --------------------------------------------------------- examples *)
Definition ex_history : list wop :=
  [NewList [u "a"; u "b"]; Parse (MStr (u "$GPZZZ,1,2*00")) 0 0 []; Build no_clock (u "GP") (u "ZZZ") 0 false 0 [] None (Some 0%nat) []; EditList 0 [u "x"]].
Example C92_example :
  snd (wrun start ex_history) = [RList 0; RObj 0; RObj 1; RNothing]
  /\ (exists x, view (fst (wrun start ex_history)) 0 = Some x /\ m_payload x = [u "1"; u "2"])
  /\ (exists y, view (fst (wrun start ex_history)) 1 = Some y /\ m_payload y = [u "x"] /\ m_attrs y = [(u "field_01", VStr (u "a")); (u "field_02", VStr (u "b"))])
  /\ snd (wstep (fst (wrun start ex_history)) (GetPayload 0)) = RList 1
  /\ snd (wstep (fst (wrun start ex_history)) (GetPayload 1)) = RList 0
  /\ Forall (harmless 1) ex_history /\ Forall (fun op => ~ deletes 0 op) ex_history.
Proof.
  split; [vm_compute; reflexivity|]. split; [eexists; split; vm_compute; reflexivity|]. split; [eexists; repeat split; vm_compute; reflexivity|].
  split; [vm_compute; reflexivity|]. split; [vm_compute; reflexivity|]. split; repeat constructor; cbn; auto; try discriminate.
Qed.
(* A message built from a list changes with the list: its checksum - computed when it was built - does not, so what
   it serializes to is then refused by parse().  Two messages built from one list change together. *)
Definition gll_fields : list pystr := [u "5327.04319"; u "S"; u "00214.41396"; u "E"; u "223232.00"; u "A"; u "A"].
Definition gll_build (n : nat) : wop := Build no_clock (u "GN") (u "GLL") 0 false 1 [] None (Some n) [].
Theorem C92_stale_refuted :
  exists x y b, view (fst (wrun start [NewList gll_fields; gll_build 0; gll_build 0])) 0 = Some x
    /\ (exists c, serialize x = Ok c /\ exists z, parse (MBytes c) 0 1 [] = Ok (Some z))
    /\ view (fst (wrun start [NewList gll_fields; gll_build 0; gll_build 0; EditList 0 [u "5327.04319"; u "N"; u "00214.41396"; u "E"; u "223232.00"; u "A"; u "A"]])) 0 = Some y
    /\ view (fst (wrun start [NewList gll_fields; gll_build 0; gll_build 0; EditList 0 [u "5327.04319"; u "N"; u "00214.41396"; u "E"; u "223232.00"; u "A"; u "A"]])) 1 = Some y
    /\ m_checksum y = m_checksum x /\ m_attrs y = m_attrs x /\ serialize y = Ok b /\ parse (MBytes b) 0 1 [] = Raise NMEAParseError.
Proof.
  do 3 eexists. split; [vm_compute; reflexivity|]. split.
  { eexists. split; [vm_compute; reflexivity|]. eexists. vm_compute. reflexivity. }
  split; [vm_compute; reflexivity|]. split; [vm_compute; reflexivity|]. repeat split; vm_compute; reflexivity.
Qed.
(* The constructor can change the list it is given: *)
Definition snc_fields : list pystr := [u "SNC"; u "1"; u "2"; u "[3"; u "4"; u "5"; u "6]"].
Theorem C92_argument_refuted :
  exists l', nth_error (w_lists (fst (wrun start [NewList snc_fields; Build no_clock (u "P") (u "SSN") 0 false 0 [] None (Some 0%nat) []]))) 0 = Some l' /\ l' <> snc_fields.
Proof. eexists. split; [vm_compute; reflexivity|]. discriminate. Qed.
