(* C91: relaxing the validation *)
From Coq Require Import Lia.
From Verif Require Import Message Reader Socket BaseLemmas Spec ReaderSpec ReaderProofs ParseProofs MessageProofs SelectProofs DecodeProofs StreamProofs
  TableProofs KeywordSpec CompleteProofs PropsDecode PropsConstruct PropsReader PropsSession PropsPort PropsConcat.
Local Open Scope Z_scope.

(* [v'] asks for nothing that [v] does not ask for *)
Definition weaker (v' v : Z) : Prop :=
  (wants_checksum v' = true -> wants_checksum v = true) /\ (wants_msgid v' = true -> wants_msgid v = true).
(* no repeating group, at any depth, is repeated "_validate" times: the private attribute
   that holds the validate argument *)
Inductive plain : adef -> Prop :=
| plain_single ty : plain (ASingle ty)
| plain_group n ms : n <> NStr (u "_validate") -> Forall (fun e => plain (snd e)) ms -> plain (AGroup n ms).
Definition plain_defs (ud : userdefs) : Prop := forall k d, In (k, d) ud -> Forall (fun e => plain (snd e)) d.
(* the two outcomes are the same as far as the API shows *)
Definition same_outcome (r1 r2 : result (option msg)) : Prop :=
  match r1, r2 with
  | Ok (Some x), Ok (Some y) => same_message x y
  | Ok None, Ok None => True
  | Raise e1, Raise e2 => e1 = e2
  | _, _ => False
  end.

Fixpoint plainb (a : adef) : bool :=
  match a with
  | ASingle _ => true
  | AGroup n ms => (match n with NStr s => negb (str_eqb s (u "_validate")) | NInt _ => true end)
      && (fix go (l : list (pystr * adef)) := match l with [] => true | (_, d) :: l' => plainb d && go l' end) ms
  end.
Lemma plainb_ok a : plainb a = true -> plain a.
Proof.
  induction a as [ty|n ms IH] using adef_ind'; intros H; constructor; cbn [plainb] in H; apply andb_true_iff in H as [H1 H2].
  - intros ->. rewrite str_eqb_refl in H1. discriminate.
  - clear H1. induction IH as [|[k d] ms P _ IHm]; constructor; apply andb_true_iff in H2 as [H2 H3]; [apply P, H2|apply IHm, H3].
Qed.
Lemma builtin_plain k d : In (k, d) builtin_definitions -> Forall (fun e => plain (snd e)) d.
Proof.
  intros H. assert (forallb (fun kd => forallb (fun e => plainb (snd e)) (snd kd)) builtin_definitions = true) as X by (vm_compute; reflexivity).
  rewrite forallb_forall in X. specialize (X _ H). cbn in X. rewrite forallb_forall in X. apply Forall_forall. intros e He. apply plainb_ok, X, He.
Qed.
Lemma definition_in mode ud msgid fields d :
  definition_for mode ud msgid fields = Some d -> (exists k, In (k, d) builtin_definitions) \/ exists k, In (k, d) ud.
Proof.
  unfold definition_for. intros H.
  assert (forall k, lookup k (definitions_standard mode) = Some d -> exists k, In (k, d) builtin_definitions) as S1.
  { intros k L. exists k. apply lookup_In in L. unfold builtin_definitions, definitions_standard in *. rewrite !in_app_iff. destruct (mode =? 0); [tauto|]. destruct (mode =? 1); tauto. }
  assert (forall k, lookup k (definitions_proprietary mode) = Some d -> exists k, In (k, d) builtin_definitions) as P1.
  { intros k L. exists k. apply lookup_In in L. unfold builtin_definitions, definitions_proprietary in *. rewrite !in_app_iff. destruct (mode =? 0); [tauto|]. destruct (mode =? 1); tauto. }
  destruct (has_key msgid NMEA_MSGIDS); [left; eapply S1, H|].
  destruct (has_key msgid NMEA_MSGIDS_PROP || str_in msgid prefixes); [left; eapply P1, H|].
  destruct (has_key msgid ud); [|left; eapply S1, H].
  right. eexists. apply lookup_In in H. exact H.
Qed.

Section Congr.
Variables (talker msgid : pystr) (mode : Z) (ud : userdefs) (v v' : Z).
Let c := stream_ctx no_clock talker msgid mode false v ud.
Let c' := stream_ctx no_clock talker msgid mode false v' ud.
Lemma plain_attribute a : plain a -> forall key gi s, set_attribute c a key gi s = set_attribute c' a key gi s.
Proof.
  induction a as [ty|n ms IH] using adef_ind'; intros P key gi s; [reflexivity|].
  inversion P as [|n' ms' N F]; subst. rewrite !set_attribute_group.
  assert (group_count c n ms s = group_count c' n ms s) as ->.
  { unfold group_count, getattr_num. destruct n as [z|name]; [reflexivity|]. destruct (str_eqb name (u "None")); [reflexivity|].
    destruct (str_eqb name (u "msgmode")); [reflexivity|]. destruct (lookup name (a_attrs s)); [reflexivity|].
    destruct (str_eqb_spec name (u "_validate")) as [->|_]; [congruence|reflexivity]. }
  destruct (group_count c' n ms s); cbn [bind]; [|reflexivity]. apply repeat_from_ext. intros i s1. apply set_members_congr'.
  rewrite Forall_forall in *. intros e He. apply IH; [exact He|apply F, He].
Qed.
Lemma plain_members d gi s : Forall (fun e => plain (snd e)) d -> set_members c d gi s = set_members c' d gi s.
Proof. intros F. apply set_members_congr'. rewrite Forall_forall in *. intros e He. apply plain_attribute, F, He. Qed.
End Congr.

(* ------------------------------------------------------------------ C91 *)
(* Whatever parse() does other than raising NMEAParseError it does just so with weaker validation. *)
Theorem C91_outcome m mode v v' ud :
  plain_defs ud -> weaker v' v -> parse m mode v ud <> Raise NMEAParseError ->
  same_outcome (parse m mode v ud) (parse m mode v' ud).
Proof.
  intros P (Wc & Wm) N. destruct (valid_mode mode) eqn:V; [|rewrite parse_bad_mode in N by exact V; congruence].
  destruct (get_parts_total m) as [(p & E)|E].
  - apply get_parts_iff in E as (s & T & F & Hd).
    assert (given m (p_content p) (p_cksum p) (p_talker p) (p_msgid p) (p_payload p)) as G by (split; [exists s; auto|exact Hd]).
    rewrite (parse_stream _ _ _ _ _ _ mode v ud G) in N |- *. rewrite (parse_stream _ _ _ _ _ _ mode v' ud G). rewrite V in N |- *. cbn [negb] in N |- *.
    assert (wants_checksum v' && negb (str_eqb (str_upper (p_cksum p)) (calc_checksum (p_content p))) = false) as ->.
    { destruct (wants_checksum v' && _) eqn:C'; [|reflexivity]. apply andb_true_iff in C' as [C1 C2]. rewrite (Wc C1), C2 in N. cbn in N. congruence. }
    destruct (wants_checksum v && _); [congruence|].
    assert (wants_msgid v' && negb (has_key (p_talker p) NMEA_TALKERS && known_id ud (p_msgid p)) = false) as ->.
    { destruct (wants_msgid v' && _) eqn:C'; [|reflexivity]. apply andb_true_iff in C' as [C1 C2]. rewrite (Wm C1), C2 in N. cbn in N. congruence. }
    destruct (wants_msgid v && _); [congruence|].
    destruct (lacks_id mode (p_msgid p) (p_payload p)); [reflexivity|].
    destruct (definition_for mode ud (p_msgid p) (p_payload p)) as [d|] eqn:D.
    + unfold stream_result. rewrite (plain_members _ _ _ _ v v').
      2:{ apply definition_in in D as [(k & D)|(k & D)]; [eapply builtin_plain, D|eapply P, D]. }
      destruct (type_errors _) as [s'|e]; [|reflexivity]. cbn [same_outcome].
      unfold same_message, identity, serialize, serialize_text, str_of_msg. cbn. repeat split.
    + destruct (wants_msgid v); [congruence|]. destruct (wants_msgid v'); [discriminate (Wm eq_refl)|]. cbn [same_outcome].
      unfold same_message, identity, serialize, serialize_text, str_of_msg. cbn. repeat split.
  - pose proof (proj1 (get_parts_fails m) E) as E1. rewrite parse_no_frame in N |- * by assumption. rewrite parse_no_frame by assumption.
    destruct (wants_msgid v); [congruence|]. destruct (wants_msgid v'); [discriminate (Wm eq_refl)|]. exact I.
Qed.
(* every sentence accepted is accepted, as the same message *)
Corollary C91_message m mode v v' ud x :
  plain_defs ud -> weaker v' v -> parse m mode v ud = Ok (Some x) ->
  exists y, parse m mode v' ud = Ok (Some y) /\ same_message x y.
Proof.
  intros P W E. pose proof (C91_outcome m mode v v' ud P W) as H. rewrite E in H. specialize (H ltac:(discriminate)).
  unfold same_outcome in H. destruct (parse m mode v' ud) as [[y|]|]; [|destruct H|destruct H]. exists y. auto.
Qed.
(* every sentence refused under the weaker validation is refused *)
Corollary C91_refused m mode v v' ud :
  plain_defs ud -> weaker v' v -> parse m mode v' ud = Raise NMEAParseError -> parse m mode v ud = Raise NMEAParseError.
Proof.
  intros P W E. pose proof (C91_outcome m mode v v' ud P W) as H. rewrite E in H. unfold same_outcome in H.
  destruct (parse m mode v ud) as [[y|]|e]; [destruct H; discriminate|destruct H; discriminate|].
  destruct e; try reflexivity; discriminate H; discriminate.
Qed.
(* nothing but the two flags matters *)
Corollary C91_flags m mode v v' ud :
  plain_defs ud -> wants_checksum v = wants_checksum v' -> wants_msgid v = wants_msgid v' ->
  same_outcome (parse m mode v ud) (parse m mode v' ud).
Proof.
  intros P A B. assert (weaker v' v) as W1 by (split; congruence). assert (weaker v v') as W2 by (split; congruence).
  destruct (parse m mode v ud) as [o|e] eqn:E.
  - rewrite <- E. apply C91_outcome; [exact P|exact W1|congruence].
  - destruct (parse m mode v' ud) as [o'|e'] eqn:E'.
    + pose proof (C91_outcome m mode v' v ud P W2 ltac:(congruence)) as H. rewrite E, E' in H. destruct o' as [y|]; destruct H.
    + cbn. destruct e; try (pose proof (C91_outcome m mode v v' ud P W1 ltac:(congruence)) as H; rewrite E, E' in H; exact H).
      apply (C91_refused m mode v' v ud P W2) in E. congruence.
Qed.

(* ------------------------------------------------------------ streams *)
(* [l] is, in order, among [l'] *)
Inductive among {A} (R : A -> A -> Prop) : list A -> list A -> Prop :=
| among_none : among R [] []
| among_take x y l l' : R x y -> among R l l' -> among R (x :: l) (y :: l')
| among_skip y l l' : among R l l' -> among R l (y :: l').
Definition same_item (x y : bytes * option msg) : Prop :=
  fst x = fst y /\ match snd x, snd y with Some a, Some b => same_message a b | None, None => True | _, _ => False end.
(* the same reader but for validate *)
Definition revalidated (cfg : rcfg) (v' : Z) : rcfg :=
  mkrcfg (r_mode cfg) v' (r_nmeaonly cfg) (r_quit cfg) (r_handler cfg) (r_userdefined cfg).

Definition items_of (hs : list happening) : list (bytes * option msg) :=
  flat_map (fun h => match h with Item raw m => [(raw, m)] | _ => [] end) hs.
Lemma gots_noted q h hs : gots (flat_map (noted q h) hs) = items_of hs.
Proof.
  induction hs as [|x hs IH]; [reflexivity|]. cbn [flat_map items_of]. unfold gots in *. rewrite flat_map_app, IH. fold (items_of hs).
  destruct x as [raw m|e|e]; cbn; [reflexivity| |reflexivity]. destruct (reaction q h e); reflexivity.
Qed.
Lemma among_items cfg v' : plain_defs (r_userdefined cfg) -> weaker v' (r_validate cfg) ->
  forall ts hs hs', happens cfg ts hs -> happens (revalidated cfg v') ts hs' -> among same_item (items_of hs) (items_of hs').
Proof.
  intros P W ts hs hs' H. revert hs'.
  induction H as [|raw m ts hs E H IH|raw e ts hs E Pe H IH|raw e ts hs E Pe H IH|c ts hs No H IH|c ts hs No H IH|ts hs H IH]; intros hs' H';
    inversion H'; subst; cbn [r_mode r_validate r_userdefined r_nmeaonly revalidated] in *; try congruence; cbn [items_of flat_map app];
    try (apply IH; assumption); try constructor; try (apply IH; assumption).
  - pose proof (C91_outcome (MBytes raw) (r_mode cfg) _ _ _ P W ltac:(congruence)) as X. rewrite E in X.
    match goal with B : parse _ _ v' _ = _ |- _ => rewrite B in X end. split; [reflexivity|]. cbn [snd]. unfold same_outcome in X.
    destruct m as [x|], m0 as [y|]; assumption.
  - pose proof (C91_outcome (MBytes raw) (r_mode cfg) _ _ _ P W ltac:(congruence)) as X. rewrite E in X.
    match goal with B : parse _ _ v' _ = _ |- _ => rewrite B in X end. unfold same_outcome in X. destruct m; destruct X.
  - pose proof (C91_outcome (MBytes raw) (r_mode cfg) _ _ _ P W ltac:(congruence)) as X. rewrite E in X.
    match goal with B : parse _ _ v' _ = _ |- _ => rewrite B in X end. unfold same_outcome in X. destruct m; destruct X.
Qed.
(* An application that carries on after exceptions gets with weaker validation every item
   it got before, in the same order, and possibly more. *)
Theorem C91_stream cfg v' n fuel s l ev r l' ev' r' :
  plain_defs (r_userdefined cfg) -> weaker v' (r_validate cfg) -> (length s < fuel)%nat -> (length s < n)%nat ->
  fsession cfg n fuel s = Some (l, ev, r) -> fsession (revalidated cfg v') n fuel s = Some (l', ev', r') ->
  among same_item (gots l) (gots l').
Proof.
  intros P W L1 L2 E E'. destruct (tokens_total [lf] s ltac:(discriminate)) as (ts & Tk).
  destruct (happens_total cfg ts) as (hs & Hp). destruct (happens_total (revalidated cfg v') ts) as (hs' & Hp').
  destruct (C76_file cfg n fuel s ts hs Tk Hp L1 L2) as (e1 & X & _). destruct (C76_file (revalidated cfg v') n fuel s ts hs' Tk Hp' L1 L2) as (e2 & X' & _).
  rewrite X in E. rewrite X' in E'. injection E as <- _ _. injection E' as <- _ _. rewrite !gots_noted. eapply among_items; eassumption.
Qed.
(* and over a socket, however the data is cut into segments *)
Theorem C91_socket cfg v' n fuel segs enc z l ev r l' ev' r' :
  plain_defs (r_userdefined cfg) -> weaker v' (r_validate cfg) ->
  Z.testbit enc 0 = false -> Forall (fun d => d <> []) segs -> (length (concat segs) < fuel)%nat -> (length (concat segs) < n)%nat ->
  ssession cfg n fuel (sock_init (map RData segs) enc z) = Some (l, ev, r) ->
  ssession (revalidated cfg v') n fuel (sock_init (map RData segs) enc z) = Some (l', ev', r') ->
  among same_item (gots l) (gots l').
Proof.
  intros P W B F L1 L2 E E'. destruct (tokens_total [cr; lf] (concat segs) ltac:(discriminate)) as (ts & Tk).
  destruct (happens_total cfg ts) as (hs & Hp). destruct (happens_total (revalidated cfg v') ts) as (hs' & Hp').
  destruct (C76_socket cfg n fuel segs enc z ts hs B F Tk Hp L1 L2) as (e1 & k1 & X).
  destruct (C76_socket (revalidated cfg v') n fuel segs enc z ts hs' B F Tk Hp' L1 L2) as (e2 & k2 & X').
  rewrite X in E. rewrite X' in E'. injection E as <- _ _. injection E' as <- _ _. rewrite !gots_noted. eapply among_items; eassumption.
Qed.
(* a sentence with a wrong checksum *)
Example C91_example :
  weaker 0 1 /\ weaker 1 3 /\ ~ weaker 1 2 /\ plain_defs [] /\ plain_defs my_defs
  /\ parse (MBytes ex_bad) 0 1 [] = Raise NMEAParseError
  /\ (exists y, parse (MBytes ex_bad) 0 0 [] = Ok (Some y))
  /\ (exists l ev l' ev', fsession (ex_cfg 1) 300 300 (ex_line ++ ex_bad ++ ex_line) = Some (l, ev, [])
       /\ fsession (revalidated (ex_cfg 1) 0) 300 300 (ex_line ++ ex_bad ++ ex_line) = Some (l', ev', [])
       /\ length (gots l) = 2%nat /\ length (gots l') = 3%nat).
Proof.
  split; [split; discriminate|]. split; [split; reflexivity|]. split; [intros [H _]; specialize (H eq_refl); discriminate H|]. split; [intros k d []|].
  split; [intros k d [H|[]]; injection H as <- <-; repeat constructor; discriminate|].
  split; [vm_compute; reflexivity|]. split; [eexists; vm_compute; reflexivity|].
  do 4 eexists. split; [vm_compute; reflexivity|]. split; [vm_compute; reflexivity|]. split; reflexivity.
Qed.
(* A loop that an exception ends is another matter: a corrupted sentence, refused when checksums
   are validated, can without validation end the loop with an IndexError: the sentences after it are lost. *)
Definition ex_pubx : bytes := u "$PUBX*00" ++ [cr; lf].
Theorem C91_loop_refuted :
  raws (fiterate (ex_cfg 1) 300 300 (ex_pubx ++ ex_line)) = [ex_line]
  /\ raws (fiterate (revalidated (ex_cfg 1) 0) 300 300 (ex_pubx ++ ex_line)) = []
  /\ exists ev r, fiterate (revalidated (ex_cfg 1) 0) 300 300 (ex_pubx ++ ex_line) = Some ([], Some IndexError, ev, r).
Proof. split; [vm_compute; reflexivity|]. split; [vm_compute; reflexivity|]. do 2 eexists. vm_compute. reflexivity. Qed.
(* A user definition whose group is repeated "_validate" times makes the message depend on the flags. *)
Definition odd_defs : userdefs := [(u "ABC", [(u "grp", AGroup (NStr (u "_validate")) [(u "v", ASingle (u "ST"))])])].
Theorem C91_private_refuted :
  exists x y, parse (MStr (u "$GPABC,a,b,c*00")) 0 2 odd_defs = Ok (Some x) /\ parse (MStr (u "$GPABC,a,b,c*00")) 0 0 odd_defs = Ok (Some y)
    /\ map fst (m_attrs x) = [u "v_01"; u "v_02"] /\ m_attrs y = [].
Proof. do 2 eexists. split; [vm_compute; reflexivity|]. split; [vm_compute; reflexivity|]. split; reflexivity. Qed.
