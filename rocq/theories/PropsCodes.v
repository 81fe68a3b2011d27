(* The decode tables: C86. *)
From Coq Require Import Lia.
From Verif Require Import Message Reader Decodes PropsMessage Tables BaseLemmas Spec CoordSpec ValueSpec TimeSpec ParseProofs DecodeProofs PropsDecode PropsValue PropsTruncate PropsConstruct.
Local Open Scope Z_scope.

(* ------------------------------------------------------------- specification *)
(* where a code travels: sentence, position of its field, attribute, decode table *)
Definition coded : list (pystr * nat * pystr * list (pyval * pystr)) :=
  [(u "GGA", 5%nat, u "quality", QUALITY); (u "GLL", 6%nat, u "posMode", POSMODE);
   (u "RMC", 11%nat, u "posMode", POSMODE); (u "GNS", 5%nat, u "posMode", POSMODE);
   (u "GBS", 8%nat, u "systemId", SYSTEMID); (u "GRS", 14%nat, u "systemId", SYSTEMID);
   (u "GSA", 17%nat, u "systemId", SYSTEMID)].
(* sentences with a system and a signal identifier, and the positions of these *)
Definition signal_sentences : list (pystr * nat) := [(u "GBS", 8%nat); (u "GRS", 14%nat)].

(* the text of a field spells a key of a table: the text itself, or a decimal numeral *)
Inductive spells : pystr -> pyval -> Prop :=
| spells_text f : spells f (VStr f)
| spells_number ds : digit_text ds -> (1 <= length ds <= 4300)%nat -> spells ds (VInt (number ds)).

(* equal up to the case of ASCII letters *)
Definition same_letters (a b : pystr) : Prop :=
  map (fun c => if ((97 <=? c) && (c <=? 122))%N then (c - 32)%N else c) a
  = map (fun c => if ((97 <=? c) && (c <=? 122))%N then (c - 32)%N else c) b.

(* the bits of the FMI status word that have a meaning *)
Definition status_bits : list Z := [0;1;2;3;4;5;6;7;8;9;10; 13;14; 16;17;18;19;20].
(* the flags a status word raises *)
Definition raises (n : Z) (flag : pystr) : Prop :=
  exists key text, In (VInt key, (flag, text)) FMI_STATUS /\ Z.land n key <> 0.

(* ----------------------------------------------------------------- theorems *)
Definition keyb (a b : pyval) : bool :=
  match a, b with VInt x, VInt y => x =? y | VStr s, VStr t => str_eqb s t | _, _ => false end.
Fixpoint nodupb {A} (eq : A -> A -> bool) (l : list A) : bool :=
  match l with [] => true | x :: r => negb (existsb (eq x) r) && nodupb eq r end.
Lemma nodupb_ok {A} (eq : A -> A -> bool) (l : list A) : (forall x, In x l -> eq x x = true) -> nodupb eq l = true -> NoDup l.
Proof.
  induction l as [|x l IH]; intros R E; [constructor|]. cbn [nodupb] in E. apply andb_prop in E as [E1 E2]. constructor.
  - intros H. apply Bool.negb_true_iff in E1. assert (existsb (eq x) l = true) as E; [|congruence].
    apply existsb_exists. exists x. split; [exact H|]. apply R. left. reflexivity.
  - apply IH; [intros y Hy; apply R; right; exact Hy|exact E2].
Qed.
Definition int_or_str (v : pyval) : Prop := (exists n, v = VInt n) \/ (exists s, v = VStr s).
Lemma keyb_refl v : int_or_str v -> keyb v v = true.
Proof. intros [[n ->]|[s ->]]; cbn; [apply Z.eqb_refl|apply str_eqb_refl]. Qed.

Ltac rows := repeat match goal with H : _ \/ _ |- _ => destruct H as [H|H] | H : False |- _ => destruct H end.
Ltac keys := intros x H; vm_compute in H; rows; subst x; vm_compute; reflexivity.

(* no table has a key twice *)
Theorem C86_distinct :
  NoDup (map fst QUALITY) /\ NoDup (map fst POSMODE) /\ NoDup (map fst GNSSLIST) /\ NoDup (map fst SYSTEMID)
  /\ NoDup (map fst SIGNALID) /\ NoDup (map fst FMI_STATUS) /\ NoDup (map (fun r => fst (snd r)) FMI_STATUS).
Proof.
  repeat split.
  1-4,6: apply nodupb_ok with keyb; [keys|reflexivity].
  - apply nodupb_ok with (fun a b => keyb (fst a) (fst b) && keyb (snd a) (snd b)); [keys|reflexivity].
  - apply nodupb_ok with str_eqb; [intros; apply str_eqb_refl|vm_compute; reflexivity].
Qed.

Lemma nodup_functional {A B} (t : list (A * B)) a b c : NoDup (map fst t) -> In (a, b) t -> In (a, c) t -> b = c.
Proof.
  induction t as [|[x y] t IH]; intros N H1 H2; [destruct H1|]. cbn [map fst] in N. inversion N as [|? ? N1 N2]; subst.
  destruct H1 as [H1|H1], H2 as [H2|H2].
  - congruence.
  - exfalso. apply N1. assert (x = a) as -> by congruence. change a with (fst (a, c)). apply in_map, H2.
  - exfalso. apply N1. assert (x = a) as -> by congruence. change a with (fst (a, b)). apply in_map, H1.
  - exact (IH N2 H1 H2).
Qed.

Lemma not_stripped talker msgid fields c : In c msgid -> ~ In c (u "PSSNSNC") -> kept_as_is talker msgid fields.
Proof.
  intros H N. left. intros x E. apply N. rewrite <- E. apply in_or_app. right. apply in_or_app. left. exact H.
Qed.

(* the slots of a sentence whose groups have a fixed size *)
Fixpoint fixed_slots (d : pdict) : option (list slot) :=
  match d with
  | [] => Some []
  | (k, ASingle ty) :: d' => option_map (cons (k, ty)) (fixed_slots d')
  | (k, AGroup (NInt z) ms) :: d' => option_map (app (group_slots (Z.to_nat z) 1 ms)) (fixed_slots d')
  | _ => None
  end.
Lemma fixed_layout val total d : forall pos sl, fixed_slots d = Some sl -> layout val total pos d sl.
Proof.
  induction d as [|[k [ty|n ms]] d IH]; intros pos sl E; cbn [fixed_slots] in E.
  - assert (sl = []) as -> by congruence. constructor.
  - destruct (fixed_slots d) as [l|]; [|discriminate]. cbn in E. assert (sl = (k, ty) :: l) as -> by congruence. constructor. apply IH. reflexivity.
  - destruct n as [z|]; [|discriminate]. destruct (fixed_slots d) as [l|]; [|discriminate]. cbn [option_map] in E.
    assert (sl = group_slots (Z.to_nat z) 1 ms ++ l) as -> by congruence. econstructor; [reflexivity|]. apply IH. reflexivity.
Qed.

(* a field at a known position of a standard sentence *)
Lemma field_at m content ck talker msgid fields v ud x i f k ty d sl c val :
  given m content ck talker msgid fields -> parse m 0 v ud = Ok (Some x) -> nth_error fields i = Some f ->
  has_key msgid NMEA_MSGIDS = true -> str_in msgid prefixes = false -> lookup (str_upper msgid) NMEA_PAYLOADS_GET = Some d ->
  In c msgid -> ~ In c (u "PSSNSNC") -> fixed_slots d = Some sl -> nth_error sl i = Some (k, ty) -> k <> u "lat" -> k <> u "lon" ->
  ~ In ty [u "LA"; u "LN"] -> stands_for ty f val -> lookup k (m_attrs x) = Some val.
Proof.
  intros G Pa F K P L C NC FS NS K1 K2 NL S.
  assert (definition_for 0 ud msgid fields = Some d) as D.
  { unfold definition_for, lookup_id. rewrite K, P. exact L. }
  assert (well_formed d) as W.
  { apply (C12_builtin (str_upper msgid)). unfold builtin_definitions. apply lookup_In in L. repeat (apply in_or_app; left). exact L. }
  destruct (C71_parsed _ _ _ _ _ _ _ _ _ _ _ sl i k ty f val G Pa (not_stripped _ _ _ _ C NC) D W
     (fixed_layout _ _ _ _ _ FS) NS F K1 K2 S) as (w & _ & Lk & _ & E).
  rewrite Lk, (E NL). reflexivity.
Qed.

Lemma spelled_text ty f key : In ty text_types -> key = VStr f -> stands_for ty f key.
Proof. intros T ->. apply sf_text, T. Qed.
Lemma spelled_number ds : digit_text ds -> (1 <= length ds <= 4300)%nat -> stands_for (u "IN") ds (VInt (number ds)).
Proof. intros D L. exact (sf_integer [] false ds sign_none D L). Qed.

Ltac absent := let H := fresh in intros H; vm_compute in H; rows; discriminate H.
Ltac present := vm_compute; tauto.
Ltac at_field ch := eapply field_at with (c := ch); [eassumption|eassumption|eassumption|vm_compute; reflexivity|vm_compute; reflexivity|vm_compute; reflexivity|present|absent|vm_compute; reflexivity|vm_compute; reflexivity
  |vm_compute; congruence|vm_compute; congruence|absent|].

(* The attribute of a parsed sentence that carries a code is the key, as the table has it,
   that the field spells: looking it up gives that key's name and no other. *)
Theorem C86_decoded m content ck talker msgid fields v ud x pos k table f key name :
  given m content ck talker msgid fields -> parse m 0 v ud = Ok (Some x) ->
  In (msgid, pos, k, table) coded -> nth_error fields pos = Some f ->
  spells f key -> In (key, name) table ->
  lookup k (m_attrs x) = Some key /\ forall name', In (key, name') table -> name' = name.
Proof.
  intros G P C F S T. pose proof C86_distinct as (N1 & N2 & _ & N4 & _). cbn [coded In] in C. rows; injection C as <- <- <- <-.
  all: split; [|intros n' T'; eapply nodup_functional; [|exact T'|exact T]; assumption].
  - at_field 71%N. inversion S; subst; [vm_compute in T; rows; discriminate T|]. apply spelled_number; assumption.
  - at_field 71%N. inversion S; subst; [|vm_compute in T; rows; discriminate T]. apply sf_text. present.
  - at_field 82%N. inversion S; subst; [|vm_compute in T; rows; discriminate T]. apply sf_text. present.
  - at_field 71%N. inversion S; subst; [|vm_compute in T; rows; discriminate T]. apply sf_text. present.
  - at_field 71%N. inversion S; subst; [|vm_compute in T; rows; discriminate T]. apply sf_text. present.
  - at_field 71%N. inversion S; subst; [|vm_compute in T; rows; discriminate T]. apply sf_text. present.
  - at_field 71%N. inversion S; subst; [|vm_compute in T; rows; discriminate T]. apply sf_text. present.
Qed.

(* A system and a signal identifier together. *)
Theorem C86_signal m content ck talker msgid fields v ud x pos a b name :
  given m content ck talker msgid fields -> parse m 0 v ud = Ok (Some x) ->
  In (msgid, pos) signal_sentences -> nth_error fields pos = Some a -> nth_error fields (S pos) = Some b ->
  In ((VStr a, VStr b), name) SIGNALID ->
  lookup (u "systemId") (m_attrs x) = Some (VStr a) /\ lookup (u "signalId") (m_attrs x) = Some (VStr b)
  /\ forall name', In ((VStr a, VStr b), name') SIGNALID -> name' = name.
Proof.
  intros G P C A B T. pose proof C86_distinct as (_ & _ & _ & _ & N & _). split; [|split].
  - cbn [signal_sentences In] in C. rows; injection C as <- <-; at_field 71%N; apply sf_text; present.
  - cbn [signal_sentences In] in C. rows; injection C as <- <-; clear A; at_field 71%N; apply sf_text; present.
  - intros n' T'. eapply nodup_functional; [exact N|exact T'|exact T].
Qed.

(* Every signal belongs to a system of the table of systems, by identifier and by name; and
   every system is a constellation of the list of these - names compared without case. *)
Theorem C86_systems a b name : In ((a, b), name) SIGNALID ->
  exists system prefix rest, In (a, system) SYSTEMID /\ name = prefix ++ u " " ++ rest /\ same_letters prefix system.
Proof.
  intros H.
  assert (forallb (fun r => existsb (fun q => keyb (fst (fst r)) (fst q)
      && (str_eqb (map (fun c => if ((97 <=? c) && (c <=? 122))%N then (c - 32)%N else c) (firstn (length (snd q)) (snd r)))
                  (map (fun c => if ((97 <=? c) && (c <=? 122))%N then (c - 32)%N else c) (snd q)))
      && str_eqb (firstn 1 (skipn (length (snd q)) (snd r))) (u " ")) SYSTEMID) SIGNALID = true) as C by (vm_compute; reflexivity).
  rewrite forallb_forall in C. specialize (C _ H). apply existsb_exists in C as ([k s] & I & C). cbn [fst snd] in C.
  apply andb_prop in C as [C C3]. apply andb_prop in C as [C1 C2]. apply str_eqb_eq in C2. apply str_eqb_eq in C3.
  exists s, (firstn (length s) name), (skipn 1 (skipn (length s) name)). repeat split.
  - assert (k = a) as <-; [|exact I]. destruct a, k; try discriminate C1; cbn in C1; first [apply Z.eqb_eq in C1|apply str_eqb_eq in C1]; congruence.
  - rewrite <- C3, firstn_skipn, firstn_skipn. reflexivity.
  - exact C2.
Qed.
Theorem C86_constellations a system : In (a, system) SYSTEMID -> exists n name, In (VInt n, name) GNSSLIST /\ same_letters name system.
Proof.
  intros H. cbn [SYSTEMID In] in H. unfold GNSSLIST. rows; injection H as <- <-;
    [exists 0|exists 6|exists 2|exists 3|exists 5|exists 7]; eexists; (split; [cbn [In]; tauto|vm_compute; reflexivity]).
Qed.
(* not so when case matters *)
Theorem C86_spelling_refuted :
  In (VStr (u "4"), u "Beidou") SYSTEMID /\ ~ In (u "Beidou") (map snd GNSSLIST)
  /\ In (VStr (u "4"), VStr (u "1"), u "BeiDou B1I D12/D22") SIGNALID.
Proof. split; [present|]. split; [absent|present]. Qed.

(* The FMI status: every key of the table is one bit, so the flags raised are determined by
   the bits that have a meaning, and determine these. *)
Lemma land_pow2 n i : 0 <= i -> Z.land n (2 ^ i) <> 0 <-> Z.testbit n i = true.
Proof.
  intros I. split.
  - intros H. destruct (Z.testbit n i) eqn:E; [reflexivity|]. exfalso. apply H. apply Z.bits_inj'. intros j J.
    rewrite Z.land_spec, Z.bits_0. destruct (Z.eq_dec i j) as [<-|NE]; [rewrite E; reflexivity|].
    rewrite Z.pow2_bits_false by lia. apply Bool.andb_false_r.
  - intros H E. assert (Z.testbit (Z.land n (2 ^ i)) i = true) as T by (rewrite Z.land_spec, H, Z.pow2_bits_true by lia; reflexivity).
    rewrite E, Z.bits_0 in T. discriminate T.
Qed.
Theorem C86_status_keys : map fst FMI_STATUS = map (fun i => VInt (2 ^ i)) status_bits.
Proof. vm_compute. reflexivity. Qed.
Theorem C86_status_flags n n' :
  (forall flag, raises n flag <-> raises n' flag) <-> (forall i, In i status_bits -> Z.testbit n i = Z.testbit n' i).
Proof.
  assert (forall i, In i status_bits -> 0 <= i) as NN by (intros i H; cbn [status_bits In] in H; lia).
  assert (forall key q, In (VInt key, q) FMI_STATUS -> exists i, In i status_bits /\ key = 2 ^ i) as K.
  { intros key q H. apply (in_map fst) in H. rewrite C86_status_keys in H. apply in_map_iff in H as (i & E & I). cbn [fst] in E. exists i. split; [exact I|congruence]. }
  pose proof C86_distinct as (_ & _ & _ & _ & _ & N & M).
  split.
  - assert (forall a b i, (forall flag, raises a flag -> raises b flag) -> In i status_bits -> Z.testbit a i = true -> Z.testbit b i = true) as G.
    { intros a b i R I T. assert (In (VInt (2 ^ i)) (map fst FMI_STATUS)) as J by (rewrite C86_status_keys; apply (in_map (fun i => VInt (2 ^ i))), I).
      apply in_map_iff in J as ([k [flag text]] & E & J). cbn [fst] in E. subst k.
      destruct (R flag) as (key & text' & J' & L).
      { exists (2 ^ i), text. split; [exact J|]. apply land_pow2; [apply NN, I|exact T]. }
      apply land_pow2; [apply NN, I|]. assert (key = 2 ^ i) as <-; [|exact L].
      assert (forall l (r r' : pyval * (pystr * pystr)), NoDup (map (fun r => fst (snd r)) l) -> In r l -> In r' l -> fst (snd r) = fst (snd r') -> r = r') as U.
      { clear. induction l as [|q l IH]; intros r r' N H H' E; [destruct H|]. cbn [map] in N. inversion N as [|? ? N1 N2]; subst.
        destruct H as [->|H], H' as [->|H']; [reflexivity| | |apply IH; assumption].
        - exfalso. apply N1. rewrite E. apply (in_map (fun r => fst (snd r))), H'.
        - exfalso. apply N1. rewrite <- E. apply (in_map (fun r => fst (snd r))), H. }
      pose proof (U _ _ _ M J J' eq_refl) as E. congruence. }
    intros R i I. destruct (Z.testbit n i) eqn:T.
    + symmetry. apply (G n n'); [intros flag; apply R|exact I|exact T].
    + destruct (Z.testbit n' i) eqn:T'; [|reflexivity]. rewrite <- T. apply (G n' n); [intros flag; apply R|exact I|exact T'].
  - assert (forall a b, (forall i, In i status_bits -> Z.testbit a i = Z.testbit b i) -> forall flag, raises a flag -> raises b flag) as G.
    { intros a b E flag (key & text & J & L). exists key, text. split; [exact J|]. destruct (K _ _ J) as (i & I & ->).
      apply land_pow2; [apply NN, I|]. rewrite <- E by exact I. apply land_pow2; [apply NN, I|exact L]. }
    intros E flag. split; apply G; [exact E|intros i I; symmetry; apply E, I].
Qed.

(* But the status of a parsed FMI sentence is the text of its field, which is no key of the
   table: it must be converted from hexadecimal first. *)
Theorem C86_status_text m content ck talker fields v ud x f :
  given m content ck talker (u "FMI") fields -> parse m 0 v ud = Ok (Some x) -> nth_error fields 11 = Some f ->
  lookup (u "status") (m_attrs x) = Some (VStr f) /\ ~ In (VStr f) (map fst FMI_STATUS).
Proof.
  intros G P F. split.
  - at_field 70%N. apply sf_text. present.
  - rewrite C86_status_keys. intros H. apply in_map_iff in H as (i & E & _). discriminate E.
Qed.

(* Several letters, or a zero in front, spell no key of a table of texts. *)
Theorem C86_several_letters_refuted :
  (exists x, parse (MStr (u "$GNGNS,,,,,,AA,,,,,,*00")) 0 0 [] = Ok (Some x) /\ lookup (u "posMode") (m_attrs x) = Some (VStr (u "AA")))
  /\ ~ In (VStr (u "AA")) (map fst POSMODE) /\ ~ In (VStr (u "01")) (map fst SYSTEMID).
Proof. split; [|split; absent]. eexists. split; vm_compute; reflexivity. Qed.

Example C86_example :
  (exists content x, given (MStr (u "$GNGGA,,,,,,04,,,,,,,,*00")) content (u "00") (u "GN") (u "GGA") (split_all 44 (u ",,,,,04,,,,,,,,"))
     /\ parse (MStr (u "$GNGGA,,,,,,04,,,,,,,,*00")) 0 0 [] = Ok (Some x)
     /\ spells (u "04") (VInt 4) /\ In (VInt 4, u "RTK FIXED") QUALITY /\ lookup (u "quality") (m_attrs x) = Some (VInt 4))
  /\ raises 3 (u "Finit") /\ raises 3 (u "Ready") /\ ~ raises 3 (u "Inaccurate").
Proof.
  split.
  - exists (u "GNGGA,,,,,,04,,,,,,,,"). eexists. split; [given_lit|]. split; [vm_compute; reflexivity|].
    split; [apply (spells_number (u "04")); [repeat (constructor; [cbn; lia|]); constructor|cbn; lia]|]. split; [do 4 right; left; reflexivity|]. vm_compute. reflexivity.
  - split; [exists 1; eexists; split; [present|discriminate]|]. split; [exists 2; eexists; split; [present|discriminate]|].
    intros (key & text & H & L). vm_compute in H. rows; try congruence. apply L. assert (key = 4) as -> by congruence. reflexivity.
Qed.
