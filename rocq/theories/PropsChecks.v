(* C96: what the checksum detects *)
From Coq Require Import Lia Permutation.
From Verif Require Import Message Reader Socket BaseLemmas TextLemmas NumLemmas Spec ReaderSpec ReaderProofs ParseProofs MessageProofs SelectProofs DecodeProofs StreamProofs
  TableProofs KeywordSpec CompleteProofs PropsParse PropsDecode PropsConstruct PropsReader PropsRelax.
Local Open Scope N_scope.

(* ------------------------------------------------------------ specification *)
(* The content of a good sentence was [c], its checksum text [ck]; what arrives is
   [pre] content [*] [ck] [post] with the content [c']. *)
Definition arrives (c ck pre c' post s : pystr) : Prop :=
  is_checksum c (str_upper ck) /\ (forall x r, ck = r ++ [x] -> ~ framing x)
  /\ Forall framing pre /\ Forall framing post /\ (forall x r, c' = x :: r -> ~ framing x)
  /\ s = pre ++ c' ++ [star] ++ ck ++ post.

(* number of bits set *)
Fixpoint ones_pos (p : positive) : nat :=
  match p with xH => 1 | xO p => ones_pos p | xI p => S (ones_pos p) end.
Definition ones (n : N) : nat := match n with 0 => 0%nat | Npos p => ones_pos p end.
(* number of bits in which two texts of the same length differ *)
Fixpoint flipped (a b : pystr) : nat :=
  match a, b with x :: a', y :: b' => (ones (N.lxor x y) + flipped a' b')%nat | _, _ => 0%nat end.
(* the bits of a text in the order of a serial line (least significant bit first), or the other way round *)
Definition bits_lsb (s : list N) : list bool := flat_map (fun x => map (N.testbit x) [0; 1; 2; 3; 4; 5; 6; 7]) s.
Definition bits_msb (s : list N) : list bool := flat_map (fun x => map (N.testbit x) [7; 6; 5; 4; 3; 2; 1; 0]) s.
(* the two differ at most in eight consecutive bits *)
Definition within_8 (a b : list bool) : Prop :=
  exists k, forall j, (j < k \/ k + 8 <= j)%nat -> nth j a false = nth j b false.

(* ------------------------------------------------------------ the gate *)
Lemma parity_xor c c' : xor_all c = xor_all c' <-> forall i, parity i c = parity i c'.
Proof.
  split.
  - intros E i. rewrite <- !xor_all_parity, E. reflexivity.
  - intros H. apply N.bits_inj. intros i. rewrite !xor_all_parity. apply H.
Qed.
Lemma arrives_frame c ck pre c' post s : arrives c ck pre c' post s -> ~ In star c' -> frame s c' ck.
Proof. intros (_ & H2 & Fp & Fq & H1 & ->) N. exists pre, post. repeat split; assumption. Qed.
Lemma first_star (l : pystr) : In star l -> exists a b, l = a ++ star :: b /\ ~ In star a.
Proof.
  induction l as [|x l IH]; [intros []|]. intros H. destruct (N.eq_dec x star) as [ -> | N ].
  - exists [], l. split; [reflexivity|intros []].
  - destruct IH as (a & b & -> & Na); [destruct H; [congruence|assumption]|]. exists (x :: a), b. split; [reflexivity|].
    intros [X|X]; [congruence|contradiction].
Qed.

(* a star among what arrives, or a bit set an odd number of times too often or too few: refused *)
Theorem C96_detected c ck pre c' post s m mode v ud :
  arrives c ck pre c' post s -> text_of m s -> wants_checksum v = true ->
  (In star c' \/ exists i, parity i c <> parity i c') ->
  parse m mode v ud = Raise NMEAParseError.
Proof.
  intros A T W D. destruct (in_dec N.eq_dec star c') as [I|I].
  - apply first_star in I as (a & b & -> & Na). destruct A as (_ & H2 & Fp & Fq & H1 & ->).
    apply (parse_mismatch m (pre ++ (a ++ star :: b) ++ [star] ++ ck ++ post) a (b ++ [star] ++ ck)); [exact T| |exact W|].
    + exists pre, post. split; [rewrite <- !app_assoc; cbn; rewrite <- ?app_assoc; reflexivity|].
      split; [exact Fp|]. split; [exact Fq|]. split; [exact Na|]. split.
      * intros x r ->. apply (H1 x (r ++ star :: b)). reflexivity.
      * intros x r E. destruct ck as [|k0 k1] using rev_ind.
        -- rewrite app_nil_r in E. apply app_inj_tail in E as [_ <-]. unfold framing, star, dollar, cr, lf. lia.
        -- rewrite !app_assoc in E. apply app_inj_tail in E as [_ <-]. eapply H2. reflexivity.
    + intros E. apply (no_star_in_checksum a). rewrite <- E. cbn [app]. apply upper_star.
  - destruct D as [D|(i & D)]; [contradiction|].
    apply (parse_mismatch m s c' ck mode v ud T (arrives_frame _ _ _ _ _ _ A I) W).
    destruct A as (Hc & _). apply is_checksum_iff in Hc. rewrite Hc. intros E. apply fmt_02X_inj in E.
    apply D. apply parity_xor, E.
Qed.

Lemma gate_open m content ck talker msgid fields mode v v' ud :
  given m content ck talker msgid fields -> plain_defs ud -> is_checksum content (str_upper ck) ->
  wants_msgid v = wants_msgid v' -> same_outcome (parse m mode v ud) (parse m mode v' ud).
Proof.
  intros G P C W. rewrite (parse_stream _ _ _ _ _ _ mode v ud G), (parse_stream _ _ _ _ _ _ mode v' ud G).
  apply is_checksum_iff in C. rewrite C, str_eqb_refl. cbn [negb]. rewrite !andb_false_r, W.
  destruct (valid_mode mode); [|reflexivity]. cbn [negb].
  destruct (wants_msgid v' && _); [reflexivity|]. destruct (lacks_id mode msgid fields); [reflexivity|].
  destruct (definition_for mode ud msgid fields) as [d|] eqn:D.
  - unfold stream_result. rewrite (plain_members _ _ _ _ v v').
    2:{ apply definition_in in D as [(k & D)|(k & D)]; [eapply builtin_plain, D|eapply P, D]. }
    destruct (type_errors _) as [s'|e]; [|reflexivity]. cbn [same_outcome].
    unfold same_message, identity, serialize, serialize_text, str_of_msg. cbn. repeat split.
  - destruct (wants_msgid v'); [reflexivity|]. cbn [same_outcome].
    unfold same_message, identity, serialize, serialize_text, str_of_msg. cbn. repeat split.
Qed.

(* otherwise nothing is noticed: the outcome is that without checksum validation *)
Theorem C96_undetected c ck pre c' post s m mode v v' ud :
  arrives c ck pre c' post s -> text_of m s -> plain_defs ud ->
  ~ In star c' -> (forall i, parity i c = parity i c') ->
  wants_checksum v' = false -> wants_msgid v' = wants_msgid v ->
  same_outcome (parse m mode v ud) (parse m mode v' ud).
Proof.
  intros A T P N E _ W. pose proof (arrives_frame _ _ _ _ _ _ A N) as F.
  destruct (header_exists c') as (t & i & f & H).
  apply (gate_open m c' ck t i f); [split; [exists s; auto|exact H]|exact P| |congruence].
  destruct A as (Hc & _). apply is_checksum_iff in Hc. apply is_checksum_iff. rewrite Hc.
  unfold calc_checksum. f_equal. apply parity_xor, E.
Qed.

(* ------------------------------------------------------------ kinds of damage *)
(* the characters in another order: never noticed *)
Corollary C96_permuted c ck pre c' post s m mode v v' ud :
  arrives c ck pre c' post s -> text_of m s -> plain_defs ud -> ~ In star c' -> Permutation c c' ->
  wants_checksum v' = false -> wants_msgid v' = wants_msgid v ->
  same_outcome (parse m mode v ud) (parse m mode v' ud).
Proof.
  intros A T P N E. apply (C96_undetected c ck pre c' post s); try assumption.
  apply parity_xor, xor_all_perm, E.
Qed.

(* an odd number of bits flipped: always noticed *)
Lemma ones_xor_pos p q : Nat.odd (ones (Pos.lxor p q)) = xorb (Nat.odd (ones_pos p)) (Nat.odd (ones_pos q)).
Proof.
  assert (forall n, Nat.odd (S n) = negb (Nat.odd n)) as C by (intros n; rewrite Nat.odd_succ, <- Nat.negb_odd; reflexivity).
  assert (forall n, Nat.odd (ones (Pos.Nsucc_double n)) = negb (Nat.odd (ones n))) as A by (intros [|r]; [reflexivity|apply C]).
  assert (forall n, ones (Pos.Ndouble n) = ones n) as B by (intros [|r]; reflexivity).
  revert q. induction p as [p IH|p IH|]; intros [q|q|]; cbn [Pos.lxor ones_pos ones]; rewrite ?A, ?B, ?IH, ?C.
  all: try (destruct (Nat.odd (ones_pos p))); try (destruct (Nat.odd (ones_pos q))); try reflexivity.
Qed.
Lemma ones_xor a b : Nat.odd (ones (N.lxor a b)) = xorb (Nat.odd (ones a)) (Nat.odd (ones b)).
Proof.
  destruct a as [|p], b as [|q]; cbn [N.lxor ones].
  - reflexivity.
  - cbn. destruct (Nat.odd _); reflexivity.
  - cbn. destruct (Nat.odd _); reflexivity.
  - apply ones_xor_pos.
Qed.
Lemma flipped_xor a b : length a = length b ->
  Nat.odd (flipped a b) = xorb (Nat.odd (ones (xor_all a))) (Nat.odd (ones (xor_all b))).
Proof.
  revert b; induction a as [|x a IH]; intros [|y b] L; try discriminate L; [reflexivity|].
  cbn [flipped]. rewrite Nat.odd_add, (IH b) by (cbn in L; lia). rewrite !xor_all_cons, !ones_xor.
  destruct (Nat.odd (ones x)), (Nat.odd (ones y)), (Nat.odd (ones (xor_all a))), (Nat.odd (ones (xor_all b))); reflexivity.
Qed.
Corollary C96_odd c ck pre c' post s m mode v ud :
  arrives c ck pre c' post s -> text_of m s -> wants_checksum v = true ->
  length c' = length c -> Nat.odd (flipped c c') = true ->
  parse m mode v ud = Raise NMEAParseError.
Proof.
  intros A T W L O. destruct (N.eq_dec (xor_all c) (xor_all c')) as [E|N].
  - rewrite flipped_xor, E, xorb_nilpotent in O by congruence. discriminate.
  - apply (C96_detected c ck pre c' post s); try assumption. right.
    destruct (N.eq_dec (N.lxor (xor_all c) (xor_all c')) 0) as [Z0|Nz]; [apply N.lxor_eq in Z0; contradiction|].
    exists (N.log2 (N.lxor (xor_all c) (xor_all c'))). intros E. pose proof (N.bit_log2 _ Nz) as B.
    rewrite N.lxor_spec, !xor_all_parity, E, xorb_nilpotent in B. discriminate.
Qed.

(* characters lost, put in, doubled *)
Lemma xor_parity c c' : xor_all c <> xor_all c' -> exists i, parity i c <> parity i c'.
Proof.
  intros N. destruct (N.eq_dec (N.lxor (xor_all c) (xor_all c')) 0) as [Z0|Nz]; [apply N.lxor_eq in Z0; contradiction|].
  exists (N.log2 (N.lxor (xor_all c) (xor_all c'))). intros E. pose proof (N.bit_log2 _ Nz) as B.
  rewrite N.lxor_spec, !xor_all_parity, E, xorb_nilpotent in B. discriminate.
Qed.
Lemma xor_cancel a x : N.lxor x a = a -> x = 0.
Proof. intros E. apply (f_equal (fun n => N.lxor n a)) in E. rewrite N.lxor_assoc, N.lxor_nilpotent, N.lxor_0_r in E. exact E. Qed.
Lemma xor_put a x b : xor_all (a ++ x :: b) = N.lxor x (xor_all (a ++ b)).
Proof. rewrite !xor_all_app, xor_all_cons, <- !N.lxor_assoc, (N.lxor_comm x). reflexivity. Qed.
Corollary C96_lost a x b ck pre post s m mode v ud :
  arrives (a ++ x :: b) ck pre (a ++ b) post s -> text_of m s -> wants_checksum v = true -> x <> 0 ->
  parse m mode v ud = Raise NMEAParseError.
Proof.
  intros A T W N. apply (C96_detected _ _ _ _ _ _ _ _ _ _ A T W). right. apply xor_parity. rewrite xor_put.
  intros E. apply N, (xor_cancel _ _ E).
Qed.
Corollary C96_put_in a x b ck pre post s m mode v ud :
  arrives (a ++ b) ck pre (a ++ x :: b) post s -> text_of m s -> wants_checksum v = true -> x <> 0 ->
  parse m mode v ud = Raise NMEAParseError.
Proof.
  intros A T W N. apply (C96_detected _ _ _ _ _ _ _ _ _ _ A T W). right. apply xor_parity. rewrite xor_put.
  intros E. apply N, (xor_cancel _ _ (eq_sym E)).
Qed.
(* two characters replaced: noticed exactly if not the same bits were flipped in both *)
Corollary C96_two a x b y d ck pre x' y' post s m mode v ud :
  arrives (a ++ x :: b ++ y :: d) ck pre (a ++ x' :: b ++ y' :: d) post s -> text_of m s -> wants_checksum v = true ->
  N.lxor x x' <> N.lxor y y' ->
  parse m mode v ud = Raise NMEAParseError.
Proof.
  intros A T W N. apply (C96_detected _ _ _ _ _ _ _ _ _ _ A T W). right. apply xor_parity.
  rewrite !xor_put. replace (a ++ b ++ y :: d) with ((a ++ b) ++ y :: d) by (rewrite <- app_assoc; reflexivity).
  replace (a ++ b ++ y' :: d) with ((a ++ b) ++ y' :: d) by (rewrite <- app_assoc; reflexivity). rewrite !xor_put.
  set (r := xor_all _). intros E. apply N. apply N.bits_inj. intros i. apply (f_equal (fun n => N.testbit n i)) in E.
  rewrite !N.lxor_spec in *. destruct (N.testbit x i), (N.testbit x' i), (N.testbit y i), (N.testbit y' i), (N.testbit r i); cbn in *; congruence.
Qed.

(* ------------------------------------------------------------ bursts *)
Lemma nth_lsb s q j : (j < 8)%nat -> nth (8 * q + j) (bits_lsb s) false = N.testbit (nth q s 0) (N.of_nat j).
Proof.
  intros J. revert s; induction q as [|q IH]; intros [|x s].
  - cbn. destruct j; reflexivity.
  - cbn [Nat.mul Nat.add]. unfold bits_lsb. cbn [flat_map map app nth]. do 8 (destruct j as [|j]; [reflexivity|]). lia.
  - change (bits_lsb []) with (@nil bool). destruct (8 * S q + j)%nat; reflexivity.
  - replace (8 * S q + j)%nat with (8 + (8 * q + j))%nat by lia. unfold bits_lsb. cbn [flat_map map app nth Nat.add]. apply IH.
Qed.
Lemma nth_msb s q j : (j < 8)%nat -> nth (8 * q + j) (bits_msb s) false = N.testbit (nth q s 0) (7 - N.of_nat j).
Proof.
  intros J. revert s; induction q as [|q IH]; intros [|x s].
  - cbn [bits_msb flat_map nth]. rewrite N.bits_0. destruct (8 * 0 + j)%nat; reflexivity.
  - cbn [Nat.mul Nat.add]. unfold bits_msb. cbn [flat_map map app nth]. do 8 (destruct j as [|j]; [reflexivity|]). lia.
  - change (bits_msb []) with (@nil bool). cbn [nth]. rewrite N.bits_0. destruct (8 * S q + j)%nat; reflexivity.
  - replace (8 * S q + j)%nat with (8 + (8 * q + j))%nat by lia. unfold bits_msb. cbn [flat_map map app nth Nat.add]. apply IH.
Qed.
Definition small (l : list N) : Prop := Forall (fun k => k < 256) l.
Lemma small_bit x y : x < 256 -> y < 256 -> x <> y -> exists b, b < 8 /\ N.testbit x b <> N.testbit y b.
Proof.
  intros X Y N. destruct (N.eq_dec (N.lxor x y) 0) as [Z0|Nz]; [apply N.lxor_eq in Z0; contradiction|].
  exists (N.log2 (N.lxor x y)). split.
  - apply N.log2_lt_pow2; [lia|]. change (2 ^ 8) with (2 ^ 8).
    assert (N.log2 (N.lxor x y) <= N.max (N.log2 x) (N.log2 y)) by apply N.log2_lxor.
    assert (forall z, z < 256 -> N.log2 z <= 7) as B.
    { intros z Hz. destruct (N.eq_dec z 0) as [ -> | Nz0 ]; [cbn; lia|]. assert (N.log2 z < 8); [|lia]. apply N.log2_lt_pow2; [lia|exact Hz]. }
    pose proof (B x X). pose proof (B y Y). apply N.log2_lt_cancel. rewrite N.log2_pow2 by lia. lia.
  - intros E. pose proof (N.bit_log2 _ Nz) as B. rewrite N.lxor_spec, E, xorb_nilpotent in B. discriminate.
Qed.
Lemma first_diff (a b : list N) : length a = length b -> a <> b ->
  exists p x y r r', a = p ++ x :: r /\ b = p ++ y :: r' /\ x <> y /\ length r = length r'.
Proof.
  revert b; induction a as [|x a IH]; intros [|y b] L N; try discriminate L; [congruence|].
  destruct (N.eq_dec x y) as [ -> | Nx ].
  - destruct (IH b) as (p & x' & y' & r & r' & -> & -> & H); [cbn in L; lia|congruence|]. exists (y :: p), x', y', r, r'. auto.
  - exists [], x, y, a, b. repeat split; [exact Nx|cbn in L; lia].
Qed.
Section Burst.
Variables (bits : list N -> list bool) (f : nat -> N).
Hypothesis nth_bits : forall s q j, (j < 8)%nat -> nth (8 * q + j) (bits s) false = N.testbit (nth q s 0) (f j).
Hypothesis onto : forall b, b < 8 -> exists j, (j < 8)%nat /\ f j = b.
Lemma burst_shape c c' : small c -> small c' -> length c = length c' -> c <> c' -> within_8 (bits c) (bits c') ->
  exists a x x', x <> x' /\
    ((c = a ++ [x] /\ c' = a ++ [x'])
     \/ exists y y' b i, c = a ++ x :: y :: b /\ c' = a ++ x' :: y' :: b /\ N.testbit x i <> N.testbit x' i /\ N.testbit y i = N.testbit y' i).
Proof.
  intros Sc Sc' L Ne (k & W). destruct (first_diff c c' L Ne) as (a & x & x' & r & r' & -> & -> & Nx & Lr).
  exists a, x, x'. split; [exact Nx|]. apply Forall_app in Sc as [_ Sr]. apply Forall_app in Sc' as [_ Sr'].
  apply Forall_cons_iff in Sr as [Bx Br]. apply Forall_cons_iff in Sr' as [Bx' Br'].
  destruct (small_bit x x' Bx Bx' Nx) as (i & Bi & Di). destruct (onto i Bi) as (j & Bj & Fj).
  assert (k <= 8 * length a + j /\ 8 * length a + j < k + 8)%nat as In8.
  { destruct (Nat.lt_ge_cases (8 * length a + j) k) as [H|H]; [exfalso|destruct (Nat.lt_ge_cases (8 * length a + j) (k + 8)) as [H'|H']; [lia|exfalso]].
    all: specialize (W (8 * length a + j)%nat ltac:(lia)); rewrite !nth_bits, Fj, !app_nth2 in W by (try exact Bj; lia);
      rewrite Nat.sub_diag in W; cbn in W; congruence. }
  destruct r as [|y b], r' as [|y' b']; try discriminate Lr; [left; split; reflexivity|right].
  apply Forall_cons_iff in Br as [By Bb]. apply Forall_cons_iff in Br' as [By' Bb'].
  assert (forall q u v, nth (length a + S q) (a ++ u :: v) 0 = nth q v 0) as Sh.
  { intros q u0 v0. rewrite app_nth2 by lia. replace (length a + S q - length a)%nat with (S q) by lia. reflexivity. }
  exists y, y', b, i. split; [reflexivity|]. split; [|split; [exact Di|]].
  - f_equal. f_equal. f_equal. apply (nth_ext _ _ 0 0); [cbn in Lr; lia|]. intros q Hq.
    destruct (N.eq_dec (nth q b' 0) (nth q b 0)) as [E|E]; [exact E|exfalso].
    destruct (small_bit (nth q b' 0) (nth q b 0)) as (i2 & B2 & D2); [| |exact E|].
    { rewrite Forall_forall in Bb'. apply Bb', nth_In. exact Hq. }
    { rewrite Forall_forall in Bb. apply Bb, nth_In. cbn in Lr. lia. }
    destruct (onto i2 B2) as (j2 & Bj2 & Fj2). specialize (W (8 * (length a + S (S q)) + j2)%nat ltac:(lia)).
    rewrite !nth_bits, Fj2, !Sh in W by exact Bj2. cbn [nth] in W. congruence.
  - specialize (W (8 * (length a + 1) + j)%nat ltac:(lia)).
    rewrite !nth_bits, Fj, !Sh in W by exact Bj. exact W.
Qed.
End Burst.
Lemma burst c c' : small c -> small c' -> length c = length c' -> c <> c' ->
  within_8 (bits_lsb c) (bits_lsb c') \/ within_8 (bits_msb c) (bits_msb c') ->
  exists a x x', x <> x' /\
    ((c = a ++ [x] /\ c' = a ++ [x'])
     \/ exists y y' b i, c = a ++ x :: y :: b /\ c' = a ++ x' :: y' :: b /\ N.testbit x i <> N.testbit x' i /\ N.testbit y i = N.testbit y' i).
Proof.
  intros Sc Sc' L N [W|W].
  - apply (burst_shape bits_lsb N.of_nat nth_lsb); try assumption. intros b Hb. exists (N.to_nat b). split; lia.
  - apply (burst_shape bits_msb (fun j => 7 - N.of_nat j) nth_msb); try assumption. intros b Hb. exists (7 - N.to_nat b)%nat. split; lia.
Qed.

Lemma parity_small i l : 7 <= i -> Forall (fun k => k < 128) l -> parity i l = false.
Proof.
  intros Hi F. induction F as [|x l Hx _ IH]; [reflexivity|]. cbn [parity]. rewrite IH, xorb_false_r.
  destruct (N.eq_dec x 0) as [ -> | Nx ]; [apply N.bits_0|]. apply N.bits_above_log2.
  assert (N.log2 x < 7); [|lia]. apply N.log2_lt_pow2; [lia|exact Hx].
Qed.
Lemma parity_app i a b : parity i (a ++ b) = xorb (parity i a) (parity i b).
Proof. induction a as [|x a IH]; cbn [app parity]; [destruct (parity i b); reflexivity|]. rewrite IH. symmetry. apply xorb_assoc. Qed.
Lemma forallb_small l : Forall (fun k => k < 128) l -> forallb (fun c => c <? 128) l = true.
Proof. intros F. apply forallb_forall. rewrite Forall_forall in F. intros x Hx. apply N.ltb_lt, F, Hx. Qed.
Lemma framing_small l : Forall framing l -> Forall (fun k => k < 128) l.
Proof. apply Forall_impl. unfold framing, dollar, cr, lf. intros; lia. Qed.
Lemma decode_ascii a r : Forall (fun k => k < 128) a ->
  utf8_decode (a ++ r) = match utf8_decode r with Some t => Some (a ++ t) | None => None end.
Proof.
  intros F. induction F as [|x a Hx _ IH]; cbn [app]; [destruct (utf8_decode r); reflexivity|].
  cbn [utf8_decode]. apply N.ltb_lt in Hx. rewrite Hx, IH. destruct (utf8_decode r); reflexivity.
Qed.
(* two bytes, the first of 128 or more, between ASCII characters *)
Lemma decode_two h g b t : 128 <= h -> Forall (fun k => k < 128) b -> utf8_decode (h :: g :: b) = Some t ->
  exists ch, 128 <= ch /\ t = ch :: b.
Proof.
  intros H F E. assert (utf8_decode b = Some b) as D by (apply utf8_decode_iff, ascii_utf8, forallb_small, F).
  assert (forall z r, b = z :: r -> is_cont z = false) as C.
  { intros z r ->. apply Forall_cons_iff in F as [Hz _]. unfold is_cont. lia. }
  cbn [utf8_decode] in E. replace (h <? 128) with false in E by lia.
  destruct ((194 <=? h) && (h <=? 223)) eqn:E2.
  { destruct (is_cont g) eqn:G; [|discriminate]. rewrite D in E. cbn [ocons] in E. injection E as <-.
    exists ((h - 192) * 64 + (g - 128)). split; [unfold is_cont in G; lia|reflexivity]. }
  destruct ((224 <=? h) && (h <=? 239)) eqn:E3.
  { destruct b as [|z b]; [discriminate|]. rewrite (C z b eq_refl) in E. rewrite andb_false_r in E. discriminate. }
  destruct ((240 <=? h) && (h <=? 244)) eqn:E4; [|discriminate].
  destruct b as [|z [|z' b]]; [discriminate|discriminate|]. rewrite (C z _ eq_refl) in E. rewrite andb_false_r in E. discriminate.
Qed.

(* eight consecutive bits of an ASCII sentence flipped anyhow: never a message *)
Theorem C96_burst c ck pre c' post s mode v ud x :
  arrives c ck pre c' post s -> wants_checksum v = true ->
  Forall (fun k => k < 128) c -> Forall (fun k => k < 128) ck -> Forall (fun k => k < 256) c' -> length c' = length c -> c' <> c ->
  within_8 (bits_lsb c) (bits_lsb c') \/ within_8 (bits_msb c) (bits_msb c') ->
  parse (MBytes s) mode v ud <> Ok (Some x).
Proof.
  intros A W Fc Fk Fc' L Ne B.
  assert (small c) as Sc by (unfold small; eapply Forall_impl; [|exact Fc]; cbn; intros; lia).
  destruct (burst c c' Sc Fc' (eq_sym L) (not_eq_sym Ne) B) as (a & y & y' & Ny & Sh).
  assert (Forall (fun k => k < 128) ([star] ++ ck ++ post)) as Ftail.
  { apply Forall_app. split; [repeat constructor|]. apply Forall_app. split; [exact Fk|]. apply framing_small, A. }
  assert (Forall (fun k => k < 128) pre) as Fpre by apply framing_small, A.
  assert (Forall (fun k => k < 128) a) as Fa by (destruct Sh as [(-> & _)|(? & ? & ? & ? & -> & _)]; apply Forall_app in Fc; apply Fc).
  assert (forall t, Forall (fun k => k < 128) c' -> utf8_encode t = Ok s -> parse (MBytes s) mode v ud <> Ok (Some x)) as Asc.
  { intros t F T. assert (utf8_encode s = Ok s) as T'.
    { apply ascii_utf8, forallb_small. destruct A as (_ & _ & _ & _ & _ & ->). apply Forall_app. split; [exact Fpre|]. apply Forall_app. auto. }
    rewrite (C96_detected c ck pre c' post s (MBytes s) mode v ud A T' W); [discriminate|]. right. apply xor_parity.
    destruct Sh as [(-> & ->)|(z & z' & b & i & -> & -> & D & E)].
    - rewrite !xor_all_app, !xor_all_cons. intros H. apply Ny. cbn in H. rewrite !N.lxor_0_r in H.
      apply (f_equal (N.lxor (xor_all a))) in H. rewrite <- !N.lxor_assoc, N.lxor_nilpotent, !N.lxor_0_l in H. exact H.
    - intros H. apply D. apply (f_equal (fun n => N.testbit n i)) in H.
      rewrite !xor_all_app, !xor_all_cons, !N.lxor_spec, E in H.
      destruct (N.testbit y i), (N.testbit y' i), (N.testbit z' i), (N.testbit (xor_all a) i), (N.testbit (xor_all b) i); cbn in H; congruence. }
  destruct (utf8_decode s) as [t|] eqn:T.
  2:{ destruct (valid_mode mode) eqn:V; [|rewrite parse_bad_mode by exact V; discriminate].
      rewrite parse_no_frame; [|intros s' T'; cbn [text_of] in T'; apply utf8_decode_iff in T'; congruence|exact V].
      destruct (wants_msgid v); discriminate. }
  pose proof T as T0.
  assert (Forall (fun k => k < 128) c' \/ ~ Forall (fun k => k < 128) c') as [F|F].
  { destruct (forallb (fun k => k <? 128) c') eqn:E; [left|right].
    - rewrite forallb_forall in E. apply Forall_forall. intros z Hz. apply N.ltb_lt, E, Hz.
    - intros F. apply forallb_small in F. congruence. }
  { apply (Asc t F). apply utf8_decode_iff, T. }
  (* some byte is not ASCII *)
  assert (forall p q d, s = p ++ d :: q -> Forall (fun k => k < 128) p -> Forall (fun k => k < 128) q -> 128 <= d -> False) as One.
  { intros p q d E Fp Fq Hd. rewrite E, (ascii_broken p d q) in T; [discriminate|apply forallb_small, Fp|apply forallb_small, Fq|exact Hd]. }
  pose proof A as (Ack & Alast & Apre & Apost & Afirst & Es).
  destruct Sh as [(Ec & Ec')|(z & z' & b & i & Ec & Ec' & D & E)].
  - exfalso. destruct (N.lt_ge_cases y' 128) as [H|H].
    + apply F. rewrite Ec'. apply Forall_app. split; [exact Fa|]. constructor; [exact H|constructor].
    + apply (One (pre ++ a) ([star] ++ ck ++ post) y'); [rewrite Es, Ec', <- !app_assoc; reflexivity|apply Forall_app; auto|exact Ftail|exact H].
  - assert (Forall (fun k => k < 128) b) as Fb.
    { rewrite Ec in Fc. apply Forall_app in Fc as [_ Fc]. apply Forall_cons_iff in Fc as [_ Fc]. apply Forall_cons_iff in Fc as [_ Fc]. exact Fc. }
    assert (Forall (fun k => k < 128) (b ++ [star] ++ ck ++ post)) as Fbt by (apply Forall_app; auto).
    destruct (N.lt_ge_cases y' 128) as [H|H].
    + exfalso. destruct (N.lt_ge_cases z' 128) as [H'|H'].
      * apply F. rewrite Ec'. apply Forall_app. split; [exact Fa|]. constructor; [exact H|]. constructor; [exact H'|exact Fb].
      * apply (One (pre ++ a ++ [y']) (b ++ [star] ++ ck ++ post) z'); [rewrite Es, Ec', <- !app_assoc; cbn; rewrite <- ?app_assoc; reflexivity| |exact Fbt|exact H'].
        apply Forall_app. split; [exact Fpre|]. apply Forall_app. split; [exact Fa|]. constructor; [exact H|constructor].
    + assert (s = (pre ++ a) ++ y' :: z' :: b ++ [star] ++ ck ++ post) as Es2 by (rewrite Es, Ec', <- !app_assoc; cbn; rewrite <- ?app_assoc; reflexivity).
      rewrite Es2, decode_ascii in T by (apply Forall_app; auto).
      destruct (utf8_decode (y' :: z' :: b ++ [star] ++ ck ++ post)) as [t'|] eqn:T2; [|discriminate].
      apply decode_two in T2 as (ch & Hch & ->); [|exact H|exact Fbt]. injection T as <-.
      rewrite (C96_detected c ck pre (a ++ ch :: b) post ((pre ++ a) ++ ch :: b ++ [star] ++ ck ++ post)); [discriminate| | |exact W|].
      * split; [exact Ack|]. split; [exact Alast|]. split; [exact Apre|]. split; [exact Apost|]. split.
        -- intros w r Ew. destruct a as [|a0 a1].
           ++ injection Ew as <- _. unfold framing, dollar, cr, lf. lia.
           ++ injection Ew as <- _. apply (Afirst a0 (a1 ++ y' :: z' :: b)). rewrite Ec'. reflexivity.
        -- rewrite <- !app_assoc. cbn. rewrite <- ?app_assoc. reflexivity.
      * cbn [text_of]. apply utf8_decode_iff, T0.
      * right. exists (N.log2 ch). assert (7 <= N.log2 ch) as H7 by (apply N.log2_le_pow2; [lia|exact Hch]).
        rewrite (parity_small _ c H7 Fc), parity_app. cbn [parity]. rewrite (parity_small _ a H7 Fa), (parity_small _ b H7 Fb), N.bit_log2 by lia. discriminate.
Qed.

(* one digit of the checksum replaced by an ASCII character other than itself in the other case *)
Definition same_letter (d e : N) : Prop := exists k, 65 <= k <= 90 /\ (d = k \/ d = k + 32) /\ (e = k \/ e = k + 32).
Lemma upper_ascii d e : d < 128 -> e < 128 -> str_upper [d] = str_upper [e] -> d = e \/ same_letter d e.
Proof.
  unfold str_upper. cbn [flat_map]. rewrite !app_nil_r. unfold upper_char. intros Hd He.
  replace (d <? 128) with true by lia. replace (e <? 128) with true by lia.
  destruct ((97 <=? d) && (d <=? 122)) eqn:D, ((97 <=? e) && (e <=? 122)) eqn:E'; intros [= H]; unfold same_letter.
  - left. lia.
  - right. exists e. lia.
  - right. exists d. lia.
  - left. lia.
Qed.
Theorem C96_digit pre c p e q post d m mode v ud :
  frame (pre ++ c ++ [star] ++ (p ++ e :: q) ++ post) c (p ++ e :: q) -> Forall framing pre -> Forall framing post ->
  is_checksum c (str_upper (p ++ e :: q)) -> d < 128 -> e < 128 -> d <> e -> ~ same_letter d e ->
  text_of m (pre ++ c ++ [star] ++ (p ++ d :: q) ++ post) -> wants_checksum v = true ->
  parse m mode v ud = Raise NMEAParseError.
Proof.
  intros F Fpre Fpost C Hd He N Nl T W. apply is_checksum_iff in C.
  destruct F as (p0 & q0 & _ & _ & _ & Nst & H1 & H2).
  assert (forall z, In z (str_upper (p ++ e :: q)) -> ~ framing z) as Nf.
  { intros z Hz. rewrite C in Hz. apply in_split in Hz as (l1 & l2 & E). intros Fz.
    assert (Forall (fun c => 48 <= c) (calc_checksum c)) as F48.
    { unfold calc_checksum, fmt_02X, zfill. apply Forall_app. split.
      - apply Forall_forall. intros x Hx. apply repeat_spec in Hx. lia.
      - eapply Forall_impl; [|apply hex_of_N_ascii]. cbn. intros; lia. }
    rewrite E in F48. apply Forall_app in F48 as [_ F48]. apply Forall_cons_iff in F48 as [F48 _]. unfold framing, dollar, cr, lf in Fz. lia. }
  assert (forall z, framing z -> In z p -> False) as Np.
  { intros z Fz Hz. apply (Nf z); [|exact Fz]. rewrite str_upper_app. apply in_or_app. left.
    unfold str_upper. apply in_flat_map. exists z. split; [exact Hz|]. unfold framing, dollar, cr, lf in Fz. destruct Fz as [ -> |[ -> | -> ]]; left; reflexivity. }
  assert (str_upper [e] <> []) as Ne.
  { unfold str_upper. cbn [flat_map]. rewrite app_nil_r. unfold upper_char. replace (e <? 128) with true by lia. destruct ((97 <=? e) && (e <=? 122)); discriminate. }
  assert (forall l, str_upper (p ++ l) = calc_checksum c -> str_upper l = str_upper (e :: q)) as Same.
  { intros l E. rewrite <- C, !str_upper_app in E. apply app_inv_head in E. exact E. }
  assert (forall z, framing z \/ ~ framing z) as Dec.
  { intros z. unfold framing. destruct (N.eq_dec z dollar); [tauto|]. destruct (N.eq_dec z cr); [tauto|]. destruct (N.eq_dec z lf); tauto. }
  assert (q <> [] \/ ~ framing d \/ (q = [] /\ framing d)) as Cases by (destruct q; [destruct (Dec d); auto|left; discriminate]).
  assert (forall A : Prop, (q <> [] \/ ~ framing d -> A) -> (q = [] /\ framing d -> A) -> A) as Split.
  { intros A X Y. destruct Cases as [X0|[X0|X0]]; auto. }
  apply Split; clear Split Cases.
  - intros X. apply (parse_mismatch m _ c (p ++ d :: q) mode v ud T); [|exact W|].
    + exists pre, post. split; [reflexivity|]. split; [exact Fpre|]. split; [exact Fpost|]. split; [exact Nst|]. split; [exact H1|].
      intros z r E. destruct q as [|q1 q2] using rev_ind.
      * apply app_inj_tail in E as [_ <-]. destruct X; [congruence|assumption].
      * replace (p ++ d :: q2 ++ [q1]) with ((p ++ d :: q2) ++ [q1]) in E by (rewrite <- app_assoc; reflexivity).
        apply app_inj_tail in E as [_ <-]. apply (H2 q1 (p ++ e :: q2)). rewrite <- app_assoc. reflexivity.
    + intros E. apply Same in E. change (d :: q) with ([d] ++ q) in E. change (e :: q) with ([e] ++ q) in E.
      rewrite !str_upper_app in E. apply app_inv_tail in E. destruct (upper_ascii d e Hd He E); contradiction.
  - intros (-> & Fd). apply (parse_mismatch m _ c p mode v ud T); [|exact W|].
    + exists pre, (d :: post). split; [rewrite <- !app_assoc; reflexivity|]. split; [exact Fpre|]. split; [constructor; assumption|].
      split; [exact Nst|]. split; [exact H1|]. intros z r -> Fz. apply (Np z Fz). apply in_or_app. right. left. reflexivity.
    + intros E. rewrite <- (app_nil_r p) in E. apply Same in E. cbn in E. apply Ne. symmetry. exact E.
Qed.
(* and in the other case it is the same checksum *)
Theorem C96_case pre c p e q post d s m mode v v' ud :
  arrives c (p ++ e :: q) pre c post s -> ~ In star c -> d < 128 -> same_letter d e -> plain_defs ud ->
  text_of m (pre ++ c ++ [star] ++ (p ++ d :: q) ++ post) ->
  wants_checksum v' = false -> wants_msgid v' = wants_msgid v ->
  same_outcome (parse m mode v ud) (parse m mode v' ud).
Proof.
  intros (C & H2 & Fp & Fq & H1 & _) Ns Hd (k & Hk & Dk & Ek) P T Wc W.
  assert (str_upper [d] = str_upper [e]) as U.
  { unfold str_upper. cbn [flat_map]. rewrite !app_nil_r. unfold upper_char.
    replace (d <? 128) with true by lia. replace (e <? 128) with true by lia.
    destruct ((97 <=? d) && (d <=? 122)) eqn:D, ((97 <=? e) && (e <=? 122)) eqn:E'; f_equal; lia. }
  apply (C96_undetected c (p ++ d :: q) pre c post (pre ++ c ++ [star] ++ (p ++ d :: q) ++ post) m mode v v' ud); try assumption; try (intros; reflexivity).
  split.
  { change (d :: q) with ([d] ++ q). change (e :: q) with ([e] ++ q) in C. rewrite !str_upper_app, U, <- !str_upper_app. exact C. }
  split; [|repeat split; assumption].
  intros z r E. destruct q as [|q1 q2] using rev_ind.
  - apply app_inj_tail in E as [_ <-]. unfold framing, dollar, cr, lf. lia.
  - replace (p ++ d :: q2 ++ [q1]) with ((p ++ d :: q2) ++ [q1]) in E by (rewrite <- app_assoc; reflexivity).
    apply app_inj_tail in E as [_ <-]. apply (H2 q1 (p ++ e :: q2)). rewrite <- app_assoc. reflexivity.
Qed.

(* ------------------------------------------------------------ examples *)
Lemma gll_arrives c' pre post : Forall framing pre -> Forall framing post -> (forall x r, c' = x :: r -> ~ framing x) ->
  arrives gll_content (u "68") pre c' post (pre ++ c' ++ [star] ++ u "68" ++ post).
Proof.
  intros Fp Fq H. split; [exact gll_checksum|]. split; [|repeat split; assumption].
  intros x r E. change (u "68") with (u "6" ++ [56]) in E. apply app_inj_tail in E as [_ <-]. unfold framing, dollar, cr, lf. lia.
Qed.
Definition gll_with (lat : pystr) : pystr := u "GNGLL," ++ lat ++ u ",S,00214.41396,E,223232.00,A,A".
(* latitude 5327.04319 -> 5325 (one bit flipped), 4225 (three), a digit lost, one doubled, three replaced *)
Example C96_example :
  gll_with (u "5327.04319") = gll_content
  /\ (forall c', In c' [gll_with (u "5325.04319"); gll_with (u "4225.04319"); gll_with (u "527.04319"); gll_with (u "55327.04319"); gll_with (u "5237.04310")] ->
      arrives gll_content (u "68") [dollar] c' [cr; lf] ([dollar] ++ c' ++ [star] ++ u "68" ++ [cr; lf])
      /\ parse (MBytes ([dollar] ++ c' ++ [star] ++ u "68" ++ [cr; lf])) 0 1 [] = Raise NMEAParseError)
  /\ Nat.odd (flipped gll_content (gll_with (u "5325.04319"))) = true
  /\ Nat.odd (flipped gll_content (gll_with (u "4225.04319"))) = true
  /\ within_8 (bits_lsb gll_content) (bits_lsb (gll_with (u "5325.04319"))).
Proof.
  split; [reflexivity|]. split.
  - intros c' H. split.
    + apply gll_arrives; [constructor; [left; reflexivity|constructor]|constructor; [right; left; reflexivity|constructor; [right; right; reflexivity|constructor]]|].
      intros x r E. cbn [In] in H. repeat (destruct H as [ <- | H ]; [injection E as <- _; unfold framing, dollar, cr, lf; lia|]). destruct H.
    + cbn [In] in H. repeat (destruct H as [ <- | H ]; [vm_compute; reflexivity|]). destruct H.
  - split; [vm_compute; reflexivity|]. split; [vm_compute; reflexivity|].
    exists 72%nat. intros j Hj.
    destruct (Nat.lt_ge_cases j 80) as [H|H].
    + do 72 (destruct j as [|j]; [vm_compute; reflexivity|]). lia.
    + replace j with (80 + (j - 80))%nat by lia. generalize (j - 80)%nat. intros i. vm_compute. reflexivity.
Qed.

(* The checksum is no proof against damage: the first two digits of the latitude exchanged, or
   the same bit flipped in two digits, and another position is reported. *)
Theorem C96_swapped_refuted :
  exists x y z, parse (MStr ([dollar] ++ gll_with (u "5327.04319") ++ u "*68" ++ [cr; lf])) 0 1 [] = Ok (Some x)
    /\ parse (MStr ([dollar] ++ gll_with (u "3527.04319") ++ u "*68" ++ [cr; lf])) 0 1 [] = Ok (Some y)
    /\ parse (MStr ([dollar] ++ gll_with (u "4227.04319") ++ u "*68" ++ [cr; lf])) 0 1 [] = Ok (Some z)
    /\ lookup (u "lat") (m_attrs x) <> lookup (u "lat") (m_attrs y) /\ lookup (u "lat") (m_attrs x) <> lookup (u "lat") (m_attrs z).
Proof.
  eexists. eexists. eexists. split; [vm_compute; reflexivity|]. split; [vm_compute; reflexivity|]. split; [vm_compute; reflexivity|].
  split; vm_compute; intros [= H]; discriminate.
Qed.

(* The checksum is taken over the decoded characters: counted in bytes, an odd number of flipped
   bits can pass, by making three characters of two bytes each. *)
Theorem C96_odd_bytes_refuted :
  let good := [dollar] ++ u "GNTXT,01,01,02,abcdef" ++ [star] ++ calc_checksum (u "GNTXT,01,01,02,abcdef") ++ [cr; lf] in
  exists bad x y, length bad = length good /\ Nat.odd (flipped good bad) = true
    /\ parse (MBytes good) 0 1 [] = Ok (Some x) /\ parse (MBytes bad) 0 1 [] = Ok (Some y) /\ m_payload x <> m_payload y.
Proof.
  cbv zeta. exists ([dollar] ++ u "GNTXT,01,01,02," ++ [194; 135; 196; 128; 198; 128] ++ [star] ++ calc_checksum (u "GNTXT,01,01,02,abcdef") ++ [cr; lf]).
  eexists. eexists. split; [vm_compute; reflexivity|]. split; [vm_compute; reflexivity|]. split; [vm_compute; reflexivity|]. split; [vm_compute; reflexivity|].
  vm_compute. intros H. discriminate H.
Qed.
