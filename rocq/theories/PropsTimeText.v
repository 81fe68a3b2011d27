(* C105: exactly which texts are read as a time or a date, and as which. *)
From Verif Require Import Helpers BaseLemmas TextLemmas NumLemmas TimeSpec TimeProofs CoordSpec.
From Coq Require Import Sorted.
Local Open Scope Z_scope.

(* ---------------------------------------------------------------- specification *)
(* a decimal digit of any script (unicodedata.decimal); an ASCII digit from lo to hi *)
Definition digit (c : N) (v : Z) : Prop := exists n, decimal_val c = Some n /\ v = Z.of_N n.
Definition among (lo hi : Z) (c : N) (v : Z) : Prop := lo <= v <= hi /\ 0 <= v <= 9 /\ c = Z.to_N (48 + v).
Definition one (P : N -> Z -> Prop) (x : pystr) (v : Z) : Prop := exists a, x = [a] /\ P a v.
Definition pair (P Q : N -> Z -> Prop) (x : pystr) (v : Z) : Prop := exists a b i j, x = [a; b] /\ P a i /\ Q b j /\ v = 10 * i + j.

Definition hour_text x v := pair (among 0 1) digit x v \/ pair (among 2 2) (among 0 3) x v \/ one digit x v.
Definition minute_text x v := pair (among 0 5) digit x v \/ one digit x v.
Definition second_text x v := pair (among 0 5) digit x v \/ pair (among 6 6) (among 0 1) x v \/ one digit x v.
Definition point_text (x : pystr) (v : Z) := x = u "." /\ v = 0.
(* millionths of a second *)
Definition fraction_text x v := digit_text x /\ (1 <= length x <= 6)%nat /\ v = number x * 10 ^ (6 - Z.of_nat (length x)).
Definition month_text x v := pair (among 0 0) (among 1 9) x v \/ pair (among 1 1) (among 0 2) x v \/ one (among 1 9) x v.
Definition day_text x v :=
  pair (among 0 0) (among 1 9) x v \/ pair (among 1 2) digit x v \/ pair (among 3 3) (among 0 1) x v \/ one (among 1 9) x v
  \/ exists y, x = u " " ++ y /\ one (among 1 9) y v.
Definition year_text x v := pair digit digit x v.
Definition long_year_text x v := exists y z i j, x = y ++ z /\ pair digit digit y i /\ pair digit digit z j /\ v = 100 * i + j.

(* a list of parts, one for each form *)
Inductive fits : list (pystr -> Z -> Prop) -> list pystr -> list Z -> Prop :=
| fits_nil : fits [] [] []
| fits_cons (F : pystr -> Z -> Prop) Fs x xs v vs : F x v -> fits Fs xs vs -> fits (F :: Fs) (x :: xs) (v :: vs).
(* at the first part that differs, the first list takes more characters *)
Inductive greedier : list pystr -> list pystr -> Prop :=
| greedier_here x y a b : (length y < length x)%nat -> greedier (x :: a) (y :: b)
| greedier_there x a b : greedier a b -> greedier (x :: a) (x :: b).
(* the whole of s, cut into parts, each part as long as it can be *)
Definition cut_into (Fs : list (pystr -> Z -> Prop)) (s : pystr) (parts : list pystr) (vs : list Z) : Prop :=
  fits Fs parts vs /\ concat parts = s
  /\ forall parts' vs' r, fits Fs parts' vs' -> s = concat parts' ++ r -> parts' = parts \/ greedier parts parts'.

(* ---------------------------------------------------------------- proofs *)
Definition shorter_rest (a b : Z * pystr) : Prop := (length (snd a) < length (snd b))%nat.
Definition matches_form (p : pystr -> matches) (F : pystr -> Z -> Prop) : Prop :=
  forall s, (forall v r, In (v, r) (p s) <-> exists x, s = x ++ r /\ F x v) /\ StronglySorted shorter_rest (p s).

Lemma sorted_same p F s v v' r : matches_form p F -> In (v, r) (p s) -> In (v', r) (p s) -> v = v'.
Proof.
  intros G. destruct (G s) as [_ So]. induction So as [|[w q] l So IH Fa]; intros H H'; [contradiction|].
  rewrite Forall_forall in Fa.
  destruct H as [H|H], H' as [H'|H'].
  - congruence.
  - injection H as -> ->. apply Fa in H'. unfold shorter_rest in H'. cbn in H'. lia.
  - injection H' as -> ->. apply Fa in H. unfold shorter_rest in H. cbn in H. lia.
  - apply IH; assumption.
Qed.
Lemma form_functional p F x v v' : matches_form p F -> F x v -> F x v' -> v = v'.
Proof.
  intros G H H'. apply (sorted_same p F x v v' []); [exact G| |]; apply (G x); exists x; (split; [symmetry; apply app_nil_r|assumption]).
Qed.
Lemma fits_functional ps Fs : Forall2 matches_form ps Fs -> forall xs vs vs', fits Fs xs vs -> fits Fs xs vs' -> vs = vs'.
Proof.
  intros G. induction G as [|p F ps Fs G0 G IH]; intros xs vs vs' H H'; inversion H; subst; inversion H'; subst; [reflexivity|].
  f_equal; [eapply form_functional; eassumption|eapply IH; eassumption].
Qed.
Lemma re_seq_in ps Fs : Forall2 matches_form ps Fs -> forall s vs r,
  In (vs, r) (re_seq ps s) <-> exists parts, fits Fs parts vs /\ s = concat parts ++ r.
Proof.
  intros G. induction G as [|p F ps Fs G0 G IH]; intros s vs r; cbn [re_seq].
  - split.
    + intros [H|[]]. injection H as <- <-. exists []. split; [constructor|reflexivity].
    + intros (parts & H & E). inversion H; subst. left. reflexivity.
  - rewrite in_flat_map. split.
    + intros ([v q] & I & H). apply in_map_iff in H as ([ws t] & E & H). injection E as <- <-.
      apply (G0 s) in I as (x & -> & Fx). apply IH in H as (parts & Ft & ->).
      exists (x :: parts). split; [constructor; assumption|]. cbn [concat]. rewrite app_assoc. reflexivity.
    + intros (parts & H & E). inversion H as [|F' Fs' x xs v ws Fx Ft]; subst.
      exists (v, concat xs ++ r). split.
      * apply G0. exists x. split; [cbn [concat]; rewrite app_assoc; reflexivity|exact Fx].
      * apply in_map_iff. exists (ws, r). split; [reflexivity|]. apply IH. exists xs. split; [exact Ft|reflexivity].
Qed.
Lemma flat_map_head {A B} (f : A -> list B) l y t : flat_map f l = y :: t ->
  exists l1 x l2 t', l = l1 ++ x :: l2 /\ (forall z, In z l1 -> f z = []) /\ f x = y :: t'.
Proof.
  induction l as [|a l IH]; intros H; [discriminate H|]. cbn [flat_map] in H. destruct (f a) as [|b q] eqn:E.
  - destruct (IH H) as (l1 & x & l2 & t' & -> & N & Fx). exists (a :: l1), x, l2, t'. split; [reflexivity|]. split; [|exact Fx].
    intros z [<-|Z]; [exact E|apply N, Z].
  - cbn [app] in H. injection H as -> _. exists [], a, l, q. split; [reflexivity|]. split; [intros z []|exact E].
Qed.
Lemma app_same_length {A} (a b c d : list A) : a ++ b = c ++ d -> length a = length c -> a = c /\ b = d.
Proof.
  revert c. induction a as [|x a IH]; intros [|y c] E L; cbn in *; try discriminate L; [split; [reflexivity|exact E]|].
  injection E as -> E. destruct (IH c E ltac:(lia)) as [-> ->]. split; reflexivity.
Qed.
Lemma sorted_after l1 (x : Z * pystr) l2 y : StronglySorted shorter_rest (l1 ++ x :: l2) -> In y l2 -> shorter_rest x y.
Proof.
  induction l1 as [|a l1 IH]; cbn [app]; intros H I; inversion H as [|? ? H1 H2]; subst.
  - rewrite Forall_forall in H2. apply H2, I.
  - apply IH; assumption.
Qed.
Lemma re_seq_head ps Fs : Forall2 matches_form ps Fs -> forall s vs r t, re_seq ps s = (vs, r) :: t ->
  exists parts, fits Fs parts vs /\ s = concat parts ++ r
    /\ forall parts' vs' r', fits Fs parts' vs' -> s = concat parts' ++ r' -> parts' = parts \/ greedier parts parts'.
Proof.
  intros G. induction G as [|p F ps Fs G0 G IH]; intros s vs r t H; cbn [re_seq] in H.
  - injection H as <- <- _. exists []. split; [constructor|]. split; [reflexivity|].
    intros parts' vs' r' Ft _. inversion Ft; subst. left. reflexivity.
  - apply flat_map_head in H as (l1 & [v q] & l2 & t' & L & N & E).
    destruct (re_seq ps q) as [|[ws u0] t0] eqn:R; [discriminate E|]. cbn [map] in E. injection E as <- <- _.
    assert (I : In (v, q) (p s)) by (rewrite L; apply in_or_app; right; left; reflexivity).
    apply (G0 s) in I as (x & Es & Fx). destruct (IH _ _ _ _ R) as (parts & Ft & Eq & Best).
    exists (x :: parts). split; [constructor; assumption|]. split; [cbn [concat]; rewrite <- app_assoc, <- Eq; exact Es|].
    intros parts' vs' r' Ft' E'. inversion Ft' as [|F' Fs' x' xs' v' ws' Fx' Ft'']; subst F' Fs' parts' vs'.
    cbn [concat] in E'. rewrite <- app_assoc in E'.
    assert (I' : In (v', concat xs' ++ r') (p s)) by (apply G0; exists x'; split; assumption).
    assert (NE : In (ws', r') (re_seq ps (concat xs' ++ r'))) by (apply (re_seq_in ps Fs G); exists xs'; split; [assumption|reflexivity]).
    rewrite L in I'. apply in_app_or in I' as [I'|[I'|I']].
    + apply N in I'. apply map_eq_nil in I'. rewrite I' in NE. contradiction.
    + injection I' as <- Eq'.
      assert (Lx : length x = length x').
      { rewrite Es in E'. apply (f_equal (@length _)) in E'. rewrite !app_length in E'. rewrite Eq', app_length in E'. lia. }
      rewrite Es in E'. destruct (app_same_length _ _ _ _ E' Lx) as [<- _].
      destruct (Best xs' ws' r' Ft'' Eq') as [->|B]; [left; reflexivity|right; apply greedier_there; exact B].
    + right. apply greedier_here. destruct (G0 s) as [_ So]. rewrite L in So. pose proof (sorted_after _ _ _ _ So I') as Sh.
      unfold shorter_rest in Sh. cbn [snd] in Sh. rewrite Es in E'. apply (f_equal (@length _)) in E'. rewrite !app_length in E'.
      rewrite app_length in Sh. lia.
Qed.
Lemma greedier_asym a b : greedier a b -> greedier b a -> False.
Proof.
  intros H. induction H as [x y a b H|x a b H IH]; intros K; inversion K; subst; first [lia|apply IH; assumption].
Qed.
Lemma re_match_cut ps Fs s vs : Forall2 matches_form ps Fs -> re_match ps s = Some vs <-> exists parts, cut_into Fs s parts vs.
Proof.
  intros G. unfold re_match. destruct (re_seq ps s) as [|[ws r] t] eqn:R.
  - split; [intros H; discriminate H|]. intros (parts & Ft & E & _). exfalso.
    assert (I : In (vs, []) (re_seq ps s)) by (apply (re_seq_in ps Fs G); exists parts; rewrite app_nil_r; split; [exact Ft|symmetry; exact E]).
    rewrite R in I. contradiction.
  - destruct (re_seq_head ps Fs G _ _ _ _ R) as (parts & Ft & E & Best). split.
    + intros H. destruct r; [|discriminate H]. injection H as <-. exists parts. split; [exact Ft|]. rewrite app_nil_r in E.
      split; [symmetry; exact E|exact Best].
    + intros (parts1 & Ft1 & E1 & Best1).
      assert (Q : parts1 = parts).
      { destruct (Best parts1 vs [] Ft1) as [Q|Q]; [rewrite app_nil_r; symmetry; exact E1|exact Q|].
        destruct (Best1 parts ws r Ft E) as [Q'|Q']; [symmetry; exact Q'|]. destruct (greedier_asym _ _ Q Q'). }
      subst parts1. rewrite (fits_functional ps Fs G _ _ _ Ft Ft1) in *.
      assert (R0 : r = []) by (rewrite E1 in E; rewrite <- (app_nil_r s) in E at 1; apply app_inv_head in E; symmetry; exact E).
      rewrite R0. reflexivity.
Qed.

(* ---------------------------------------------------------------- the directives *)
Definition finds (p : pystr -> matches) (F : pystr -> Z -> Prop) : Prop :=
  forall s v r, In (v, r) (p s) <-> exists x, s = x ++ r /\ F x v.
Lemma dg_finds : finds dg (one digit).
Proof.
  intros [|c s] v r; cbn [dg].
  - split; [intros []|]. intros (x & E & a & -> & _). discriminate E.
  - split.
    + destruct (decimal_val c) as [n|] eqn:D; [|intros []]. intros [H|[]]. injection H as <- <-. exists [c]. split; [reflexivity|].
      exists c. split; [reflexivity|]. exists n. split; [exact D|reflexivity].
    + intros (x & E & a & -> & n & D & ->). injection E as <- <-. rewrite D. left. reflexivity.
Qed.
Lemma dec_digit_among a b c : 0 <= a -> b <= 9 ->
  forall v, among a b c v <-> exists n, dec_digit c = Some n /\ v = Z.of_N n /\ a <= v <= b.
Proof.
  intros A B v. unfold among, dec_digit. split.
  - intros (H & H9 & ->). exists (Z.to_N v). replace (48 <=? Z.to_N (48 + v))%N with true by (symmetry; apply N.leb_le; lia).
    replace (Z.to_N (48 + v) <=? 57)%N with true by (symmetry; apply N.leb_le; lia). cbn [andb]. split; [f_equal; lia|]. lia.
  - intros (n & D & -> & H). destruct (N.leb_spec 48 c), (N.leb_spec c 57); cbn [andb] in D; try discriminate D. injection D as <-. lia.
Qed.
Lemma ar_finds a b : 0 <= a -> b <= 9 -> finds (ar a b) (one (among a b)).
Proof.
  intros A B [|c s] v r; cbn [ar].
  - split; [intros []|]. intros (x & E & c & -> & _). discriminate E.
  - split.
    + destruct (dec_digit c) as [n|] eqn:D; [|intros []]. destruct ((a <=? Z.of_N n) && (Z.of_N n <=? b)) eqn:L; [|intros []].
      apply andb_true_iff in L as [L1 L2]. apply Z.leb_le in L1, L2.
      intros [H|[]]. injection H as <- <-. exists [c]. split; [reflexivity|]. exists c. split; [reflexivity|].
      apply dec_digit_among; [exact A|exact B|]. exists n. split; [exact D|]. lia.
    + intros (x & E & a' & -> & M). injection E as <- <-. apply dec_digit_among in M as (n & D & -> & L); [|exact A|exact B].
      rewrite D. replace (a <=? Z.of_N n) with true by (symmetry; apply Z.leb_le; lia).
      replace (Z.of_N n <=? b) with true by (symmetry; apply Z.leb_le; lia). left. reflexivity.
Qed.
Lemma two_finds p q P Q : finds p (one P) -> finds q (one Q) -> finds (two p q) (pair P Q).
Proof.
  intros Hp Hq s v r. unfold two. rewrite in_flat_map. split.
  - intros ([i t] & I & H). apply in_map_iff in H as ([j r'] & E & J). injection E as <- <-.
    apply Hp in I as (x & -> & a & -> & Pa). apply Hq in J as (y & -> & b & -> & Qb).
    exists [a; b]. split; [reflexivity|]. exists a, b, i, j. repeat split; assumption.
  - intros (x & -> & a & b & i & j & -> & Pa & Qb & ->). exists (i, b :: r). split.
    + apply Hp. exists [a]. split; [reflexivity|]. exists a. split; [reflexivity|exact Pa].
    + apply in_map_iff. exists (j, r). split; [reflexivity|]. apply Hq. exists [b]. split; [reflexivity|]. exists b. split; [reflexivity|exact Qb].
Qed.
Lemma alt_in l s v r : In (v, r) (alt l s) <-> exists p, In p l /\ In (v, r) (p s).
Proof. unfold alt. apply in_flat_map. Qed.

Ltac atoms := first [exact dg_finds | apply ar_finds; lia | apply two_finds; [first [exact dg_finds|apply ar_finds; lia]|first [exact dg_finds|apply ar_finds; lia]]].
Lemma re_H_finds : finds re_H hour_text.
Proof.
  assert (A : finds (two (ar 2 2) (ar 0 3)) (pair (among 2 2) (among 0 3))) by atoms.
  assert (B : finds (two (ar 0 1) dg) (pair (among 0 1) digit)) by atoms.
  assert (C : finds dg (one digit)) by atoms.
  intros s v r. unfold re_H, hour_text. rewrite alt_in. split.
  - intros (p & [<-|[<-|[<-|[]]]] & I); [apply A in I|apply B in I|apply C in I]; destruct I as (x & E & H); exists x; auto.
  - intros (x & E & [H|[H|H]]); eexists; (split; [|first [apply B; exists x; split; [exact E|exact H]|apply A; exists x; split; [exact E|exact H]|apply C; exists x; split; [exact E|exact H]]]); cbn [In]; auto.
Qed.
Lemma re_M_finds : finds re_M minute_text.
Proof.
  assert (B : finds (two (ar 0 5) dg) (pair (among 0 5) digit)) by atoms.
  assert (C : finds dg (one digit)) by atoms.
  intros s v r. unfold re_M, minute_text. rewrite alt_in. split.
  - intros (p & [<-|[<-|[]]] & I); [apply B in I|apply C in I]; destruct I as (x & E & H); exists x; auto.
  - intros (x & E & [H|H]); eexists; (split; [|first [apply B; exists x; split; [exact E|exact H]|apply C; exists x; split; [exact E|exact H]]]); cbn [In]; auto.
Qed.
Lemma re_S_finds : finds re_S second_text.
Proof.
  assert (A : finds (two (ar 6 6) (ar 0 1)) (pair (among 6 6) (among 0 1))) by atoms.
  assert (B : finds (two (ar 0 5) dg) (pair (among 0 5) digit)) by atoms.
  assert (C : finds dg (one digit)) by atoms.
  intros s v r. unfold re_S, second_text. rewrite alt_in. split.
  - intros (p & [<-|[<-|[<-|[]]]] & I); [apply A in I|apply B in I|apply C in I]; destruct I as (x & E & H); exists x; auto.
  - intros (x & E & [H|[H|H]]); eexists; (split; [|first [apply B; exists x; split; [exact E|exact H]|apply A; exists x; split; [exact E|exact H]|apply C; exists x; split; [exact E|exact H]]]); cbn [In]; auto.
Qed.
Lemma re_m_finds : finds re_m month_text.
Proof.
  assert (A : finds (two (ar 1 1) (ar 0 2)) (pair (among 1 1) (among 0 2))) by atoms.
  assert (B : finds (two (ar 0 0) (ar 1 9)) (pair (among 0 0) (among 1 9))) by atoms.
  assert (C : finds (ar 1 9) (one (among 1 9))) by atoms.
  intros s v r. unfold re_m, month_text. rewrite alt_in. split.
  - intros (p & [<-|[<-|[<-|[]]]] & I); [apply A in I|apply B in I|apply C in I]; destruct I as (x & E & H); exists x; auto.
  - intros (x & E & [H|[H|H]]); eexists; (split; [|first [apply B; exists x; split; [exact E|exact H]|apply A; exists x; split; [exact E|exact H]|apply C; exists x; split; [exact E|exact H]]]); cbn [In]; auto.
Qed.
Lemma space_finds p F : finds p F -> finds (space_then p) (fun x v => exists y, x = u " " ++ y /\ F y v).
Proof.
  intros H [|c s] v r; cbn [space_then].
  - split; [intros []|]. intros (x & E & y & -> & _). discriminate E.
  - destruct (N.eqb_spec c 32) as [->|N].
    + split.
      * intros I. apply H in I as (x & -> & Fx). exists (32%N :: x). split; [reflexivity|]. exists x. split; [reflexivity|exact Fx].
      * intros (x & E & y & -> & Fy). injection E as ->. apply H. exists y. split; [reflexivity|exact Fy].
    + split; [intros []|]. intros (x & E & y & -> & _). injection E as -> _. contradiction.
Qed.
Lemma re_d_finds : finds re_d day_text.
Proof.
  assert (A : finds (two (ar 3 3) (ar 0 1)) (pair (among 3 3) (among 0 1))) by atoms.
  assert (B : finds (two (ar 1 2) dg) (pair (among 1 2) digit)) by atoms.
  assert (D : finds (two (ar 0 0) (ar 1 9)) (pair (among 0 0) (among 1 9))) by atoms.
  assert (C : finds (ar 1 9) (one (among 1 9))) by atoms.
  pose proof (space_finds _ _ C) as S0.
  intros s v r. unfold re_d, day_text. rewrite alt_in. split.
  - intros (p & [<-|[<-|[<-|[<-|[<-|[]]]]]] & I); [apply A in I|apply B in I|apply D in I|apply C in I|apply S0 in I]; destruct I as (x & E & H); exists x; auto 10.
  - intros (x & E & [H|[H|[H|[H|H]]]]); eexists; (split; [|first
      [apply D; exists x; split; [exact E|exact H]|apply B; exists x; split; [exact E|exact H]|apply A; exists x; split; [exact E|exact H]
      |apply C; exists x; split; [exact E|exact H]|apply S0; exists x; split; [exact E|exact H]]]); cbn [In]; auto 10.
Qed.
Lemma re_y2_finds : finds re_y2 year_text.
Proof. unfold re_y2, year_text. atoms. Qed.
Lemma re_Y_finds : finds re_Y long_year_text.
Proof.
  pose proof re_y2_finds as Y. intros s v r. unfold re_Y, long_year_text. rewrite in_flat_map. split.
  - intros ([i t] & I & H). apply in_map_iff in H as ([j r'] & E & J). injection E as <- <-.
    apply Y in I as (x & -> & Px). apply Y in J as (y & -> & Py). exists (x ++ y). split; [apply app_assoc|].
    exists x, y, i, j. repeat split; assumption.
  - intros (x & -> & y & z & i & j & -> & Py & Pz & ->). exists (i, z ++ r). split.
    + apply Y. exists y. split; [symmetry; apply app_assoc|exact Py].
    + apply in_map_iff. exists (j, r). split; [reflexivity|]. apply Y. exists z. split; [reflexivity|exact Pz].
Qed.
Lemma re_dot_finds : finds re_dot point_text.
Proof.
  intros [|c s] v r; cbn [re_dot].
  - split; [intros []|]. intros (x & E & -> & _). discriminate E.
  - destruct (N.eqb_spec c 46) as [->|N].
    + split; [intros [H|[]]; injection H as <- <-; exists (u "."); repeat split|].
      intros (x & E & -> & ->). injection E as <-. left. reflexivity.
    + split; [intros []|]. intros (x & E & -> & _). injection E as -> _. contradiction.
Qed.

(* the candidates come with the longest first *)
Ltac cases_of s :=
  destruct s as [|c1 [|c2 s]]; cbn [dg ar two alt space_then flat_map map app];
  repeat (match goal with
    | |- context [match decimal_val ?c with _ => _ end] => destruct (decimal_val c) eqn:?
    | |- context [match dec_digit ?c with _ => _ end] => destruct (dec_digit c) eqn:?
    | |- context [if ?b then _ else _] => destruct b eqn:?
    end; cbn [dg ar two alt space_then flat_map map app]).

Lemma sorted_one (x : Z * pystr) : StronglySorted shorter_rest [x].
Proof. repeat constructor. Qed.
Lemma sorted_two (x y : Z * pystr) : shorter_rest x y -> StronglySorted shorter_rest [x; y].
Proof. intros H. repeat constructor. exact H. Qed.
Lemma dec_digit_bounds c n : dec_digit c = Some n -> (48 <= c <= 57 /\ n = c - 48)%N.
Proof. unfold dec_digit. destruct (N.leb_spec 48 c), (N.leb_spec c 57); cbn [andb]; intros H1; try discriminate H1. injection H1 as <-. lia. Qed.
Ltac digits := repeat match goal with
  | H : dec_digit ?c = Some ?n |- _ => apply dec_digit_bounds in H
  | H : (_ && _) = true |- _ => apply andb_true_iff in H as [? ?]
  | H : (_ <=? _) = true |- _ => apply Z.leb_le in H
  | H : (_ =? _)%N = true |- _ => apply N.eqb_eq in H
  end.
Ltac sorted := first [apply SSorted_nil | apply sorted_one | apply sorted_two; unfold shorter_rest; cbn [snd length]; lia | exfalso; digits; lia].
Lemma re_H_sorted s : StronglySorted shorter_rest (re_H s).
Proof. unfold re_H. cases_of s; sorted. Qed.
Lemma re_M_sorted s : StronglySorted shorter_rest (re_M s).
Proof. unfold re_M. cases_of s; sorted. Qed.
Lemma re_S_sorted s : StronglySorted shorter_rest (re_S s).
Proof. unfold re_S. cases_of s; sorted. Qed.
Lemma re_m_sorted s : StronglySorted shorter_rest (re_m s).
Proof. unfold re_m. cases_of s; sorted. Qed.
Lemma re_d_sorted s : StronglySorted shorter_rest (re_d s).
Proof. unfold re_d. cases_of s; sorted. Qed.
Lemma re_y2_sorted s : StronglySorted shorter_rest (re_y2 s).
Proof. unfold re_y2. cases_of s; sorted. Qed.

Lemma re_Y_sorted s : StronglySorted shorter_rest (re_Y s).
Proof.
  unfold re_Y. destruct s as [|c1 [|c2 [|c3 [|c4 s]]]]; cbn [dg two flat_map map app];
  repeat (match goal with |- context [match decimal_val ?c with _ => _ end] => destruct (decimal_val c) eqn:? end; cbn [dg two flat_map map app]); sorted.
Qed.
Lemma re_dot_sorted s : StronglySorted shorter_rest (re_dot s).
Proof. unfold re_dot. destruct s as [|c s]; [sorted|]. destruct (c =? 46)%N; sorted. Qed.
(* %f *)
Lemma ar09 c s : ar 0 9 (c :: s) = match dec_digit c with Some d => [(Z.of_N d, s)] | None => [] end.
Proof.
  cbn [ar]. unfold dec_digit. destruct (N.leb_spec 48 c), (N.leb_spec c 57); cbn [andb]; try reflexivity.
  replace (0 <=? Z.of_N (c - 48)) with true by (symmetry; apply Z.leb_le; lia).
  replace (Z.of_N (c - 48) <=? 9) with true by (symmetry; apply Z.leb_le; lia). reflexivity.
Qed.
Lemma sorted_snoc l (x : Z * pystr) : StronglySorted shorter_rest l -> (forall y, In y l -> shorter_rest y x) -> StronglySorted shorter_rest (l ++ [x]).
Proof.
  induction l as [|a l IH]; intros H K; cbn [app]; [apply sorted_one|]. inversion H as [|? ? H1 H2]; subst. constructor.
  - apply IH; [exact H1|]. intros y I. apply K. right. exact I.
  - apply Forall_app. split; [exact H2|]. constructor; [|constructor]. apply K. left. reflexivity.
Qed.
Lemma number_snoc_acc s : forall acc, number_acc acc s = acc * 10 ^ Z.of_nat (length s) + number s.
Proof.
  unfold number. induction s as [|c s IH]; intros acc; cbn [number_acc length]; [cbn; lia|]. rewrite IH, (IH (10 * 0 + _)).
  rewrite Nat2Z.inj_succ, Z.pow_succ_r by lia. ring.
Qed.
Lemma re_f_aux_finds n : forall k acc s v r, Z.of_nat n <= k ->
  In (v, r) (re_f_aux n k acc s) <-> exists x, s = x ++ r /\ digit_text x /\ (1 <= length x <= n)%nat /\ v = number_acc acc x * 10 ^ (k - Z.of_nat (length x)).
Proof.
  induction n as [|n IH]; intros k acc s v r K; cbn [re_f_aux].
  - split; [intros []|]. intros (x & _ & _ & L & _). lia.
  - destruct s as [|c s].
    + cbn [ar flat_map]. split; [intros []|]. intros (x & E & _ & L & _). destruct x; [cbn in L; lia|discriminate E].
    + rewrite ar09. destruct (dec_digit c) as [d|] eqn:D; cbn [flat_map app].
      2: { split; [intros []|]. intros (x & E & T & L & _). destruct x as [|c' x]; [cbn in L; lia|]. injection E as <- ->.
           inversion T as [|? ? B T']; subst. exfalso. unfold dec_digit in D.
           destruct (N.leb_spec 48 c), (N.leb_spec c 57); cbn [andb] in D; try discriminate D; lia. }
      assert (B : (48 <= c <= 57)%N /\ Z.of_N d = Z.of_N c - 48).
      { unfold dec_digit in D. destruct (N.leb_spec 48 c), (N.leb_spec c 57); cbn [andb] in D; try discriminate D. injection D as <-. lia. }
      destruct B as [B Ed]. rewrite app_nil_r, in_app_iff. rewrite IH by lia. split.
      * intros [(x & -> & T & L & ->)|[H|[]]].
        -- exists (c :: x). split; [reflexivity|]. split; [constructor; assumption|]. cbn [length]. split; [lia|].
           cbn [number_acc]. rewrite Ed. f_equal. f_equal. lia.
        -- injection H as <- <-. exists [c]. split; [reflexivity|]. split; [repeat constructor; lia|]. cbn [length]. split; [lia|].
           cbn [number_acc]. rewrite Ed. reflexivity.
      * intros (x & E & T & L & ->). destruct x as [|c' x]; [cbn in L; lia|]. injection E as <- ->. inversion T as [|? ? _ T']; subst.
        destruct x as [|c2 x].
        -- right. left. cbn [number_acc length app]. rewrite Ed. reflexivity.
        -- left. exists (c2 :: x). split; [reflexivity|]. split; [exact T'|]. cbn [length] in L |- *. split; [lia|].
           cbn [number_acc]. rewrite Ed. f_equal. f_equal. lia.
Qed.
Lemma re_f_aux_sorted n : forall k acc s, Z.of_nat n <= k -> StronglySorted shorter_rest (re_f_aux n k acc s).
Proof.
  induction n as [|n IH]; intros k acc s K; cbn [re_f_aux]; [constructor|].
  destruct s as [|c s]; [constructor|]. rewrite ar09. destruct (dec_digit c) as [d|]; cbn [flat_map app]; [|constructor].
  rewrite app_nil_r. apply sorted_snoc; [apply IH; lia|]. intros [v r] I. apply re_f_aux_finds in I as (x & -> & _ & L & _); [|lia].
  unfold shorter_rest. cbn [snd]. rewrite app_length. lia.
Qed.
Lemma re_f_form : matches_form re_f fraction_text.
Proof.
  intros s. split; [|apply re_f_aux_sorted; lia]. intros v r. unfold re_f. rewrite re_f_aux_finds by lia. reflexivity.
Qed.
Lemma form p F : finds p F -> (forall s, StronglySorted shorter_rest (p s)) -> matches_form p F.
Proof. intros H H' s. split; [apply H|apply H']. Qed.
Definition time_forms := [hour_text; minute_text; second_text; point_text; fraction_text].
Lemma time_match s vs : re_match [re_H; re_M; re_S; re_dot; re_f] s = Some vs <-> exists parts, cut_into time_forms s parts vs.
Proof.
  apply re_match_cut.
  repeat (apply Forall2_cons; [first [exact re_f_form|apply form; [exact re_H_finds|exact re_H_sorted]|apply form; [exact re_M_finds|exact re_M_sorted]
    |apply form; [exact re_S_finds|exact re_S_sorted]|apply form; [exact re_dot_finds|exact re_dot_sorted]]|]). apply Forall2_nil.
Qed.

Definition date_forms (form : pystr) : list (pystr -> Z -> Prop) :=
  if str_eqb form (u "DM") then [month_text; day_text; year_text]
  else if str_eqb form (u "DTL") then [day_text; month_text; long_year_text]
  else [day_text; month_text; year_text].

Ltac date_match := apply re_match_cut;
  repeat (apply Forall2_cons; [first [apply form; [exact re_m_finds|exact re_m_sorted]|apply form; [exact re_d_finds|exact re_d_sorted]
    |apply form; [exact re_y2_finds|exact re_y2_sorted]|apply form; [exact re_Y_finds|exact re_Y_sorted]]|]); apply Forall2_nil.

(* the text a time is read from: six characters stand for themselves followed by ".00" *)
Definition with_decimals (s : pystr) : pystr := if Nat.eqb (length s) 6 then s ++ u ".00" else s.

(* ---------------------------------------------------------------- theorems *)
Lemma decimal_val_bound c n : decimal_val c = Some n -> (n <= 9)%N.
Proof.
  unfold decimal_val. destruct (find _ decimal_zeros) as [z|] eqn:F; intros H; [|discriminate H]. injection H as <-.
  apply find_some in F as [_ F]. apply andb_true_iff in F as [F1 F2]. apply N.leb_le in F1, F2. lia.
Qed.
Lemma number_bound x : digit_text x -> 0 <= number x < 10 ^ Z.of_nat (length x).
Proof.
  intros T. induction T as [|c x Hc T IH]; [cbn; lia|]. unfold number. cbn [number_acc]. rewrite number_snoc_acc. cbn [length].
  rewrite Nat2Z.inj_succ, Z.pow_succ_r by lia. nia.
Qed.
Theorem C105_time s t : time2utc s = VTime t <->
  exists parts h m sec us, cut_into time_forms (with_decimals s) parts [h; m; sec; 0; us] /\ sec < 60 /\ t = mktime h m sec us.
Proof.
  change (time2utc s) with (match strptime_time (with_decimals s) with Some t => VTime t | None => VStr [] end). generalize (with_decimals s) as w. intros w. unfold strptime_time. split.
  - destruct (re_match [re_H; re_M; re_S; re_dot; re_f] w) as [vs|] eqn:M.
    2: { intros H. discriminate H. }
    apply time_match in M as [parts M]. pose proof M as [Ft _].
    inversion Ft as [|? ? x1 ? h ? F1 Ft1]; subst. inversion Ft1 as [|? ? x2 ? m ? F2 Ft2]; subst. inversion Ft2 as [|? ? x3 ? sec ? F3 Ft3]; subst.
    inversion Ft3 as [|? ? x4 ? z ? F4 Ft4]; subst. inversion Ft4 as [|? ? x5 ? us ? F5 Ft5]; subst. inversion Ft5; subst.
    destruct F4 as [_ ->]. destruct (valid_time (mktime h m sec us)) eqn:V; intros H; [|discriminate H]. injection H as <-.
    exists [x1; x2; x3; x4; x5], h, m, sec, us. split; [exact M|]. split; [|reflexivity]. apply valid_time_iff in V. destruct V as (_ & _ & V & _). cbn in V. lia.
  - intros (parts & h & m & sec & us & C & L & ->). pose proof C as [Ft _].
    assert (M : re_match [re_H; re_M; re_S; re_dot; re_f] w = Some [h; m; sec; 0; us]) by (apply time_match; exists parts; exact C).
    rewrite M. assert (V : valid_time (mktime h m sec us) = true); [|rewrite V; reflexivity].
    apply valid_time_iff.
    inversion Ft as [|? ? x1 ? ? ? F1 Ft1]; subst. inversion Ft1 as [|? ? x2 ? ? ? F2 Ft2]; subst. inversion Ft2 as [|? ? x3 ? ? ? F3 Ft3]; subst.
    inversion Ft3 as [|? ? x4 ? ? ? F4 Ft4]; subst. inversion Ft4 as [|? ? x5 ? ? ? F5 Ft5]; subst.
    unfold time_of_day. cbn [t_hour t_min t_sec t_us].
    assert (Dg : forall c v, digit c v -> 0 <= v <= 9).
    { intros c v (n & D & ->). pose proof (decimal_val_bound _ _ D). lia. }
    split; [|split; [|split]].
    + destruct F1 as [(a & b & i & j & _ & (A & _) & B & ->)|[(a & b & i & j & _ & (A & _) & (B & _) & ->)|(a & _ & B)]];
        try (apply Dg in B); lia.
    + destruct F2 as [(a & b & i & j & _ & (A & _) & B & ->)|(a & _ & B)]; apply Dg in B; lia.
    + split; [|exact L]. destruct F3 as [(a & b & i & j & _ & (A & _) & B & ->)|[(a & b & i & j & _ & (A & _) & (B & _) & ->)|(a & _ & B)]];
        try (apply Dg in B); lia.
    + destruct F5 as (T & Ln & ->). pose proof (number_bound x5 T) as Nb.
      assert (P : 10 ^ Z.of_nat (length x5) * 10 ^ (6 - Z.of_nat (length x5)) = 1000000).
      { rewrite <- Z.pow_add_r by lia. replace (Z.of_nat (length x5) + (6 - Z.of_nat (length x5))) with 6 by lia. reflexivity. }
      assert (0 < 10 ^ (6 - Z.of_nat (length x5))) by (apply Z.pow_pos_nonneg; lia). nia.
Qed.

Theorem C105_date s form d : date2utc s form = VDate d <->
  exists parts x y z, cut_into (date_forms form) s parts [x; y; z] /\ calendar_date d
    /\ d = (if str_eqb form (u "DM") then mkdate (if z <=? 68 then 2000 + z else 1900 + z) x y
            else if str_eqb form (u "DTL") then mkdate z y x
            else mkdate (if z <=? 68 then 2000 + z else 1900 + z) y x).
Proof.
  unfold date2utc, dform_of, date_forms. change ty_DM with (u "DM"). change ty_DTL with (u "DTL").
  assert (G : forall ps Fs (mk : Z -> Z -> Z -> date), (forall vs, re_match ps s = Some vs <-> exists parts, cut_into Fs s parts vs) -> length Fs = 3%nat ->
    forall o, o = match re_match ps s with Some [x; y; z] => if valid_date (mk x y z) then Some (mk x y z) else None | _ => None end ->
    match o with Some d0 => VDate d0 | None => VStr [] end = VDate d <->
    exists parts x y z, cut_into Fs s parts [x; y; z] /\ calendar_date d /\ d = mk x y z).
  { intros ps Fs mk M L o ->. split.
    - destruct (re_match ps s) as [vs|]; [|intros H; discriminate H]. destruct (proj1 (M vs) eq_refl) as [parts C].
      destruct vs as [|x [|y [|z [|]]]]; try (intros H; discriminate H). destruct (valid_date (mk x y z)) eqn:V; intros H; [|discriminate H].
      injection H as <-. exists parts, x, y, z. split; [exact C|]. split; [apply valid_date_iff, V|reflexivity].
    - intros (parts & x & y & z & C & V & ->). assert (E : re_match ps s = Some [x; y; z]) by (apply M; exists parts; exact C).
      rewrite E. apply valid_date_iff in V. rewrite V. reflexivity. }
  destruct (str_eqb form (u "DM")); [|destruct (str_eqb form (u "DTL"))]; cbn [strptime_date].
  - apply (G [re_m; re_d; re_y2] [month_text; day_text; year_text] (fun x y z => mkdate (year2 z) x y)); [intros vs; date_match|reflexivity|reflexivity].
  - apply (G [re_d; re_m; re_Y] [day_text; month_text; long_year_text] (fun x y z => mkdate z y x)); [intros vs; date_match|reflexivity|reflexivity].
  - apply (G [re_d; re_m; re_y2] [day_text; month_text; year_text] (fun x y z => mkdate (year2 z) y x)); [intros vs; date_match|reflexivity|reflexivity].
Qed.

(* any other text gives an empty text, not an error *)
Theorem C105_otherwise s form :
  (time2utc s = VStr [] \/ exists t, time2utc s = VTime t) /\ (date2utc s form = VStr [] \/ exists d, date2utc s form = VDate d).
Proof.
  unfold time2utc, date2utc. split.
  - destruct (strptime_time _) as [t|]; [right; exists t; reflexivity|left; reflexivity].
  - destruct (strptime_date _ _) as [d|]; [right; exists d; reflexivity|left; reflexivity].
Qed.

(* ---------------------------------------------------------------- the usual forms *)
Lemma among_char lo hi c v : among lo hi c v -> (48 <= c <= 57)%N.
Proof. intros (_ & H & ->). lia. Qed.
Lemma digit_not_point c v : digit c v -> c <> 46%N.
Proof. intros (n & D & _) ->. vm_compute in D. discriminate D. Qed.
Lemma time_part_chars x v : hour_text x v \/ minute_text x v \/ second_text x v -> ~ In 46%N x /\ (1 <= length x <= 2)%nat.
Proof.
  assert (P : forall P Q : N -> Z -> Prop, (forall c w, P c w -> c <> 46%N) -> (forall c w, Q c w -> c <> 46%N) -> pair P Q x v -> ~ In 46%N x /\ (1 <= length x <= 2)%nat).
  { intros P Q HP HQ (a & b & i & j & -> & A & B & _). split; [|cbn; lia]. intros [E|[E|[]]]; [exact (HP _ _ A E)|exact (HQ _ _ B E)]. }
  assert (O : one digit x v -> ~ In 46%N x /\ (1 <= length x <= 2)%nat).
  { intros (a & -> & A). split; [|cbn; lia]. intros [E|[]]. exact (digit_not_point _ _ A E). }
  assert (Am : forall lo hi c w, among lo hi c w -> c <> 46%N) by (intros lo hi c w A; apply among_char in A; lia).
  intros [[H|[H|H]]|[[H|H]|[H|[H|H]]]]; first [apply O; exact H|eapply P; [| |exact H]; intros; first [eapply Am; eassumption|eapply digit_not_point; eassumption]].
Qed.
Lemma first_point a b c d : a ++ 46%N :: b = c ++ 46%N :: d -> ~ In 46%N a -> ~ In 46%N c -> a = c /\ b = d.
Proof.
  revert c. induction a as [|x a IH]; intros [|y c] E Na Nc; cbn [app] in E.
  - injection E as ->. split; reflexivity.
  - injection E as <- _. exfalso. apply Nc. left. reflexivity.
  - injection E as -> _. exfalso. apply Na. left. reflexivity.
  - injection E as -> E. destruct (IH c E) as [-> ->]; [intros I; apply Na; right; exact I|intros I; apply Nc; right; exact I|split; reflexivity].
Qed.
(* what precedes the point has three to six digits, what follows one to six *)
Theorem C105_time_shape s t : time2utc s = VTime t ->
  exists x f, with_decimals s = x ++ u "." ++ f /\ Forall (fun c => exists v, digit c v) x /\ (3 <= length x <= 6)%nat
    /\ digit_text f /\ (1 <= length f <= 6)%nat.
Proof.
  intros H. apply C105_time in H as (parts & h & m & sec & us & (Ft & E & _) & _ & _).
  inversion Ft as [|? ? x1 ? ? ? F1 Ft1]; subst. inversion Ft1 as [|? ? x2 ? ? ? F2 Ft2]; subst. inversion Ft2 as [|? ? x3 ? ? ? F3 Ft3]; subst.
  inversion Ft3 as [|? ? x4 ? ? ? F4 Ft4]; subst. inversion Ft4 as [|? ? x5 ? ? ? F5 Ft5]; subst. inversion Ft5; subst.
  destruct F4 as [-> _]. destruct F5 as (T5 & L5 & _). cbn [concat] in E.
  pose proof (time_part_chars x1 h (or_introl F1)) as [_ L1]. pose proof (time_part_chars x2 m (or_intror (or_introl F2))) as [_ L2].
  pose proof (time_part_chars x3 sec (or_intror (or_intror F3))) as [_ L3].
  exists (x1 ++ x2 ++ x3), x5. split; [rewrite <- E, !app_nil_r, <- !app_assoc; reflexivity|].
  assert (Da : forall lo hi c w, among lo hi c w -> digit c w).
  { intros lo hi c w (_ & B & ->). exists (Z.to_N w). split; [|lia].
    assert (W : In w [0;1;2;3;4;5;6;7;8;9]) by (cbn [In]; lia). cbn [In] in W.
    destruct W as [<-|[<-|[<-|[<-|[<-|[<-|[<-|[<-|[<-|[<-|[]]]]]]]]]]]; vm_compute; reflexivity. }
  assert (Dp : forall (P Q : N -> Z -> Prop) x v, (forall c w, P c w -> digit c w) -> (forall c w, Q c w -> digit c w) -> pair P Q x v -> Forall (fun c => exists v, digit c v) x).
  { intros P Q x v HP HQ (a & b & i & j & -> & A & B & _). constructor; [exists i; apply HP, A|]. constructor; [exists j; apply HQ, B|constructor]. }
  assert (Do : forall x v, one digit x v -> Forall (fun c => exists v, digit c v) x).
  { intros x v (a & -> & A). constructor; [exists v; exact A|constructor]. }
  split; [|split; [rewrite !app_length; lia|split; assumption]].
  apply Forall_app. split; [|apply Forall_app; split].
  - destruct F1 as [F|[F|F]]; first [eapply Do; exact F|eapply Dp; [| |exact F]; intros; first [eapply Da; eassumption|assumption]].
  - destruct F2 as [F|F]; first [eapply Do; exact F|eapply Dp; [| |exact F]; intros; first [eapply Da; eassumption|assumption]].
  - destruct F3 as [F|[F|F]]; first [eapply Do; exact F|eapply Dp; [| |exact F]; intros; first [eapply Da; eassumption|assumption]].
Qed.
(* six characters: hhmmss, two digits each, and nothing else *)
Theorem C105_six s t : length s = 6%nat -> time2utc s = VTime t <->
  exists h m sec a b c, s = a ++ b ++ c /\ length a = 2%nat /\ length b = 2%nat /\ length c = 2%nat
    /\ hour_text a h /\ minute_text b m /\ second_text c sec /\ sec < 60 /\ t = mktime h m sec 0.
Proof.
  intros L. rewrite C105_time. assert (W : with_decimals s = s ++ u ".00") by (unfold with_decimals; rewrite L; reflexivity). rewrite W. split.
  - intros (parts & h & m & sec & us & (Ft & E & _) & Ls & ->).
    inversion Ft as [|? ? x1 ? ? ? F1 Ft1]; subst. inversion Ft1 as [|? ? x2 ? ? ? F2 Ft2]; subst. inversion Ft2 as [|? ? x3 ? ? ? F3 Ft3]; subst.
    inversion Ft3 as [|? ? x4 ? ? ? F4 Ft4]; subst. inversion Ft4 as [|? ? x5 ? ? ? F5 Ft5]; subst. inversion Ft5; subst.
    destruct F4 as [-> _]. destruct F5 as (T5 & L5 & ->). cbn [concat] in E. rewrite app_nil_r in E.
    destruct (time_part_chars x1 h (or_introl F1)) as [N1 L1]. destruct (time_part_chars x2 m (or_intror (or_introl F2))) as [N2 L2].
    destruct (time_part_chars x3 sec (or_intror (or_intror F3))) as [N3 L3].
    assert (N : ~ In 46%N (x1 ++ x2 ++ x3)) by (intros I; repeat (apply in_app_or in I as [I|I]; [contradiction|]); contradiction).
    assert (E' : (x1 ++ x2 ++ x3) ++ 46%N :: x5 = s ++ 46%N :: u "00") by (rewrite <- !app_assoc; exact E).
    assert (Ns : ~ In 46%N s).
    { intros I. apply in_split in I as (s1 & s2 & ->).
      assert (exists s3 s4, s1 ++ 46%N :: s2 = s3 ++ 46%N :: s4 /\ ~ In 46%N s3) as (s3 & s4 & Es & N3').
      { clear. induction s1 as [|y s1 IH]; [exists [], s2; split; [reflexivity|intros []]|].
        destruct (N.eq_dec y 46) as [->|Ny]; [exists [], (s1 ++ 46%N :: s2); split; [reflexivity|intros []]|].
        destruct IH as (s3 & s4 & E & Nn). exists (y :: s3), s4. split; [cbn [app]; rewrite E; reflexivity|]. intros [Q|Q]; [congruence|contradiction]. }
      rewrite Es in E'. pose proof (eq_trans E' (eq_sym (app_assoc s3 (46%N :: s4) (46%N :: u "00")))) as E2. cbn [app] in E2. destruct (first_point _ _ _ _ E2 N N3') as [_ X].
      assert (B : In 46%N x5) by (rewrite X; apply in_or_app; right; left; reflexivity).
      unfold digit_text in T5. rewrite Forall_forall in T5. apply T5 in B. lia. }
    destruct (first_point _ _ _ _ E' N Ns) as [Es E5]. subst x5. exists h, m, sec, x1, x2, x3.
    rewrite <- Es in L. rewrite !app_length in L. split; [symmetry; exact Es|]. repeat (split; [first [lia|assumption]|]). reflexivity.
  - intros (h & m & sec & a & b & c & -> & La & Lb & Lc & Ha & Hb & Hc & Ls & ->).
    exists [a; b; c; u "."; u "00"], h, m, sec, 0. split; [|split; [exact Ls|reflexivity]]. split; [|split].
    + apply fits_cons; [exact Ha|]. apply fits_cons; [exact Hb|]. apply fits_cons; [exact Hc|]. apply fits_cons; [split; reflexivity|].
      apply fits_cons; [|apply fits_nil]. split; [repeat constructor; intros Q; discriminate Q|]. split; [cbn; lia|reflexivity].
    + cbn [concat]. rewrite <- !app_assoc. reflexivity.
    + intros parts' vs' r Ft E.
      inversion Ft as [|? ? x1 ? ? ? F1 Ft1]; subst. inversion Ft1 as [|? ? x2 ? ? ? F2 Ft2]; subst. inversion Ft2 as [|? ? x3 ? ? ? F3 Ft3]; subst.
      inversion Ft3 as [|? ? x4 ? ? ? F4 Ft4]; subst. inversion Ft4 as [|? ? x5 ? ? ? F5 Ft5]; subst. inversion Ft5; subst.
      destruct F4 as [-> _]. destruct F5 as (T5 & L5 & _).
      destruct (time_part_chars x1 _ (or_introl F1)) as [N1 L1]. destruct (time_part_chars x2 _ (or_intror (or_introl F2))) as [N2 L2].
      destruct (time_part_chars x3 _ (or_intror (or_intror F3))) as [N3 L3].
      destruct (time_part_chars a _ (or_introl Ha)) as [M1 _]. destruct (time_part_chars b _ (or_intror (or_introl Hb))) as [M2 _].
      destruct (time_part_chars c _ (or_intror (or_intror Hc))) as [M3 _].
      assert (E' : (a ++ b ++ c) ++ 46%N :: u "00" = (x1 ++ x2 ++ x3) ++ 46%N :: (x5 ++ r)).
      { etransitivity; [exact E|]. cbn [concat]. rewrite app_nil_r, <- !app_assoc. reflexivity. }
      apply first_point in E' as [E1 E2]; [|intros I; repeat (apply in_app_or in I as [I|I]; [contradiction|]); contradiction|intros I; repeat (apply in_app_or in I as [I|I]; [contradiction|]); contradiction].
      assert (Q : length x1 = 2%nat /\ length x2 = 2%nat) by (apply (f_equal (@length _)) in E1; rewrite !app_length in E1; lia).
      apply app_same_length in E1 as [<- E1]; [|lia]. apply app_same_length in E1 as [<- <-]; [|lia].
      destruct x5 as [|d1 [|d2 x5]]; [cbn in L5; lia| |].
      * right. do 3 apply greedier_there. apply greedier_there. apply greedier_here. cbn. lia.
      * left. injection E2 as <- <- E2. destruct x5; [reflexivity|discriminate E2].
Qed.
(* but a time with fewer digits is read too, as another time than the one it is a piece of, and so is a date; a text with a
   point that happens to have six characters is not read at all *)
Theorem C105_malformed_refuted :
  time2utc (u "12345.00") = VTime (mktime 12 34 5 0) /\ time2utc (u "2534.50") = VTime (mktime 2 53 4 500000)
  /\ time2utc (u "123.5") = VTime (mktime 1 2 3 500000) /\ time2utc (u "1234.5") = VStr []
  /\ date2utc (u "1124") (u "DT") = VDate (mkdate 2024 1 1) /\ date2utc (u "11224") (u "DT") = VDate (mkdate 2024 2 11)
  /\ date2utc (u " 10124") (u "DT") = VDate (mkdate 2024 1 1).
Proof. vm_compute. repeat (split; [reflexivity|]). reflexivity. Qed.
(* six characters: two each for day (or a blank and one digit), month and year *)
Lemma date_part_length x v : (day_text x v -> (1 <= length x <= 2)%nat) /\ (month_text x v -> (1 <= length x <= 2)%nat) /\ (year_text x v -> length x = 2%nat).
Proof.
  assert (P : forall P Q : N -> Z -> Prop, pair P Q x v -> length x = 2%nat) by (intros P Q (a & b & i & j & -> & _); reflexivity).
  assert (O : forall R : N -> Z -> Prop, one R x v -> length x = 1%nat) by (intros R (a & -> & _); reflexivity).
  split; [|split].
  - intros [H|[H|[H|[H|(y & -> & a & -> & _)]]]]; try (apply P in H; lia); [apply O in H; lia|cbn; lia].
  - intros [H|[H|H]]; try (apply P in H; lia). apply O in H. lia.
  - intros H. exact (P _ _ H).
Qed.
Theorem C105_six_date s d : length s = 6%nat -> date2utc s (u "DT") = VDate d <->
  exists dd mm yy a b c, s = a ++ b ++ c /\ length a = 2%nat /\ length b = 2%nat /\ length c = 2%nat
    /\ day_text a dd /\ month_text b mm /\ year_text c yy /\ calendar_date d
    /\ d = mkdate (if yy <=? 68 then 2000 + yy else 1900 + yy) mm dd.
Proof.
  intros L. rewrite C105_date. change (date_forms (u "DT")) with [day_text; month_text; year_text].
  change (str_eqb (u "DT") (u "DM")) with false. change (str_eqb (u "DT") (u "DTL")) with false. cbn iota. split.
  - intros (parts & x & y & z & (Ft & E & _) & Cd & Ed).
    inversion Ft as [|? ? x1 ? ? ? F1 Ft1]; subst. inversion Ft1 as [|? ? x2 ? ? ? F2 Ft2]; subst. inversion Ft2 as [|? ? x3 ? ? ? F3 Ft3]; subst.
    inversion Ft3; subst. cbn [concat] in *. rewrite app_nil_r in *.
    pose proof (proj1 (date_part_length x1 _) F1). pose proof (proj1 (proj2 (date_part_length x2 _)) F2). pose proof (proj2 (proj2 (date_part_length x3 _)) F3).
    rewrite !app_length in L. exists x, y, z, x1, x2, x3. split; [reflexivity|]. repeat (split; [first [lia|assumption]|]). reflexivity.
  - intros (dd & mm & yy & a & b & c & -> & La & Lb & Lc & Ha & Hb & Hc & Cd & Ed).
    exists [a; b; c], dd, mm, yy. split; [|split; [exact Cd|exact Ed]]. split; [|split].
    + apply fits_cons; [exact Ha|]. apply fits_cons; [exact Hb|]. apply fits_cons; [exact Hc|apply fits_nil].
    + cbn [concat]. rewrite app_nil_r. reflexivity.
    + intros parts' vs' r Ft E.
      inversion Ft as [|? ? x1 ? ? ? F1 Ft1]; subst. inversion Ft1 as [|? ? x2 ? ? ? F2 Ft2]; subst. inversion Ft2 as [|? ? x3 ? ? ? F3 Ft3]; subst.
      inversion Ft3; subst. cbn [concat] in E. rewrite app_nil_r in E.
      pose proof (proj1 (date_part_length x1 _) F1) as L1. pose proof (proj1 (proj2 (date_part_length x2 _)) F2) as L2. pose proof (proj2 (proj2 (date_part_length x3 _)) F3) as L3.
      destruct (Nat.eq_dec (length x1) 2) as [Q1|Q1]; [|right; apply greedier_here; lia].
      rewrite <- !app_assoc in E. apply app_same_length in E as [<- E]; [|lia].
      destruct (Nat.eq_dec (length x2) 2) as [Q2|Q2]; [|right; apply greedier_there, greedier_here; lia].
      apply app_same_length in E as [<- E]; [|lia].
      rewrite <- (app_nil_r c) in E. apply app_same_length in E as [<- _]; [|lia]. left. reflexivity.
Qed.
Example C105_example :
  time2utc (u "235959") = VTime (mktime 23 59 59 0) /\ time2utc (u "235960") = VStr [] /\ time2utc (u "24595.") = VStr []
  /\ time2utc (u "235959.1234567") = VStr [] /\ date2utc (u "311299") (u "DT") = VDate (mkdate 1999 12 31)
  /\ date2utc (u "310299") (u "DT") = VStr [] /\ hour_text (u "23") 23 /\ day_text (u " 7") 7.
Proof.
  split; [vm_compute; reflexivity|]. split; [vm_compute; reflexivity|]. split; [vm_compute; reflexivity|]. split; [vm_compute; reflexivity|].
  split; [vm_compute; reflexivity|]. split; [vm_compute; reflexivity|]. split.
  - right. left. exists 50%N, 51%N, 2, 3. split; [reflexivity|]. unfold among. split; [lia|]. split; lia.
  - right. right. right. right. exists (u "7"). split; [reflexivity|]. exists 55%N. split; [reflexivity|]. unfold among. lia.
Qed.
