(* C106: exactly which texts are read as an integer or a decimal number, and as which. *)
From Coq Require Import Reals Lra.
From Verif Require Import Message Reader BaseLemmas TextLemmas NumLemmas Spec ParseProofs DecodeProofs CoordSpec FloatProofs ValueSpec SlotProofs
  StreamProofs PropsDecode PropsValue.
Local Open Scope Z_scope.

(* ---------------------------------------------------------------- specification *)
(* the decimal digits of any script, with their values *)
Definition digits_are (x : pystr) (l : list N) : Prop := Forall2 (fun c v => decimal_val c = Some v) x l.
Definition value_of (l : list N) : Z := fold_left (fun a d => 10 * a + Z.of_N d) l 0.
(* tab, line feed, vertical tab, form feed, carriage return, space; beyond ASCII, white space *)
Definition blank (c : N) : Prop := In c [9; 10; 11; 12; 13; 32]%N \/ (127 <= c /\ chr_isspace c = true)%N.
(* x is y with single underscores put between digits *)
Inductive spaced : pystr -> pystr -> Prop :=
| sp_nil : spaced [] []
| sp_char c x y : spaced x y -> spaced (c :: x) (c :: y)
| sp_underscore c d x y : decimal_val c <> None -> decimal_val d <> None -> spaced (d :: x) (d :: y) -> spaced (c :: 95%N :: d :: x) (c :: d :: y).
(* letters of either case *)
Definition spelled (x w : pystr) : Prop := Forall2 (fun c l => c = l \/ c = (l - 32)%N) x w.

Inductive exponent : pystr -> Z -> Prop :=
| ex_none : exponent [] 0
| ex_some c sg neg x l : In c (u "eE") -> sign_mark sg neg -> digits_are x l -> x <> [] ->
    exponent (c :: sg ++ x) (with_minus neg (value_of l)).
(* an unsigned number, or what stands for one *)
Inductive magnitude (neg : bool) : pystr -> fl -> Prop :=
| mg_number ip point fp ex e li lf v :
    digits_are ip li -> digits_are fp lf -> li ++ lf <> [] -> (point = u "." \/ point = [] /\ fp = []) -> exponent ex e ->
    nearest neg (with_minusR neg (IZR (value_of (li ++ lf)) * powerRZ 10 (e - Z.of_nat (length lf)))) v ->
    magnitude neg (ip ++ point ++ fp ++ ex) v
| mg_infinite x : spelled x (u "inf") \/ spelled x (u "infinity") -> magnitude neg x (S754_infinity neg)
| mg_nan x : spelled x (u "nan") -> magnitude neg x S754_nan.

Definition reads_as_integer (s : pystr) (z : Z) : Prop :=
  exists before x after sg neg ds l, s = before ++ x ++ after /\ Forall blank before /\ Forall blank after
    /\ spaced x (sg ++ ds) /\ sign_mark sg neg /\ digits_are ds l /\ (1 <= length l <= 4300)%nat /\ z = with_minus neg (value_of l).
Definition reads_as_decimal (s : pystr) (v : fl) : Prop :=
  exists before x after sg neg m, s = before ++ x ++ after /\ Forall blank before /\ Forall blank after
    /\ spaced x (sg ++ m) /\ sign_mark sg neg /\ magnitude neg m v.

(* ---------------------------------------------------------------- characters *)
Notation A := to_ascii_char.
Lemma space_not_digit c : chr_isspace c = true -> decimal_val c = None.
Proof.
  intros H. unfold chr_isspace, in_ranges in H. apply existsb_exists in H as ([lo hi] & I & B). cbn [fst snd] in B.
  assert (G : forallb (fun p => forallb (fun z => (snd p <? z) || (z + 9 <? fst p))%N decimal_zeros) space_ranges = true) by (vm_compute; reflexivity).
  rewrite forallb_forall in G. specialize (G _ I). cbn [fst snd] in G. rewrite forallb_forall in G.
  unfold decimal_val. destruct (find _ decimal_zeros) as [z|] eqn:F; [|reflexivity]. apply find_some in F as [J K]. specialize (G z J). lia.
Qed.
Lemma below_127 c : (c < 127)%N -> dec_digit c = decimal_val c.
Proof.
  intros H. assert (G : forallb (fun n => match dec_digit (N.of_nat n), decimal_val (N.of_nat n) with Some a, Some b => (a =? b)%N | None, None => true | _, _ => false end) (seq 0 127) = true) by (vm_compute; reflexivity).
  rewrite forallb_forall in G. specialize (G (N.to_nat c)). rewrite N2Nat.id in G. assert (I : In (N.to_nat c) (seq 0 127)) by (apply in_seq; lia).
  specialize (G I). destruct (dec_digit c), (decimal_val c); try discriminate G; [|reflexivity]. apply N.eqb_eq in G. congruence.
Qed.
Lemma ten_digits c v : decimal_val c = Some v -> (v <= 9)%N.
Proof.
  unfold decimal_val. destruct (find _ decimal_zeros) as [z|] eqn:F; [|intros H; discriminate H]. intros E. apply find_some in F as [_ B]. 
  assert (v = c - z)%N as -> by congruence. lia.
Qed.
Lemma A_digit c : dec_digit (A c) = decimal_val c.
Proof.
  unfold to_ascii_char. destruct (N.ltb_spec c 127) as [L|L]; [apply below_127; exact L|].
  destruct (chr_isspace c) eqn:S; [symmetry; apply space_not_digit; exact S|].
  destruct (decimal_val c) as [v|] eqn:D; [|reflexivity]. apply ten_digits in D. unfold dec_digit.
  replace ((48 <=? 48 + v) && (48 + v <=? 57))%N with true by lia. f_equal. lia.
Qed.
Lemma A_blank c : c_isspace (A c) = true <-> blank c.
Proof.
  unfold to_ascii_char, blank, c_isspace. destruct (N.ltb_spec c 127) as [L|L].
  - cbn [In]. lia.
  - destruct (chr_isspace c) eqn:S; [split; [intros _; right; split; [exact L|reflexivity]|reflexivity]|].
    destruct (decimal_val c) as [v|] eqn:D; (split; [|intros [H|[_ H]]; [cbn [In] in H; lia|discriminate H]]); intros H; [|discriminate H].
    apply ten_digits in D. lia.
Qed.
Definition other (k : N) : Prop := (k < 127 /\ k <> 32 /\ k <> 63 /\ ~ (48 <= k <= 57))%N.
Lemma A_char c k : other k -> A c = k <-> c = k.
Proof.
  intros (H1 & H2 & H3 & H4). unfold to_ascii_char. destruct (N.ltb_spec c 127) as [L|L]; [reflexivity|].
  destruct (chr_isspace c); [split; intros E; lia|]. destruct (decimal_val c) as [v|] eqn:D; [|split; intros E; lia].
  apply ten_digits in D. split; intros E; lia.
Qed.
Lemma A_eqb c k : other k -> (A c =? k)%N = (c =? k)%N.
Proof. intros O. pose proof (A_char c k O) as E. destruct (N.eqb_spec (A c) k), (N.eqb_spec c k); tauto. Qed.
Lemma letter_case c k : (97 <= k <= 122)%N -> lower_ascii (A c) = k <-> (c = k \/ c = k - 32)%N.
Proof.
  intros H. assert (O1 : other k) by (unfold other; lia). assert (O2 : other (k - 32)) by (unfold other; lia).
  rewrite <- (A_char c k O1), <- (A_char c (k - 32) O2). unfold lower_ascii. destruct ((65 <=? A c) && (A c <=? 90))%N eqn:B; lia.
Qed.
Lemma spelled_iff x w : Forall (fun k => 97 <= k <= 122)%N w -> map lower_ascii (map A x) = w <-> spelled x w.
Proof.
  intros F. revert x. induction F as [|k w K F IH]; intros x.
  - split; [|intros H; inversion H; reflexivity]. destruct x; [constructor|intros H; discriminate H].
  - destruct x as [|c x]; cbn [map]; [split; intros H; [discriminate H|inversion H]|]. split.
    + intros H. injection H as H1 H2. constructor; [apply letter_case; assumption|apply IH; exact H2].
    + intros H. inversion H as [|? ? ? ? H1 H2]; subst. f_equal; [apply letter_case; assumption|apply IH; exact H2].
Qed.
Lemma value_digits l : Z.of_N (digits_val 10 l) = value_of l.
Proof.
  unfold digits_val, value_of. assert (forall a, Z.of_N (fold_left (fun a d => (a * 10 + d)%N) l a) = fold_left (fun a d => 10 * a + Z.of_N d) l (Z.of_N a)) as G.
  { induction l as [|d l IH]; intros a; [reflexivity|]. cbn [fold_left]. rewrite IH. f_equal. lia. }
  apply (G 0%N).
Qed.
Lemma signed_value neg l : signed neg (digits_val 10 l) = with_minus neg (value_of l).
Proof. unfold signed. rewrite value_digits. destruct neg; reflexivity. Qed.
Lemma not_underscore c v : decimal_val c = Some v -> c <> 95%N.
Proof. intros D ->. vm_compute in D. discriminate D. Qed.
Lemma digits_length x l : digits_are x l -> length x = length l.
Proof. intros H. induction H; cbn; congruence. Qed.

(* ---------------------------------------------------------------- underscores *)
Lemma spaced_head c x y : spaced (c :: x) y -> exists y', y = c :: y'.
Proof. intros H. inversion H; subst; eexists; reflexivity. Qed.
Lemma spaced_head' c x y : spaced x (c :: y) -> exists x', x = c :: x'.
Proof. intros H. inversion H; subst; eexists; reflexivity. Qed.
Lemma spaced_nil y : spaced [] y -> y = [].
Proof. intros H. inversion H. reflexivity. Qed.
Lemma spaced_nil' x : spaced x [] -> x = [].
Proof. intros H. inversion H. reflexivity. Qed.
Lemma us_more x l : us_digits dec_digit true x = Some l -> us_digits dec_digit false x = Some l.
Proof. destruct x as [|c x]; cbn [us_digits]; [intros H; discriminate H|]. destruct (c =? 95)%N; [intros H; discriminate H|auto]. Qed.
Lemma us_spaced n : forall x l, (length x <= n)%nat -> us_digits dec_digit true (map A x) = Some l -> exists y, spaced x y /\ digits_are y l /\ l <> [].
Proof.
  induction n as [|n IH]; intros x l L H; (destruct x as [|c x]; [discriminate H|]); [cbn in L; lia|].
  cbn [map us_digits] in H. destruct (A c =? 95)%N; [discriminate H|]. rewrite A_digit in H. destruct (decimal_val c) as [d|] eqn:D; [|discriminate H].
  destruct (us_digits dec_digit false (map A x)) as [l'|] eqn:R; [|discriminate H]. injection H as <-.
  destruct x as [|e x].
  - cbn in R. injection R as <-. exists [c]. split; [apply sp_char, sp_nil|]. split; [constructor; [exact D|constructor]|intros Q; discriminate Q].
  - cbn [map us_digits] in R. rewrite A_eqb in R by (unfold other; lia). destruct (N.eqb_spec e 95) as [->|N].
    + destruct (IH x l') as (y & Sp & Dy & Ny); [cbn in L; lia|exact R|]. destruct x as [|f x]; [apply spaced_nil in Sp as ->; inversion Dy; congruence|].
      destruct (spaced_head _ _ _ Sp) as [y' ->]. exists (c :: f :: y'). inversion Dy as [|? v ? l'' Df Dy']; subst.
      split; [apply sp_underscore; [congruence|congruence|exact Sp]|]. split; [constructor; [exact D|exact Dy]|intros Q; discriminate Q].
    + destruct (IH (e :: x) l') as (y & Sp & Dy & Ny); [cbn in *; lia| |].
      { cbn [map us_digits]. rewrite A_eqb by (unfold other; lia). apply N.eqb_neq in N. rewrite N. exact R. }
      exists (c :: y). split; [apply sp_char, Sp|]. split; [constructor; [exact D|exact Dy]|intros Q; discriminate Q].
Qed.
Lemma spaced_us x y l : spaced x y -> digits_are y l -> l <> [] -> us_digits dec_digit true (map A x) = Some l.
Proof.
  intros H. revert l. induction H as [|c x y H IH|c d x y Hc Hd H IH]; intros l D N.
  - inversion D; subst. congruence.
  - inversion D as [|? v ? l' Dv D']; subst. cbn [map us_digits]. rewrite A_eqb, A_digit, Dv by (unfold other; lia).
    replace (c =? 95)%N with false by (symmetry; apply N.eqb_neq; eapply not_underscore, Dv).
    destruct y as [|e y].
    + inversion D'; subst. apply spaced_nil' in H as ->. reflexivity.
    + inversion D'; subst. rewrite (us_more _ _ (IH _ D' ltac:(intros Q; discriminate Q))). reflexivity.
  - inversion D as [|? v ? l' Dv D']; subst. cbn [map]. cbn [us_digits]. rewrite A_eqb, A_digit, Dv by (unfold other; lia).
    replace (c =? 95)%N with false by (symmetry; apply N.eqb_neq; eapply not_underscore, Dv).
    rewrite (A_eqb 95 95) by (unfold other; lia). cbn [N.eqb Pos.eqb].
    inversion D'; subst. pose proof (IH _ D' ltac:(intros Q; discriminate Q)) as R. cbn [map] in R. cbn [us_digits] in R. rewrite R. reflexivity.
Qed.
Lemma is_dig_iff c : is_dig (A c) = true <-> decimal_val c <> None.
Proof. unfold is_dig. rewrite A_digit. destruct (decimal_val c); split; intros H; try reflexivity; try discriminate H; congruence. Qed.
Lemma us_ok_spaced n : forall t, (length t <= n)%nat -> us_ok false (map A t) = true ->
  exists y, spaced t y /\ remove_char 95 (map A t) = map A y /\ ~ In 95%N y.
Proof.
  induction n as [|n IH]; intros t L H; (destruct t as [|c t]; [exists []; repeat split; [apply sp_nil|intros []]|]); [cbn in L; lia|].
  cbn [map us_ok] in H. rewrite A_eqb in H by (unfold other; lia). destruct (N.eqb_spec c 95) as [->|N].
  { discriminate H. }
  assert (E : forall r, remove_char 95 (A c :: r) = A c :: remove_char 95 r).
  { intros r. unfold remove_char. cbn [filter]. rewrite A_eqb by (unfold other; lia). apply N.eqb_neq in N. rewrite N. reflexivity. }
  destruct t as [|e t].
  - exists [c]. split; [apply sp_char, sp_nil|]. split; [cbn [map]; rewrite E; reflexivity|]. intros [Q|[]]. congruence.
  - destruct (N.eqb_spec e 95) as [->|Ne].
    + cbn [map us_ok] in H. rewrite (A_eqb 95 95) in H by (unfold other; lia). cbn [N.eqb Pos.eqb] in H.
      apply andb_true_iff in H as [H H2]. apply andb_true_iff in H as [H0 H1]. destruct t as [|f t]; [discriminate H1|].
      cbn [map] in H1. destruct (IH (f :: t)) as (y & Sp & R & Ny); [cbn in *; lia|exact H2|].
      destruct (spaced_head _ _ _ Sp) as [y' ->]. exists (c :: f :: y').
      split; [apply sp_underscore; [apply is_dig_iff, H0|apply is_dig_iff, H1|exact Sp]|]. split.
      * cbn [map] in *. rewrite E. cbn [map]. f_equal. unfold remove_char in *. cbn [filter] in *. rewrite (A_eqb 95 95) by (unfold other; lia). cbn [N.eqb Pos.eqb negb]. exact R.
      * intros [Q|Q]; [congruence|contradiction].
    + destruct (IH (e :: t)) as (y & Sp & R & Ny); [cbn in *; lia| |].
      { cbn [map us_ok] in H |- *. rewrite A_eqb in H |- * by (unfold other; lia). apply N.eqb_neq in Ne. rewrite Ne in *. exact H. }
      exists (c :: y). split; [apply sp_char, Sp|]. split; [cbn [map] in *; rewrite E, R; reflexivity|]. intros [Q|Q]; [congruence|contradiction].
Qed.
Lemma us_ok_more t : us_ok false t = true -> us_ok true t = true.
Proof. destruct t as [|c t]; cbn [us_ok]; [auto|]. destruct (c =? 95)%N; [intros H; discriminate H|auto]. Qed.
Lemma spaced_us_ok t y : spaced t y -> ~ In 95%N y -> us_ok false (map A t) = true /\ remove_char 95 (map A t) = map A y.
Proof.
  intros H. induction H as [|c x y H IH|c d x y Hc Hd H IH]; intros N; [split; reflexivity| |].
  - destruct IH as [U R]; [intros I; apply N; right; exact I|].
    assert (E : (A c =? 95)%N = false) by (rewrite A_eqb by (unfold other; lia); apply N.eqb_neq; intros ->; apply N; left; reflexivity).
    cbn [map us_ok]. rewrite E. split; [destruct (is_dig (A c)); [apply us_ok_more, U|exact U]|].
    unfold remove_char in *. cbn [filter]. rewrite E. cbn [negb]. rewrite R. reflexivity.
  - destruct IH as [U R]; [intros I; apply N; right; exact I|].
    assert (E : (A c =? 95)%N = false) by (rewrite A_eqb by (unfold other; lia); apply N.eqb_neq; intros ->; apply N; left; reflexivity).
    cbn [map] in *. cbn [us_ok]. rewrite E, (A_eqb 95 95) by (unfold other; lia). cbn [N.eqb Pos.eqb].
    apply is_dig_iff in Hc, Hd. cbn [us_ok] in U. rewrite Hd in U. rewrite Hc, Hd. split; [exact U|].
    unfold remove_char in *. cbn [filter] in *. rewrite E, (A_eqb 95 95) by (unfold other; lia). cbn [N.eqb Pos.eqb negb]. rewrite R. reflexivity.
Qed.

(* ---------------------------------------------------------------- signs, digits *)
Lemma split_sign_iff y neg r : split_sign (map A y) = (neg, r) ->
  exists sg m, y = sg ++ m /\ sign_mark sg neg /\ r = map A m.
Proof.
  destruct y as [|c y]; cbn [map split_sign].
  - intros H. injection H as <- <-. exists [], []. split; [reflexivity|]. split; [constructor|reflexivity].
  - rewrite !A_eqb by (unfold other; lia). destruct (N.eqb_spec c 45) as [->|N1].
    + intros H. injection H as <- <-. exists (u "-"), y. split; [reflexivity|]. split; [constructor|reflexivity].
    + destruct (N.eqb_spec c 43) as [->|N2]; intros H; injection H as <- <-.
      * exists (u "+"), y. split; [reflexivity|]. split; [constructor|reflexivity].
      * exists [], (c :: y). split; [reflexivity|]. split; [constructor|reflexivity].
Qed.
Lemma split_sign_app sg neg m : sign_mark sg neg -> match m with c :: _ => c <> 43%N /\ c <> 45%N | [] => True end ->
  split_sign (map A (sg ++ m)) = (neg, map A m).
Proof.
  intros [] H; [|reflexivity..]. cbn [app]. destruct m as [|c m]; [reflexivity|]. cbn [map split_sign]. destruct H as [H1 H2].
  rewrite !A_eqb by (unfold other; lia). apply N.eqb_neq in H1, H2. rewrite H1, H2. reflexivity.
Qed.
Lemma take_spec s : exists x r l, s = x ++ r /\ digits_are x l /\ take_digits (map A s) = (l, map A r)
  /\ match r with c :: _ => decimal_val c = None | [] => True end.
Proof.
  induction s as [|c s IH]; [exists [], [], []; repeat split; constructor|]. cbn [map take_digits]. rewrite A_digit. destruct (decimal_val c) as [d|] eqn:D.
  - destruct IH as (x & r & l & -> & H & T & R). exists (c :: x), r, (d :: l). split; [reflexivity|]. split; [constructor; assumption|]. rewrite T. split; [reflexivity|exact R].
  - exists [], (c :: s), []. split; [reflexivity|]. split; [constructor|]. split; [reflexivity|exact D].
Qed.
Lemma take_app x l r : digits_are x l -> match r with c :: _ => decimal_val c = None | [] => True end ->
  take_digits (map A (x ++ r)) = (l, map A r).
Proof.
  intros H R. induction H as [|c v x l D H IH].
  - cbn [app]. destruct r as [|c r]; [reflexivity|]. cbn [map take_digits]. rewrite A_digit, R. reflexivity.
  - cbn [app map take_digits]. rewrite A_digit, D, IH. reflexivity.
Qed.
Lemma parse_exp_iff s e : parse_exp (map A s) = Some e <-> exponent s e.
Proof.
  split.
  - destruct s as [|c s]; cbn [map parse_exp]; [intros H; injection H as <-; constructor|]. rewrite !A_eqb by (unfold other; lia).
    destruct ((c =? 101) || (c =? 69))%N eqn:E; [|intros H; discriminate H].
    destruct (split_sign (map A s)) as [neg r] eqn:S. apply split_sign_iff in S as (sg & m & -> & Sm & ->).
    destruct (take_spec m) as (x & r & l & -> & D & T & _). rewrite T. destruct l as [|d l]; [intros H; discriminate H|].
    destruct r as [|? ?]; [|intros H; discriminate H]. cbn [map]. intros H.
    assert (e = signed neg (digits_val 10 (d :: l))) as -> by congruence. rewrite signed_value, app_nil_r.
    apply ex_some; [cbn; lia|exact Sm|exact D|intros ->; inversion D].
  - intros H. destruct H as [|c sg neg x l I Sm D N]; [reflexivity|]. cbn [map parse_exp]. rewrite !A_eqb by (unfold other; lia).
    replace ((c =? 101) || (c =? 69))%N with true by (cbn in I; lia).
    rewrite (split_sign_app sg neg x Sm).
    + pose proof (take_app x l [] D Logic.I) as T. rewrite app_nil_r in T. rewrite T. destruct l as [|d l]; [inversion D; subst; congruence|].
      cbn [map]. rewrite signed_value. reflexivity.
    + destruct D as [|c' v x l D]; [exact Logic.I|]. split; intros ->; vm_compute in D; discriminate D.
Qed.

Lemma digit_head c v : decimal_val c = Some v -> lower_ascii (A c) <> 105%N /\ lower_ascii (A c) <> 110%N /\ c <> 43%N /\ c <> 45%N /\ c <> 46%N.
Proof.
  intros D. assert (A c = 48 + v)%N as E.
  { pose proof (A_digit c) as Q. rewrite D in Q. unfold dec_digit in Q. destruct ((48 <=? A c) && (A c <=? 57))%N eqn:B; [|discriminate Q].
    assert (v = A c - 48)%N as -> by congruence. lia. }
  pose proof (ten_digits _ _ D) as L. unfold lower_ascii. rewrite E. destruct ((65 <=? 48 + v) && (48 + v <=? 90))%N eqn:B; [lia|].
  repeat split; try lia; intros ->; vm_compute in D; discriminate D.
Qed.
Lemma parse_unsigned_iff neg s v : parse_unsigned neg (map A s) = Some v <-> magnitude neg s v.
Proof.
  assert (Li : Forall (fun k => 97 <= k <= 122)%N (u "inf")) by (repeat constructor; lia || (vm_compute; intros Q; discriminate Q)).
  assert (Ly : Forall (fun k => 97 <= k <= 122)%N (u "infinity")) by (repeat constructor; vm_compute; intros Q; discriminate Q).
  assert (Ln : Forall (fun k => 97 <= k <= 122)%N (u "nan")) by (repeat constructor; vm_compute; intros Q; discriminate Q).
  split.
  - unfold parse_unsigned. destruct (str_eqb_spec (map lower_ascii (map A s)) (u "inf")) as [E|_].
    { intros H. assert (v = S754_infinity neg) as -> by (cbn [orb] in H; congruence). apply mg_infinite. left. apply spelled_iff; assumption. }
    destruct (str_eqb_spec (map lower_ascii (map A s)) (u "infinity")) as [E|_].
    { intros H. assert (v = S754_infinity neg) as -> by (cbn [orb] in H; congruence). apply mg_infinite. right. apply spelled_iff; assumption. }
    cbn [orb]. destruct (str_eqb_spec (map lower_ascii (map A s)) (u "nan")) as [E|_].
    { intros H. assert (v = S754_nan) as -> by congruence. apply mg_nan. apply spelled_iff; assumption. }
    destruct (take_spec s) as (ip & r & li & -> & Di & T & Nr). rewrite T.
    assert (G : forall point fp ex lf, r = point ++ fp ++ ex -> digits_are fp lf -> (point = u "." \/ point = [] /\ fp = []) ->
      match li ++ lf with [] => None | ds => match parse_exp (map A ex) with Some e => Some (f_of_dec neg (digits_val 10 ds) (e - Z.of_nat (length lf))) | None => None end end = Some v ->
      magnitude neg (ip ++ r) v).
    { intros point fp ex lf -> Df P H. destruct (li ++ lf) as [|d ds] eqn:Q; [discriminate H|]. destruct (parse_exp (map A ex)) as [e|] eqn:X; [|discriminate H].
      apply parse_exp_iff in X. injection H as <-. apply (mg_number neg ip point fp ex e li lf); try assumption.
      - rewrite Q. intros Q'. discriminate Q'.
      - rewrite Q. pose proof (f_of_dec_correct neg (digits_val 10 (d :: ds)) (e - Z.of_nat (length lf))) as C.
        rewrite value_digits in C. exact C. }
    destruct r as [|c r]; cbn [map].
    + intros H. apply (G [] [] [] []); [reflexivity|constructor|right; split; reflexivity|exact H].
    + rewrite A_eqb by (unfold other; lia). destruct (N.eqb_spec c 46) as [->|Nc].
      * destruct (take_spec r) as (fp & ex & lf & -> & Df & T' & _). rewrite T'. intros H.
        apply (G (u ".") fp ex lf); [reflexivity|exact Df|left; reflexivity|exact H].
      * intros H. apply (G [] [] (c :: r) []); [reflexivity|constructor|right; split; reflexivity|exact H].
  - intros H. destruct H as [ip point fp ex e li lf v Di Df Nn P X Nv|x [Sp|Sp]|x Sp].
    + assert (Nx : match ex with c :: _ => decimal_val c = None /\ c <> 46%N /\ lower_ascii (A c) <> 105%N /\ lower_ascii (A c) <> 110%N | [] => True end).
      { destruct X as [|c sg ng x l I _ _ _]; [exact Logic.I|]. destruct I as [<-|[<-|[]]]; (split; [vm_compute; reflexivity|]); repeat split; vm_compute; intros Q; discriminate Q. }
      set (s := ip ++ point ++ fp ++ ex).
      assert (Hd : match s with c :: _ => lower_ascii (A c) <> 105%N /\ lower_ascii (A c) <> 110%N | [] => False end).
      { subst s. destruct Di as [|c w ip li Dc Di].
        - destruct P as [->|[-> ->]]; [cbn [app]; split; vm_compute; intros Q; discriminate Q|]. inversion Df; subst. exfalso. apply Nn. reflexivity.
        - cbn [app]. destruct (digit_head _ _ Dc) as (H1 & H2 & _). split; assumption. }
      unfold parse_unsigned.
      assert (Ne : forall w k w', w = k :: w' -> k = 105%N \/ k = 110%N -> str_eqb (map lower_ascii (map A s)) w = false).
      { intros w k w' -> K. destruct (str_eqb_spec (map lower_ascii (map A s)) (k :: w')) as [E|E]; [|reflexivity]. destruct s as [|c s]; [destruct Hd|].
        cbn [map] in E. injection E as E _. rewrite E in Hd. destruct Hd as [H1 H2], K; congruence. }
      rewrite (Ne (u "inf") 105%N (u "nf") eq_refl (or_introl eq_refl)), (Ne (u "infinity") 105%N (u "nfinity") eq_refl (or_introl eq_refl)),
        (Ne (u "nan") 110%N (u "an") eq_refl (or_intror eq_refl)). cbn [orb]. subst s. clear Hd Ne.
      rewrite (take_app ip li (point ++ fp ++ ex) Di).
      * assert (V : forall e', parse_exp (map A ex) = Some e' -> e' = e) by (intros e' H; apply parse_exp_iff in X; congruence).
        apply parse_exp_iff in X. assert (Vv : f_of_dec neg (digits_val 10 (li ++ lf)) (e - Z.of_nat (length lf)) = v).
        { eapply nearest_unique; [|exact Nv]. pose proof (f_of_dec_correct neg (digits_val 10 (li ++ lf)) (e - Z.of_nat (length lf))) as C.
          rewrite value_digits in C. exact C. }
        destruct P as [->|[-> ->]].
        -- change (map A (u "." ++ fp ++ ex)) with (46%N :: map A (fp ++ ex)). cbn iota. rewrite N.eqb_refl. rewrite (take_app fp lf ex Df).
           ++ destruct (li ++ lf) as [|d ds]; [congruence|]. rewrite X, Vv. reflexivity.
           ++ destruct ex; [exact I|apply Nx].
        -- inversion Df; subst lf. cbn [app]. destruct ex as [|c ex]; cbn [map].
           ++ destruct (li ++ []) as [|d ds]; [congruence|]. cbn [map] in X. rewrite X, Vv. reflexivity.
           ++ rewrite A_eqb by (unfold other; lia). destruct Nx as (_ & Nc & _). apply N.eqb_neq in Nc. rewrite Nc.
              destruct (li ++ []) as [|d ds]; [congruence|]. cbn [map] in X. rewrite X, Vv. reflexivity.
      * destruct P as [->|[-> ->]]; [vm_compute; reflexivity|]. cbn [app]. destruct ex; [exact I|apply Nx].
    + apply spelled_iff in Sp; [|exact Li]. unfold parse_unsigned. rewrite Sp. reflexivity.
    + apply spelled_iff in Sp; [|exact Ly]. unfold parse_unsigned. rewrite Sp. reflexivity.
    + apply spelled_iff in Sp; [|exact Ln]. unfold parse_unsigned. rewrite Sp. reflexivity.
Qed.

(* ---------------------------------------------------------------- blanks *)
Definition solid (c : N) : Prop := c_isspace (A c) = false /\ c <> 95%N.
Lemma solid_digit c v : decimal_val c = Some v -> solid c.
Proof.
  intros D. split; [|eapply not_underscore, D]. destruct (c_isspace (A c)) eqn:E; [|reflexivity]. pose proof (A_digit c) as Q. rewrite D in Q.
  unfold dec_digit in Q. destruct ((48 <=? A c) && (A c <=? 57))%N eqn:B; [|discriminate Q]. unfold c_isspace in E. lia.
Qed.
Lemma solid_digits x l : digits_are x l -> Forall solid x.
Proof. intros H. induction H; constructor; [eapply solid_digit; eassumption|assumption]. Qed.
Lemma solid_sign sg neg : sign_mark sg neg -> Forall solid sg.
Proof. intros []; repeat constructor; intros Q; discriminate Q. Qed.
Lemma solid_letter c k : (97 <= k <= 122)%N -> (c = k \/ c = k - 32)%N -> solid c.
Proof.
  intros K H. assert (c <> 95)%N by lia. split; [|assumption]. assert (O : other c) by (unfold other; lia).
  rewrite (proj2 (A_char c c O) eq_refl). unfold c_isspace. lia.
Qed.
Lemma solid_spelled x w : Forall (fun k => 97 <= k <= 122)%N w -> spelled x w -> Forall solid x.
Proof.
  intros F H. induction H as [|c k x w Hc H IH]; [constructor|]. inversion F; subst. constructor; [eapply solid_letter; eassumption|apply IH; assumption].
Qed.
Lemma solid_magnitude neg m v : magnitude neg m v -> Forall solid m /\ match m with c :: _ => c <> 43%N /\ c <> 45%N | [] => False end.
Proof.
  intros H. destruct H as [ip point fp ex e li lf v Di Df Nn P X Nv|x Sp|x Sp].
  - split.
    + apply Forall_app. split; [eapply solid_digits, Di|]. apply Forall_app. split; [|apply Forall_app; split; [eapply solid_digits, Df|]].
      * destruct P as [->|[-> _]]; [|constructor]. constructor; [split; [reflexivity|intros Q; discriminate Q]|constructor].
      * destruct X as [|c sg ng x l I Sm D _]; [constructor|]. constructor; [apply (solid_letter c 101); [lia|cbn in I; lia]|].
        apply Forall_app. split; [eapply solid_sign, Sm|eapply solid_digits, D].
    + destruct Di as [|c w ip li Dc Di].
      * destruct P as [->|[-> ->]]; [cbn [app]; split; intros Q; discriminate Q|]. inversion Df; subst. exfalso. apply Nn. reflexivity.
      * cbn [app]. destruct (digit_head _ _ Dc) as (_ & _ & H1 & H2 & _). split; assumption.
  - assert (W : exists w, Forall (fun k => 97 <= k <= 122)%N w /\ hd 0%N w = 105%N /\ spelled x w).
    { destruct Sp as [Sp|Sp]; eexists; (split; [|split; [|exact Sp]]); [|reflexivity| |reflexivity]; repeat constructor; vm_compute; intros Q; discriminate Q. }
    destruct W as (w & F & Hw & Sw). split; [eapply solid_spelled; eassumption|]. destruct Sw as [|c k x w Hc _]; [discriminate Hw|]. cbn in Hw. lia.
  - assert (F : Forall (fun k => 97 <= k <= 122)%N (u "nan")) by (repeat constructor; vm_compute; intros Q; discriminate Q).
    split; [eapply solid_spelled; eassumption|]. inversion Sp as [|c k ? ? Hc _]; subst. lia.
Qed.
Lemma spaced_solid x y : spaced x y -> Forall solid y -> Forall (fun c => c_isspace c = false) (map A x).
Proof.
  intros H. induction H as [|c x y H IH|c d x y Hc Hd H IH]; intros F; [constructor| |]; inversion F as [|? ? Fc F']; subst.
  - cbn [map]. constructor; [apply Fc|apply IH, F'].
  - cbn [map]. constructor; [apply Fc|]. constructor; [vm_compute; reflexivity|]. apply IH, F'.
Qed.
Lemma blanks_iff x : forallb c_isspace (map A x) = true <-> Forall blank x.
Proof.
  rewrite forallb_forall, Forall_forall. split.
  - intros H c I. apply A_blank, H, in_map, I.
  - intros H c I. apply in_map_iff in I as (d & <- & I). apply A_blank, H, I.
Qed.
Lemma strip_cut s : exists before x after, s = before ++ x ++ after /\ Forall blank before /\ Forall blank after
  /\ strip_if c_isspace (to_ascii s) = map A x.
Proof.
  destruct (strip_if_spec c_isspace (to_ascii s)) as (p & q & E & Hp & Hq & _). unfold to_ascii in *. set (w := strip_if _ _) in *.
  apply map_eq_app in E as (s1 & s2 & -> & E1 & E2). apply map_eq_app in E2 as (s3 & s4 & -> & E3 & E4).
  exists s1, s3, s4. split; [reflexivity|]. rewrite <- E1 in Hp. rewrite <- E4 in Hq. split; [apply blanks_iff, Hp|]. split; [apply blanks_iff, Hq|].
  symmetry. exact E3.
Qed.
Lemma strip_back before x after y : Forall blank before -> Forall blank after -> spaced x y -> Forall solid y -> y <> [] ->
  strip_if c_isspace (to_ascii (before ++ x ++ after)) = map A x.
Proof.
  intros B F H So N. unfold to_ascii. rewrite !map_app. apply strip_if_wrap; [apply blanks_iff, B|apply blanks_iff, F|apply clean_ends_Forall; eapply spaced_solid; eassumption|].
  intros E. apply map_eq_nil in E as ->. apply spaced_nil in H. congruence.
Qed.
Lemma solid_no_underscore y : Forall solid y -> ~ In 95%N y.
Proof. intros F I. rewrite Forall_forall in F. apply F in I as [_ I]. congruence. Qed.
Lemma spaced_app_sign sg neg x y : sign_mark sg neg -> spaced x (sg ++ y) -> exists x', x = sg ++ x' /\ spaced x' y.
Proof.
  intros [] H; cbn [app] in *.
  - exists x. split; [reflexivity|exact H].
  - change (spaced x (43%N :: y)) in H. inversion H as [|? x' ? H'|c d x' y' Hc]; subst; [exists x'; split; [reflexivity|exact H']|]. exfalso. apply Hc. vm_compute. reflexivity.
  - change (spaced x (45%N :: y)) in H. inversion H as [|? x' ? H'|c d x' y' Hc]; subst; [exists x'; split; [reflexivity|exact H']|]. exfalso. apply Hc. vm_compute. reflexivity.
Qed.
Lemma spaced_sign_app sg x y : spaced x y -> spaced (sg ++ x) (sg ++ y).
Proof. intros H. induction sg as [|c sg IH]; [exact H|]. cbn [app]. apply sp_char, IH. Qed.

(* ---------------------------------------------------------------- theorems *)
Theorem C106_int s z : int_of_str s = Ok z <-> reads_as_integer s z.
Proof.
  unfold int_of_str. split.
  - destruct (strip_cut s) as (b & x & a & -> & Hb & Ha & ->). destruct (split_sign (map A x)) as [neg r] eqn:Sg.
    apply split_sign_iff in Sg as (sg & m & -> & Sm & ->). destruct (us_digits dec_digit true (map A m)) as [l|] eqn:U; [|intros H; discriminate H].
    destruct (us_spaced (length m) m l (le_n _) U) as (y & Sp & D & N).
    destruct (int_max_str_digits <? lenN l)%N eqn:M; [intros H; discriminate H|]. intros H.
    assert (z = signed neg (digits_val 10 l)) as -> by congruence. exists b, (sg ++ m), a, sg, neg, y, l. rewrite signed_value.
    split; [reflexivity|]. split; [exact Hb|]. split; [exact Ha|]. split; [apply spaced_sign_app, Sp|]. split; [exact Sm|]. split; [exact D|].
    split; [|reflexivity]. unfold lenN, int_max_str_digits in M. apply N.ltb_ge in M. destruct l; [congruence|]. split; [cbn; lia|lia].
  - intros (b & x & a & sg & neg & ds & l & -> & Hb & Ha & Sp & Sm & D & L & ->).
    assert (So : Forall solid (sg ++ ds)) by (apply Forall_app; split; [eapply solid_sign, Sm|eapply solid_digits, D]).
    assert (Nd : ds <> []) by (intros ->; inversion D; subst; cbn in L; lia).
    rewrite (strip_back b x a _ Hb Ha Sp So) by (destruct sg; [exact Nd|intros Q; discriminate Q]).
    destruct (spaced_app_sign _ _ _ _ Sm Sp) as (m & -> & Sp'). rewrite (split_sign_app sg neg m Sm).
    + rewrite (spaced_us _ _ _ Sp' D) by (intros ->; cbn in L; lia).
      replace (int_max_str_digits <? lenN l)%N with false by (unfold lenN, int_max_str_digits; symmetry; apply N.ltb_ge; lia).
      rewrite signed_value. reflexivity.
    + destruct m as [|c m]; [exact I|]. destruct (spaced_head _ _ _ Sp') as [y' ->]. inversion D as [|? w ? ? Dc _]; subst.
      destruct (digit_head _ _ Dc) as (_ & _ & H1 & H2 & _). split; assumption.
Qed.
Theorem C106_float s v : float_of_str s = Ok v <-> reads_as_decimal s v.
Proof.
  unfold float_of_str. split.
  - destruct (strip_cut s) as (b & x & a & -> & Hb & Ha & ->). destruct (us_ok false (map A x)) eqn:U; [|intros H; discriminate H].
    destruct (us_ok_spaced (length x) x (le_n _) U) as (y & Sp & R & _). rewrite R. destruct (split_sign (map A y)) as [neg r] eqn:Sg.
    apply split_sign_iff in Sg as (sg & m & -> & Sm & ->). destruct (parse_unsigned neg (map A m)) as [w|] eqn:P; [|intros H; discriminate H].
    intros H. assert (w = v) as -> by congruence. apply parse_unsigned_iff in P. exists b, x, a, sg, neg, m.
    split; [reflexivity|]. split; [exact Hb|]. split; [exact Ha|]. split; [exact Sp|]. split; [exact Sm|exact P].
  - intros (b & x & a & sg & neg & m & -> & Hb & Ha & Sp & Sm & M). destruct (solid_magnitude _ _ _ M) as [So Hd].
    assert (So' : Forall solid (sg ++ m)) by (apply Forall_app; split; [eapply solid_sign, Sm|exact So]).
    rewrite (strip_back b x a _ Hb Ha Sp So') by (intros E; apply app_eq_nil in E as [_ ->]; exact Hd).
    destruct (spaced_us_ok _ _ Sp (solid_no_underscore _ So')) as [U R]. rewrite U, R. rewrite (split_sign_app sg neg m Sm) by (destruct m; [exact I|exact Hd]).
    apply parse_unsigned_iff in M. rewrite M. reflexivity.
Qed.
Lemma int_or_error s : (exists z, int_of_str s = Ok z) \/ int_of_str s = Raise ValueError.
Proof.
  unfold int_of_str. destruct (split_sign _) as [neg r]. destruct (us_digits dec_digit true r) as [l|]; [|right; reflexivity].
  destruct (_ <? _)%N; [right; reflexivity|left; eexists; reflexivity].
Qed.
Lemma float_or_error s : (exists v, float_of_str s = Ok v) \/ float_of_str s = Raise ValueError.
Proof.
  unfold float_of_str. destruct (us_ok _ _); [|right; reflexivity]. destruct (split_sign _) as [neg r].
  destruct (parse_unsigned neg r); [left; eexists; reflexivity|right; reflexivity].
Qed.
(* fields of type IN and DE: an empty field, a number, or ValueError *)
Theorem C106_integer_field f :
  (forall v, str2val f (u "IN") = Ok v <-> (f = [] /\ v = VStr []) \/ exists z, reads_as_integer f z /\ v = VInt z)
  /\ ((forall v, str2val f (u "IN") <> Ok v) -> str2val f (u "IN") = Raise ValueError).
Proof.
  change (str2val f (u "IN")) with (match f with [] => Ok (VStr []) | _ => let! z := int_of_str f in Ok (VInt z) end).
  destruct f as [|c f].
  - split; [|intros H; destruct (H _ eq_refl)]. intros v. split.
    + intros H. left. split; [reflexivity|congruence].
    + intros [[_ ->]|(z & H & ->)]; [reflexivity|]. apply C106_int in H. vm_compute in H. discriminate H.
  - split.
    + intros v. split.
      * destruct (int_of_str (c :: f)) as [z|] eqn:E; cbn [bind]; intros H; [|discriminate H]. right. exists z. split; [apply C106_int, E|congruence].
      * intros [[H _]|(z & H & ->)]; [discriminate H|]. apply C106_int in H. rewrite H. reflexivity.
    + destruct (int_or_error (c :: f)) as [[z E]|E]; rewrite E; cbn [bind]; [intros H; destruct (H _ eq_refl)|reflexivity].
Qed.
Theorem C106_decimal_field f :
  (forall v, str2val f (u "DE") = Ok v <-> (f = [] /\ v = VStr []) \/ exists x, reads_as_decimal f x /\ v = VFloat x)
  /\ ((forall v, str2val f (u "DE") <> Ok v) -> str2val f (u "DE") = Raise ValueError).
Proof.
  change (str2val f (u "DE")) with (match f with [] => Ok (VStr []) | _ => let! z := float_of_str f in Ok (VFloat z) end).
  destruct f as [|c f].
  - split; [|intros H; destruct (H _ eq_refl)]. intros v. split.
    + intros H. left. split; [reflexivity|congruence].
    + intros [[_ ->]|(z & H & ->)]; [reflexivity|]. apply C106_float in H. vm_compute in H. discriminate H.
  - split.
    + intros v. split.
      * destruct (float_of_str (c :: f)) as [z|] eqn:E; cbn [bind]; intros H; [|discriminate H]. right. exists z. split; [apply C106_float, E|congruence].
      * intros [[H _]|(z & H & ->)]; [discriminate H|]. apply C106_float in H. rewrite H. reflexivity.
    + destruct (float_or_error (c :: f)) as [[z E]|E]; rewrite E; cbn [bind]; [intros H; destruct (H _ eq_refl)|reflexivity].
Qed.
(* a text is read as one number only *)
Corollary C106_functional s : (forall y z, reads_as_integer s y -> reads_as_integer s z -> y = z)
  /\ (forall x y, reads_as_decimal s x -> reads_as_decimal s y -> x = y).
Proof.
  split; intros x y H K.
  - apply C106_int in H, K. congruence.
  - apply C106_float in H, K. congruence.
Qed.
(* every integer text is a decimal text, of the nearest number *)
Theorem C106_integer_decimal s z : reads_as_integer s z -> exists neg v, reads_as_decimal s v /\ nearest neg (IZR z) v.
Proof.
  intros (b & x & a & sg & neg & ds & l & -> & Hb & Ha & Sp & Sm & D & L & ->).
  assert (E : IZR (with_minus neg (value_of l)) = with_minusR neg (IZR (value_of (l ++ [])) * powerRZ 10 (0 - Z.of_nat (length (@nil N))))%R).
  { rewrite app_nil_r. cbn [length Z.of_nat Z.sub Z.add Z.opp powerRZ]. rewrite Rmult_1_r. destruct neg; cbn [with_minus with_minusR]; [apply opp_IZR|reflexivity]. }
  exists neg, (f_of_dec neg (digits_val 10 l) 0).
  assert (Nv : nearest neg (IZR (with_minus neg (value_of l))) (f_of_dec neg (digits_val 10 l) 0)).
  { pose proof (f_of_dec_correct neg (digits_val 10 l) 0) as C. rewrite value_digits in C. change (pow10 0) with 1%R in C. rewrite Rmult_1_r in C.
    destruct neg; cbn [with_minus signR] in *; [rewrite opp_IZR; exact C|exact C]. }
  split; [|exact Nv]. exists b, x, a, sg, neg, ds. split; [reflexivity|]. split; [exact Hb|]. split; [exact Ha|]. split; [exact Sp|]. split; [exact Sm|].
  rewrite E in Nv. pose proof (mg_number neg ds [] [] [] 0 l [] (f_of_dec neg (digits_val 10 l) 0) D) as M. cbn [app] in M. rewrite !app_nil_r in M, Nv.
  refine (eq_ind (ds ++ []) (fun t => magnitude neg t _) _ ds (app_nil_r ds)).
  apply M; [constructor|intros ->; cbn in L; lia|right; split; reflexivity|constructor|exact Nv].
Qed.
(* in a parsed message *)
Theorem C106_parsed m content ck talker msgid fields mode v ud x d sl i k f :
  given m content ck talker msgid fields -> parse m mode v ud = Ok (Some x) ->
  kept_as_is talker msgid fields -> definition_for mode ud msgid fields = Some d -> well_formed d ->
  layout (int_attr (m_attrs x)) (length fields) 0 d sl -> nth_error fields i = Some f -> f <> [] -> k <> u "lat" -> k <> u "lon" ->
  (nth_error sl i = Some (k, u "IN") -> exists z, reads_as_integer f z /\ nth_error (m_attrs x) i = Some (k, VInt z))
  /\ (nth_error sl i = Some (k, u "DE") -> exists y, reads_as_decimal f y /\ nth_error (m_attrs x) i = Some (k, VFloat y)).
Proof.
  intros G P K D W L F Nf K1 K2. destruct (C13_decoded _ _ _ _ _ _ _ _ _ _ _ G P K D W) as (sl' & L' & Dc).
  pose proof (layout_functional _ _ _ _ _ _ L' L) as ->. destruct (decode_nth _ _ _ Dc) as [Ln H].
  assert (Se : forall w, settle k w (combine (skipn (S i) sl) (skipn (S i) fields)) = w).
  { intros w. unfold settle. destruct (str_eqb_spec k (u "lat")); [contradiction|]. destruct (str_eqb_spec k (u "lon")); [contradiction|reflexivity]. }
  split; intros N; destruct (H i k _ f N F) as (w & Hw & Q).
  - apply C106_integer_field in Hw as [[-> _]|(z & R & ->)]; [contradiction|]. exists z. split; [exact R|]. rewrite Q, Se. reflexivity.
  - apply C106_decimal_field in Hw as [[-> _]|(z & R & ->)]; [contradiction|]. exists z. split; [exact R|]. rewrite Q, Se. reflexivity.
Qed.

(* a number field holds more than plain ASCII numerals, and a decimal need not be finite *)
Theorem C106_unusual_refuted :
  str2val (u " +1_2 ") (u "IN") = Ok (VInt 12) /\ str2val [1633; 95; 50; 8199]%N (u "IN") = Ok (VInt 12)
  /\ str2val (u "1__2") (u "IN") = Raise ValueError /\ str2val (u "_12") (u "IN") = Raise ValueError /\ str2val (u "1.0") (u "IN") = Raise ValueError
  /\ str2val (u "- 1") (u "IN") = Raise ValueError /\ str2val (u "1_0.2_5e+0_1") (u "DE") = Ok (VFloat (f_norm 205 (-1)))
  /\ str2val (u "1_.5") (u "DE") = Raise ValueError /\ str2val (u ".") (u "DE") = Raise ValueError /\ str2val (u "1e") (u "DE") = Raise ValueError
  /\ str2val (u "-iNFinity") (u "DE") = Ok (VFloat (S754_infinity true)) /\ str2val (u "1e400") (u "DE") = Ok (VFloat (S754_infinity false))
  /\ str2val (u "+NaN") (u "DE") = Ok (VFloat S754_nan) /\ str2val (u "i_nf") (u "DE") = Raise ValueError.
Proof.
  split; [vm_compute; reflexivity|]. split; [vm_compute; reflexivity|]. split; [vm_compute; reflexivity|]. split; [vm_compute; reflexivity|].
  split; [vm_compute; reflexivity|]. split; [vm_compute; reflexivity|]. split; [vm_compute; reflexivity|]. split; [vm_compute; reflexivity|].
  split; [vm_compute; reflexivity|]. split; [vm_compute; reflexivity|]. split; [vm_compute; reflexivity|]. split; [vm_compute; reflexivity|].
  split; vm_compute; reflexivity.
Qed.
Example C106_example : reads_as_integer (u " -1_2") (-12) /\ (exists v, reads_as_decimal (u "1_2.5E-1") v /\ v = f_of_dec false 125 (-2))
  /\ exists x sl, parse (MStr (u "$GNGGA,,,,,,1, 7 ,1_1.5,,,,,,*00")) 0 0 [] = Ok (Some x)
     /\ layout (int_attr (m_attrs x)) 14 0 def_g_GGA sl /\ nth_error sl 6 = Some (u "numSV", u "IN") /\ nth_error sl 7 = Some (u "HDOP", u "DE")
     /\ nth_error (m_attrs x) 6 = Some (u "numSV", VInt 7) /\ nth_error (m_attrs x) 7 = Some (u "HDOP", VFloat (f_norm 23 (-1))).
Proof.
  split; [|split].
  - exists (u " "), (u "-1_2"), [], (u "-"), true, (u "12"), [1%N; 2%N]. split; [reflexivity|].
    split; [constructor; [left; cbn; tauto|constructor]|]. split; [constructor|]. split.
    { apply sp_char. apply (sp_underscore 49%N 50%N); [vm_compute; intros Q; discriminate Q|vm_compute; intros Q; discriminate Q|]. apply sp_char, sp_nil. }
    split; [constructor|]. split; [repeat constructor|]. split; [cbn; lia|reflexivity].
  - exists (f_of_dec false 125 (-2)). split; [apply C106_float; vm_compute; reflexivity|reflexivity].
  - eexists. eexists. split; [vm_compute; reflexivity|]. split; [repeat constructor|].
    split; [vm_compute; reflexivity|]. split; [vm_compute; reflexivity|]. split; vm_compute; reflexivity.
Qed.
