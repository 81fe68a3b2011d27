(* C103: which texts dms2deg reads, and as what. *)
From Coq Require Import Reals Lia Lra List NArith ZArith Bool.
From Flocq Require Import Core BinarySingleNaN.
From Verif Require Import Helpers BaseLemmas TextLemmas NumLemmas CoordSpec FloatProofs DecimalProofs CoordProofs DmsProofs.
From Verif Require PropsValue.
Import ListNotations.
Local Open Scope Z_scope.

(* ------------------------------------------------------- specification *)
(* decimal_val is Python's table of decimal digits (ASCII and others) *)
Definition numeric (c : N) : Prop := c = 46%N \/ exists v, decimal_val c = Some v.
Definition digit_values (t : pystr) (l : list N) : Prop := Forall2 (fun c v => decimal_val c = Some v) t l.
Definition decimal_number (l : list N) : Z := fold_left (fun a d => 10 * a + Z.of_N d) l 0.
(* digits, or digits with one point before, between or after them *)
Inductive number_text : pystr -> R -> Prop :=
| nt_whole t l : digit_values t l -> t <> [] -> number_text t (IZR (decimal_number l))
| nt_point a b la lb : digit_values a la -> digit_values b lb -> a ++ b <> [] ->
    number_text (a ++ u "." ++ b) (IZR (decimal_number (la ++ lb)) / IZR (10 ^ Z.of_nat (length b))).
(* an optional hemisphere, and an optional newline *)
Definition ending (e : pystr) : Prop :=
  exists h n, e = h ++ n /\ In h [[]; u "N"; u "S"; u "E"; u "W"] /\ In n [[]; [10%N]].
(* s is one to three groups, each of digits and points followed by one other character, and an ending *)
Definition grouped (s : pystr) (ps : list (pystr * N)) (e : pystr) : Prop :=
  s = flat_map (fun p => fst p ++ [snd p]) ps ++ e /\ (1 <= length ps <= 3)%nat /\ ending e
  /\ Forall (fun p => fst p <> [] /\ Forall numeric (fst p) /\ ~ numeric (snd p)) ps.
Definition without_blanks (s : pystr) : pystr := filter (fun c => negb (c =? 32)%N) s.
(* degrees, minutes, seconds *)
Definition in_degrees (qs : list R) : R := (nth 0 qs 0 + nth 1 qs 0 / 60 + nth 2 qs 0 / 3600)%R.

(* ---------------------------------------------------------- characters *)
Lemma digit_ascii c v : decimal_val c = Some v -> to_ascii_char c = dec_char v /\ digit v.
Proof.
  assert (forallb (fun z => forallb (fun k => (to_ascii_char (z + k) =? 48 + k)%N) [0;1;2;3;4;5;6;7;8;9]%N) decimal_zeros = true) as G by (vm_compute; reflexivity).
  unfold decimal_val. destruct (find _ decimal_zeros) as [z|] eqn:F; [|discriminate]. intros E.
  apply find_some in F as [I B]. apply andb_true_iff in B as [B1 B2]. apply N.leb_le in B1, B2.
  assert (v = c - z)%N as -> by congruence. rewrite forallb_forall in G. specialize (G z I). rewrite forallb_forall in G.
  specialize (G (c - z)%N). assert (In (c - z)%N [0;1;2;3;4;5;6;7;8;9]%N) as J by (cbn [In]; lia). specialize (G J).
  apply N.eqb_eq in G. replace (z + (c - z))%N with c in G by lia. split; [exact G|]. unfold digit. lia.
Qed.
Lemma values_ascii t l : digit_values t l -> to_ascii t = map dec_char l /\ Forall digit l /\ length t = length l.
Proof.
  induction 1 as [|c v t l H _ (A & B & C)]; [repeat split; constructor|]. destruct (digit_ascii _ _ H) as [D1 D2].
  unfold to_ascii in *. cbn [map length]. rewrite D1, A, C. split; [reflexivity|]. split; [constructor; assumption|reflexivity].
Qed.
Lemma class_numeric c : dms_class c = true <-> numeric c.
Proof.
  unfold dms_class, numeric. destruct (N.eqb_spec c 46) as [->|N]; cbn [orb]; [split; auto|].
  destruct (decimal_val c) as [v|]; split; intros H; try discriminate; auto; [right; exists v; reflexivity|].
  destruct H as [H|[v H]]; [contradiction|discriminate].
Qed.
Lemma class_not c : dms_class c = false <-> ~ numeric c.
Proof.
  rewrite <- class_numeric. destruct (dms_class c); split; intros H; [discriminate|exfalso; apply H; reflexivity|discriminate|reflexivity].
Qed.
Lemma number_digits l : Z.of_N (digits_val 10 l) = decimal_number l.
Proof.
  unfold digits_val, decimal_number. assert (forall a, Z.of_N (fold_left (fun a d => (a * 10 + d)%N) l a) = fold_left (fun a d => 10 * a + Z.of_N d) l (Z.of_N a)) as G.
  { induction l as [|d l IH]; intros a; [reflexivity|]. cbn [fold_left]. rewrite IH. f_equal. lia. }
  apply (G 0%N).
Qed.
(* the point is not a digit *)
Lemma point_no_digit : decimal_val 46 = None.
Proof. vm_compute. reflexivity. Qed.
Lemma to_ascii_app a b : to_ascii (a ++ b) = to_ascii a ++ to_ascii b.
Proof. apply map_app. Qed.

(* -------------------------------------------------------------- numbers *)
Lemma float_ascii t t' x : to_ascii t = t' -> Forall numeral_char t' -> match t' with c :: _ => (48 <= c <= 57 \/ c = 46)%N | [] => False end ->
  parse_unsigned false t' = x -> float_of_str t = match x with Some y => Ok y | None => Raise ValueError end.
Proof.
  intros E F H P. unfold float_of_str. cbv zeta. rewrite E.
  rewrite strip_if_none by (eapply Forall_impl; [|exact F]; unfold numeral_char, c_isspace; intros; lia).
  rewrite us_ok_none by exact F. rewrite remove_none by (eapply Forall_impl; [|exact F]; unfold numeral_char; intros; lia).
  assert (split_sign t' = (false, t')) as SS.
  { destruct t' as [|c t']; [contradiction|]. cbn [split_sign].
    replace (c =? 45)%N with false by lia. replace (c =? 43)%N with false by lia. reflexivity. }
  rewrite SS, P. reflexivity.
Qed.
Lemma parse_digits neg l : Forall digit l -> l <> [] -> parse_unsigned neg (map dec_char l) = Some (f_of_dec neg (digits_val 10 l) 0).
Proof.
  intros F NE. unfold parse_unsigned. cbv zeta. destruct l as [|d l]; [congruence|].
  destruct (low_not_word (map dec_char l) (dec_char d)) as [L1 L2]; [inversion F; subst; unfold digit, dec_char in *; lia|].
  change (map dec_char (d :: l)) with (dec_char d :: map dec_char l). rewrite L1, L2.
  change (dec_char d :: map dec_char l) with (map dec_char (d :: l)). rewrite take_digits_all by exact F. rewrite app_nil_r. reflexivity.
Qed.
Lemma number_float t q : number_text t q -> exists x, float_of_str t = Ok x /\ nearest false q x.
Proof.
  intros H. destruct H as [t l V NE|a b la lb Va Vb NE].
  - destruct (values_ascii _ _ V) as (A & F & L). assert (l <> []) as NL by (destruct l; [destruct t; [congruence|discriminate]|discriminate]).
    eexists. split.
    + apply (float_ascii t (map dec_char l) (Some (f_of_dec false (digits_val 10 l) 0)) A); [apply dec_chars, F| |apply parse_digits; assumption].
      destruct l as [|d l]; [congruence|]. inversion F; subst. cbn [map]. unfold digit, dec_char in *. lia.
    + pose proof (f_of_dec_correct false (digits_val 10 l) 0) as N. cbn [signR] in N. change (pow10 0) with 1%R in N. rewrite Rmult_1_r, number_digits in N. exact N.
  - destruct (values_ascii _ _ Va) as (A & Fa & La). destruct (values_ascii _ _ Vb) as (B & Fb & Lb).
    assert (to_ascii (a ++ u "." ++ b) = map dec_char la ++ 46%N :: map dec_char lb) as E by (rewrite !to_ascii_app, A, B; reflexivity).
    assert (Forall numeral_char (map dec_char la ++ 46%N :: map dec_char lb)) as F.
    { apply Forall_app. split; [apply dec_chars, Fa|]. constructor; [unfold numeral_char; lia|apply dec_chars, Fb]. }
    exists (f_of_dec false (digits_val 10 (la ++ lb)) (- Z.of_nat (length lb))). split.
    + apply (float_ascii _ _ (Some (f_of_dec false (digits_val 10 (la ++ lb)) (- Z.of_nat (length lb)))) E F).
      * destruct la as [|d la]; [cbn; lia|]. inversion Fa; subst. cbn [map app]. unfold digit, dec_char in *. lia.
      * destruct la as [|d la]; [|apply parse_plain; [exact Fa|exact Fb|discriminate]]. apply (PropsValue.parse_point false lb Fb).
        destruct a; [|discriminate La]. destruct lb; [destruct b; [exfalso; apply NE; reflexivity|discriminate Lb]|discriminate].
    + pose proof (f_of_dec_correct false (digits_val 10 (la ++ lb)) (- Z.of_nat (length lb))) as N. cbn [signR] in N.
      rewrite number_digits, pow10_neg, pow10_IZR, <- Lb in N by lia. rewrite <- Lb. exact N.
Qed.
(* a run of digits and points that float() reads *)
Lemma values_of t : Forall numeric t -> ~ In 46%N t -> exists l, digit_values t l.
Proof.
  induction 1 as [|c t [->|[v V]] _ IH]; intros N; [exists []; constructor|exfalso; apply N; left; reflexivity|].
  destruct IH as [l L]; [intros I; apply N; right; exact I|]. exists (v :: l). constructor; assumption.
Qed.
Lemma numeric_ascii t : Forall numeric t -> Forall numeral_char (to_ascii t) /\ Forall (fun c => (48 <= c <= 57 \/ c = 46)%N) (to_ascii t).
Proof.
  assert (forall c, numeric c -> (48 <= to_ascii_char c <= 57 \/ to_ascii_char c = 46)%N) as G.
  { intros c [->|[v V]]; [right; reflexivity|]. destruct (digit_ascii _ _ V) as [-> D]. unfold digit, dec_char in *. lia. }
  intros F. split; apply Forall_map; (eapply Forall_impl; [|exact F]); intros c C; specialize (G c C); [unfold numeral_char; lia|exact G].
Qed.
Lemma first_point (t : pystr) : In 46%N t -> exists a b, t = a ++ 46%N :: b /\ ~ In 46%N a.
Proof.
  induction t as [|c t IH]; intros H; [contradiction|]. destruct (N.eq_dec c 46) as [->|N].
  - exists [], t. split; [reflexivity|intros []].
  - destruct H as [H|H]; [congruence|]. destruct (IH H) as (a & b & -> & A). exists (c :: a), b. split; [reflexivity|]. intros [E|E]; [congruence|exact (A E)].
Qed.
Lemma float_number t x : t <> [] -> Forall numeric t -> float_of_str t = Ok x -> exists q, number_text t q.
Proof.
  intros NE F E. destruct (in_dec N.eq_dec 46%N t) as [I|I].
  - destruct (first_point t I) as (a & b & -> & Na). apply Forall_app in F as [Fa Fb]. inversion Fb as [|? ? _ Fb']; subst.
    destruct (values_of a Fa Na) as [la La]. destruct (in_dec N.eq_dec 46%N b) as [I2|I2].
    + exfalso. destruct (first_point b I2) as (b1 & b2 & -> & Nb). apply Forall_app in Fb' as [Fb1 Fb2]. destruct (values_of b1 Fb1 Nb) as [lb Lb].
      destruct (values_ascii _ _ La) as (A & Da & _). destruct (values_ascii _ _ Lb) as (B & Db & _).
      assert (to_ascii (a ++ 46%N :: b1 ++ 46%N :: b2) = map dec_char la ++ 46%N :: map dec_char lb ++ 46%N :: to_ascii b2) as T.
      { rewrite to_ascii_app, A. change (46%N :: b1 ++ 46%N :: b2) with ([46%N] ++ b1 ++ [46%N] ++ b2). rewrite !to_ascii_app, B. reflexivity. }
      assert (Forall numeric (a ++ 46%N :: b1 ++ 46%N :: b2)) as Fn.
      { apply Forall_app. split; [exact Fa|]. constructor; [left; reflexivity|]. apply Forall_app. split; assumption. }
      destruct (numeric_ascii _ Fn) as [G1 G2]. rewrite T in G1, G2.
      set (t' := map dec_char la ++ 46%N :: map dec_char lb ++ 46%N :: to_ascii b2) in *.
      assert (match t' with c :: _ => (48 <= c <= 57 \/ c = 46)%N | [] => False end) as Hd.
      { destruct t' eqn:Et; [destruct la; discriminate|]. inversion G2; assumption. }
      rewrite (float_ascii _ t' _ T G1 Hd eq_refl) in E. clear - E Da Db.
      assert (parse_unsigned false t' = None) as P; [|rewrite P in E; discriminate].
      unfold parse_unsigned. cbv zeta.
      assert (forall w r, In w (u "in") -> str_eqb (map lower_ascii t') (w :: r) = false) as W.
      { intros w r Iw. apply str_eqb_neq. intros Q. destruct la as [|d la].
        - unfold t' in Q. cbn [map app] in Q. assert (w = lower_ascii 46) as -> by congruence. vm_compute in Iw. intuition discriminate.
        - inversion Da as [|? ? D1 _]; subst. unfold t' in Q. cbn [map app] in Q. assert (w = lower_ascii (dec_char d)) as -> by congruence.
          unfold digit, lower_ascii, dec_char in *. replace ((65 <=? 48 + d) && (48 + d <=? 90))%N with false in Iw by lia. change (u "in") with [105%N; 110%N] in Iw. cbn [In] in Iw. lia. }
      assert (In 105%N (u "in") /\ In 110%N (u "in")) as [I1 I2] by (cbn; tauto).
      rewrite (W 105%N (u "nf") I1 : str_eqb _ (u "inf") = false), (W 105%N (u "nfinity") I1 : str_eqb _ (u "infinity") = false),
        (W 110%N (u "an") I2 : str_eqb _ (u "nan") = false). cbn [orb].
      unfold t'. rewrite take_digits_app by (exact Da || reflexivity). change (46 =? 46)%N with true. cbv iota.
      rewrite take_digits_app by (exact Db || reflexivity). destruct (la ++ lb); reflexivity.
    + destruct (values_of b Fb' I2) as [lb Lb].
      destruct (list_eq_dec N.eq_dec (a ++ b) []) as [E0|N0].
      * exfalso. apply app_eq_nil in E0 as [-> ->]. vm_compute in E. discriminate E.
      * eexists. exact (nt_point a b la lb La Lb N0).
  - destruct (values_of t F I) as [l L]. eexists. apply (nt_whole t l L NE).
Qed.

(* ------------------------------------------------------------ structure *)
Lemma run_split s a r : dms_run s = (a, r) -> s = a ++ r /\ Forall numeric a /\ match r with c :: _ => ~ numeric c | [] => True end.
Proof.
  revert a r. induction s as [|c s IH]; intros a r E; cbn [dms_run] in E.
  - assert (a = []) as -> by congruence. assert (r = []) as -> by congruence. repeat split. constructor.
  - destruct (dms_class c) eqn:C.
    + destruct (dms_run s) as [a' r'] eqn:R. assert (a = c :: a') as -> by congruence. assert (r' = r) as -> by congruence.
      destruct (IH _ _ eq_refl) as (-> & F & M). split; [reflexivity|]. split; [constructor; [apply class_numeric, C|exact F]|exact M].
    + assert (a = []) as -> by congruence. assert (r = c :: s) as -> by congruence. split; [reflexivity|]. split; [constructor|apply class_not, C].
Qed.
Lemma run_numeric a r : Forall numeric a -> match r with c :: _ => ~ numeric c | [] => True end -> dms_run (a ++ r) = (a, r).
Proof.
  intros F M. induction F as [|c a C _ IH]; cbn [app dms_run].
  - destruct r as [|c r]; [reflexivity|]. cbn [dms_run]. rewrite (proj2 (class_not c) M). reflexivity.
  - rewrite (proj2 (class_numeric c) C), IH. reflexivity.
Qed.
Definition good_group (p : pystr * N) : Prop := fst p <> [] /\ Forall numeric (fst p) /\ ~ numeric (snd p).
Lemma group_some s r : dms_group s = Some r <-> exists p, good_group p /\ s = (fst p ++ [snd p]) ++ r.
Proof.
  unfold dms_group. split.
  - destruct (dms_run s) as [a b] eqn:R. destruct a as [|c a]; [discriminate|]. destruct b as [|d b]; [discriminate|]. intros E.
    assert (b = r) as -> by congruence. destruct (run_split _ _ _ R) as (-> & F & M). exists (c :: a, d). unfold good_group. cbn [fst snd].
    split; [split; [discriminate|split; assumption]|]. rewrite <- app_assoc. reflexivity.
  - intros ([a d] & (NE & F & M) & ->). cbn [fst snd] in *. rewrite <- app_assoc. cbn [app]. rewrite run_numeric by assumption.
    destruct a; [congruence|reflexivity].
Qed.
Lemma no_numeric_ending e c r : ending e -> e = c :: r -> ~ numeric c.
Proof.
  intros (h & n & -> & H & Hn) E. apply class_not.
  assert (In c [78; 83; 69; 87; 10]%N) as I.
  { cbn [In] in H, Hn. destruct H as [<-|[<-|[<-|[<-|[<-|[]]]]]], Hn as [<-|[<-|[]]]; cbn in E; try discriminate; assert (c = c) as _ by reflexivity;
      match type of E with ?x :: _ = _ => assert (c = x) as -> by congruence end; cbn; tauto. }
  assert (forallb (fun c => negb (dms_class c)) [78; 83; 69; 87; 10]%N = true) as G by (vm_compute; reflexivity).
  rewrite forallb_forall in G. apply negb_true_iff, G, I.
Qed.
Lemma group_ending e : ending e -> dms_group e = None.
Proof.
  intros H. destruct (dms_group e) as [r|] eqn:G; [|reflexivity]. apply group_some in G as ([a d] & (NE & F & _) & E). cbn [fst snd] in *.
  destruct a as [|c a]; [congruence|]. inversion F; subst. exfalso. apply (no_numeric_ending _ c _ H eq_refl). assumption.
Qed.
Lemma tail_ending e : dms_tail e = true <-> ending e.
Proof.
  unfold dms_tail. split.
  - intros H.
    assert (forall s, match s with [] => true | [c] => (c =? 10)%N | _ => false end = true -> In s [[]; [10%N]]) as G.
    { intros [|c [|]] Q; [left; reflexivity|right; left; f_equal; symmetry; apply N.eqb_eq, Q|discriminate]. }
    destruct e as [|c r]; [exists [], []; cbn; tauto|]. destruct (memc c (u "NSEW")) eqn:M.
    + exists [c], r. split; [reflexivity|]. split; [|apply G, H]. apply memc_iff in M. change (In c [78; 83; 69; 87]%N) in M. cbn [In] in M.
      destruct M as [<-|[<-|[<-|[<-|[]]]]]; cbn; tauto.
    + exists [], (c :: r). split; [reflexivity|]. split; [left; reflexivity|]. apply G, H.
  - intros (h & n & -> & H & Hn). cbn [In] in H, Hn. destruct H as [<-|[<-|[<-|[<-|[<-|[]]]]]], Hn as [<-|[<-|[]]]; vm_compute; reflexivity.
Qed.
Lemma match_grouped s : dms_match s = true <-> exists ps e, grouped s ps e.
Proof.
  unfold dms_match, grouped. split.
  - destruct (dms_group s) as [r1|] eqn:G1; [|discriminate]. apply group_some in G1 as (p1 & P1 & ->).
    destruct (dms_group r1) as [r2|] eqn:G2.
    + apply group_some in G2 as (p2 & P2 & ->). destruct (dms_group r2) as [r3|] eqn:G3; intros T; apply tail_ending in T.
      * apply group_some in G3 as (p3 & P3 & ->). exists [p1; p2; p3], r3. cbn [flat_map length]. rewrite app_nil_r, <- !app_assoc.
        split; [reflexivity|]. split; [lia|]. split; [exact T|]. repeat (constructor; [assumption|]). constructor.
      * exists [p1; p2], r2. cbn [flat_map length]. rewrite app_nil_r, <- !app_assoc. split; [reflexivity|]. split; [lia|]. split; [exact T|].
        repeat (constructor; [assumption|]). constructor.
    + intros T. apply tail_ending in T. exists [p1], r1. cbn [flat_map length]. rewrite app_nil_r. split; [reflexivity|]. split; [lia|]. split; [exact T|].
      repeat (constructor; [assumption|]). constructor.
  - intros (ps & e & -> & L & T & F).
    assert (forall p r, good_group p -> dms_group ((fst p ++ [snd p]) ++ r) = Some r) as G by (intros p r P; apply group_some; exists p; auto).
    destruct ps as [|p1 ps]; [cbn in L; lia|]. inversion F as [|? ? P1 F1]; subst. cbn [flat_map]. rewrite <- app_assoc, (G p1 _ P1).
    destruct ps as [|p2 ps]; [cbn [flat_map app]; rewrite group_ending by exact T; apply tail_ending, T|].
    inversion F1 as [|? ? P2 F2]; subst. cbn [flat_map]. rewrite <- app_assoc, (G p2 _ P2).
    destruct ps as [|p3 ps]; [cbn [flat_map app]; rewrite group_ending by exact T; apply tail_ending, T|].
    inversion F2 as [|? ? P3 F3]; subst. cbn [flat_map]. rewrite <- app_assoc, (G p3 _ P3).
    destruct ps as [|p4 ps]; [cbn [flat_map app]; apply tail_ending, T|]. cbn in L. lia.
Qed.
Lemma split_group p r n acc : good_group p -> dms_split (S n) acc ((fst p ++ [snd p]) ++ r) = (rev acc ++ fst p) :: dms_split n [] r.
Proof.
  intros (_ & F & M). destruct p as [a d]. cbn [fst snd] in *. rewrite <- app_assoc. cbn [app]. revert acc. induction F as [|c a C _ IH]; intros acc; cbn [app dms_split].
  - rewrite (proj2 (class_not d) M), app_nil_r. reflexivity.
  - rewrite (proj2 (class_numeric c) C). change (dms_split (S n) (c :: acc) (a ++ d :: r) = (rev acc ++ c :: a) :: dms_split n [] r).
    rewrite IH. cbn [rev]. rewrite <- app_assoc. reflexivity.
Qed.
(* what follows the groups adds nothing but zeros *)
Lemma tail_sum e n x acc : ending e ->
  exists k, (k <= 2)%nat /\ dms_sum x acc (dms_split n [] e) = Ok (Nat.iter k (fun y => fadd y fzero) acc).
Proof.
  intros (h & m & -> & H & Hm). cbn [In] in H, Hm.
  assert (dms_class 78 = false /\ dms_class 83 = false /\ dms_class 69 = false /\ dms_class 87 = false /\ dms_class 10 = false) as (C1 & C2 & C3 & C4 & C5) by (vm_compute; tauto).
  assert (forall a, dms_class a = false -> exists k, (k <= 2)%nat /\ dms_sum x acc (dms_split n [] [a]) = Ok (Nat.iter k (fun y => fadd y fzero) acc)) as A1.
  { intros a Ca. destruct n as [|n]; cbn [dms_split rev app]; [exists 0%nat; split; [lia|reflexivity]|]. rewrite Ca. destruct n; exists 1%nat; (split; [lia|reflexivity]). }
  assert (forall a b, dms_class a = false -> dms_class b = false -> exists k, (k <= 2)%nat /\ dms_sum x acc (dms_split n [] [a; b]) = Ok (Nat.iter k (fun y => fadd y fzero) acc)) as A2.
  { intros a b Ca Cb. destruct n as [|n]; cbn [dms_split rev app]; [exists 0%nat; split; [lia|reflexivity]|]. rewrite Ca.
    destruct n as [|n]; cbn [dms_split rev app]; [exists 1%nat; split; [lia|reflexivity]|]. rewrite Cb. destruct n; exists 2%nat; (split; [lia|reflexivity]). }
  destruct H as [<-|[<-|[<-|[<-|[<-|[]]]]]], Hm as [<-|[<-|[]]]; first [apply A1; assumption|apply A2; assumption|idtac].
  exists 0%nat. split; [lia|]. destruct n; reflexivity.
Qed.
Lemma split_nonempty n acc s : dms_split n acc s <> [].
Proof. revert n acc. induction s as [|c s IH]; intros n acc; destruct n; cbn [dms_split]; try discriminate. destruct (dms_class c); [apply IH|discriminate]. Qed.
Lemma sum_group x acc t l : t <> [] -> l <> [] ->
  dms_sum x acc (t :: l) = let! v := float_of_str t in dms_sum (x + 1) (fadd acc (fdiv v (f_norm (60 ^ x) 0))) l.
Proof.
  intros N1 N2. destruct l as [|p l]; [congruence|]. destruct t as [|c t]; [congruence|]. cbn [dms_sum]. destruct (float_of_str (c :: t)); reflexivity.
Qed.
Lemma sum_zeros k acc : fdata acc -> sign_of acc = false -> Nat.iter k (fun y => fadd y fzero) acc = acc.
Proof. intros D Sg. induction k as [|k IH]; [reflexivity|]. cbn [Nat.iter nat_rect]. change (fadd (Nat.iter k (fun y => fadd y fzero) acc) fzero = acc). rewrite IH. apply fadd_zero_r; assumption. Qed.
(* the float that the groups add up to *)
Fixpoint total (x : Z) (acc : fl) (vs : list fl) : fl :=
  match vs with [] => acc | v :: r => total (x + 1) (fadd acc (fdiv v (f_norm (60 ^ x) 0))) r end.
Lemma sum_total ps : forall n x acc e vs, Forall good_group ps -> ending e -> (length ps <= n)%nat ->
  Forall2 (fun p v => float_of_str (fst p) = Ok v) ps vs ->
  exists k, dms_sum x acc (dms_split n [] (flat_map (fun p => fst p ++ [snd p]) ps ++ e)) = Ok (Nat.iter k (fun y => fadd y fzero) (total x acc vs)).
Proof.
  induction ps as [|p ps IH]; intros n x acc e vs F T L R.
  - inversion R; subst. cbn [flat_map app total]. destruct (tail_sum e n x acc T) as (k & _ & E). exists k. exact E.
  - inversion F as [|? ? P F']; subst. inversion R as [|? v ? vs' Rv R']; subst. destruct n as [|n]; [cbn in L; lia|].
    cbn [flat_map]. rewrite <- app_assoc, split_group by exact P. cbn [rev app]. rewrite sum_group by (apply P || apply split_nonempty).
    rewrite Rv. cbn [bind total]. apply IH; try assumption. cbn in L. lia.
Qed.
Lemma sum_fails ps : forall n x acc e, Forall good_group ps -> (length ps <= n)%nat ->
  (exists p, In p ps /\ forall v, float_of_str (fst p) <> Ok v) ->
  dms_sum x acc (dms_split n [] (flat_map (fun p => fst p ++ [snd p]) ps ++ e)) = Raise ValueError.
Proof.
  assert (forall s x, float_of_str s = Raise x -> x = ValueError) as FE.
  { intros s x. unfold float_of_str. cbv zeta. destruct (us_ok _ _); [|congruence]. destruct (split_sign _). destruct (parse_unsigned _ _); congruence. }
  induction ps as [|p ps IH]; intros n x acc e F L (p0 & I & N); [contradiction|].
  inversion F as [|? ? P F']; subst. destruct n as [|n]; [cbn in L; lia|].
  cbn [flat_map]. rewrite <- app_assoc, split_group by exact P. cbn [rev app]. rewrite sum_group by (apply P || apply split_nonempty).
  destruct (float_of_str (fst p)) as [v|z] eqn:E; [|rewrite (FE _ _ E); reflexivity]. cbn [bind]. apply IH; [exact F'|cbn in L; lia|].
  exists p0. split; [|exact N]. destruct I as [->|I]; [exfalso; exact (N _ E)|exact I].
Qed.

(* ------------------------------------------------------------- theorems *)
(* dms2deg fails with ValueError or not at all *)
Theorem C103_error s r e : dms2deg s r = Raise e -> e = ValueError.
Proof.
  unfold dms2deg. cbv zeta. destruct (dms_match (remove_char 32 s)) eqn:M; [|congruence].
  apply match_grouped in M as (ps & en & E & L & T & F).
  assert (forall t x, float_of_str t = Raise x -> x = ValueError) as FE.
  { intros t x. unfold float_of_str. cbv zeta. destruct (us_ok _ _); [|congruence]. destruct (split_sign _). destruct (parse_unsigned _ _); congruence. }
  assert (forall l x acc z, dms_sum x acc l = Raise z -> z = ValueError) as SE.
  { induction l as [|t l IH]; intros x acc z; [discriminate|]. destruct l as [|t' l]; [discriminate|].
    cbn [dms_sum]. destruct t as [|c t]; [cbn [bind]; apply IH|]. destruct (float_of_str (c :: t)) as [v|y] eqn:Q; cbn [bind]; [apply IH|].
    intros H. assert (y = z) as <- by congruence. exact (FE _ _ Q). }
  destruct (dms_sum _ _ _) as [d|y] eqn:Q; cbn [bind]; [discriminate|]. intros H. assert (y = e) as <- by congruence. exact (SE _ _ _ _ Q).
Qed.
(* and succeeds exactly on texts of the form *)
Theorem C103_form s r : (exists y, dms2deg s r = Ok y) <->
  exists ps e, grouped (without_blanks s) ps e /\ Forall (fun p => exists q, number_text (fst p) q) ps.
Proof.
  change (without_blanks s) with (remove_char 32 s). unfold dms2deg. cbv zeta. split.
  - intros [y E]. destruct (dms_match (remove_char 32 s)) eqn:M; [|discriminate]. apply match_grouped in M as (ps & en & G). exists ps, en. split; [exact G|].
    destruct G as (Es & L & T & F). rewrite Es in E. apply Forall_forall. intros p I.
    destruct (float_of_str (fst p)) as [v|z] eqn:Q.
    + rewrite Forall_forall in F. destruct (F p I) as (N1 & N2 & _). exact (float_number _ _ N1 N2 Q).
    + exfalso. rewrite sum_fails in E; [discriminate|exact F|lia|]. exists p. split; [exact I|]. intros v. congruence.
  - intros (ps & en & G & Nm). rewrite (proj2 (match_grouped _)) by (exists ps, en; exact G). destruct G as (Es & L & T & F). rewrite Es.
    assert (exists vs, Forall2 (fun p v => float_of_str (fst p) = Ok v) ps vs) as [vs R].
    { clear - Nm. induction Nm as [|p ps [q Q] _ [vs IH]]; [exists []; constructor|]. destruct (number_float _ _ Q) as (x & X & _). exists (x :: vs). constructor; assumption. }
    destruct (sum_total ps 3 0 fzero en vs F T ltac:(lia) R) as (k & ->). cbn [bind]. eexists. reflexivity.
Qed.
(* one more group: q in units of 1 / 60^x, at most c degrees *)
Lemma number_nonneg t q : number_text t q -> (0 <= q)%R.
Proof.
  assert (forall l, 0 <= decimal_number l) as D by (intros l; rewrite <- number_digits; lia).
  intros []; [apply IZR_le, D|]. apply Rmult_le_pos; [apply IZR_le, D|]. apply Rlt_le, Rinv_0_lt_compat, IZR_lt, Z.pow_pos_nonneg; lia.
Qed.
Lemma group_step acc v q x w c b : fdata acc -> sign_of acc = false -> (0 <= rval acc <= IZR b)%R -> nearest false q v -> (0 <= q <= 1000)%R ->
  60 ^ x = w -> 1 <= w <= 3600 -> (1000 <= IZR w * IZR c)%R -> 0 <= c <= 1000 -> 0 <= b -> b + c <= 1023 ->
  let n := fadd acc (fdiv v (f_norm (60 ^ x) 0)) in
  fdata n /\ sign_of n = false /\ (0 <= rval n <= IZR (b + c))%R /\ (Rabs (rval n - (rval acc + q / IZR w)) <= 3 / 17592186044416)%R.
Proof.
  intros Da Sa Ba Nv Bq -> Bw Bc Hc Hb Hbc n.
  destruct (f_int w ltac:(lia)) as (Dw & Vw & Sw). replace (w <? 0) with false in Sw by lia.
  assert (0 < IZR w)%R as W0 by (apply IZR_lt; lia). assert (1 <= IZR w)%R as W1 by (apply IZR_le; lia).
  apply nearest_fdata in Nv; [|apply rnd_lt_huge with 1000; [rewrite Rabs_pos_eq by lra; lra|lia]]. destruct Nv as (Dv & Vv & Sv).
  assert (0 <= rval v <= 1000)%R as Bv.
  { rewrite Vv. split; [rewrite <- rnd_0; apply rnd_le; lra|]. rewrite <- (rnd_format 1000) by (apply (int_format 1000); lia). apply rnd_le; lra. }
  pose proof (rnd_err 10 q ltac:(lia)) as E0. rewrite Rabs_pos_eq in E0 by lra. specialize (E0 ltac:(change (bpow radix2 10) with 1024%R; lra)). rewrite <- Vv in E0.
  change (bpow radix2 (10 - 54)) with (/ 17592186044416)%R in E0.
  assert (is_zero (f_norm w 0) = false) as Zw.
  { destruct (f_norm w 0) as [| | |] eqn:Q; try reflexivity. exfalso. unfold rval in Vw. cbn in Vw. lra. }
  assert (rval v / rval (f_norm w 0) <= IZR c)%R as Bd.
  { rewrite Vw. apply Rmult_le_reg_r with (IZR w); [exact W0|]. unfold Rdiv. rewrite Rmult_assoc, Rinv_l by lra. lra. }
  assert (IZR c <= 1000)%R as C1 by (apply IZR_le; lia). assert (0 <= IZR c)%R as C0 by (apply IZR_le; lia).
  assert (IZR (b + c) <= 1023)%R as BC1 by (apply IZR_le; lia). assert (IZR (b + c) = IZR b + IZR c)%R as BC by apply plus_IZR.
  destruct (quot_small v (f_norm w 0) c 10 Dv Sv Dw Sw Zw) as (Q1 & Q2 & Q3 & Q4); [rewrite Vw; exact W0|exact Bd|lia|change (bpow radix2 10) with 1024%R; lra|lia|].
  destruct (sum_small acc (fdiv v (f_norm w 0)) (b + c) 10 Da Sa Q1 Q2) as (T1 & T2 & T3 & T4); [lra|lia|change (bpow radix2 10) with 1024%R; lra|lia|].
  split; [exact T1|]. split; [exact T2|]. split; [exact T3|]. unfold n. rewrite Vw in Q4.
  change (bpow radix2 (10 - 54)) with (/ 17592186044416)%R in *.
  assert (Rabs (rval v / IZR w - q / IZR w) <= / 17592186044416)%R as E1.
  { replace (rval v / IZR w - q / IZR w)%R with ((rval v - q) * / IZR w)%R by (unfold Rdiv; ring). rewrite Rabs_mult.
    assert (0 < / IZR w <= 1)%R as IW by (split; [apply Rinv_0_lt_compat, W0|rewrite <- Rinv_1; apply Rinv_le_contravar; lra]).
    rewrite (Rabs_pos_eq (/ IZR w)) by lra. pose proof (Rabs_pos (rval v - q)). nra. }
  apply Rabs_le_inv in E1, Q4, T4. apply Rabs_le. lra.
Qed.
Lemma fzero_data : fdata fzero /\ sign_of fzero = false /\ rval fzero = 0%R.
Proof. split; [split; reflexivity|]. split; reflexivity. Qed.
Lemma total_value vs qs : Forall2 (fun q v => nearest false q v) qs vs -> Forall (fun q => 0 <= q <= 1000)%R qs -> (1 <= length qs <= 3)%nat ->
  fdata (total 0 fzero vs) /\ sign_of (total 0 fzero vs) = false /\ (0 <= rval (total 0 fzero vs) <= 1018)%R
  /\ (Rabs (rval (total 0 fzero vs) - in_degrees qs) <= 9 / 17592186044416)%R.
Proof.
  intros N B L. destruct fzero_data as (Z1 & Z2 & Z3). unfold in_degrees.
  destruct N as [|q1 v1 qs vs N1 N]; [cbn in L; lia|]. inversion B as [|? ? B1 B']; subst.
  destruct (group_step fzero v1 q1 0 1 1000 0 Z1 Z2) as (D1 & S1 & R1 & E1); try assumption; try lia; try (rewrite ?Z3; lra). rewrite Z3 in E1.
  cbn [total]. change (0 + 1) with 1 in *. set (a1 := fadd fzero (fdiv v1 (f_norm (60 ^ 0) 0))) in *. change (0 + 1000) with 1000 in R1.
  destruct N as [|q2 v2 qs vs N2 N].
  { cbn [total nth]. split; [exact D1|]. split; [exact S1|]. split; [lra|]. apply Rabs_le_inv in E1. apply Rabs_le. lra. }
  inversion B' as [|? ? B2 B'']; subst.
  destruct (group_step a1 v2 q2 1 60 17 1000 D1 S1 R1) as (D2 & S2 & R2 & E2); try assumption; try lia; try reflexivity; try lra.
  cbn [total]. change (1 + 1) with 2 in *. set (a2 := fadd a1 (fdiv v2 (f_norm (60 ^ 1) 0))) in *. change (1000 + 17) with 1017 in R2.
  destruct N as [|q3 v3 qs vs N3 N].
  { cbn [total nth]. split; [exact D2|]. split; [exact S2|]. split; [lra|]. apply Rabs_le_inv in E1, E2. apply Rabs_le. lra. }
  inversion B'' as [|? ? B3 _]; subst.
  destruct (group_step a2 v3 q3 2 3600 1 1017 D2 S2 R2) as (D3 & S3 & R3 & E3); try assumption; try lia; try reflexivity; try lra.
  destruct N as [|]; [|cbn in L; lia].
  cbn [total nth]. set (a3 := fadd a2 (fdiv v3 (f_norm (60 ^ 2) 0))) in *. change (1017 + 1) with 1018 in R3.
  split; [exact D3|]. split; [exact S3|]. split; [lra|]. apply Rabs_le_inv in E1, E2, E3. apply Rabs_le. lra.
Qed.
(* The value: degrees + minutes / 60 + seconds / 3600 (each group up to 1000), rounded to r decimals, and negative
   exactly if there is an S or a W anywhere in the text. *)
Theorem C103_value s r ps e qs :
  grouped (without_blanks s) ps e -> Forall2 (fun p q => number_text (fst p) q) ps qs -> Forall (fun q => q <= 1000)%R qs -> (r <= 20)%nat ->
  exists y neg, dms2deg s r = Ok y /\ fdata y /\ (neg = true <-> In 83%N s \/ In 87%N s)
    /\ (Rabs (rval y - (if neg then - in_degrees qs else in_degrees qs)) <= / 2 / IZR (10 ^ Z.of_nat r) + / 1000000000000)%R.
Proof.
  intros G Nt B Hr. change (without_blanks s) with (remove_char 32 s) in G.
  assert (dms_match (remove_char 32 s) = true) as M by (apply match_grouped; exists ps, e; exact G). destruct G as (Es & L & T & F).
  assert (exists vs, Forall2 (fun p v => float_of_str (fst p) = Ok v) ps vs /\ Forall2 (fun q v => nearest false q v) qs vs /\ Forall (fun q => 0 <= q <= 1000)%R qs /\ length qs = length ps) as (vs & R & Nv & B0 & Lq).
  { clear - Nt B. induction Nt as [|p q ps qs Q Nt IH]; [exists []; repeat constructor|]. inversion B as [|? ? B1 B2]; subst.
    destruct (IH B2) as (vs & A1 & A2 & A3 & A4). destruct (number_float _ _ Q) as (x & X & N). exists (x :: vs).
    split; [constructor; assumption|]. split; [constructor; assumption|]. split; [constructor; [split; [exact (number_nonneg _ _ Q)|exact B1]|exact A3]|cbn; lia]. }
  destruct (total_value vs qs Nv B0 ltac:(lia)) as (D & Sg & Bt & Et).
  destruct (sum_total ps 3 0 fzero e vs F T ltac:(lia) R) as (k & Es2). rewrite <- Es, (sum_zeros k _ D Sg) in Es2.
  set (neg := memc 83 (remove_char 32 s) || memc 87 (remove_char 32 s)).
  destruct (times_sign _ neg D Sg ltac:(lra)) as (D1 & V1).
  destruct (fround_err r _ 10 Hr D1 ltac:(lia)) as (D2 & _ & E2); [rewrite V1, signR_abs, Rabs_pos_eq by apply Bt; change (bpow radix2 10) with 1024%R; lra|].
  exists (fround r (fmul (total 0 fzero vs) (if neg then f_norm (-1) 0 else fone))), neg.
  split; [unfold dms2deg; cbv zeta; rewrite M, Es2; reflexivity|]. split; [exact D2|]. split.
  - unfold neg. rewrite orb_true_iff, !memc_iff. unfold remove_char. rewrite !filter_In. split; [intros [[A _]|[A _]]; auto|].
    intros [A|A]; [left|right]; (split; [exact A|reflexivity]).
  - rewrite V1, pow10_neg, pow10_IZR in E2 by lia. change (bpow radix2 (10 - 54)) with (/ 17592186044416)%R in E2.
    apply Rabs_le_inv in Et, E2. apply Rabs_le. unfold Rdiv at 1 2. destruct neg; cbn [signR] in E2; lra.
Qed.
(* concrete texts: degrees alone, minutes with decimals, seconds; other separators and blanks; refused texts *)
Example C103_example :
  dms2deg (u "28" ++ [176%N] ++ u "S") 7 = Ok (f_norm (-28) 0)
  /\ dms2deg (u "51d 30.0m") 7 = Ok (f_norm 103 (-1))
  /\ dms2deg (u ".5:30:0 ") 7 = Raise ValueError
  /\ dms2deg (u ".5:30:0;") 7 = Ok fone
  /\ dms2deg (u "51.2.3d") 7 = Raise ValueError
  /\ grouped (without_blanks (u "51d 30.0m")) [(u "51", 100%N); (u "30.0", 109%N)] []
  /\ number_text (u "30.0") (IZR 300 / IZR (10 ^ 1)).
Proof.
  split; [vm_compute; reflexivity|]. split; [vm_compute; reflexivity|]. split; [vm_compute; reflexivity|]. split; [vm_compute; reflexivity|].
  split; [vm_compute; reflexivity|]. split.
  - split; [vm_compute; reflexivity|]. split; [cbn; lia|]. split; [exists [], []; cbn; tauto|].
    assert (forall t, forallb dms_class t = true -> Forall numeric t) as N.
    { intros t H. apply Forall_forall. intros x X. apply class_numeric. exact (proj1 (forallb_forall _ _) H x X). }
    constructor; [|constructor; [|constructor]]; cbn [fst snd]; (split; [discriminate|split; [apply N; vm_compute; reflexivity|apply class_not; vm_compute; reflexivity]]).
  - exact (nt_point (u "30") (u "0") [3; 0]%N [0]%N ltac:(repeat constructor) ltac:(repeat constructor) ltac:(discriminate)).
Qed.
(* surprises: S or W as a separator makes the angle negative, and a final newline is accepted *)
Theorem C103_separator_refuted : dms2deg (u "51W30.0" ++ [8242%N] ++ u "N") 7 = Ok (f_norm (-103) (-1)) /\ dms2deg (u "51W" ++ [10%N]) 7 = Ok (f_norm (-51) 0).
Proof. split; vm_compute; reflexivity. Qed.
