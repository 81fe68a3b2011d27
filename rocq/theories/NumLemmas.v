(* Lemmas about numerals. *)
From Verif Require Import PyNum BaseLemmas TextLemmas.
Local Open Scope N_scope.

Lemma digits_val_app b l d : digits_val b (l ++ [d]) = digits_val b l * b + d.
Proof. unfold digits_val. rewrite fold_left_app. reflexivity. Qed.

Lemma digits_val_cons_acc b l a :
  fold_left (fun a d => a * b + d) l a = a * b ^ lenN l + digits_val b l.
Proof.
  unfold digits_val, lenN. revert a. induction l as [|d l IH]; intros a.
  - cbn [fold_left length N.of_nat]. rewrite N.pow_0_r. lia.
  - cbn [fold_left length]. rewrite IH, (IH (0 * b + d)), Nat2N.inj_succ, N.pow_succ_r'. ring.
Qed.

Lemma digits_val_cons b d l : digits_val b (d :: l) = d * b ^ lenN l + digits_val b l.
Proof. unfold digits_val at 1. cbn [fold_left]. rewrite digits_val_cons_acc. rewrite N.mul_0_l. reflexivity. Qed.

Lemma digits_val_app2 b l m : digits_val b (l ++ m) = digits_val b l * b ^ lenN m + digits_val b m.
Proof. unfold digits_val at 1. rewrite fold_left_app, digits_val_cons_acc. reflexivity. Qed.

Lemma digits_val_zeros b n l : digits_val b (repeat 0 n ++ l) = digits_val b l.
Proof.
  rewrite digits_val_app2. replace (digits_val b (repeat 0 n)) with 0; [lia|].
  induction n as [|n IH]; [reflexivity|]. cbn [repeat]. rewrite digits_val_cons, <- IH. lia.
Qed.

Lemma digits_val_bound b l : 0 < b -> Forall (fun d => d < b) l -> digits_val b l < b ^ lenN l.
Proof.
  intros Hb. induction l as [|d l IH] using rev_ind; intros H.
  - cbn. lia.
  - apply Forall_app in H as [H1 H2]. inversion H2; subst. rewrite digits_val_app.
    unfold lenN in *. rewrite app_length. cbn [length]. rewrite Nat.add_1_r, Nat2N.inj_succ, N.pow_succ_r'.
    specialize (IH H1). nia.
Qed.

Lemma size_nat_size z : N.of_nat (N.size_nat z) = N.size z.
Proof. destruct z as [|z]; [reflexivity|]. cbn. induction z; cbn; lia. Qed.
Lemma size_nat_mono x y : x <= y -> (N.size_nat x <= N.size_nat y)%nat.
Proof.
  intros H. assert (N.size x <= N.size y); [|rewrite <- !size_nat_size in *; lia].
  destruct (N.eq_dec x 0) as [->|E]; [cbn; lia|].
  rewrite !N.size_log2 by lia. apply -> N.succ_le_mono. apply N.log2_le_mono, H.
Qed.
Lemma size_nat_div x b : 2 <= b -> b <= x -> (N.size_nat (x / b) < N.size_nat x)%nat.
Proof.
  intros Hb Hx. apply Nat.le_lt_trans with (N.size_nat (x / 2)).
  - apply size_nat_mono, N.div_le_compat_l. lia.
  - rewrite <- N.div2_div. destruct x as [|[p|p|]]; cbn; lia.
Qed.

(* canonical digit lists, and uniqueness *)
Definition canon (b n : N) (l : list N) : Prop :=
  digits_val b l = n /\ Forall (fun d => d < b) l /\ l <> [] /\ (n <> 0 -> hd 0 l <> 0) /\ (n = 0 -> l = [0]).

Lemma digits_aux_spec fuel b n acc :
  2 <= b -> (N.size_nat n <= fuel)%nat ->
  exists l, digits_aux fuel b n acc = l ++ acc /\ canon b n l.
Proof.
  intros Hb. revert n acc; induction fuel as [|f IH]; intros n acc L.
  - assert (n = 0) as -> by (destruct n; [reflexivity|cbn in L; destruct p; cbn in L; lia]).
    cbn. exists [0]. split; [reflexivity|]. repeat split; [|congruence|congruence].
    constructor; [lia|constructor].
  - cbn [digits_aux]. destruct (N.ltb_spec n b) as [H|H].
    + exists [n]. split; [reflexivity|]. repeat split; cbn; [|congruence|congruence|congruence].
      constructor; [exact H|constructor].
    + destruct (IH (n / b) (n mod b :: acc)) as (l & E & C).
      { pose proof (size_nat_div n b Hb H). lia. }
      exists (l ++ [n mod b]). split; [rewrite <- app_assoc; exact E|].
      destruct C as (C1 & C2 & C3 & C4 & C5). repeat split.
      * rewrite digits_val_app, C1. rewrite N.mul_comm. symmetry. apply N.div_mod. lia.
      * apply Forall_app; split; [exact C2|]. constructor; [apply N.mod_lt; lia|constructor].
      * destruct l; cbn; congruence.
      * intros _. assert (n / b <> 0) as Hnz.
        { intros E0. apply N.div_small_iff in E0; lia. }
        specialize (C4 Hnz). destruct l; [congruence|exact C4].
      * lia.
Qed.

Lemma N_digits_canon b n : 2 <= b -> canon b n (N_digits b n).
Proof.
  intros Hb. unfold N_digits.
  destruct (digits_aux_spec (S (N.size_nat n)) b n []) as (l & E & C); [exact Hb|lia|].
  rewrite E, app_nil_r. exact C.
Qed.

Global Arguments N_digits : simpl never.
Global Arguments digits_val : simpl never.
Lemma N_digits_val b n : 2 <= b -> digits_val b (N_digits b n) = n.
Proof. intros H. apply (N_digits_canon b n H). Qed.
Lemma N_digits_lt b n : 2 <= b -> Forall (fun d => d < b) (N_digits b n).
Proof. intros H. apply (N_digits_canon b n H). Qed.

Lemma N_digits_snoc b n d : 2 <= b -> 0 < n -> d < b -> N_digits b (n * b + d) = N_digits b n ++ [d].
Proof.
  intros Hb Hn Hd. unfold N_digits at 1.
  assert (n * b + d <? b = false) as E by (apply N.ltb_ge; nia).
  cbn [digits_aux]. rewrite E.
  replace ((n * b + d) / b) with n by (apply (N.div_unique _ _ _ d); lia).
  replace ((n * b + d) mod b) with d by (apply (N.mod_unique _ _ n); lia).
  (* fuel independence *)
  assert (forall f1 f2 x acc, (N.size_nat x <= f1)%nat -> (N.size_nat x <= f2)%nat ->
            digits_aux f1 b x acc = digits_aux f2 b x acc) as Fuel.
  { clear -Hb. induction f1 as [|f1 IH]; intros f2 x acc L1 L2.
    - assert (x = 0) as -> by (destruct x as [|[p|p|]]; cbn in L1; [reflexivity|lia..]).
      destruct f2; cbn; [reflexivity|]. replace (0 <? b) with true by lia. reflexivity.
    - destruct f2 as [|f2].
      + assert (x = 0) as -> by (destruct x as [|[p|p|]]; cbn in L2; [reflexivity|lia..]).
        cbn. replace (0 <? b) with true by lia. reflexivity.
      + cbn [digits_aux]. destruct (N.ltb_spec x b); [reflexivity|].
        pose proof (size_nat_div x b Hb H) as D.
        apply IH; lia. }
  destruct (digits_aux_spec (S (N.size_nat n)) b n []) as (l & E1 & _); [exact Hb|lia|].
  destruct (digits_aux_spec (S (N.size_nat n)) b n [d]) as (l2 & E2 & C2); [exact Hb|lia|].
  unfold N_digits. rewrite E1, app_nil_r.
  assert (forall f x acc, digits_aux f b x acc = digits_aux f b x [] ++ acc) as Acc.
  { clear. induction f as [|f IH]; intros x acc; cbn; [reflexivity|].
    destruct (x <? b); [reflexivity|]. rewrite IH, (IH _ [x mod b]), <- app_assoc. reflexivity. }
  rewrite Acc. f_equal.
  rewrite app_nil_r in E1. rewrite <- E1. apply Fuel; [|lia].
  assert (n <= n * b + d) as Le by nia.
  apply size_nat_mono, Le.
Qed.

Lemma N_digits_small b n : n < b -> N_digits b n = [n].
Proof. intros H. unfold N_digits. cbn [digits_aux]. apply N.ltb_lt in H. rewrite H. reflexivity. Qed.

(* uniqueness of canonical digit lists *)
Lemma canon_digits b n l : 2 <= b -> canon b n l -> l = N_digits b n.
Proof.
  intros Hb. revert n. induction l as [|d l IH] using rev_ind; intros n (C1 & C2 & C3 & C4 & C5); [congruence|].
  apply Forall_app in C2 as [C2 Cd]. inversion Cd as [|? ? Hd _]; subst.
  destruct l as [|x l].
  - cbn [app]. replace (digits_val b [d]) with d by (unfold digits_val; cbn; lia).
    rewrite N_digits_small; [reflexivity|exact Hd].
  - rewrite digits_val_app in *.
    assert (x <> 0) as Hx.
    { destruct (N.eq_dec (digits_val b (x :: l) * b + d) 0) as [Z|Z]; [|exact (C4 Z)].
      specialize (C5 Z). destruct l; discriminate. }
    assert (0 < digits_val b (x :: l)) as Pos.
    { rewrite digits_val_cons. assert (b ^ lenN l <> 0) by (apply N.pow_nonzero; lia). nia. }
    rewrite N_digits_snoc by assumption. f_equal.
    apply IH. repeat split; [exact C2|congruence| intros _; exact Hx | lia].
Qed.

Lemma N_digits_length_le b n k :
  2 <= b -> n < b ^ N.of_nat (S k) -> (length (N_digits b n) <= S k)%nat.
Proof.
  intros Hb. revert n; induction k as [|k IH]; intros n H.
  - rewrite N_digits_small; [cbn; lia|]. cbn in H. rewrite N.pow_1_r in H. exact H.
  - destruct (N.ltb_spec n b) as [L|L].
    + rewrite N_digits_small by exact L. cbn. lia.
    + replace n with ((n / b) * b + n mod b) by (rewrite (N.div_mod n b) at 3; lia).
      rewrite N_digits_snoc; [|exact Hb| |apply N.mod_lt; lia].
      * rewrite app_length. cbn [length].
        assert (n / b < b ^ N.of_nat (S k)).
        { apply N.div_lt_upper_bound; [lia|]. rewrite <- N.pow_succ_r', <- Nat2N.inj_succ. exact H. }
        specialize (IH _ H0). lia.
      * assert (n / b <> 0); [|lia]. intros E. apply N.div_small_iff in E; lia.
Qed.

Lemma N_digits_length_ge b n k :
  2 <= b -> (length (N_digits b n) <= k)%nat -> n < b ^ N.of_nat k.
Proof.
  intros Hb H. rewrite <- (N_digits_val b n Hb) at 1.
  eapply N.lt_le_trans; [apply digits_val_bound; [lia|apply N_digits_lt, Hb]|].
  unfold lenN. apply N.pow_le_mono_r; lia.
Qed.

(* decimal text *)
Lemma dec_digit_char d : d < 10 -> dec_digit (dec_char d) = Some d.
Proof. intros H. unfold dec_digit, dec_char. replace ((48 <=? 48 + d) && (48 + d <=? 57)) with true by lia. f_equal. lia. Qed.

Lemma us_digits_dec l :
  Forall (fun d => d < 10) l -> l <> [] -> us_digits dec_digit true (map dec_char l) = Some l.
Proof.
  intros F. assert (forall need, (need = true -> l <> []) -> us_digits dec_digit need (map dec_char l) = Some l) as G;
    [|intros N; apply G; intros _; exact N].
  induction l as [|d l IH]; intros need N; cbn.
  - destruct need; [exfalso; apply N; reflexivity|reflexivity].
  - inversion F; subst. replace (dec_char d =? 95) with false by (unfold dec_char; lia).
    rewrite dec_digit_char by assumption. rewrite IH; [reflexivity|assumption|discriminate].
Qed.

Lemma hex_digit_char d : d < 16 -> hex_digit (hex_char d) = Some d.
Proof.
  intros H. unfold hex_digit, hex_char. destruct (N.ltb_spec d 10).
  - replace ((48 <=? 48 + d) && (48 + d <=? 57)) with true by lia. f_equal. lia.
  - replace ((48 <=? 55 + d) && (55 + d <=? 57)) with false by lia.
    replace ((65 <=? 55 + d) && (55 + d <=? 70)) with true by lia. f_equal. lia.
Qed.

Lemma dec_of_N_ascii n : Forall (fun c => 48 <= c <= 57) (dec_of_N n).
Proof.
  unfold dec_of_N. apply Forall_map. eapply Forall_impl; [|apply (N_digits_lt 10); lia].
  cbn. unfold dec_char. intros; lia.
Qed.
Lemma dec_of_N_nonempty n : dec_of_N n <> [].
Proof.
  unfold dec_of_N. destruct (N_digits_canon 10 n) as (_ & _ & H & _); [lia|].
  destruct (N_digits 10 n); cbn; congruence.
Qed.

Lemma to_ascii_id s : Forall (fun c => c < 127) s -> to_ascii s = s.
Proof.
  unfold to_ascii. induction 1 as [|c s H _ IH]; cbn; [reflexivity|].
  rewrite IH. unfold to_ascii_char. replace (c <? 127) with true by lia. reflexivity.
Qed.

Lemma clean_ends_Forall p s : Forall (fun c => p c = false) s -> clean_ends p s.
Proof.
  intros H. split.
  - destruct s; [exact I|]. inversion H; assumption.
  - apply Forall_rev in H. destruct (rev s); [exact I|]. inversion H; assumption.
Qed.

Lemma strip_if_none p s : Forall (fun c => p c = false) s -> strip_if p s = s.
Proof. intros H. apply strip_if_idem, clean_ends_Forall, H. Qed.

(* int(str(z)) *)
Lemma int_of_str_of_Z z s : str_of_Z z = Ok s -> int_of_str s = Ok z.
Proof.
  unfold str_of_Z. set (n := Z.abs_N z). destruct (int_max_str_digits <? lenN (dec_of_N n)) eqn:L; [discriminate|].
  intros H.
  assert (Forall (fun c => c = 45 \/ 48 <= c <= 57) s) as F.
  { assert (Forall (fun c => c = 45 \/ 48 <= c <= 57) (dec_of_N n)) as F0.
    { eapply Forall_impl; [|apply dec_of_N_ascii]. cbn. intros; lia. }
    destruct (z <? 0)%Z; injection H as <-; [constructor; [left; reflexivity|]|]; exact F0. }
  unfold int_of_str. rewrite to_ascii_id by (eapply Forall_impl; [|exact F]; cbn; intros; lia).
  rewrite strip_if_none.
  2:{ eapply Forall_impl; [|exact F]. cbn. unfold c_isspace. intros; lia. }
  assert (us_digits dec_digit true (dec_of_N n) = Some (N_digits 10 n)) as U.
  { apply us_digits_dec; [apply N_digits_lt; lia|]. apply (N_digits_canon 10 n); lia. }
  assert (lenN (N_digits 10 n) = lenN (dec_of_N n)) as Len by (unfold lenN, dec_of_N; rewrite map_length; reflexivity).
  destruct (Z.ltb_spec z 0).
  - injection H as <-. cbn [split_sign]. replace (45 =? 45) with true by lia.
    rewrite U, Len, L. rewrite N_digits_val by lia. unfold signed, n. f_equal. lia.
  - injection H as <-.
    pose proof (dec_of_N_ascii n) as A. pose proof (dec_of_N_nonempty n) as Ne.
    destruct (dec_of_N n) as [|c r] eqn:E; [congruence|]. inversion A; subst.
    cbn [split_sign]. replace (c =? 45) with false by lia. replace (c =? 43) with false by lia.
    rewrite U, Len, L, N_digits_val by lia. unfold signed, n. f_equal. lia.
Qed.

Lemma hex_of_N_ascii n : Forall (fun c => 48 <= c <= 57 \/ 65 <= c <= 70) (hex_of_N n).
Proof.
  unfold hex_of_N. apply Forall_map. eapply Forall_impl; [|apply (N_digits_lt 16); lia].
  cbn. unfold hex_char. intros d H. destruct (N.ltb_spec d 10); lia.
Qed.

Lemma hex_of_N_inj a b : hex_of_N a = hex_of_N b -> a = b.
Proof.
  unfold hex_of_N. intros H.
  assert (forall l m, Forall (fun d => d < 16) l -> Forall (fun d => d < 16) m -> map hex_char l = map hex_char m -> l = m) as Inj.
  { clear. induction l as [|x l IH]; intros [|y m] Hl Hm E; try discriminate; [reflexivity|].
    cbn in E. injection E as E1 E2. inversion Hl; inversion Hm; subst.
    f_equal; [|apply IH; assumption].
    assert (hex_digit (hex_char x) = hex_digit (hex_char y)) as E by congruence.
    rewrite !hex_digit_char in E by assumption. congruence. }
  apply Inj in H; [|apply N_digits_lt; lia..].
  rewrite <- (N_digits_val 16 a), <- (N_digits_val 16 b), H by lia. reflexivity.
Qed.

(* zero padding: canonical numerals stay distinguishable *)
Lemma fmt_02X_inj a b : fmt_02X a = fmt_02X b -> a = b.
Proof.
  unfold fmt_02X, zfill. intros H.
  set (f := fun s => match us_digits hex_digit true s with Some l => digits_val 16 l | None => 0 end).
  assert (forall n, f (repeat 48 (2 - length (hex_of_N n)) ++ hex_of_N n) = n) as F.
  { intros n. unfold f, hex_of_N. rewrite map_length.
    set (k := (2 - length (N_digits 16 n))%nat).
    replace (repeat 48 k ++ map hex_char (N_digits 16 n)) with (map hex_char (repeat 0 k ++ N_digits 16 n)).
    2:{ rewrite map_app. f_equal. clear. induction k; cbn; [reflexivity|]. rewrite IHk. reflexivity. }
    assert (forall l need, Forall (fun d => d < 16) l -> (need = true -> l <> []) ->
              us_digits hex_digit need (map hex_char l) = Some l) as G.
    { clear. induction l as [|d l IH]; intros need Fl N; cbn.
      - destruct need; [exfalso; apply N; reflexivity|reflexivity].
      - inversion Fl; subst. replace (hex_char d =? 95) with false.
        2:{ unfold hex_char. destruct (N.ltb_spec d 10); lia. }
        rewrite hex_digit_char by assumption. rewrite IH; [reflexivity|assumption|discriminate]. }
    rewrite G.
    - rewrite digits_val_zeros. apply N_digits_val; lia.
    - apply Forall_app; split; [|apply N_digits_lt; lia]. clear. induction k; cbn; constructor; [lia|assumption].
    - intros _ E. apply app_eq_nil in E as [_ E]. revert E. apply (N_digits_canon 16 n); lia. }
  rewrite <- (F a), <- (F b), H. reflexivity.
Qed.

Lemma fmt_02X_upper n : forallb ascii_nolower (fmt_02X n) = true.
Proof.
  unfold fmt_02X, zfill. rewrite forallb_app. apply andb_true_iff; split.
  - induction (2 - length (hex_of_N n))%nat; cbn; [reflexivity|]. exact IHn0.
  - pose proof (hex_of_N_ascii n) as F. induction F as [|c l H _ IH]; cbn; [reflexivity|].
    rewrite IH, andb_true_r. unfold ascii_nolower. lia.
Qed.
