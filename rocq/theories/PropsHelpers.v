(* Theorems about the small helpers: C50, C52, C56, C59, C60, C61. *)
From Verif Require Import Message BaseLemmas TextLemmas NumLemmas Spec TableProofs.
Local Open Scope Z_scope.

(* ------------------------------------------------------------------ C50 *)
Lemma lenN_dec n : lenN (dec_of_N n) = lenN (N_digits 10 n).
Proof. unfold lenN, dec_of_N. rewrite map_length. reflexivity. Qed.
Lemma digits_limit n : (int_max_str_digits <? lenN (N_digits 10 n))%N = false <-> (n < 10 ^ 4300)%N.
Proof.
  rewrite N.ltb_ge. unfold lenN, int_max_str_digits. split.
  - intros H. change (10 ^ 4300)%N with (10 ^ N.of_nat (N.to_nat 4300))%N. apply N_digits_length_ge; [lia|]. lia.
  - intros H. assert (length (N_digits 10 n) <= S (N.to_nat 4299))%nat as L.
    { apply N_digits_length_le; [lia|]. replace (N.of_nat (S (N.to_nat 4299))) with 4300%N by lia. exact H. }
    lia.
Qed.

Theorem C50_round_trip z hp : Z.abs z < 10 ^ 4300 ->
  exists s, val2str (VInt z) (u "IN") hp = Ok s /\ str2val s (u "IN") = Ok (VInt z).
Proof.
  intros H. unfold val2str, str2val. change (text_type (u "IN")) with false. change (str_eqb (u "IN") ty_HX) with false.
  change (str_eqb (u "IN") ty_DE) with false. change (str_eqb (u "IN") ty_IN) with true.
  change (str_in (u "IN") [ty_DT; ty_DM]) with false. cbn [str_of_val].
  assert (int_max_str_digits <? lenN (dec_of_N (Z.abs_N z)) = false)%N as L.
  { rewrite lenN_dec. apply digits_limit. apply N2Z.inj_lt. rewrite N2Z.inj_abs_N, N2Z.inj_pow. exact H. }
  destruct (str_of_Z z) as [s|e] eqn:E; [|unfold str_of_Z in E; rewrite L in E; discriminate].
  exists s. split; [reflexivity|]. pose proof (int_of_str_of_Z _ _ E) as I.
  destruct s as [|c r]; [vm_compute in I; discriminate|]. rewrite I. reflexivity.
Qed.
(* longer integers are refused when the field is written *)
Theorem C50_limit z hp : 10 ^ 4300 <= Z.abs z -> val2str (VInt z) (u "IN") hp = Raise ValueError.
Proof.
  intros H. unfold val2str. change (text_type (u "IN")) with false. change (str_eqb (u "IN") ty_HX) with false.
  change (str_eqb (u "IN") ty_DE) with false. change (str_eqb (u "IN") ty_IN) with true.
  cbn [str_of_val]. unfold str_of_Z. rewrite lenN_dec.
  destruct (int_max_str_digits <? lenN (N_digits 10 (Z.abs_N z)))%N eqn:L; [reflexivity|].
  apply digits_limit in L. apply N2Z.inj_lt in L. rewrite N2Z.inj_abs_N, N2Z.inj_pow in L. lia.
Qed.
Example C50_example : val2str (VInt (-1234567890123456789012345678901234567890)) (u "IN") false
    = Ok (u "-1234567890123456789012345678901234567890")
  /\ str2val (u "-1234567890123456789012345678901234567890") (u "IN") = Ok (VInt (-1234567890123456789012345678901234567890)).
Proof. split; vm_compute; reflexivity. Qed.

(* ------------------------------------------------------------------ C52 *)
Definition textual_types : list pystr := [u "CH"; u "ST"; u "HX"; u "LAD"; u "LND"; u "QS"].
Theorem C52_round_trip s t hp : In t textual_types ->
  val2str (VStr s) t hp = Ok s /\ str2val s t = Ok (VStr s).
Proof. cbn [textual_types In]. intros [<-|[<-|[<-|[<-|[<-|[<-|[]]]]]]]; split; reflexivity. Qed.
(* every field text of such a type is read as itself, and only those types read every text *)
Theorem C52_only_types t : (forall s, str2val s t = Ok (VStr s)) -> In t textual_types.
Proof.
  intros H. specialize (H (u "x")). unfold str2val in H.
  destruct (text_type t) eqn:T.
  { unfold text_type in T. apply str_in_iff in T. unfold textual_types. cbn [In] in *. unfold ty_CH, ty_ST, ty_LAD, ty_LND, ty_QS in T. tauto. }
  destruct (str_eqb_spec t ty_HX) as [->|_]; [cbn; tauto|].
  exfalso. destruct (str_eqb t ty_DE); [vm_compute in H; discriminate|].
  destruct (str_in t [ty_DT; ty_DM]) eqn:D.
  { apply str_in_iff in D. cbn [In] in D. destruct D as [<-|[<-|[]]]; vm_compute in H; discriminate. }
  destruct (str_eqb t ty_IN); [vm_compute in H; discriminate|].
  destruct (str_in t [ty_LA; ty_LN]); [vm_compute in H; discriminate|].
  destruct (str_eqb t ty_TM); [vm_compute in H; discriminate|discriminate].
Qed.
Example C52_example : val2str (VStr (u "a b-:7")) (u "HX") true = Ok (u "a b-:7").
Proof. reflexivity. Qed.

(* ------------------------------------------------------------------ C56 *)
(* the number after the first "_" of a keyword name *)
Definition suffix_text (name t : pystr) : Prop := exists p, name = p ++ u "_" ++ t /\ ~ In 95%N p.
Lemma suffix_split name t : suffix_text name t <-> exists p, split_first 95 name = Some (p, t).
Proof.
  unfold suffix_text. split; intros (p & H); exists p.
  - apply split_first_Some. destruct H as [-> H]. split; [reflexivity|exact H].
  - apply split_first_Some in H as [-> H]. split; [reflexivity|exact H].
Qed.
Lemma suffix_functional name t t' : suffix_text name t -> suffix_text name t' -> t = t'.
Proof. rewrite !suffix_split. intros (p & A) (p' & B). congruence. Qed.

Lemma groupsize_aux_ok names : forall idx n, groupsize_aux idx names = Ok n ->
  idx <= n /\ (forall a t, In a names -> suffix_text a t -> exists z, int_of_str t = Ok z /\ z <= n)
  /\ (n = idx \/ exists a t, In a names /\ suffix_text a t /\ int_of_str t = Ok n).
Proof.
  induction names as [|a r IH]; cbn [groupsize_aux]; intros idx n H.
  - injection H as <-. split; [lia|]. split; [intros ? ? []|left; reflexivity].
  - destruct (split_first 95 a) as [[p t]|] eqn:E.
    + destruct (int_of_str t) as [z|e] eqn:Z; cbn [bind] in H; [|discriminate].
      apply IH in H as (A & B & C). split; [lia|]. split.
      * intros b t' [<-|I] S; [|exact (B b t' I S)].
        assert (t' = t) as -> by (eapply suffix_functional; [exact S|apply suffix_split; eauto]).
        exists z. split; [exact Z|lia].
      * destruct C as [C|(b & t' & I & S & V)]; [|right; exists b, t'; split; [right; exact I|tauto]].
        destruct (Z.max_spec idx z) as [[L M]|[L M]]; [|left; lia].
        right. exists a, t. split; [left; reflexivity|]. split; [apply suffix_split; eauto|].
        rewrite Z. f_equal. lia.
    + apply IH in H as (A & B & C). split; [exact A|]. split.
      * intros b t' [<-|I] S; [|exact (B b t' I S)]. apply suffix_split in S as (p & S). congruence.
      * destruct C as [C|(b & t' & I & S & V)]; [left; exact C|right; exists b, t'; split; [right; exact I|tauto]].
Qed.
Lemma groupsize_aux_total names : forall idx,
  (forall a t, In a names -> suffix_text a t -> exists z, int_of_str t = Ok z) -> exists n, groupsize_aux idx names = Ok n.
Proof.
  induction names as [|a r IH]; intros idx H; cbn [groupsize_aux]; [eauto|].
  destruct (split_first 95 a) as [[p t]|] eqn:E.
  - destruct (H a t (or_introl eq_refl)) as (z & ->); [apply suffix_split; eauto|]. cbn [bind].
    apply IH. intros; eapply H; [right|]; eassumption.
  - apply IH. intros; eapply H; [right|]; eassumption.
Qed.
Lemma groupsize_aux_err names : forall idx e, groupsize_aux idx names = Raise e -> e = ValueError.
Proof.
  assert (forall t e, int_of_str t = Raise e -> e = ValueError) as I.
  { intros t e. unfold int_of_str. destruct (split_sign _) as [neg r]. destruct (us_digits _ _ _); [|congruence].
    destruct (_ <? _)%N; congruence. }
  induction names as [|a r IH]; cbn [groupsize_aux]; intros idx e H; [discriminate|].
  destruct (split_first 95 a) as [[p t]|]; [|exact (IH _ _ H)].
  destruct (int_of_str t) as [z|e'] eqn:E; cbn [bind] in H; [exact (IH _ _ H)|]. injection H as <-. eapply I, E.
Qed.

Theorem C56_size names :
  (forall a t, In a names -> suffix_text a t -> exists z, int_of_str t = Ok z) ->
  exists n, groupsize names = Ok n
    /\ 0 <= n
    /\ (forall a t z, In a names -> suffix_text a t -> int_of_str t = Ok z -> z <= n)
    /\ (n = 0 \/ exists a t, In a names /\ suffix_text a t /\ int_of_str t = Ok n).
Proof.
  intros H. destruct (groupsize_aux_total names 0 H) as (n & E). exists n. split; [exact E|].
  apply groupsize_aux_ok in E as (A & B & C). split; [exact A|]. split; [|exact C].
  intros a t z I S V. destruct (B a t I S) as (z' & V' & L). rewrite V in V'. injection V' as <-. exact L.
Qed.
(* a keyword name whose text after the first "_" is no integer makes it fail *)
Theorem C56_unreadable names a t :
  In a names -> suffix_text a t -> (forall z, int_of_str t <> Ok z) -> groupsize names = Raise ValueError.
Proof.
  intros I S N. destruct (groupsize names) as [n|e] eqn:E.
  - apply groupsize_aux_ok in E as (_ & B & _). destruct (B a t I S) as (z & V & _). elim (N z V).
  - apply groupsize_aux_err in E. congruence.
Qed.
Lemma map_rep {A B} (f : A -> B) x n : map f (repeat x n) = repeat (f x) n.
Proof. induction n as [|n IH]; [reflexivity|]. cbn. rewrite IH. reflexivity. Qed.
Lemma int_of_fmt i : int_of_str (fmt_02d i) = Ok (Z.of_N i) \/ (10 ^ 4300 <= i)%N.
Proof.
  destruct (N.lt_ge_cases i (10 ^ 4300)) as [L|L]; [left|right; exact L].
  apply digits_limit in L. pose proof L as L'. apply N.ltb_ge in L'. unfold fmt_02d, zfill, dec_of_N.
  set (k := (2 - length (map dec_char (N_digits 10 i)))%nat).
  assert (repeat 48%N k = map dec_char (repeat 0%N k)) as -> by (rewrite map_rep; reflexivity).
  rewrite <- map_app.
  assert (Forall (fun d => d < 10)%N (repeat 0%N k ++ N_digits 10 i)) as F.
  { apply Forall_app; split; [|apply N_digits_lt; lia]. apply Forall_forall. intros x Hx. apply repeat_spec in Hx. lia. }
  assert (repeat 0%N k ++ N_digits 10 i <> []) as Ne.
  { intros E. apply app_eq_nil in E as [_ E]. revert E. apply (N_digits_canon 10 i); lia. }
  assert (forall l, Forall (fun d => d < 10)%N l -> Forall (fun c => 48 <= c <= 57)%N (map dec_char l)) as M.
  { intros l G. apply Forall_map. eapply Forall_impl; [|exact G]. cbn. unfold dec_char. intros; lia. }
  unfold int_of_str. rewrite to_ascii_id by (eapply Forall_impl; [|apply M, F]; cbn; intros; lia).
  rewrite strip_if_none by (eapply Forall_impl; [|apply M, F]; cbn; unfold c_isspace; intros; lia).
  assert (split_sign (map dec_char (repeat 0%N k ++ N_digits 10 i)) = (false, map dec_char (repeat 0%N k ++ N_digits 10 i))) as ->.
  { pose proof (M _ F) as G. destruct (map dec_char (repeat 0%N k ++ N_digits 10 i)) as [|c r]; [reflexivity|]. inversion G as [|? ? G1 _]; subst. cbn beta in G1. unfold split_sign.
    replace (c =? 45)%N with false by lia. replace (c =? 43)%N with false by lia. reflexivity. }
  rewrite us_digits_dec by assumption.
  assert (int_max_str_digits <? lenN (repeat 0 k ++ N_digits 10 i) = false)%N as ->.
  { unfold lenN in *. rewrite app_length, repeat_length. subst k. rewrite map_length.
    apply N.ltb_ge. unfold int_max_str_digits in *. lia. }
  rewrite digits_val_zeros, N_digits_val by lia. reflexivity.
Qed.
(* for names as the library itself writes them, "base_01" .. "base_NN", it is the largest index *)
Corollary C56_indexed names :
  (forall a, In a names -> ~ In 95%N a \/ exists p i, a = p ++ u "_" ++ fmt_02d i /\ ~ In 95%N p /\ (i < 10 ^ 4300)%N) ->
  exists n, groupsize names = Ok (Z.of_N n)
    /\ (forall p i, In (p ++ u "_" ++ fmt_02d i) names -> ~ In 95%N p -> (i < 10 ^ 4300)%N -> (i <= n)%N)
    /\ (n = 0%N \/ exists p, In (p ++ u "_" ++ fmt_02d n) names).
Proof.
  intros H.
  assert (forall a t, In a names -> suffix_text a t -> exists i, t = fmt_02d i /\ (i < 10 ^ 4300)%N) as K.
  { intros a t I S. destruct (H a I) as [N|(p & i & -> & N & L)].
    - destruct S as (p & -> & _). elim N. apply in_or_app. right. left. reflexivity.
    - exists i. split; [|exact L]. eapply suffix_functional; [exact S|]. exists p. split; [reflexivity|exact N]. }
  assert (forall i, (i < 10 ^ 4300)%N -> int_of_str (fmt_02d i) = Ok (Z.of_N i)) as V.
  { intros i L. destruct (int_of_fmt i) as [E|E]; [exact E|]. apply N.le_ngt in E. contradiction. }
  destruct (C56_size names) as (n & E & P & B & C).
  { intros a t I S. destruct (K a t I S) as (i & -> & L). exists (Z.of_N i). apply V, L. }
  exists (Z.to_N n). rewrite Z2N.id by exact P. split; [exact E|]. split.
  - intros p i I N L. assert (Z.of_N i <= n); [|lia]. eapply B; [exact I| |apply V, L]. exists p. split; [reflexivity|exact N].
  - destruct C as [C|(a & t & I & S & W)]; [left; lia|right].
    destruct (K a t I S) as (i & -> & L). rewrite V in W by exact L. injection W as <-. rewrite N2Z.id.
    destruct S as (p & -> & _). exists p. exact I.
Qed.
(* a second "_" is not tolerated, or is read as part of the number *)
Theorem C56_underscore_refuted :
  groupsize [u "sensor_info_01"] = Raise ValueError /\ groupsize [u "x_01_02"] = Ok 102.
Proof. split; vm_compute; reflexivity. Qed.
Example C56_example : groupsize [u "numSV"; u "svid_01"; u "svid_03"; u "az_02"] = Ok 3.
Proof. vm_compute. reflexivity. Qed.

(* ------------------------------------------------------------------ C59 *)
Definition hex_letter (d : N) : N := nth (N.to_nat d) (u "0123456789ABCDEF") 0%N.
(* s is the upper case hexadecimal numeral of n, without leading zeros *)
Definition hex_numeral (n : N) (s : pystr) : Prop :=
  exists l, s = map hex_letter l /\ Forall (fun d => d < 16)%N l /\ digits_val 16 l = n
    /\ l <> [] /\ (n <> 0%N -> hd 0%N l <> 0%N) /\ (n = 0%N -> l = [0%N]).

Lemma hex_cases (P : N -> Prop) : P 0%N -> P 1%N -> P 2%N -> P 3%N -> P 4%N -> P 5%N -> P 6%N -> P 7%N -> P 8%N -> P 9%N
  -> P 10%N -> P 11%N -> P 12%N -> P 13%N -> P 14%N -> P 15%N -> forall d, (d < 16)%N -> P d.
Proof.
  intros. assert (d = 0 \/ d = 1 \/ d = 2 \/ d = 3 \/ d = 4 \/ d = 5 \/ d = 6 \/ d = 7 \/ d = 8 \/ d = 9 \/ d = 10
    \/ d = 11 \/ d = 12 \/ d = 13 \/ d = 14 \/ d = 15)%N as C by lia.
  decompose [or] C; subst; assumption.
Qed.
Lemma upper_hex d : (d < 16)%N -> upper_char (hex_char_lower d) = [hex_letter d] /\ hex_char d = hex_letter d.
Proof. revert d. apply (hex_cases (fun d => upper_char (hex_char_lower d) = [hex_letter d] /\ hex_char d = hex_letter d)); split; vm_compute; reflexivity. Qed.
Lemma upper_hex_map l : Forall (fun d => d < 16)%N l -> str_upper (map hex_char_lower l) = map hex_letter l.
Proof.
  unfold str_upper. induction 1 as [|d l H _ IH]; [reflexivity|]. cbn [map flat_map]. rewrite (proj1 (upper_hex d H)), IH. reflexivity.
Qed.
Lemma upper_repeat c n : upper_char c = [c] -> str_upper (repeat c n) = repeat c n.
Proof. intros H. unfold str_upper. induction n as [|n IH]; [reflexivity|]. cbn. rewrite H, IH. reflexivity. Qed.
Definition sign_text (n : Z) : pystr := if n <? 0 then u "-" else [].
Lemma numeral_of n : hex_numeral n (map hex_letter (N_digits 16 n)).
Proof.
  destruct (N_digits_canon 16 n) as (A & B & C & D & E); [lia|]. exists (N_digits 16 n).
  repeat split; try assumption.
Qed.

Theorem C59_text n pad : 0 <= pad < 10 ->
  exists d, hex_numeral (Z.abs_N n) d
    /\ hex2str n pad = sign_text n ++ repeat 48%N (Z.to_nat pad - length (sign_text n) - length d) ++ d.
Proof.
  intros H. exists (map hex_letter (N_digits 16 (Z.abs_N n))). split; [apply numeral_of|].
  unfold hex2str, hex_of_N_lower. change (if n <? 0 then [45%N] else []) with (sign_text n).
  assert (str_upper (sign_text n) = sign_text n) as Us by (unfold sign_text; destruct (n <? 0); vm_compute; reflexivity).
  assert (Forall (fun d => d < 16)%N (N_digits 16 (Z.abs_N n))) as F by (apply N_digits_lt; lia).
  rewrite Z.abs_eq by lia.
  destruct (Z.eqb_spec pad 0) as [->|N].
  - rewrite str_upper_app, Us, upper_hex_map by exact F. cbn [Z.to_nat Nat.sub]. reflexivity.
  - replace ((0 <? pad) && (pad <? 10)) with true by lia. unfold rjust.
    rewrite !str_upper_app, Us, upper_hex_map by exact F. rewrite upper_repeat by (vm_compute; reflexivity).
    rewrite !map_length. reflexivity.
Qed.
Corollary C59_width n pad : 0 <= pad < 10 ->
  exists d, hex_numeral (Z.abs_N n) d
    /\ length (hex2str n pad) = Nat.max (Z.to_nat pad) (length (sign_text n) + length d).
Proof.
  intros H. destruct (C59_text n pad H) as (d & A & E). exists d. split; [exact A|].
  rewrite E, !app_length, repeat_length. lia.
Qed.

Lemma us_hex l : Forall (fun d => d < 16)%N l -> l <> [] -> us_digits hex_digit true (map hex_letter l) = Some l.
Proof.
  intros F. assert (forall need, (need = true -> l <> []) -> us_digits hex_digit need (map hex_letter l) = Some l) as G;
    [|intros N; apply G; intros _; exact N].
  induction F as [|d l H _ IH]; intros need N; cbn [map us_digits].
  - destruct need; [elim N; reflexivity|reflexivity].
  - rewrite <- (proj2 (upper_hex d H)). replace (hex_char d =? 95)%N with false.
    2:{ unfold hex_char. destruct (N.ltb_spec d 10); lia. }
    rewrite hex_digit_char by exact H. rewrite IH; [reflexivity|discriminate].
Qed.
Lemma hex_letters l : Forall (fun d => d < 16)%N l -> Forall (fun c => 48 <= c <= 57 \/ 65 <= c <= 70)%N (map hex_letter l).
Proof.
  intros F. apply Forall_map. eapply Forall_impl; [|exact F]. cbn beta. intros d H. rewrite <- (proj2 (upper_hex d H)).
  unfold hex_char. destruct (N.ltb_spec d 10); lia.
Qed.
(* leading white space, a sign, digits *)
Lemma int16_numeral k neg l : Forall (fun d => d < 16)%N l -> l <> [] ->
  int16_of_bytes (repeat 32%N k ++ (if neg : bool then [45%N] else []) ++ map hex_letter l) = Ok (signed neg (digits_val 16 l)).
Proof.
  intros F Ne. pose proof (hex_letters l F) as A.
  assert (Forall (fun c => c_isspace c = false) ((if neg then [45%N] else []) ++ map hex_letter l)) as Sp.
  { apply Forall_app; split; [destruct neg; repeat constructor|]. eapply Forall_impl; [|exact A]. cbn. unfold c_isspace. intros; lia. }
  unfold int16_of_bytes.
  assert (strip_if c_isspace (repeat 32%N k ++ (if neg then [45%N] else []) ++ map hex_letter l)
          = (if neg then [45%N] else []) ++ map hex_letter l) as ->.
  { rewrite <- (strip_if_none c_isspace _ Sp) at 2. clear. set (t := (if neg then _ else _) ++ _). unfold strip_if.
    assert (lstrip_if c_isspace (repeat 32%N k ++ t) = lstrip_if c_isspace t) as ->; [|reflexivity].
    induction k as [|k IH]; [reflexivity|]. cbn [repeat app]. exact IH. }
  assert (split_sign ((if neg then [45%N] else []) ++ map hex_letter l) = (neg, map hex_letter l)) as ->.
  { destruct neg; [reflexivity|]. destruct l as [|d l]; [congruence|]. cbn [map app] in *. inversion A; subst.
    unfold split_sign. replace (hex_letter d =? 45)%N with false by lia. replace (hex_letter d =? 43)%N with false by lia. reflexivity. }
  set (r1 := match map hex_letter l with z :: x :: r' => _ | _ => _ end).
  assert (r1 = map hex_letter l) as ->.
  { unfold r1. destruct l as [|d [|d' l]]; [congruence|reflexivity|]. cbn [map] in *. inversion A as [|? ? A1 A2]; subst.
    inversion A2; subst. replace (hex_letter d' =? 120)%N with false by lia. replace (hex_letter d' =? 88)%N with false by lia.
    rewrite andb_false_r. reflexivity. }
  rewrite us_hex by assumption. reflexivity.
Qed.
(* int(hex2str(n, pad), 16) = n, whatever the padding *)
Theorem C59_value n pad : int16_of_bytes (hex2str n pad) = Ok n.
Proof.
  assert (Forall (fun d => d < 16)%N (N_digits 16 (Z.abs_N n))) as F by (apply N_digits_lt; lia).
  assert (N_digits 16 (Z.abs_N n) <> []) as Ne by (apply (N_digits_canon 16); lia).
  assert (signed (n <? 0) (Z.abs_N n) = n) as Sg by (unfold signed; destruct (Z.ltb_spec n 0); lia).
  assert (forall k l, digits_val 16 l = Z.abs_N n -> Forall (fun d => d < 16)%N l -> l <> [] ->
    int16_of_bytes (repeat 32%N k ++ sign_text n ++ map hex_letter l) = Ok n) as G.
  { intros k l V Fl Nl. unfold sign_text. change (u "-") with [45%N]. rewrite int16_numeral by assumption. rewrite V, Sg. reflexivity. }
  unfold hex2str, hex_of_N_lower. change (if n <? 0 then [45%N] else []) with (sign_text n).
  assert (str_upper (sign_text n) = sign_text n) as Us
    by (unfold sign_text; destruct (n <? 0); vm_compute; reflexivity).
  pose proof (N_digits_val 16 (Z.abs_N n) ltac:(lia)) as V.
  destruct (Z.eqb_spec pad 0) as [->|N].
  - rewrite str_upper_app, Us, upper_hex_map by exact F. apply (G 0%nat); assumption.
  - destruct ((0 <? pad) && (pad <? 10)); unfold rjust.
    + rewrite !str_upper_app, Us, upper_hex_map by exact F. rewrite upper_repeat by (vm_compute; reflexivity).
      match goal with |- context [repeat 48%N ?k] => set (z := k) end.
      change (repeat 48%N z) with (repeat (hex_letter 0) z). rewrite <- map_rep, <- map_app. apply (G 0%nat).
      * rewrite digits_val_zeros. exact V.
      * apply Forall_app; split; [|exact F]. apply Forall_forall. intros x Hx. apply repeat_spec in Hx. lia.
      * intros E. apply app_eq_nil in E as [_ E]. exact (Ne E).
    + rewrite !str_upper_app, Us, upper_hex_map by exact F. rewrite upper_repeat by (vm_compute; reflexivity).
      apply G; assumption.
Qed.
(* from 10 characters on the padding is with spaces *)
Theorem C59_wide_refuted : hex2str 255 10 = u "        FF" /\ hex2str 255 9 = u "0000000FF".
Proof. split; vm_compute; reflexivity. Qed.
Example C59_example : hex2str 43981 8 = u "0000ABCD" /\ hex2str (-10) 4 = u "-00A" /\ hex_numeral 43981 (u "ABCD").
Proof. split; [vm_compute; reflexivity|]. split; [vm_compute; reflexivity|]. exact (numeral_of 43981). Qed.

(* ------------------------------------------------------------------ C60 *)
Lemma msgids_nodup : forallb (fun r => match lookup (fst r) NMEA_MSGIDS with Some d => str_eqb d (snd r) | None => false end) NMEA_MSGIDS
  && forallb (fun r => match lookup (fst r) NMEA_MSGIDS with Some _ => false | None =>
       match lookup (fst r) NMEA_MSGIDS_PROP with Some d => str_eqb d (snd r) | None => false end end) NMEA_MSGIDS_PROP = true.
Proof. vm_compute. reflexivity. Qed.
Theorem C60_standard id d : In (id, d) NMEA_MSGIDS -> msgdesc id = d.
Proof.
  intros H. destruct (proj1 (andb_true_iff _ _) msgids_nodup) as [F _]. rewrite forallb_forall in F. specialize (F _ H).
  cbn [fst snd] in F. unfold msgdesc. destruct (lookup id NMEA_MSGIDS) as [d'|]; [|discriminate].
  apply str_eqb_eq in F. exact F.
Qed.
Theorem C60_proprietary id d : In (id, d) NMEA_MSGIDS_PROP -> msgdesc id = d.
Proof.
  intros H. destruct (proj1 (andb_true_iff _ _) msgids_nodup) as [_ F]. rewrite forallb_forall in F. specialize (F _ H).
  cbn [fst snd] in F. unfold msgdesc. destruct (lookup id NMEA_MSGIDS) as [d'|]; [discriminate|].
  destruct (lookup id NMEA_MSGIDS_PROP) as [d'|]; [|discriminate]. apply str_eqb_eq in F. exact F.
Qed.
Theorem C60_other id :
  ~ In id (map fst NMEA_MSGIDS) -> ~ In id (map fst NMEA_MSGIDS_PROP) -> msgdesc id = u "Unknown msgID " ++ id.
Proof.
  intros A B. unfold msgdesc. apply lookup_None in A. rewrite A. apply lookup_None in B. rewrite B. reflexivity.
Qed.
Example C60_example : msgdesc (u "GGA") = u "Global positioning system fix data" /\ msgdesc (u "gga") = u "Unknown msgID gga".
Proof. split; vm_compute; reflexivity. Qed.

(* ------------------------------------------------------------------ C61 *)
Definition same_letter (a b : N) : Prop := a = b \/ (65 <= a <= 90 /\ b = a + 32)%N \/ (97 <= a <= 122 /\ a = b + 32)%N.
(* the same text up to the case of ASCII letters *)
Definition same_text (s t : pystr) : Prop := Forall2 same_letter s t.
Definition speed_units : list (pystr * fl) :=
  [ (u "MS", f_of_dec false 5144447324 (-10)); (u "FS", f_of_dec false 168781084 (-8));
    (u "MPH", f_of_dec false 115078 (-5)); (u "KMPH", f_of_dec false 1852001 (-6)) ].
Definition ascii_text (s : pystr) : Prop := Forall (fun c => c < 128)%N s.
Definition ascii_upper (c : N) : N := if ((97 <=? c) && (c <=? 122))%N then (c - 32)%N else c.
Lemma upper_ascii_all : forallb (fun c => str_eqb (upper_char c) [ascii_upper c]) (map N.of_nat (seq 0 128)) = true.
Proof. vm_compute. reflexivity. Qed.
Lemma upper_ascii c : (c < 128)%N -> upper_char c = [ascii_upper c].
Proof.
  intros H. pose proof upper_ascii_all as F. rewrite forallb_forall in F. apply str_eqb_eq, F.
  apply in_map_iff. exists (N.to_nat c). split; [lia|]. apply in_seq. lia.
Qed.
Lemma upper_ascii_text s : ascii_text s -> str_upper s = map ascii_upper s.
Proof. unfold str_upper. induction 1 as [|c s H _ IH]; [reflexivity|]. cbn [flat_map map]. rewrite upper_ascii, IH by exact H. reflexivity. Qed.
Lemma same_upper a b : (a < 128)%N -> (b < 128)%N -> (ascii_upper a = ascii_upper b <-> same_letter a b).
Proof. intros A B. unfold ascii_upper, same_letter. destruct ((97 <=? a) && (a <=? 122))%N eqn:E, ((97 <=? b) && (b <=? 122))%N eqn:F; lia. Qed.
Lemma same_text_upper s t : ascii_text s -> ascii_text t -> (map ascii_upper s = map ascii_upper t <-> same_text s t).
Proof.
  intros Hs. revert t. induction Hs as [|a s A Hs IH]; intros [|b t] Ht; cbn [map].
  - split; [constructor|reflexivity].
  - split; [discriminate|intros H; inversion H].
  - split; [discriminate|intros H; inversion H].
  - inversion Ht; subst. split.
    + intros E. injection E as E1 E2. constructor; [apply same_upper; assumption|]. apply IH; assumption.
    + intros H. inversion H; subst. f_equal; [apply same_upper; assumption|]. apply IH; assumption.
Qed.
Lemma unit_facts name f : In (name, f) speed_units -> ascii_text name /\ map ascii_upper name = name /\ lookup name KNOTSCONV = Some f.
Proof.
  intros H.
  assert (forallb (fun p => forallb (fun c => c <? 128)%N (fst p) && str_eqb (map ascii_upper (fst p)) (fst p)) speed_units
          && nodupb (map fst speed_units) = true) as C by (vm_compute; reflexivity).
  apply andb_true_iff in C as [C N]. rewrite forallb_forall in C. specialize (C _ H). apply andb_true_iff in C as [C1 C2].
  split; [|split; [apply str_eqb_eq, C2|]].
  - apply Forall_forall. intros c Hc. rewrite forallb_forall in C1. apply N.ltb_lt, (C1 _ Hc).
  - change KNOTSCONV with speed_units. apply lookup_NoDup; [apply nodupb_ok, N|exact H].
Qed.
Theorem C61_factor k unit name f : In (name, f) speed_units -> ascii_text unit -> same_text unit name ->
  knots2spd (VFloat k) unit = Ok (fmul k f).
Proof.
  intros H A S. destruct (unit_facts _ _ H) as (An & Un & L). unfold knots2spd.
  rewrite upper_ascii_text by exact A. apply same_text_upper in S; [|assumption|exact An]. rewrite S, Un, L. reflexivity.
Qed.
(* integers are converted to float first *)
Theorem C61_integer z x unit name f : In (name, f) speed_units -> ascii_text unit -> same_text unit name ->
  f_of_Z z = Ok x -> knots2spd (VInt z) unit = Ok (fmul x f).
Proof.
  intros H A S E. destruct (unit_facts _ _ H) as (An & Un & L). unfold knots2spd.
  rewrite upper_ascii_text by exact A. apply same_text_upper in S; [|assumption|exact An]. rewrite S, Un, L, E. reflexivity.
Qed.
Theorem C61_other_unit k unit : ascii_text unit ->
  (forall name f, In (name, f) speed_units -> ~ same_text unit name) -> knots2spd k unit = Raise KeyError.
Proof.
  intros A H. unfold knots2spd. destruct (lookup (str_upper unit) KNOTSCONV) as [f|] eqn:L; [|reflexivity].
  exfalso. rewrite upper_ascii_text in L by exact A. apply lookup_In in L.
  assert (In (map ascii_upper unit, f) speed_units) as I by exact L.
  destruct (unit_facts _ _ I) as (An & Un & _). apply (H _ _ I). apply same_text_upper; [exact A|exact An|]. symmetry. exact Un.
Qed.
(* outside ASCII: U+017F is an "S" for str.upper() *)
Theorem C61_long_s_refuted k : knots2spd (VFloat k) [109%N; 383%N] = Ok (fmul k (f_of_dec false 5144447324 (-10))).
Proof. unfold knots2spd. replace (lookup (str_upper [109%N; 383%N]) KNOTSCONV) with (Some (f_of_dec false 5144447324 (-10))) by (vm_compute; reflexivity). reflexivity. Qed.
Example C61_example : knots2spd (VInt 10) (u "kmPh") = Ok (f_of_dec false 1852001 (-5)) /\ same_text (u "kmPh") (u "KMPH")
  /\ knots2spd (VFloat fone) (u "kmh") = Raise KeyError.
Proof. split; [vm_compute; reflexivity|]. split; [|vm_compute; reflexivity]. repeat (apply Forall2_cons; [unfold same_letter; vm_compute; intuition (try discriminate)|]); apply Forall2_nil. Qed.
