(* Theorems about the values of fields: C71, C72, C11 for typed keyword values. *)
From Coq Require Import Reals Lia Lra.
From Flocq Require Import Core BinarySingleNaN.
From Verif Require Import Message Reader BaseLemmas TextLemmas NumLemmas Spec ParseProofs DecodeProofs TimeSpec TimeProofs CoordSpec FloatProofs
  DecimalProofs CoordProofs ValueSpec KeywordSpec KeywordProofs PropsTime PropsHelpers PropsDecode PropsCoord PropsConstruct GenerateProofs StreamProofs PropsTruncate.
Local Open Scope Z_scope.

(* ------------------------------------------------------------------ C71 *)
Lemma sign_split sg neg ds : sign_mark sg neg -> digit_text ds -> split_sign (sg ++ ds) = (neg, ds).
Proof.
  intros [] D; try reflexivity. destruct ds as [|c ds]; [reflexivity|]. inversion D as [|? ? C _]; subst. cbn [app split_sign].
  replace (c =? 45)%N with false by lia. replace (c =? 43)%N with false by lia. reflexivity.
Qed.
Lemma sign_chars sg neg : sign_mark sg neg -> Forall numeral_char sg.
Proof. intros []; repeat constructor; unfold numeral_char; cbn; lia. Qed.
Lemma digit_chars ds : digit_text ds -> Forall numeral_char ds.
Proof. intros D. eapply Forall_impl; [|exact D]. unfold numeral_char. cbn. intros; lia. Qed.

Lemma int_of_numeral sg neg ds : sign_mark sg neg -> digit_text ds -> (1 <= length ds <= 4300)%nat ->
  int_of_str (sg ++ ds) = Ok (with_minus neg (number ds)).
Proof.
  intros S D L. assert (Forall numeral_char (sg ++ ds)) as F by (apply Forall_app; split; [eapply sign_chars, S|apply digit_chars, D]).
  unfold int_of_str. rewrite to_ascii_id by (eapply Forall_impl; [|exact F]; unfold numeral_char; intros; lia).
  rewrite strip_if_none by (eapply Forall_impl; [|exact F]; unfold numeral_char, c_isspace; intros; lia).
  rewrite (sign_split _ _ _ S D). destruct (digit_text_list ds D) as (l & -> & Fl & Ll & V).
  rewrite us_digits_dec; [|exact Fl|intros ->; cbn in L; lia].
  replace (int_max_str_digits <? lenN l)%N with false by (unfold lenN, int_max_str_digits; symmetry; apply N.ltb_ge; lia).
  rewrite <- V. destruct neg; reflexivity.
Qed.

(* a numeral that may start with the point *)
Lemma float_of_signed sg neg t x : sign_mark sg neg -> Forall numeral_char t ->
  match t with c :: _ => (48 <= c <= 57 \/ c = 46)%N | [] => False end ->
  parse_unsigned neg t = Some x -> float_of_str (sg ++ t) = Ok x.
Proof.
  intros S F H P. assert (Forall numeral_char (sg ++ t)) as Fs by (apply Forall_app; split; [eapply sign_chars, S|exact F]).
  unfold float_of_str. cbv zeta. rewrite to_ascii_id by (eapply Forall_impl; [|exact Fs]; unfold numeral_char; intros; lia).
  rewrite strip_if_none by (eapply Forall_impl; [|exact Fs]; unfold numeral_char, c_isspace; intros; lia).
  rewrite us_ok_none by exact Fs. rewrite remove_none by (eapply Forall_impl; [|exact Fs]; unfold numeral_char; intros; lia).
  assert (split_sign (sg ++ t) = (neg, t)) as SS.
  { destruct S; try reflexivity. destruct t as [|c t]; [contradiction|]. cbn [app split_sign].
    replace (c =? 45)%N with false by lia. replace (c =? 43)%N with false by lia. reflexivity. }
  rewrite SS, P. reflexivity.
Qed.
Lemma parse_point neg fp : Forall digit fp -> fp <> [] ->
  parse_unsigned neg (46%N :: map dec_char fp) = Some (f_of_dec neg (digits_val 10 fp) (- Z.of_nat (length fp))).
Proof.
  intros F NE. unfold parse_unsigned. cbv zeta.
  assert (forall w r, (w =? 46)%N = false -> str_eqb (map lower_ascii (46%N :: map dec_char fp)) (w :: r) = false) as G.
  { intros w r H. cbn [map]. apply str_eqb_neq. intros E. injection E as E _. apply N.eqb_neq in H. apply H. symmetry. exact E. }
  rewrite (G 105%N (u "nf") eq_refl : str_eqb _ (u "inf") = false), (G 105%N (u "nfinity") eq_refl : str_eqb _ (u "infinity") = false),
    (G 110%N (u "an") eq_refl : str_eqb _ (u "nan") = false).
  cbn [orb]. change (take_digits (46%N :: map dec_char fp)) with (@nil N, 46%N :: map dec_char fp).
  cbv iota beta. change (46 =? 46)%N with true. cbv iota.
  rewrite take_digits_all by exact F. destruct fp as [|d fp]; [congruence|]. cbn [app parse_exp]. rewrite Z.sub_0_l. reflexivity.
Qed.
Lemma minus_sign neg r : with_minusR neg r = signR neg r.
Proof. destruct neg; reflexivity. Qed.

Lemma read_decimal sg neg ip fp x : sign_mark sg neg -> digit_text ip -> digit_text fp -> ip ++ fp <> [] ->
  nearest neg (with_minusR neg (IZR (number (ip ++ fp)) / IZR (10 ^ Z.of_nat (length fp)))) x ->
  float_of_str (sg ++ ip ++ u "." ++ fp) = Ok x.
Proof.
  intros S D1 D2 NE N. destruct (digit_text_list ip D1) as (l1 & -> & F1 & _ & V1). destruct (digit_text_list fp D2) as (l2 & -> & F2 & _ & V2).
  rewrite map_length in N. rewrite <- map_app in N, NE.
  assert (number (map dec_char (l1 ++ l2)) = Z.of_N (digits_val 10 (l1 ++ l2))) as V.
  { unfold number. rewrite number_acc_digits by (apply Forall_app; split; assumption). lia. }
  rewrite V in N. change (u "." ++ map dec_char l2) with (46%N :: map dec_char l2).
  assert (x = f_of_dec neg (digits_val 10 (l1 ++ l2)) (- Z.of_nat (length l2))) as ->.
  { eapply nearest_unique; [exact N|]. rewrite minus_sign. pose proof (f_of_dec_correct neg (digits_val 10 (l1 ++ l2)) (- Z.of_nat (length l2))) as C.
    rewrite pow10_neg, pow10_IZR in C by lia. exact C. }
  assert (Forall numeral_char (map dec_char l1 ++ 46%N :: map dec_char l2)) as F.
  { apply Forall_app. split; [apply dec_chars, F1|]. constructor; [unfold numeral_char; lia|apply dec_chars, F2]. }
  apply (float_of_signed _ _ _ _ S F).
  - destruct l1 as [|d l1]; cbn [map app]; [lia|]. inversion F1; subst. unfold digit, dec_char in *. lia.
  - destruct l1 as [|d l1]; [|apply parse_plain; [exact F1|exact F2|discriminate]].
    cbn [map app]. apply parse_point; [exact F2|]. intros ->. apply NE. reflexivity.
Qed.
Lemma read_whole sg neg ds x : sign_mark sg neg -> digit_text ds -> ds <> [] -> nearest neg (with_minusR neg (IZR (number ds))) x ->
  float_of_str (sg ++ ds) = Ok x.
Proof.
  intros S D NE N. destruct (digit_text_list ds D) as (l & -> & F & _ & V). rewrite <- V in N.
  assert (x = f_of_dec neg (digits_val 10 l) 0) as ->.
  { eapply nearest_unique; [exact N|]. rewrite minus_sign. pose proof (f_of_dec_correct neg (digits_val 10 l) 0) as C.
    change (pow10 0) with 1%R in C. rewrite Rmult_1_r in C. exact C. }
  apply (float_of_signed _ _ _ _ S); [apply dec_chars, F| |apply parse_int_digits; [exact F|intros ->; apply NE; reflexivity]].
  destruct l as [|d l]; [elim NE; reflexivity|]. inversion F; subst. cbn [map]. unfold digit, dec_char in *. lia.
Qed.
Lemma int_branch f : f <> [] -> str2val f (u "IN") = let! z := int_of_str f in Ok (VInt z).
Proof. destruct f; [congruence|reflexivity]. Qed.
Lemma dec_branch f : f <> [] -> str2val f (u "DE") = let! x := float_of_str f in Ok (VFloat x).
Proof. destruct f; [congruence|reflexivity]. Qed.
Lemma app_not_nil {A} (a b : list A) : b <> [] -> a ++ b <> [].
Proof. destruct a; [auto|discriminate]. Qed.

(* a text that stands for a value is read as that value (for a position: as a value
   it stands for) *)
Theorem C71_read ty f v : stands_for ty f v -> exists w, str2val f ty = Ok w /\ stands_for ty f w /\ (~ In ty [u "LA"; u "LN"] -> w = v).
Proof.
  intros H. pose proof H as H0. destruct H.
  - exists (VStr []). split; [|split; [exact H0|reflexivity]]. cbn [field_types In] in H. repeat (destruct H as [<-|H]; [vm_compute; reflexivity|]). contradiction.
  - exists (VStr f). split; [apply C12_text, H|split; [exact H0|reflexivity]].
  - exists (VInt (with_minus neg (number ds))). split; [|split; [exact H0|reflexivity]]. rewrite int_branch by (apply app_not_nil; intros ->; cbn in *; lia).
    rewrite (int_of_numeral sg neg ds) by assumption. reflexivity.
  - exists (VFloat x). split; [|split; [exact H0|reflexivity]]. rewrite dec_branch by (apply app_not_nil; assumption).
    rewrite (read_whole sg neg ds x) by assumption. reflexivity.
  - exists (VFloat x). split; [|split; [exact H0|reflexivity]]. rewrite dec_branch by (do 2 apply app_not_nil; discriminate).
    rewrite (read_decimal sg neg ip fp x) by assumption. reflexivity.
  - exists (VTime (mktime h m s 0)). split; [|split; [exact H0|reflexivity]]. change (str2val (clock_text h m s) (u "TM")) with (Ok (time2utc (hms h m s))).
    rewrite C40_whole_seconds by assumption. reflexivity.
  - eexists. split; [|split; [exact H0|reflexivity]].
    change (str2val (clock_text h m s ++ u "." ++ numeral_text w f) (u "TM")) with (Ok (time2utc (hms h m s ++ u "." ++ numeral_text w f))).
    rewrite C40_decimals by assumption. reflexivity.
  - exists (VDate d). split; [|split; [exact H0|reflexivity]]. destruct (C41_text d H) as (T & _ & _).
    destruct (C41_round_trip d H H1) as [E _]. rewrite T in E. exact (f_equal Ok E).
  - exists (VDate d). split; [|split; [exact H0|reflexivity]]. destruct (C41_text d H) as (_ & T & _).
    destruct (C41_round_trip d H H1) as [_ E]. rewrite T in E. exact (f_equal Ok E).
  - destruct (C49_value dd mm ff) as (y' & E & Dy & Py & By); try assumption. exists (VFloat y').
    assert (str2val (dd ++ mm ++ u "." ++ ff) ty = Ok (VFloat y')) as E' by (destruct H as [<-|[<-|[]]]; exact E).
    split; [exact E'|]. split; [|contradiction]. apply sf_position; assumption.
Qed.
(* so a text stands for one value (positions aside) *)
Corollary C71_functional ty f v w : ~ In ty [u "LA"; u "LN"] -> stands_for ty f v -> stands_for ty f w -> v = w.
Proof.
  intros N V W. destruct (C71_read ty f v V) as (a & A & _ & Ea). destruct (C71_read ty f w W) as (b & B & _ & Eb).
  rewrite <- (Ea N), <- (Eb N). congruence.
Qed.

(* and so it is in a parsed message *)
Theorem C71_parsed m content ck talker msgid fields mode v ud x d sl i k ty f val :
  given m content ck talker msgid fields -> parse m mode v ud = Ok (Some x) ->
  kept_as_is talker msgid fields -> definition_for mode ud msgid fields = Some d -> well_formed d ->
  layout (int_attr (m_attrs x)) (length fields) 0 d sl ->
  nth_error sl i = Some (k, ty) -> nth_error fields i = Some f -> k <> u "lat" -> k <> u "lon" ->
  stands_for ty f val ->
  exists w, nth_error (m_attrs x) i = Some (k, w) /\ lookup k (m_attrs x) = Some w /\ stands_for ty f w
    /\ (~ In ty [u "LA"; u "LN"] -> w = val).
Proof.
  intros G P K D W L N F K1 K2 S. destruct (C13_decoded _ _ _ _ _ _ _ _ _ _ _ G P K D W) as (sl' & L' & Dc).
  pose proof (layout_functional _ _ _ _ _ _ L' L) as ->. destruct (decode_nth _ _ _ Dc) as [Ln H].
  destruct (H i k ty f N F) as (w & Hw & Hn). destruct (C71_read ty f val S) as (w' & E & S' & Ev). rewrite Hw in E. assert (w' = w) as -> by congruence.
  rewrite C12_settle_other in Hn by assumption. exists w. split; [exact Hn|]. split; [|split; assumption].
  apply In_lookup_nodup; [|eapply nth_error_In, Hn]. rewrite (PropsTruncate.decode_names _ _ _ Dc). apply NoDup_firstn. destruct W as (_ & U & _). apply U. eapply layout_expands, L.
Qed.

(* what a field can be read as *)
Theorem C71_typed ty f v : str2val f ty = Ok v -> typed ty v /\ In ty field_types.
Proof.
  unfold str2val. destruct (text_type ty) eqn:T.
  - intros E. assert (v = VStr f) as -> by congruence. apply str_in_iff in T. split.
    + right. left. split; [|eexists; reflexivity]. cbn [In text_types]. cbn [In] in T. tauto.
    + cbn [In field_types]. cbn [In] in T. unfold ty_CH, ty_ST, ty_LAD, ty_LND, ty_QS in T. tauto.
  - clear T. destruct (str_eqb_spec ty ty_HX) as [->|_].
    { intros E. assert (v = VStr f) as -> by congruence. split; [right; left; split; [cbn; tauto|eexists; reflexivity]|cbn; tauto]. }
    destruct (str_eqb_spec ty ty_DE) as [->|_].
    { destruct f as [|c f]; [intros E; assert (v = VStr []) as -> by congruence; split; [left; reflexivity|cbn; tauto]|].
      destruct (float_of_str (c :: f)) as [x|]; [|discriminate]. cbn [bind]. intros E. assert (v = VFloat x) as -> by congruence.
      split; [do 3 right; left; split; [cbn; tauto|eexists; reflexivity]|cbn; tauto]. }
    destruct (str_in ty [ty_DT; ty_DM]) eqn:T.
    { apply str_in_iff in T. intros E. assert (v = date2utc f ty) as -> by congruence. split; [|cbn [In field_types]; cbn [In] in T; unfold ty_DT, ty_DM in T; tauto].
      destruct (C42_date f ty) as [(d & -> & C)| ->]; [|left; reflexivity]. do 5 right. split; [exact T|]. exists d. split; [reflexivity|exact C]. }
    clear T. destruct (str_eqb_spec ty ty_IN) as [->|_].
    { destruct f as [|c f]; [intros E; assert (v = VStr []) as -> by congruence; split; [left; reflexivity|cbn; tauto]|].
      destruct (int_of_str (c :: f)) as [x|]; [|discriminate]. cbn [bind]. intros E. assert (v = VInt x) as -> by congruence.
      split; [do 2 right; left; split; [reflexivity|eexists; reflexivity]|cbn; tauto]. }
    destruct (str_in ty [ty_LA; ty_LN]) eqn:T.
    { apply str_in_iff in T. intros E. assert (v = dmm2ddd f) as -> by congruence. split; [|cbn [In field_types]; cbn [In] in T; unfold ty_LA, ty_LN in T; tauto].
      destruct (C49_total f) as [H|(y & H)]; change (str2val f (u "LA")) with (Ok (dmm2ddd f)) in H.
      - left. congruence.
      - do 3 right. left. split; [cbn [In] in *; unfold ty_LA, ty_LN in T; tauto|]. exists y. congruence. }
    clear T. destruct (str_eqb_spec ty ty_TM) as [->|_]; [|discriminate].
    intros E. assert (v = time2utc f) as -> by congruence. split; [|cbn; tauto].
    destruct (C42_time f) as [(t & -> & C)| ->]; [|left; reflexivity]. do 4 right. left. split; [reflexivity|]. exists t. split; [reflexivity|exact C].
Qed.
Lemma settle_typed ty k v later : typed ty v -> typed ty (settle k v later).
Proof.
  intros H. assert (forall neg h, typed ty (with_sign neg h v)) as G.
  { intros neg h. unfold with_sign. destruct h as [h|]; [|exact H].
    destruct v; try exact H.
    - destruct H as [H|[(_ & ? & H)|[(-> & _)|[(_ & ? & H)|[(_ & ? & H & _)|(_ & ? & H & _)]]]]]; try discriminate H. do 2 right. left. split; [reflexivity|eexists; reflexivity].
    - destruct H as [H|[(_ & ? & H)|[(_ & ? & H)|[(I & _)|[(_ & ? & H & _)|(_ & ? & H & _)]]]]]; try discriminate H. do 3 right. left. split; [exact I|eexists; reflexivity].
    - exfalso. destruct H as [H|[(_ & ? & H)|[(_ & ? & H)|[(_ & ? & H)|[(_ & ? & H & _)|(_ & ? & H & _)]]]]]; discriminate H. }
  unfold settle. destruct (str_eqb k (u "lat")); [apply G|]. destruct (str_eqb k (u "lon")); [apply G|exact H].
Qed.
(* every attribute of a parsed message has the Python type of its field type *)
Theorem C71_attributes m content ck talker msgid fields mode v ud x d sl i k ty w :
  given m content ck talker msgid fields -> parse m mode v ud = Ok (Some x) ->
  kept_as_is talker msgid fields -> definition_for mode ud msgid fields = Some d -> well_formed d ->
  layout (int_attr (m_attrs x)) (length fields) 0 d sl ->
  nth_error sl i = Some (k, ty) -> nth_error (m_attrs x) i = Some (k, w) -> typed ty w.
Proof.
  intros G P K D W L N A. destruct (C13_decoded _ _ _ _ _ _ _ _ _ _ _ G P K D W) as (sl' & L' & Dc).
  pose proof (layout_functional _ _ _ _ _ _ L' L) as ->. destruct (decode_nth _ _ _ Dc) as [Ln H].
  assert (exists f, nth_error fields i = Some f) as (f & F).
  { destruct (nth_error fields i) as [f|] eqn:F; [exists f; reflexivity|]. apply nth_error_None in F.
    assert (nth_error (m_attrs x) i <> None) as Q by congruence. apply nth_error_Some in Q. rewrite Ln in Q. lia. }
  destruct (H i k ty f N F) as (val & Hv & Hn). rewrite Hn in A. injection A as <-. apply settle_typed. eapply C71_typed, Hv.
Qed.

(* a field of integers or decimals with another character cannot be read *)
Lemma in_to_ascii c s : In c s -> (33 <= c <= 126)%N -> In c (to_ascii s).
Proof.
  intros I R. unfold to_ascii. apply in_map_iff. exists c. split; [|exact I]. unfold to_ascii_char. replace (c <? 127)%N with true by lia. reflexivity.
Qed.
Lemma in_lstrip p c s : In c s -> p c = false -> In c (lstrip_if p s).
Proof.
  intros I P. induction s as [|a s IH]; [exact I|]. cbn [lstrip_if]. destruct (p a) eqn:A; [|exact I].
  destruct I as [->|I]; [congruence|apply IH, I].
Qed.
Lemma in_strip p c s : In c s -> p c = false -> In c (strip_if p s).
Proof.
  intros I P. unfold strip_if, rstrip_if. apply in_rev. rewrite rev_involutive. apply in_lstrip; [|exact P]. apply -> in_rev. apply in_lstrip; assumption.
Qed.
Lemma in_split_sign c s : In c s -> c <> 45%N -> c <> 43%N -> In c (snd (split_sign s)).
Proof.
  destruct s as [|a s]; [intros []|]. intros I N1 N2. cbn [split_sign]. destruct (N.eqb_spec a 45) as [->|_]; [destruct I; [congruence|assumption]|].
  destruct (N.eqb_spec a 43) as [->|_]; [destruct I; [congruence|assumption]|exact I].
Qed.
Lemma us_digits_other dig c s : In c s -> c <> 95%N -> dig c = None -> forall b, us_digits dig b s = None.
Proof.
  intros I N D. induction s as [|a s IH]; [elim I|]. intros b. cbn [us_digits]. destruct (N.eqb_spec a 95) as [->|Na].
  - destruct b; [reflexivity|]. apply IH. destruct I; [congruence|assumption].
  - destruct I as [->|I]; [rewrite D; reflexivity|]. rewrite (IH I). destruct (dig a); reflexivity.
Qed.
Theorem C71_not_an_integer f c : In c f -> not_in_integers c -> str2val f (u "IN") = Raise ValueError.
Proof.
  intros I [R N]. rewrite int_branch by (intros ->; elim I). unfold int_of_str.
  assert (In c (strip_if c_isspace (to_ascii f))) as I1 by (apply in_strip; [apply in_to_ascii; assumption|unfold c_isspace; lia]).
  destruct (split_sign _) as [neg r] eqn:S.
  assert (c <> 45%N /\ c <> 43%N /\ c <> 95%N /\ ~ (48 <= c <= 57)%N) as (N1 & N2 & N3 & N4).
  { cbn in N. split; [|split; [|split]]; intros H; apply N; lia. }
  pose proof (in_split_sign c _ I1 N1 N2) as I2. rewrite S in I2. cbn [snd] in I2.
  rewrite (us_digits_other dec_digit c r I2 N3); [reflexivity|]. unfold dec_digit. replace ((48 <=? c) && (c <=? 57))%N with false by lia. reflexivity.
Qed.
Lemma in_take_digits c s : In c s -> dec_digit c = None -> In c (snd (take_digits s)).
Proof.
  intros I D. induction s as [|a s IH]; [exact I|]. cbn [take_digits]. destruct (dec_digit a) as [d|] eqn:A; [|exact I].
  destruct (take_digits s) as [l r]. cbn [snd] in *. destruct I as [->|I]; [congruence|]. apply IH, I.
Qed.
Lemma word_chars c s w : str_eqb (map lower_ascii s) w = true -> In c s -> In (lower_ascii c) w.
Proof. intros E I. apply str_eqb_eq in E. rewrite <- E. apply in_map, I. Qed.
Lemma parse_exp_other c s : In c s -> c <> 101%N -> c <> 69%N -> c <> 45%N -> c <> 43%N -> dec_digit c = None -> parse_exp s = None.
Proof.
  intros I N1 N2 N3 N4 D. destruct s as [|a s]; [elim I|]. cbn [parse_exp].
  destruct ((a =? 101) || (a =? 69))%N eqn:A; [|reflexivity]. destruct I as [->|I]; [exfalso; lia|].
  pose proof (in_split_sign c s I N3 N4) as I1. destruct (split_sign s) as [neg r]. cbn [snd] in I1.
  pose proof (in_take_digits c r I1 D) as I2. destruct (take_digits r) as [[|d l] q]; [reflexivity|]. destruct q; [elim I2|reflexivity].
Qed.
Theorem C71_not_a_decimal f c : In c f -> not_in_decimals c -> str2val f (u "DE") = Raise ValueError.
Proof.
  intros I [R N]. rewrite dec_branch by (intros ->; elim I). unfold float_of_str. cbv zeta.
  assert (In c (strip_if c_isspace (to_ascii f))) as I1 by (apply in_strip; [apply in_to_ascii; assumption|unfold c_isspace; lia]).
  destruct (us_ok false _); [|reflexivity]. set (t := strip_if c_isspace (to_ascii f)) in *.
  assert (c <> 45 /\ c <> 43 /\ c <> 95 /\ c <> 46 /\ c <> 101 /\ c <> 69 /\ ~ (48 <= c <= 57))%N as (N1 & N2 & N3 & N4 & N5 & N6 & N7).
  { cbn in N. repeat split; intros H; apply N; lia. }
  assert (In c (remove_char 95 t)) as I2.
  { unfold remove_char. apply filter_In. split; [exact I1|]. replace (c =? 95)%N with false by lia. reflexivity. }
  pose proof (in_split_sign c _ I2 N1 N2) as I3. destruct (split_sign _) as [neg r]. cbn [snd] in I3.
  assert (dec_digit c = None) as D by (unfold dec_digit; replace ((48 <=? c) && (c <=? 57))%N with false by lia; reflexivity).
  assert (parse_unsigned neg r = None) as ->; [|reflexivity].
  assert (forall w, In w [u "inf"; u "infinity"; u "nan"] -> str_eqb (map lower_ascii r) w = false) as Wd.
  { intros w Hw. destruct (str_eqb (map lower_ascii r) w) eqn:E; [|reflexivity]. exfalso. pose proof (word_chars c r w E I3) as Q.
    assert (In (lower_ascii c) (u "infty") \/ lower_ascii c = 97%N) as Q'.
    { destruct Hw as [<-|[<-|[<-|[]]]]; cbn in Q |- *; intuition. }
    unfold lower_ascii in Q'. cbn in Q', N. destruct ((65 <=? c) && (c <=? 90))%N; lia. }
  unfold parse_unsigned. cbv zeta. rewrite !Wd by (cbn; tauto). cbn [orb].
  pose proof (in_take_digits c r I3 D) as I4. destruct (take_digits r) as [ip q]. cbn [snd] in I4.
  destruct q as [|a q]; [elim I4|]. destruct (N.eqb_spec a 46) as [->|Na].
  - destruct I4 as [E|I4]; [congruence|]. pose proof (in_take_digits c q I4 D) as I5. destruct (take_digits q) as [fp q']. cbn [snd] in I5.
    destruct (ip ++ fp); [reflexivity|]. rewrite (parse_exp_other c q') by assumption. reflexivity.
  - destruct (ip ++ []); [reflexivity|]. rewrite (parse_exp_other c (a :: q)) by assumption. reflexivity.
Qed.
(* and a sentence with such a field is not parsed *)
Theorem C71_parsed_numbers m content ck talker msgid fields mode v ud x d sl i k f c :
  given m content ck talker msgid fields -> parse m mode v ud = Ok (Some x) ->
  kept_as_is talker msgid fields -> definition_for mode ud msgid fields = Some d -> well_formed d ->
  layout (int_attr (m_attrs x)) (length fields) 0 d sl -> nth_error fields i = Some f -> In c f ->
  (nth_error sl i = Some (k, u "IN") -> ~ not_in_integers c) /\ (nth_error sl i = Some (k, u "DE") -> ~ not_in_decimals c).
Proof.
  intros G P K D W L F I. destruct (C13_decoded _ _ _ _ _ _ _ _ _ _ _ G P K D W) as (sl' & L' & Dc).
  pose proof (layout_functional _ _ _ _ _ _ L' L) as ->. destruct (decode_nth _ _ _ Dc) as [Ln H].
  split; intros N Q; destruct (H i k _ f N F) as (w & Hw & _).
  - rewrite (C71_not_an_integer f c I Q) in Hw. discriminate.
  - rewrite (C71_not_a_decimal f c I Q) in Hw. discriminate.
Qed.
(* Python's int() also accepts underscores, blanks and other scripts' digits *)
Theorem C71_python_numerals_refuted : str2val (u "1_2") (u "IN") = Ok (VInt 12) /\ str2val (u " 12 ") (u "IN") = Ok (VInt 12)
  /\ str2val [1633%N; 1634%N] (u "IN") = Ok (VInt 12) /\ str2val (u "inf") (u "DE") = Ok (VFloat (S754_infinity false)).
Proof. repeat split; vm_compute; reflexivity. Qed.
Example C71_example :
  stands_for (u "IN") (u "-07") (VInt (-7)) /\ stands_for (u "TM") (u "235959.5") (VTime (mktime 23 59 59 500000))
  /\ stands_for (u "DT") (u "290224") (VDate (mkdate 2024 2 29)) /\ stands_for (u "DM") (u "022924") (VDate (mkdate 2024 2 29))
  /\ stands_for (u "DE") (u ".5") (VFloat (f_norm 1 (-1)))
  /\ exists x sl, parse (MStr (u "$GNRMC,235959.5,A,,,,,.5,,290224,,,A,V*00")) 0 0 [] = Ok (Some x)
     /\ layout (int_attr (m_attrs x)) 13 0 def_g_RMC sl /\ nth_error sl 0 = Some (u "time", u "TM")
     /\ lookup (u "time") (m_attrs x) = Some (VTime (mktime 23 59 59 500000)) /\ lookup (u "spd") (m_attrs x) = Some (VFloat (f_norm 1 (-1))).
Proof.
  split; [apply (sf_integer (u "-") true (u "07")); [constructor|unfold digit_text; vm_compute; repeat (constructor; [split; discriminate|]); constructor|cbn; lia]|].
  split; [apply (sf_time_decimals 23 59 59 1 5); cbn; lia|].
  split; [apply (sf_date (mkdate 2024 2 29)); [apply valid_date_iff; reflexivity|cbn; lia]|].
  split; [apply (sf_date_month (mkdate 2024 2 29)); [apply valid_date_iff; reflexivity|cbn; lia]|].
  split; [apply (sf_decimal [] false [] (u "5")); [constructor|constructor|unfold digit_text; vm_compute; repeat (constructor; [split; discriminate|]); constructor|discriminate|]|].
  { pose proof (f_of_dec_correct false 5 (-1)) as C. assert (f_of_dec false 5 (-1) = f_norm 1 (-1)) as E by (vm_compute; reflexivity). rewrite E in C.
    cbn [with_minusR signR] in *. change (number ([] ++ u "5")) with 5. change (length (u "5")) with 1%nat. change (10 ^ Z.of_nat 1) with 10.
    change (Z.of_N 5) with 5 in C. change (-1) with (- (1)) in C at 1. rewrite pow10_neg, pow10_IZR in C by lia. exact C. }
  eexists _, _. split; [vm_compute; reflexivity|]. split; [repeat constructor|]. split; [vm_compute; reflexivity|]. split; vm_compute; reflexivity.
Qed.

(* ------------------------------------------------------------------ C14 *)
(* what is left of lat and lon when trailing fields are dropped (C14_prefix_groups) has the same magnitude *)
Definition same_magnitude (a b : pyval) : Prop :=
  a = b \/ (exists x y, a = VFloat x /\ b = VFloat y /\ SFabs x = SFabs y) \/ (exists x y, a = VInt x /\ b = VInt y /\ Z.abs x = Z.abs y).
Lemma settle_magnitude f ty v k l1 l2 : str2val f ty = Ok v -> same_magnitude (settle k v l1) (settle k v l2).
Proof.
  intros H. assert (B : forall b, v <> VBool b).
  { intros b ->. apply C71_typed in H as [H _].
    destruct H as [H|[[_ [s H]]|[[_ [z H]]|[[_ [x H]]|[[_ (t & H & _)]|[_ (d & H & _)]]]]]]; discriminate H. }
  assert (G : forall neg h1 h2, same_magnitude (with_sign neg h1 v) (with_sign neg h2 v)).
  { intros neg h1 h2. destruct v as [s0|z|x|b| | | |]; try (left; destruct h1, h2; reflexivity).
    - right. right. destruct h1 as [a|], h2 as [c|]; cbn [with_sign]; eexists; eexists; (split; [reflexivity|]); (split; [reflexivity|]); try destruct (str_eqb a neg); try destruct (str_eqb c neg); lia.
    - right. left. destruct h1 as [a|], h2 as [c|]; cbn [with_sign]; eexists; eexists; (split; [reflexivity|]); (split; [reflexivity|]); try destruct (str_eqb a neg); try destruct (str_eqb c neg); destruct x; reflexivity.
    - destruct (B b eq_refl). }
  unfold settle. destruct (str_eqb k (u "lat")); [apply G|]. destruct (str_eqb k (u "lon")); [apply G|left; reflexivity].
Qed.
Theorem C14_magnitude m1 m2 content1 content2 ck1 ck2 talker msgid fields rest mode v ud x y d i k val :
  given m1 content1 ck1 talker msgid (fields ++ rest) -> given m2 content2 ck2 talker msgid fields ->
  kept_as_is talker msgid (fields ++ rest) ->
  definition_for mode ud msgid (fields ++ rest) = Some d -> definition_for mode ud msgid fields = Some d ->
  in_order d -> no_indeterminate d ->
  parse m1 mode v ud = Ok (Some x) -> parse m2 mode v ud = Ok (Some y) ->
  nth_error (m_attrs y) i = Some (k, val) -> exists val', nth_error (m_attrs x) i = Some (k, val') /\ same_magnitude val val'.
Proof.
  intros G1 G2 K D1 D2 O Ni E1 E2 N.
  destruct (C13_decoded m1 content1 ck1 talker msgid (fields ++ rest) mode v ud x d G1 E1 K D1 (proj1 O)) as (sl & Ly & Dc).
  assert (kept_as_is talker msgid fields) as K'.
  { destruct K as [K|K]; [left; exact K|right]. apply Forall_app in K. apply K. }
  destruct (C13_decoded m2 content2 ck2 talker msgid fields mode v ud y d G2 E2 K' D2 (proj1 O)) as (sl2 & Ly2 & Dc2).
  pose proof (decoded_same_layout d fields rest (m_attrs x) (m_attrs y) sl sl2 _ _ O Ni Ly Dc Ly2 Dc2) as <-.
  destruct (decode_nth _ _ _ Dc) as [L1 H1]. destruct (decode_nth _ _ _ Dc2) as [L2 H2].
  assert (B : (i < Nat.min (length sl) (length fields))%nat) by (rewrite <- L2; apply nth_error_Some; congruence).
  destruct (nth_error sl i) as [[k0 ty]|] eqn:S; [|apply nth_error_None in S; lia].
  destruct (nth_error fields i) as [f|] eqn:F; [|apply nth_error_None in F; lia].
  destruct (H2 i k0 ty f S F) as (w & Hw & Q). rewrite Q in N. injection N as <- <-.
  destruct (H1 i k0 ty f S) as (w' & Hw' & Q'); [rewrite nth_error_app1 by lia; exact F|].
  assert (w' = w) as -> by congruence. eexists. split; [exact Q'|]. eapply settle_magnitude, Hw.
Qed.

