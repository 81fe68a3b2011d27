(* The texts of numbers are JSON numbers. *)
From Coq Require Import List NArith ZArith Lia Bool Reals.
From Verif Require Import Message NumLemmas BaseLemmas FloatProofs DecimalProofs ValueSpec PropsValue PropsWrite Server JsonSpec.
Import ListNotations.
Local Open Scope N_scope.

(* ------------------------------------------------- valid binary64 numbers *)
Lemma f_of_dec_valid s m e : binary64 (f_of_dec s m e).
Proof. apply (proj1 (f_of_dec_correct s m e)). Qed.
Lemma fround_valid k x : binary64 (fround k x).
Proof. destruct x; try reflexivity. apply f_of_dec_valid. Qed.
Lemma parse_unsigned_valid neg s x : parse_unsigned neg s = Some x -> binary64 x.
Proof.
  unfold parse_unsigned. cbv zeta. destruct (_ || _); [intros E; assert (x = S754_infinity neg) as -> by congruence; reflexivity|].
  destruct (str_eqb _ _); [intros E; assert (x = S754_nan) as -> by congruence; reflexivity|].
  destruct (take_digits s) as [ip r]. destruct (match r with [] => _ | _ => _ end) as [fp r2]. destruct (ip ++ fp); [discriminate|].
  destruct (parse_exp r2) as [e|]; [|discriminate]. intros E.
  match type of E with Some ?y = _ => assert (x = y) as -> by congruence end. apply f_of_dec_valid.
Qed.
Lemma float_of_str_valid s x : float_of_str s = Ok x -> binary64 x.
Proof.
  unfold float_of_str. cbv zeta. destruct (us_ok _ _); [|discriminate]. destruct (split_sign _) as [neg r].
  destruct (parse_unsigned neg r) as [y|] eqn:P; [|discriminate]. intros E. assert (y = x) as -> by congruence. exact (parse_unsigned_valid _ _ _ P).
Qed.
Lemma abs_valid x : binary64 x -> binary64 (SFabs x).
Proof. destruct x; auto. Qed.
Lemma opp_valid x : binary64 x -> binary64 (SFopp x).
Proof. destruct x; auto. Qed.
(* floats read from a field *)
Lemma str2val_valid f ty x : str2val f ty = Ok (VFloat x) -> binary64 x.
Proof.
  unfold str2val. destruct (text_type ty); [discriminate|]. destruct (str_eqb ty ty_HX); [discriminate|].
  destruct (str_eqb ty ty_DE); [|destruct (str_in ty [ty_DT; ty_DM]); [|destruct (str_eqb ty ty_IN); [|destruct (str_in ty [ty_LA; ty_LN]); [|destruct (str_eqb ty ty_TM); [|discriminate]]]]].
  - destruct f; [discriminate|]. destruct (float_of_str _) as [y|] eqn:P; [|discriminate]. cbn [bind]. intros E.
    assert (y = x) as -> by congruence. exact (float_of_str_valid _ _ P).
  - intros E. unfold date2utc in E. exfalso. repeat match type of E with context [match ?e with _ => _ end] => destruct e end; congruence.
  - destruct f; [discriminate|]. destruct (int_of_str _); discriminate.
  - unfold dmm2ddd. destruct (find_char _ _); [|discriminate]. destruct (_ <? _)%nat; [discriminate|].
    destruct (float_of_str _); [|discriminate]. destruct (float_of_str _); [|discriminate]. intros E.
    match type of E with Ok (VFloat ?y) = _ => assert (y = x) as <- by congruence end. apply fround_valid.
  - intros E. unfold time2utc in E. exfalso. repeat match type of E with context [match ?e with _ => _ end] => destruct e end; congruence.
Qed.

(* ---------------------------------------------------------------- numbers *)
Lemma digits_lit s : negb (match s with [] => true | _ => false end) && forallb (fun c => (48 <=? c) && (c <=? 57)) s = true -> digits_text s.
Proof.
  intros H. apply andb_true_iff in H as [A B]. split; [intros ->; discriminate|]. apply Forall_forall. intros c C.
  pose proof (proj1 (forallb_forall _ _) B c C) as Q. cbn beta in Q. lia.
Qed.
Lemma digits_chars l : Forall (fun d => d < 10) l -> l <> [] -> digits_text (map dec_char l).
Proof.
  intros F N. split; [destruct l; [congruence|discriminate]|]. apply Forall_map. eapply Forall_impl; [|exact F]. unfold dec_char. cbn. lia.
Qed.
Lemma int_chars l : Forall (fun d => d < 10) l -> l <> [] -> hd 0 l <> 0 -> json_int (map dec_char l).
Proof.
  intros F N H. split; [apply digits_chars; assumption|]. destruct l; [congruence|]. cbn [map hd] in *. unfold dec_char. lia.
Qed.
Lemma int_dec n : json_int (dec_of_N n).
Proof.
  destruct (N_digits_canon 10 n) as (_ & F & NE & H & Z0); [lia|]. unfold dec_of_N. destruct (N.eq_dec n 0) as [->|E].
  - rewrite Z0 by reflexivity. split; [apply digits_lit; reflexivity|reflexivity].
  - apply int_chars; auto.
Qed.
Lemma zfill_dec w n : digits_text (zfill w (dec_of_N n)).
Proof.
  pose proof (int_dec n) as [[NE F] _]. unfold zfill. split.
  - intros E. apply app_eq_nil in E as [_ E]. contradiction.
  - apply Forall_app. split; [|exact F]. apply Forall_forall. intros c C. apply repeat_spec in C. subst. lia.
Qed.
Lemma zeros_chars n : Forall (fun c => 48 <= c <= 57) (repeat 48 n).
Proof. apply Forall_forall. intros c C. apply repeat_spec in C. subst. lia. Qed.
Lemma repr_json ds pt : Forall (fun d => d < 10) ds -> ds <> [] -> hd 0 ds <> 0 ->
  exists i f e, repr_text ds pt = i ++ f ++ e /\ json_int i /\ json_frac f /\ json_exp e.
Proof.
  intros F N H. unfold repr_text. cbv zeta. set (n := Z.of_nat (length ds)).
  destruct (_ || _) eqn:B.
  - assert (json_exp ([101; if (pt - 1 <? 0)%Z then 45 else 43] ++ zfill 2 (dec_of_N (Z.abs_N (pt - 1))))) as X.
    { right. exists (if (pt - 1 <? 0)%Z then u "-" else u "+"), (zfill 2 (dec_of_N (Z.abs_N (pt - 1)))).
      split; [destruct (pt - 1 <? 0)%Z; reflexivity|]. split; [destruct (pt - 1 <? 0)%Z; cbn; tauto|apply zfill_dec]. }
    destruct ds as [|d [|d' r]]; [congruence| |].
    + exists [dec_char d], [], ([101; if (pt - 1 <? 0)%Z then 45 else 43] ++ zfill 2 (dec_of_N (Z.abs_N (pt - 1)))).
      split; [reflexivity|]. split; [apply (int_chars [d]); assumption|]. split; [left; reflexivity|exact X].
    + exists [dec_char d], (u "." ++ map dec_char (d' :: r)), ([101; if (pt - 1 <? 0)%Z then 45 else 43] ++ zfill 2 (dec_of_N (Z.abs_N (pt - 1)))).
      inversion F as [|? ? F1 F2]; subst. split; [reflexivity|]. split; [apply (int_chars [d]); [constructor; [exact F1|constructor]|discriminate|exact H]|]. split; [|exact X].
      right. exists (map dec_char (d' :: r)). split; [reflexivity|]. apply digits_chars; [exact F2|discriminate].
  - apply orb_false_iff in B as [B1 B2]. destruct (Z.leb_spec pt 0) as [P0|P0]; [|destruct (Z.leb_spec n pt) as [P1|P1]].
    + exists (u "0"), (u "." ++ repeat 48 (Z.to_nat (- pt)) ++ map dec_char ds), []. rewrite app_nil_r. split; [reflexivity|].
      split; [split; [apply digits_lit; reflexivity|reflexivity]|]. split; [|left; reflexivity].
      right. exists (repeat 48 (Z.to_nat (- pt)) ++ map dec_char ds). split; [reflexivity|]. split.
      * intros E. apply app_eq_nil in E as [_ E]. destruct ds; [congruence|discriminate].
      * apply Forall_app. split; [apply zeros_chars|apply digits_chars; assumption].
    + exists (map dec_char ds ++ repeat 48 (Z.to_nat (pt - n))), (u ".0"), []. rewrite app_nil_r. split; [rewrite <- app_assoc; reflexivity|].
      split; [|split; [right; exists (u "0"); split; [reflexivity|apply digits_lit; reflexivity]|left; reflexivity]].
      split; [split|].
      * intros E. apply app_eq_nil in E as [E _]. destruct ds; [congruence|discriminate].
      * apply Forall_app. split; [apply digits_chars; assumption|apply zeros_chars].
      * destruct ds; [congruence|]. cbn [map app hd] in *. unfold dec_char. lia.
    + assert (firstn (Z.to_nat pt) ds <> []) as N1 by (destruct ds; [congruence|]; destruct (Z.to_nat pt) eqn:E; [lia|discriminate]).
      assert (skipn (Z.to_nat pt) ds <> []) as N2.
      { intros E. apply (f_equal (@length _)) in E. rewrite skipn_length in E. cbn [length] in E. unfold n in *. lia. }
      rewrite firstn_map, skipn_map. pose proof F as F'. rewrite <- (firstn_skipn (Z.to_nat pt) ds) in F'. apply Forall_app in F' as [F1 F2].
      exists (map dec_char (firstn (Z.to_nat pt) ds)), (u "." ++ map dec_char (skipn (Z.to_nat pt) ds)), []. rewrite app_nil_r. split; [reflexivity|].
      split; [apply int_chars; [exact F1|exact N1|]|split; [right; eexists; split; [reflexivity|apply digits_chars; assumption]|left; reflexivity]].
      destruct ds; [congruence|]. destruct (Z.to_nat pt) eqn:E; [lia|]. exact H.
Qed.
Lemma float_json x : binary64 x -> is_fin x = true -> json_number (str_of_float x) /\ float_of_str (str_of_float x) = Ok x.
Proof.
  intros V Fi. split; [|apply float_text_round_trip, V]. destruct x as [s|s| |s m e]; try discriminate.
  - exists (if s then u "-" else []), (u "0"), (u ".0"), []. split; [destruct s; reflexivity|]. split; [destruct s; cbn; tauto|].
    split; [split; [apply digits_lit; reflexivity|reflexivity]|]. split; [|left; reflexivity].
    right. exists (u "0"). split; [reflexivity|apply digits_lit; reflexivity].
  - destruct (shortest_some m e V) as (d & ex & Sh & R). unfold str_of_float. rewrite Sh. cbv zeta.
    set (ds := N_digits 10 d). destruct (strip_zeros_split ds) as (k & E).
    destruct (N_digits_canon 10 d) as (Vd & Fd & NEd & Hd & _); [lia|]. fold ds in Vd, Fd, NEd, Hd.
    assert (d <> 0) as Dn by (intros ->; discriminate R). specialize (Hd Dn).
    assert (strip_zeros ds <> []) as NE.
    { intros Q. rewrite Q in E. cbn [app] in E. rewrite E in Hd. destruct k; cbn in Hd; congruence. }
    destruct (repr_json (strip_zeros ds) (ex + Z.of_nat (length ds))) as (i & f & e' & Er & I & Fr & Ex).
    + rewrite E in Fd. apply Forall_app in Fd as [Fd _]. exact Fd.
    + exact NE.
    + rewrite E in Hd. destruct (strip_zeros ds); [congruence|exact Hd].
    + exists (if s then u "-" else []), i, f, e'. rewrite Er. split; [destruct s; reflexivity|]. split; [destruct s; cbn; tauto|auto].
Qed.
Lemma integer_json z t : str_of_Z z = Ok t -> json_number t /\ integer_text z t.
Proof.
  unfold str_of_Z. cbv zeta. destruct (_ <? _) eqn:L; [discriminate|]. intros E. assert (str_of_Z z = Ok t) as E0 by (unfold str_of_Z; cbv zeta; rewrite L; exact E).
  match type of E with Ok ?y = _ => assert (y = t) as <- by congruence end. pose proof (int_dec (Z.abs_N z)) as I. split.
  - exists (if (z <? 0)%Z then u "-" else []), (dec_of_N (Z.abs_N z)), [], []. rewrite !app_nil_r.
    split; [destruct (z <? 0)%Z; reflexivity|]. split; [destruct (z <? 0)%Z; cbn; tauto|]. split; [exact I|]. split; left; reflexivity.
  - apply str_of_Z_text. exact E0.
Qed.
(* an integer that was read can be written *)
Lemma digits_val_bound l : Forall (fun d => d < 10) l -> digits_val 10 l < 10 ^ N.of_nat (length l).
Proof.
  induction l as [|d l IH] using rev_ind; intros F; [cbn; unfold digits_val; cbn; lia|].
  apply Forall_app in F as [F1 F2]. inversion F2; subst. rewrite digits_val_app, app_length. cbn [length]. specialize (IH F1).
  replace (N.of_nat (length l + 1)) with (N.succ (N.of_nat (length l))) by lia. rewrite N.pow_succ_r'. nia.
Qed.
Lemma us_digits_lt l : forall b r, us_digits dec_digit b l = Some r -> Forall (fun d => d < 10) r /\ (b = true -> r <> []).
Proof.
  induction l as [|c l IH]; intros b r E; cbn [us_digits] in E.
  - destruct b; [discriminate|]. assert (r = []) as -> by congruence. split; [constructor|discriminate].
  - destruct (c =? 95); [destruct b; [discriminate|]; split; [apply (IH _ _ E)|discriminate]|].
    destruct (dec_digit c) as [d|] eqn:D; [|discriminate]. destruct (us_digits dec_digit false l) as [r'|] eqn:U; [|discriminate].
    assert (r = d :: r') as -> by congruence. split; [|discriminate]. constructor; [|apply (IH _ _ U)].
    unfold dec_digit in D. destruct (_ && _) eqn:B; [|discriminate]. assert (d = c - 48) by congruence. lia.
Qed.
Lemma int_writes s z : int_of_str s = Ok z -> exists t, str_of_Z z = Ok t.
Proof.
  unfold int_of_str. destruct (split_sign _) as [neg r]. destruct (us_digits dec_digit true r) as [l|] eqn:U; [|discriminate].
  destruct (N.ltb_spec int_max_str_digits (lenN l)) as [|L]; [discriminate|]. intros E.
  assert (Z.abs_N z = digits_val 10 l) as A.
  { assert (z = signed neg (digits_val 10 l)) as -> by congruence. unfold signed. destruct neg; lia. }
  apply us_digits_lt in U as [F NE]. specialize (NE eq_refl).
  unfold str_of_Z. cbv zeta. rewrite A. destruct (N.ltb_spec int_max_str_digits (lenN (dec_of_N (digits_val 10 l)))) as [Q|Q]; [|eexists; reflexivity].
  exfalso. unfold lenN, dec_of_N in *. rewrite map_length in Q. destruct l as [|d l]; [congruence|].
  pose proof (N_digits_length_le 10 (digits_val 10 (d :: l)) (length l) ltac:(lia) (digits_val_bound _ F)) as B.
  cbn [length] in L. lia.
Qed.
