(* Proofs about checksums, frames and parse(). *)
From Verif Require Import Reader BaseLemmas TextLemmas NumLemmas Spec.
From Coq Require Import Permutation.
Local Open Scope N_scope.

(* ------------------------------------------------------------- numerals *)
Lemma hex_char_digit d : d < 16 -> hex_char d = digit_char d.
Proof.
  intros H. unfold digit_char. 
  assert (forallb (fun k => hex_char k =? nth (N.to_nat k) (u "0123456789ABCDEF") 0)
            (map N.of_nat (seq 0 16)) = true) as G by reflexivity.
  rewrite forallb_forall in G. apply N.eqb_eq, G. apply in_map_iff. exists (N.to_nat d).
  split; [lia|]. apply in_seq. lia.
Qed.
Lemma dec_char_digit d : d < 10 -> dec_char d = digit_char d.
Proof.
  intros H. rewrite <- hex_char_digit by lia. unfold hex_char, dec_char. destruct (N.ltb_spec d 10); lia.
Qed.

Lemma numeral_of_digits b f n :
  2 <= b -> (forall d, d < b -> f d = digit_char d) -> numeral b n (map f (N_digits b n)).
Proof.
  intros Hb Hf.
  revert n. refine (well_founded_ind N.lt_wf_0 _ _). intros n IH.
  destruct (N.ltb_spec n b) as [L|L].
  - rewrite N_digits_small by exact L. cbn. rewrite Hf by exact L. constructor. exact L.
  - replace (N_digits b n) with (N_digits b (n / b * b + n mod b)).
    2:{ f_equal. rewrite (N.div_mod n b) at 3 by lia. lia. }
    assert (0 < n / b) as P.
    { assert (n / b <> 0); [|lia]. intros E. apply N.div_small_iff in E; lia. }
    rewrite N_digits_snoc; [|exact Hb|exact P|apply N.mod_lt; lia].
    rewrite map_app. cbn. rewrite Hf by (apply N.mod_lt; lia).
    replace n with (n / b * b + n mod b) at 1 by (rewrite (N.div_mod n b) at 3 by lia; lia).
    constructor; [|exact P|apply N.mod_lt; lia].
    apply IH. apply N.div_lt; lia.
Qed.
Lemma hex_of_N_numeral n : numeral 16 n (hex_of_N n).
Proof. apply numeral_of_digits; [lia|exact hex_char_digit]. Qed.
Lemma dec_of_N_numeral n : numeral 10 n (dec_of_N n).
Proof. apply numeral_of_digits; [lia|exact dec_char_digit]. Qed.

Lemma numeral_hex n s : numeral 16 n s -> s = hex_of_N n.
Proof.
  induction 1 as [d H|n d s _ IH P H]; unfold hex_of_N in *.
  - rewrite N_digits_small by exact H. cbn. rewrite hex_char_digit by exact H. reflexivity.
  - rewrite N_digits_snoc by (lia || assumption). rewrite map_app, <- IH. cbn.
    rewrite hex_char_digit by exact H. reflexivity.
Qed.
Lemma numeral_dec n s : numeral 10 n s -> s = dec_of_N n.
Proof.
  induction 1 as [d H|n d s _ IH P H]; unfold dec_of_N in *.
  - rewrite N_digits_small by exact H. cbn. rewrite dec_char_digit by exact H. reflexivity.
  - rewrite N_digits_snoc by (lia || assumption). rewrite map_app, <- IH. cbn.
    rewrite dec_char_digit by exact H. reflexivity.
Qed.

(* ------------------------------------------------------------- checksum *)
Lemma xor_acc l a : fold_left (fun ck c => N.lxor ck c) l a = N.lxor a (xor_all l).
Proof.
  unfold xor_all. revert a; induction l as [|c l IH]; intros a; cbn.
  - rewrite N.lxor_0_r. reflexivity.
  - rewrite IH, (IH (N.lxor 0 c)), N.lxor_0_l, N.lxor_assoc. reflexivity.
Qed.
Lemma xor_all_cons c l : xor_all (c :: l) = N.lxor c (xor_all l).
Proof. unfold xor_all at 1. cbn. rewrite xor_acc, N.lxor_0_l. reflexivity. Qed.
Lemma xor_all_app a b : xor_all (a ++ b) = N.lxor (xor_all a) (xor_all b).
Proof. unfold xor_all at 1. rewrite fold_left_app, xor_acc. reflexivity. Qed.
Lemma xor_all_parity l i : N.testbit (xor_all l) i = parity i l.
Proof.
  induction l as [|c l IH]; [apply N.bits_0|].
  rewrite xor_all_cons, N.lxor_spec, IH. reflexivity.
Qed.
Lemma xor_all_bound l k : Forall (fun c => c < 2 ^ k) l -> xor_all l < 2 ^ k.
Proof.
  assert (forall a, (forall i, k <= i -> N.testbit a i = false) -> a < 2 ^ k) as B.
  { intros a H. destruct (N.eq_dec a 0) as [->|E].
    - assert (2 ^ k <> 0) by (apply N.pow_nonzero; lia). lia.
    - apply N.log2_lt_pow2; [lia|]. destruct (N.lt_ge_cases (N.log2 a) k) as [L|L]; [exact L|].
      specialize (H _ L). rewrite N.bit_log2 in H by exact E. discriminate. }
  intros F. apply B. intros i Hi. rewrite xor_all_parity.
  induction F as [|c l H _ IH]; [reflexivity|]. cbn. rewrite IH.
  replace (N.testbit c i) with false; [reflexivity|]. symmetry.
  destruct (N.eq_dec c 0) as [->|E]; [apply N.bits_0|].
  apply N.bits_above_log2. apply N.log2_lt_pow2 in H; [lia|lia].
Qed.
Lemma xor_all_perm a b : Permutation a b -> xor_all a = xor_all b.
Proof.
  induction 1 as [|c l l' _ IH|c d l|l l' l'' _ IH1 _ IH2]; [reflexivity|..].
  - rewrite !xor_all_cons, IH. reflexivity.
  - rewrite !xor_all_cons, <- !N.lxor_assoc, (N.lxor_comm c d). reflexivity.
  - congruence.
Qed.

Lemma calc_checksum_is content : is_checksum content (calc_checksum content).
Proof.
  exists (xor_all content), (hex_of_N (xor_all content)).
  split; [apply xor_all_parity|]. split; [apply hex_of_N_numeral|reflexivity].
Qed.
Lemma is_checksum_iff content ck : is_checksum content ck <-> ck = calc_checksum content.
Proof.
  split; [|intros ->; apply calc_checksum_is].
  intros (n & d & Hb & Hn & ->). apply numeral_hex in Hn. subst d.
  replace n with (xor_all content); [reflexivity|].
  apply N.bits_inj. intros i. rewrite xor_all_parity, Hb. reflexivity.
Qed.

Lemma calc_checksum_length content :
  Forall (fun c => c < 256) content -> length (calc_checksum content) = 2%nat.
Proof.
  intros H. unfold calc_checksum, fmt_02X. rewrite zfill_length.
  unfold hex_of_N. rewrite map_length.
  pose proof (N_digits_length_le 16 (xor_all content) 1) as L. cbn [N.of_nat] in L.
  assert (length (N_digits 16 (xor_all content)) <= 2)%nat; [|lia].
  apply L; [lia|]. apply (xor_all_bound content 8), H.
Qed.

Lemma calc_checksum_upper content : str_upper (calc_checksum content) = calc_checksum content.
Proof. apply str_upper_id, fmt_02X_upper. Qed.

Lemma calc_checksum_subst a c d b :
  c <> d -> calc_checksum (a ++ c :: b) <> calc_checksum (a ++ d :: b).
Proof.
  intros N E. apply fmt_02X_inj in E. rewrite !xor_all_app, !xor_all_cons in E.
  assert (N.lxor c (xor_all b) = N.lxor d (xor_all b)) as E1.
  { rewrite <- (N.lxor_0_l (N.lxor c _)), <- (N.lxor_nilpotent (xor_all a)), N.lxor_assoc, E,
      <- N.lxor_assoc, N.lxor_nilpotent, N.lxor_0_l. reflexivity. }
  apply N. rewrite <- (N.lxor_0_r c), <- (N.lxor_nilpotent (xor_all b)), <- N.lxor_assoc, E1, N.lxor_assoc,
    N.lxor_nilpotent, N.lxor_0_r. reflexivity.
Qed.

Lemma comma_fold talker msgID fields :
  fold_left (fun content field => content ++ [c_comma] ++ field) fields (talker ++ msgID)
  = talker ++ msgID ++ flat_map (fun f => comma :: f) fields.
Proof. rewrite (flat_map_fold fields [c_comma] (fun x => x)), <- app_assoc. reflexivity. Qed.

Lemma generate_checksum_calc talker msgID fields :
  generate_checksum talker msgID fields
  = calc_checksum (talker ++ msgID ++ flat_map (fun f => comma :: f) fields).
Proof. unfold generate_checksum. rewrite comma_fold. reflexivity. Qed.

(* --------------------------------------------------------------- frames *)
Definition strip_pred : N -> bool := fun c => memc c [c_dollar; c_cr; c_lf].
Lemma strip_pred_iff c : strip_pred c = true <-> framing c.
Proof. unfold strip_pred. rewrite memc_iff. unfold framing, dollar, cr, lf, c_dollar, c_cr, c_lf. cbn. intuition lia. Qed.
Lemma strip_pred_false c : strip_pred c = false <-> ~ framing c.
Proof. rewrite <- strip_pred_iff. destruct (strip_pred c); split; congruence. Qed.
Lemma forallb_framing l : forallb strip_pred l = true <-> Forall framing l.
Proof.
  rewrite forallb_forall, Forall_forall. split; intros H x Hx; apply strip_pred_iff, H, Hx.
Qed.

Lemma clean_ends_frame content ck :
  clean_ends strip_pred (content ++ star :: ck) <->
  (forall c r, content = c :: r -> ~ framing c) /\ (forall c r, ck = r ++ [c] -> ~ framing c).
Proof.
  unfold clean_ends. split.
  - intros [H1 H2]. split.
    + intros c r ->. cbn in H1. apply strip_pred_false, H1.
    + intros c r ->. rewrite rev_app_distr in H2. cbn in H2. rewrite rev_app_distr in H2. cbn in H2.
      apply strip_pred_false, H2.
  - intros [H1 H2]. split.
    + destruct content as [|c r]; cbn; [reflexivity|]. apply strip_pred_false. eapply H1. reflexivity.
    + rewrite rev_app_distr. cbn. destruct ck as [|c r _] using rev_ind; cbn; [reflexivity|].
      rewrite rev_app_distr. cbn. apply strip_pred_false. eapply H2. reflexivity.
Qed.

Lemma frame_strip text content ck :
  frame text content ck <->
  split_first c_star (strip_chars [c_dollar; c_cr; c_lf] text) = Some (content, ck).
Proof.
  change (strip_chars [c_dollar; c_cr; c_lf] text) with (strip_if strip_pred text).
  rewrite split_first_Some. split.
  - intros (pre & post & -> & H1 & H2 & H3 & H4 & H5). split; [|exact H3].
    replace (pre ++ content ++ [star] ++ ck ++ post) with (pre ++ (content ++ star :: ck) ++ post)
      by (rewrite <- !app_assoc; reflexivity).
    apply strip_if_wrap; [apply forallb_framing, H1|apply forallb_framing, H2| |destruct content; discriminate].
    apply clean_ends_frame. split; assumption.
  - intros [E H3]. destruct (strip_if_spec strip_pred text) as (pre & post & E1 & H1 & H2 & C).
    rewrite E in E1, C. apply clean_ends_frame in C as [C1 C2].
    exists pre, post. rewrite forallb_framing in H1, H2.
    split; [rewrite E1, <- !app_assoc; reflexivity|]. repeat split; assumption.
Qed.

Lemma frame_functional text c1 k1 c2 k2 : frame text c1 k1 -> frame text c2 k2 -> c1 = c2 /\ k1 = k2.
Proof. rewrite !frame_strip. intros H1 H2. rewrite H1 in H2. injection H2 as <- <-. split; reflexivity. Qed.

Lemma frame_exists text : In star text <-> exists content ck, frame text content ck.
Proof.
  split.
  - intros H. destruct (split_first c_star (strip_chars [c_dollar; c_cr; c_lf] text)) as [[a b]|] eqn:E.
    + exists a, b. apply frame_strip, E.
    + exfalso. apply split_first_None in E. apply E.
      destruct (strip_if_spec strip_pred text) as (pre & post & E1 & H1 & H2 & C).
      rewrite E1 in H. rewrite !in_app_iff in H. destruct H as [H|[H|H]]; [|exact H|].
      * rewrite forallb_forall in H1. specialize (H1 _ H). discriminate.
      * rewrite forallb_forall in H2. specialize (H2 _ H). discriminate.
  - intros (content & ck & pre & post & -> & _). rewrite !in_app_iff. right; right; left. left. reflexivity.
Qed.

Lemma header_get content talker msgid fields :
  header content talker msgid fields <->
  match split_all c_comma content with
  | [] => False
  | hdr :: payload =>
      let s := if str_eqb (firstn 1 hdr) (u "P") then 1%nat else 2%nat in
      talker = firstn s hdr /\ msgid = skipn s hdr /\ fields = payload
  end.
Proof.
  unfold header. change (u "P") with [80]. split.
  - intros (-> & H1 & H2 & H3 & H4).
    assert (split_all c_comma (talker ++ msgid ++ flat_map (fun f => comma :: f) fields) = (talker ++ msgid) :: fields) as ->.
    { rewrite app_assoc. apply (split_all_build c_comma (talker ++ msgid) fields); [rewrite in_app_iff; tauto|exact H3]. }
    cbv zeta. destruct H4 as [->|[N L]].
    + cbn. repeat split.
    + destruct talker as [|a [|b [|c t]]].
      * destruct L as [L|[_ ->]]; [discriminate|]. repeat split.
      * destruct L as [L|[_ ->]]; [discriminate|]. cbn in N.
        cbn. replace (a =? 80) with false by lia. cbn. repeat split.
      * cbn in N. cbn. replace (a =? 80) with false by lia. cbn. repeat split.
      * cbn in L. lia.
  - pose proof (split_all_parts c_comma content) as P.
    destruct (split_all c_comma content) as [|hdr payload] eqn:E; [contradiction|].
    cbv zeta. intros (-> & -> & ->). apply split_all_rebuild in E. inversion P as [|? ? P1 P2]; subst.
    set (s := if str_eqb (firstn 1 hdr) [80] then 1%nat else 2%nat).
    split; [rewrite app_assoc, firstn_skipn; reflexivity|].
    split; [intros H; apply P1; rewrite <- (firstn_skipn s hdr), in_app_iff; tauto|].
    split; [intros H; apply P1; rewrite <- (firstn_skipn s hdr), in_app_iff; tauto|].
    split; [exact P2|].
    destruct (str_eqb_spec (firstn 1 hdr) [80]) as [E|N]; subst s; [left; exact E|right].
    destruct hdr as [|a [|b r]]; cbn in *.
    + split; [discriminate|]. right. split; [lia|reflexivity].
    + split; [intros ->; apply N; reflexivity|]. right. split; [lia|reflexivity].
    + split; [intros ->; apply N; reflexivity|]. left. reflexivity.
Qed.

Lemma header_exists content : exists talker msgid fields, header content talker msgid fields.
Proof.
  destruct (split_all c_comma content) as [|h p] eqn:E; [exfalso; eapply split_all_nonempty, E|].
  eexists _, _, _. apply header_get. rewrite E. cbv zeta. repeat split; reflexivity.
Qed.
Lemma header_functional content t1 m1 f1 t2 m2 f2 :
  header content t1 m1 f1 -> header content t2 m2 f2 -> t1 = t2 /\ m1 = m2 /\ f1 = f2.
Proof.
  rewrite !header_get. destruct (split_all c_comma content); [contradiction|].
  cbv zeta. intros (-> & -> & ->) (-> & -> & ->). repeat split.
Qed.

Lemma get_parts_str_iff s p :
  get_parts_str s = Ok p <->
  frame s (p_content p) (p_cksum p) /\ header (p_content p) (p_talker p) (p_msgid p) (p_payload p).
Proof.
  unfold get_parts_str. rewrite frame_strip, header_get.
  destruct (split_first c_star (strip_chars [c_dollar; c_cr; c_lf] s)) as [[content ck]|] eqn:E.
  - destruct (split_all c_comma content) as [|h t] eqn:E2; [exfalso; eapply split_all_nonempty, E2|].
    cbv zeta. split.
    + intros [= <-]. cbn [p_content p_cksum p_talker p_msgid p_payload]. split; [reflexivity|].
      rewrite E2. repeat split.
    + destruct p as [pc pt pm pp pk]. cbn [p_content p_cksum p_talker p_msgid p_payload].
      intros [[= <- <-] H]. rewrite E2 in H. destruct H as (-> & -> & ->). reflexivity.
  - split; [discriminate|]. intros [H _]. discriminate.
Qed.
Lemma get_parts_str_total s : (exists p, get_parts_str s = Ok p) \/ get_parts_str s = Raise NMEAMessageError.
Proof.
  unfold get_parts_str. destruct (split_first c_star _) as [[content ck]|]; [|right; reflexivity].
  destruct (split_all c_comma content); [right; reflexivity|left; eexists; reflexivity].
Qed.

Lemma text_of_functional m s1 s2 : text_of m s1 -> text_of m s2 -> s1 = s2.
Proof.
  destruct m as [b|t|]; cbn; [|congruence|contradiction].
  intros H1 H2. apply utf8_decode_iff in H1. apply utf8_decode_iff in H2. congruence.
Qed.

Lemma get_parts_text m s : text_of m s -> get_parts m = get_parts_str s.
Proof.
  destruct m as [b|t|]; cbn; [|congruence|contradiction].
  intros H. apply utf8_decode_iff in H. rewrite H. reflexivity.
Qed.
Lemma get_parts_no_text m : (forall s, ~ text_of m s) -> get_parts m = Raise NMEAMessageError.
Proof.
  destruct m as [b|t|]; cbn; intros H; [|exfalso; eapply H; reflexivity|reflexivity].
  destruct (utf8_decode b) as [s|] eqn:E; [|reflexivity].
  exfalso. apply utf8_decode_iff in E. eapply H, E.
Qed.
Lemma text_of_dec m : (exists s, text_of m s) \/ (forall s, ~ text_of m s).
Proof.
  destruct m as [b|t|]; cbn.
  - destruct (utf8_decode b) as [s|] eqn:E.
    + left. exists s. apply utf8_decode_iff, E.
    + right. apply utf8_decode_None, E.
  - left. eexists. reflexivity.
  - right. tauto.
Qed.

Lemma get_parts_iff m p :
  get_parts m = Ok p <->
  exists s, text_of m s /\ frame s (p_content p) (p_cksum p)
            /\ header (p_content p) (p_talker p) (p_msgid p) (p_payload p).
Proof.
  split.
  - intros H. destruct (text_of_dec m) as [(s & T)|N].
    + exists s. split; [exact T|]. rewrite (get_parts_text m s T) in H. apply get_parts_str_iff, H.
    + rewrite get_parts_no_text in H by exact N. discriminate.
  - intros (s & T & H). rewrite (get_parts_text m s T). apply get_parts_str_iff, H.
Qed.
Lemma get_parts_total m : (exists p, get_parts m = Ok p) \/ get_parts m = Raise NMEAMessageError.
Proof.
  destruct (text_of_dec m) as [(s & T)|N].
  - rewrite (get_parts_text m s T). apply get_parts_str_total.
  - right. apply get_parts_no_text, N.
Qed.
Lemma get_parts_fails m :
  get_parts m = Raise NMEAMessageError <-> forall s, text_of m s -> ~ In star s.
Proof.
  split.
  - intros H s T Hs. apply frame_exists in Hs as (content & ck & F).
    destruct (header_exists content) as (t & i & f & Hd).
    assert (get_parts m = Ok (mkparts content t i f ck)) as E.
    { apply get_parts_iff. exists s. cbn. split; [assumption|]. split; assumption. }
    congruence.
  - intros H. destruct (get_parts_total m) as [(p & E)|E]; [|exact E].
    pose proof E as E'. apply get_parts_iff in E' as (s & T & F & _).
    exfalso. apply (H s T). apply frame_exists. eexists _, _. exact F.
Qed.

(* ---------------------------------------------------------------- flags *)
Lemma has_flag_checksum v : has_flag v VALCKSUM = wants_checksum v.
Proof.
  unfold has_flag, VALCKSUM, wants_checksum.
  assert (Z.land v 1 = if Z.testbit v 0 then 1 else 0)%Z as ->; [|destruct (Z.testbit v 0); reflexivity].
  apply Z.bits_inj'. intros i Hi. rewrite Z.land_spec.
  destruct (Z.eq_dec i 0) as [->|Ne].
  - destruct (Z.testbit v 0); reflexivity.
  - replace (Z.testbit 1 i) with false; [rewrite andb_false_r|].
    + destruct (Z.testbit v 0); [|symmetry; apply Z.bits_0]. symmetry. apply Z.bits_above_log2; cbn; lia.
    + symmetry. apply Z.bits_above_log2; cbn; lia.
Qed.
Lemma has_flag_msgid v : has_flag v VALMSGID = wants_msgid v.
Proof.
  unfold has_flag, VALMSGID, wants_msgid.
  assert (Z.land v 2 = if Z.testbit v 1 then 2 else 0)%Z as ->; [|destruct (Z.testbit v 1); reflexivity].
  apply Z.bits_inj'. intros i Hi. rewrite Z.land_spec.
  destruct (Z.eq_dec i 1) as [->|Ne].
  - destruct (Z.testbit v 1); reflexivity.
  - replace (Z.testbit 2 i) with false.
    + rewrite andb_false_r. destruct (Z.testbit v 1); [|symmetry; apply Z.bits_0].
      symmetry. destruct (Z.eq_dec i 0) as [->|]; [reflexivity|]. apply Z.bits_above_log2; cbn; lia.
    + symmetry. destruct (Z.eq_dec i 0) as [->|]; [reflexivity|]. apply Z.bits_above_log2; cbn; lia.
Qed.
Lemma valid_mode_iff m : valid_mode m = true <-> (m = 0 \/ m = 1 \/ m = 2)%Z.
Proof. unfold valid_mode. lia. Qed.

(* parse in two steps: the frame, and the message constructor *)
Definition parse_tail (v : Z) (r : result msg) : result (option msg) :=
  match r with
  | Ok m => Ok (Some m)
  | Raise NMEAMessageError => if wants_msgid v then Raise NMEAParseError else Ok None
  | Raise e => Raise e
  end.

Lemma parse_frame m s content ck talker msgid fields mode v ud :
  text_of m s -> frame s content ck -> header content talker msgid fields -> valid_mode mode = true ->
  parse m mode v ud =
    if wants_checksum v && negb (str_eqb (str_upper ck) (calc_checksum content)) then Raise NMEAParseError
    else parse_tail v (NMEAMessage no_clock talker msgid mode false v ud (Some ck) (Some fields) []).
Proof.
  intros T F H V. unfold parse. rewrite V. cbn [negb].
  assert (get_parts m = Ok (mkparts content talker msgid fields ck)) as ->.
  { apply get_parts_iff. exists s. cbn. split; [assumption|]. split; assumption. }
  cbn [bind p_cksum p_content p_talker p_msgid p_payload].
  rewrite has_flag_checksum, has_flag_msgid. unfold parse_tail.
  destruct (wants_checksum v && negb (str_eqb (str_upper ck) (calc_checksum content))); reflexivity.
Qed.

Lemma parse_no_frame m mode v ud :
  (forall s, text_of m s -> ~ In star s) -> valid_mode mode = true ->
  parse m mode v ud = if wants_msgid v then Raise NMEAParseError else Ok None.
Proof.
  intros H V. unfold parse. rewrite V. cbn [negb]. apply get_parts_fails in H. rewrite H. cbn [bind].
  rewrite has_flag_msgid. reflexivity.
Qed.

Lemma parse_bad_mode m mode v ud : valid_mode mode = false -> parse m mode v ud = Raise NMEAParseError.
Proof. intros V. unfold parse. rewrite V. reflexivity. Qed.

(* every message comes from a frame *)
Lemma parse_Some m mode v ud x :
  parse m mode v ud = Ok (Some x) ->
  valid_mode mode = true /\ exists s content ck talker msgid fields,
    text_of m s /\ frame s content ck /\ header content talker msgid fields
    /\ (wants_checksum v = true -> str_upper ck = calc_checksum content)
    /\ NMEAMessage no_clock talker msgid mode false v ud (Some ck) (Some fields) [] = Ok x.
Proof.
  intros H. destruct (valid_mode mode) eqn:V; [|rewrite parse_bad_mode in H by exact V; discriminate].
  split; [reflexivity|].
  destruct (get_parts_total m) as [(p & E)|E].
  - apply get_parts_iff in E as (s & T & F & Hd).
    exists s, (p_content p), (p_cksum p), (p_talker p), (p_msgid p), (p_payload p).
    rewrite (parse_frame m s _ _ _ _ _ mode v ud T F Hd V) in H.
    destruct (wants_checksum v && negb (str_eqb (str_upper (p_cksum p)) (calc_checksum (p_content p)))) eqn:C;
      [discriminate|].
    repeat (split; [assumption|]). split.
    + intros W. rewrite W in C. cbn in C. apply negb_false_iff, str_eqb_eq in C. exact C.
    + unfold parse_tail in H.
      destruct (NMEAMessage _ _ _ _ _ _ _ _ _ _) as [y|e]; [congruence|].
      destruct e; try discriminate. destruct (wants_msgid v); discriminate.
  - pose proof (proj1 (get_parts_fails m) E) as E'. rewrite parse_no_frame in H by assumption. destruct (wants_msgid v); discriminate.
Qed.

(* the sentence built from its parts *)
Lemma sentence_frame talker msgid fields ck :
  let content := talker ++ msgid ++ flat_map (fun f => comma :: f) fields in
  ~ In star content ->
  (forall c r, content = c :: r -> ~ framing c) -> (forall c r, ck = r ++ [c] -> ~ framing c) ->
  frame (sentence talker msgid fields ck) content ck.
Proof.
  intros content H1 H2 H3. exists [dollar], [cr; lf]. unfold sentence, content.
  split; [rewrite <- !app_assoc; reflexivity|].
  split; [constructor; [left; reflexivity|constructor]|].
  split; [constructor; [right; left; reflexivity|constructor; [right; right; reflexivity|constructor]]|].
  repeat split; assumption.
Qed.

Lemma calc_checksum_clean content c r : calc_checksum content = r ++ [c] -> ~ framing c.
Proof.
  intros E. pose proof (fmt_02X_upper (xor_all content)) as H. fold (calc_checksum content) in H.
  assert (Forall (fun c => 48 <= c) (calc_checksum content)) as F.
  { unfold calc_checksum, fmt_02X, zfill. apply Forall_app. split.
    - apply Forall_forall. intros x Hx. apply repeat_spec in Hx. lia.
    - eapply Forall_impl; [|apply hex_of_N_ascii]. cbn. intros; lia. }
  rewrite E in F. apply Forall_app in F as [_ F]. inversion F; subst. unfold framing, dollar, cr, lf. lia.
Qed.
