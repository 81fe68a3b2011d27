(* Theorems about checksums, frames and parse(): C01-C06, C19, C58, C70 *)
From Verif Require Import Message Reader BaseLemmas TextLemmas NumLemmas Spec ParseProofs MessageProofs.
From Coq Require Import Permutation.
Local Open Scope N_scope.

(* a sentence used in the examples *)
Definition gll : pystr := u "$GNGLL,5327.04319,S,00214.41396,E,223232.00,A,A*68" ++ [13; 10].
Definition gll_content : pystr := u "GNGLL,5327.04319,S,00214.41396,E,223232.00,A,A".

Lemma gll_frame : frame gll gll_content (u "68").
Proof. apply frame_strip. reflexivity. Qed.
Lemma gll_checksum : is_checksum gll_content (str_upper (u "68")).
Proof. apply is_checksum_iff. reflexivity. Qed.

(* ------------------------------------------------------------------ C01 *)
Theorem C01_checksum content : is_checksum content (calc_checksum content).
Proof. exact (calc_checksum_is content). Qed.

Theorem C01_checksum_unique content ck1 ck2 :
  is_checksum content ck1 -> is_checksum content ck2 -> ck1 = ck2.
Proof. intros H1 H2. apply is_checksum_iff in H1, H2. congruence. Qed.

Theorem C01_two_digits content :
  Forall (fun c => c < 256) content -> length (calc_checksum content) = 2%nat.
Proof. exact (calc_checksum_length content). Qed.

Theorem C01_any_order content content' :
  Permutation content content' -> calc_checksum content = calc_checksum content'.
Proof. intros P. unfold calc_checksum. rewrite (xor_all_perm _ _ P). reflexivity. Qed.

Example C01_example : calc_checksum gll_content = u "68" /\ calc_checksum [8364] = u "20AC".
Proof. split; reflexivity. Qed.

(* ------------------------------------------------------------------ C02 *)
Lemma no_star_in_checksum content : ~ In star (calc_checksum content).
Proof.
  unfold calc_checksum, fmt_02X, zfill. rewrite in_app_iff. intros [H|H].
  - apply repeat_spec in H. discriminate.
  - pose proof (hex_of_N_ascii (xor_all content)) as F. rewrite Forall_forall in F.
    apply F in H. cbn in H. unfold star in H. lia.
Qed.

Lemma upper_star a b : In star (str_upper (a ++ star :: b)).
Proof.
  rewrite str_upper_app. apply in_or_app. right.
  change (star :: b) with ([star] ++ b). rewrite str_upper_app. apply in_or_app. left. left. reflexivity.
Qed.

Lemma parse_mismatch m s content ck mode v ud :
  text_of m s -> frame s content ck -> wants_checksum v = true -> str_upper ck <> calc_checksum content ->
  parse m mode v ud = Raise NMEAParseError.
Proof.
  intros T F W N. destruct (valid_mode mode) eqn:V; [|apply parse_bad_mode, V].
  destruct (header_exists content) as (t & i & f & H).
  rewrite (parse_frame m s content ck t i f mode v ud T F H V), W.
  apply str_eqb_neq in N. rewrite N. reflexivity.
Qed.

(* one character c of the content replaced by d *)
Theorem C02_substitution pre a c b ck post d m mode v ud :
  frame (pre ++ (a ++ c :: b) ++ [star] ++ ck ++ post) (a ++ c :: b) ck ->
  Forall framing pre -> Forall framing post ->
  is_checksum (a ++ c :: b) (str_upper ck) ->
  d <> c ->
  (* if the first character is replaced by a framing character, it is stripped *)
  (a <> [] \/ ~ framing d \/ (c <> 0 /\ forall x r, b = x :: r -> ~ framing x)) ->
  text_of m (pre ++ (a ++ d :: b) ++ [star] ++ ck ++ post) ->
  wants_checksum v = true ->
  parse m mode v ud = Raise NMEAParseError.
Proof.
  intros F Fpre Fpost Hck Hd Hfirst T W.
  apply is_checksum_iff in Hck.
  assert (~ In star (a ++ c :: b) /\ (forall x r, a ++ c :: b = x :: r -> ~ framing x)
          /\ (forall x r, ck = r ++ [x] -> ~ framing x)) as (Hs & H1 & H2).
  { destruct F as (p & q & _ & _ & _ & X1 & X2 & X3). repeat split; assumption. }
  destruct (N.eq_dec d star) as [->|Nd].
  - (* the content ends at the new star *)
    apply (parse_mismatch m (pre ++ (a ++ star :: b) ++ [star] ++ ck ++ post) a (b ++ [star] ++ ck));
      [exact T| |exact W|].
    + exists pre, post. split; [rewrite <- !app_assoc; cbn; rewrite <- ?app_assoc; reflexivity|].
      split; [exact Fpre|]. split; [exact Fpost|].
      split; [intros H; apply Hs; apply in_or_app; left; exact H|].
      split.
      * intros x r ->. apply (H1 x (r ++ c :: b)). reflexivity.
      * intros x r E. destruct ck as [|k0 k1] using rev_ind.
        -- rewrite app_nil_r in E. apply app_inj_tail in E as [_ <-]. unfold framing, star, dollar, cr, lf. lia.
        -- rewrite !app_assoc in E. apply app_inj_tail in E as [_ <-]. eapply H2. reflexivity.
    + intros E. apply (no_star_in_checksum a). rewrite <- E. cbn [app]. apply upper_star.
  - assert (~ In star (a ++ d :: b)) as Hs'.
    { rewrite in_app_iff in *. cbn in *. intuition congruence. }
    destruct (list_eq_dec N.eq_dec a []) as [->|Na].
    + destruct (in_dec N.eq_dec d [dollar; cr; lf]) as [Fd|Nf].
      * (* stripped: the content is b *)
        assert (framing d) as Fd' by (cbn in Fd; unfold framing; intuition).
        destruct Hfirst as [X|[X|[Nc Nb]]]; [congruence|contradiction|].
        apply (parse_mismatch m _ b ck mode v ud T); [|exact W|].
        -- exists (pre ++ [d]), post. cbn [app]. split; [rewrite <- !app_assoc; reflexivity|].
           split; [apply Forall_app; split; [exact Fpre|constructor; [exact Fd'|constructor]]|].
           split; [exact Fpost|]. split; [intros H; apply Hs; right; exact H|]. split; assumption.
        -- rewrite Hck. cbn [app]. intros E. apply fmt_02X_inj in E. rewrite xor_all_cons in E.
           assert (N.lxor (N.lxor c (xor_all b)) (xor_all b) = 0) as E1 by (rewrite E; apply N.lxor_nilpotent).
           rewrite N.lxor_assoc, N.lxor_nilpotent, N.lxor_0_r in E1. contradiction.
      * apply (parse_mismatch m _ ([] ++ d :: b) ck mode v ud T); [|exact W|].
        -- exists pre, post. repeat (split; [assumption || reflexivity|]). split; [|exact H2].
           intros x r E. cbn in E. injection E as <- _. intros X. apply Nf. cbn. unfold framing in X. intuition.
        -- rewrite Hck. apply calc_checksum_subst. congruence.
    + apply (parse_mismatch m _ (a ++ d :: b) ck mode v ud T); [|exact W|].
      * exists pre, post. repeat (split; [assumption || reflexivity|]). split; [|exact H2].
        intros x r E. destruct a as [|a0 a1]; [contradiction Na; reflexivity|]. cbn in E. injection E as <- <-.
        apply (H1 a0 (a1 ++ c :: b)). reflexivity.
      * rewrite Hck. apply calc_checksum_subst. congruence.
Qed.

(* bytes: one byte of the content of an ASCII sentence replaced by any other *)
Theorem C02_byte_substitution pre a c b ck post d mode v ud x :
  frame (pre ++ (a ++ c :: b) ++ [star] ++ ck ++ post) (a ++ c :: b) ck ->
  Forall framing pre -> Forall framing post ->
  is_checksum (a ++ c :: b) (str_upper ck) ->
  Forall (fun k => k < 128) (pre ++ (a ++ c :: b) ++ [star] ++ ck ++ post) ->
  d <> c -> d < 256 ->
  (a <> [] \/ ~ framing d \/ (c <> 0 /\ forall y r, b = y :: r -> ~ framing y)) ->
  wants_checksum v = true ->
  parse (MBytes (pre ++ (a ++ d :: b) ++ [star] ++ ck ++ post)) mode v ud <> Ok (Some x).
Proof.
  intros F Fpre Fpost Hck Hasc Hd Hb Hfirst W.
  assert (forall l, Forall (fun k => k < 128) l -> forallb (fun k => k <? 128) l = true) as FB.
  { intros l H. apply forallb_forall. intros y Hy. rewrite Forall_forall in H. apply N.ltb_lt, H, Hy. }
  rewrite <- !app_assoc in Hasc. cbn [app] in Hasc.
  assert (Forall (fun k => k < 128) (pre ++ a) /\ Forall (fun k => k < 128) (b ++ [star] ++ ck ++ post)) as [A1 A2].
  { rewrite app_assoc in Hasc. apply Forall_app in Hasc as [X Y]. inversion Y; subst. split; assumption. }
  destruct (N.ltb_spec d 128) as [L|L].
  - rewrite (C02_substitution pre a c b ck post d _ mode v ud F Fpre Fpost Hck Hd Hfirst);
      [discriminate| |exact W].
    cbn [text_of]. apply ascii_utf8, FB.
    replace (pre ++ (a ++ d :: b) ++ [star] ++ ck ++ post) with ((pre ++ a) ++ d :: b ++ [star] ++ ck ++ post)
      by (rewrite <- !app_assoc; cbn; reflexivity).
    apply Forall_app. split; [exact A1|]. constructor; assumption.
  - replace (pre ++ (a ++ d :: b) ++ [star] ++ ck ++ post) with ((pre ++ a) ++ d :: b ++ [star] ++ ck ++ post)
      by (rewrite <- !app_assoc; cbn; reflexivity).
    pose proof (ascii_broken _ d _ (FB _ A1) (FB _ A2) L) as N.
    destruct (valid_mode mode) eqn:V; [|rewrite parse_bad_mode by exact V; discriminate].
    rewrite parse_no_frame; [|intros s T; cbn [text_of] in T; apply utf8_decode_iff in T; congruence|exact V].
    destruct (wants_msgid v); discriminate.
Qed.

(* the first digit of the latitude: 5 -> 6 *)
Example C02_example : parse (MStr (u "$GNGLL,6327.04319,S,00214.41396,E,223232.00,A,A*68" ++ [13;10])) 0 1 [] = Raise NMEAParseError.
Proof.
  apply (C02_substitution (u "$") (u "GNGLL,") 53 (u "327.04319,S,00214.41396,E,223232.00,A,A")
           (u "68") [13;10] 54).
  - exact gll_frame.
  - constructor; [left; reflexivity|constructor].
  - constructor; [right; left; reflexivity|constructor; [right; right; reflexivity|constructor]].
  - exact gll_checksum.
  - discriminate.
  - left. discriminate.
  - reflexivity.
  - reflexivity.
Qed.

(* Without the side condition on the first character the claim is false: '#' in
   front of "\r\n$" is replaced by '$', and the whole run is stripped. *)
Theorem C02_first_character_refuted :
  exists c b ck d x,
    let s k := [dollar] ++ (k :: b) ++ [star] ++ ck in
    frame (s c) (c :: b) ck /\ is_checksum (c :: b) (str_upper ck) /\ d <> c
    /\ parse (MStr (s d)) 0 1 [] = Ok (Some x).
Proof.
  exists 35, ([13; 36; 10] ++ gll_content), (u "68"), 36.
  eexists. cbv zeta. split; [apply frame_strip; reflexivity|].
  split; [apply is_checksum_iff; reflexivity|]. split; [discriminate|]. vm_compute. reflexivity.
Qed.

(* ------------------------------------------------------------------ C03 *)
Theorem C03_gate m mode v ud x :
  wants_checksum v = true -> parse m mode v ud = Ok (Some x) ->
  exists s content ck, text_of m s /\ frame s content ck /\ is_checksum content (str_upper ck).
Proof.
  intros W H. apply parse_Some in H as (_ & s & content & ck & t & i & f & T & F & _ & C & _).
  exists s, content, ck. split; [exact T|]. split; [exact F|]. apply is_checksum_iff, C, W.
Qed.

Theorem C03_mismatch m s content ck mode v ud :
  text_of m s -> frame s content ck -> wants_checksum v = true ->
  ~ is_checksum content (str_upper ck) ->
  parse m mode v ud = Raise NMEAParseError.
Proof.
  intros T F W N. apply (parse_mismatch m s content ck); try assumption.
  intros E. apply N. apply is_checksum_iff, E.
Qed.

Example C03_example :
  (exists x, parse (MStr gll) 0 1 [] = Ok (Some x))
  /\ parse (MStr (gll_content ++ u "*69")) 0 1 [] = Raise NMEAParseError.
Proof.
  split; [eexists; vm_compute; reflexivity|].
  apply (C03_mismatch _ (gll_content ++ u "*69") gll_content (u "69")); [reflexivity| |reflexivity|].
  - apply frame_strip. reflexivity.
  - intros E. apply is_checksum_iff in E. vm_compute in E. discriminate.
Qed.

(* the comparison is made on the upper-cased text: a single ligature passes *)
Theorem C03_ligature_refuted :
  exists content x, is_checksum content (u "FF")
    /\ parse (MStr (content ++ [star; 64256])) 0 1 [] = Ok (Some x) /\ m_checksum x = Some [64256].
Proof.
  exists (u "GNGLL,xxxxxxxxxxx" ++ [229]). eexists.
  split; [apply is_checksum_iff; vm_compute; reflexivity|]. split; vm_compute; reflexivity.
Qed.

(* ------------------------------------------------------------------ C05 *)
Theorem C05_decomposition m p :
  get_parts m = Ok p <->
  exists s, text_of m s /\ frame s (p_content p) (p_cksum p)
            /\ header (p_content p) (p_talker p) (p_msgid p) (p_payload p).
Proof. exact (get_parts_iff m p). Qed.

Theorem C05_unique text c1 k1 t1 i1 f1 c2 k2 t2 i2 f2 :
  frame text c1 k1 -> header c1 t1 i1 f1 -> frame text c2 k2 -> header c2 t2 i2 f2 ->
  c1 = c2 /\ k1 = k2 /\ t1 = t2 /\ i1 = i2 /\ f1 = f2.
Proof.
  intros F1 H1 F2 H2. destruct (frame_functional _ _ _ _ _ F1 F2) as [-> ->].
  destruct (header_functional _ _ _ _ _ _ _ H1 H2) as (-> & -> & ->). repeat split.
Qed.

Theorem C05_succeeds m :
  (exists p, get_parts m = Ok p) <-> (exists s, text_of m s /\ In star s).
Proof.
  split.
  - intros (p & E). apply get_parts_iff in E as (s & T & F & _). exists s. split; [exact T|].
    apply frame_exists. eexists _, _. exact F.
  - intros (s & T & Hs). destruct (get_parts_total m) as [X|E]; [exact X|].
    rewrite get_parts_fails in E. exfalso. exact (E s T Hs).
Qed.

Theorem C05_fails m e : get_parts m = Raise e -> e = NMEAMessageError.
Proof. intros E. destruct (get_parts_total m) as [[p E']|E']; congruence. Qed.

(* parts put together and taken apart *)
Theorem C05_compose talker msgid fields ck :
  let content := talker ++ msgid ++ flat_map (fun f => comma :: f) fields in
  header content talker msgid fields ->
  (forall c, In c content -> ~ framing c /\ c <> star) -> (forall c, In c ck -> ~ framing c) ->
  get_parts (MStr (sentence talker msgid fields ck)) = Ok (mkparts content talker msgid fields ck).
Proof.
  intros content H H1 H2. apply get_parts_iff. eexists. split; [reflexivity|]. cbn [p_content p_cksum p_talker p_msgid p_payload].
  split; [|exact H]. apply sentence_frame.
  - intros X. apply H1 in X as [_ X]. apply X; reflexivity.
  - intros c r E. apply (H1 c). unfold content in *. rewrite E. left. reflexivity.
  - intros c r E. apply H2. rewrite E. apply in_or_app. right. left. reflexivity.
Qed.

Example C05_example :
  get_parts (MBytes gll) = Ok (mkparts gll_content (u "GN") (u "GLL")
     [u "5327.04319"; u "S"; u "00214.41396"; u "E"; u "223232.00"; u "A"; u "A"] (u "68"))
  /\ header gll_content (u "GN") (u "GLL")
     [u "5327.04319"; u "S"; u "00214.41396"; u "E"; u "223232.00"; u "A"; u "A"].
Proof. split; [vm_compute; reflexivity|]. apply header_get. vm_compute. repeat split; reflexivity. Qed.

(* ------------------------------------------------------------------ C06 *)
Theorem C06_malformed m mode v ud :
  (mode = 0 \/ mode = 1 \/ mode = 2)%Z ->
  (forall s, text_of m s -> ~ In star s) ->
  parse m mode v ud = if wants_msgid v then Raise NMEAParseError else Ok None.
Proof. intros V H. apply parse_no_frame; [exact H|apply valid_mode_iff, V]. Qed.

Theorem C06_bad_utf8 b mode v ud :
  (mode = 0 \/ mode = 1 \/ mode = 2)%Z ->
  (forall s, utf8_encode s <> Ok b) ->
  parse (MBytes b) mode v ud = if wants_msgid v then Raise NMEAParseError else Ok None.
Proof. intros V H. apply C06_malformed; [exact V|]. intros s T. elim (H s T). Qed.

Example C06_example :
  parse (MBytes [36; 71; 255; 42; 48; 48]) 0 1 [] = Ok None
  /\ parse (MBytes [36; 71; 255; 42; 48; 48]) 0 3 [] = Raise NMEAParseError.
Proof.
  split; (rewrite C06_bad_utf8; [reflexivity|auto|]); apply utf8_decode_None; reflexivity.
Qed.

(* ------------------------------------------------------------------ C19 *)
Theorem C19_parse m mode v ud :
  ~ (mode = 0 \/ mode = 1 \/ mode = 2)%Z -> parse m mode v ud = Raise NMEAParseError.
Proof.
  intros H. apply parse_bad_mode. destruct (valid_mode mode) eqn:V; [|reflexivity].
  elim H. apply valid_mode_iff, V.
Qed.
Theorem C19_message ck talker msgid mode hp v ud cks pl kw :
  ~ (mode = 0 \/ mode = 1 \/ mode = 2)%Z ->
  NMEAMessage ck talker msgid mode hp v ud cks pl kw = Raise NMEAMessageError.
Proof.
  intros H. unfold NMEAMessage. destruct (valid_mode mode) eqn:V; [|reflexivity].
  elim H. apply valid_mode_iff, V.
Qed.
(* and the three modes are accepted *)
Theorem C19_accepted mode :
  (mode = 0 \/ mode = 1 \/ mode = 2)%Z ->
  exists x, parse (MStr (u "$GPZZZ*" ++ calc_checksum (u "GPZZZ"))) mode 1 [] = Ok (Some x).
Proof. intros [->|[->| ->]]; eexists; vm_compute; reflexivity. Qed.

Example C19_example : parse (MStr gll) 3 1 [] = Raise NMEAParseError /\ (exists x, parse (MStr gll) 0 1 [] = Ok (Some x)).
Proof. split; [vm_compute; reflexivity|]. eexists. vm_compute. reflexivity. Qed.

(* ------------------------------------------------------------------ C58 *)
Theorem C58_transparent b s : utf8_decode b = Some s <-> utf8_encode s = Ok b.
Proof. exact (utf8_decode_iff b s). Qed.
Theorem C58_ascii b : Forall (fun c => c < 128) b -> utf8_decode b = Some b.
Proof.
  intros H. apply utf8_decode_iff, ascii_utf8, forallb_forall.
  intros y Hy. rewrite Forall_forall in H. apply N.ltb_lt, H, Hy.
Qed.
(* the text get_parts works on is a piece of the input, byte for byte *)
Theorem C58_content b p :
  get_parts (MBytes b) = Ok p ->
  exists pre content ck post,
    b = pre ++ content ++ [star] ++ ck ++ post
    /\ utf8_encode (p_content p) = Ok content /\ utf8_encode (p_cksum p) = Ok ck
    /\ Forall framing pre /\ Forall framing post.
Proof.
  intros E. apply get_parts_iff in E as (s & T & (pre & post & -> & F1 & F2 & _) & _).
  cbn [text_of] in T. unfold utf8_encode in *.
  destruct (forallb is_scalar _) eqn:S; [|discriminate]. injection T as <-.
  rewrite !forallb_app in S. apply andb_true_iff in S as (S1 & S).
  apply andb_true_iff in S as (S2 & S). apply andb_true_iff in S as (S3 & S).
  apply andb_true_iff in S as (S4 & S5).
  exists pre, (flat_map utf8_char (p_content p)), (flat_map utf8_char (p_cksum p)), post.
  assert (forall l, Forall framing l -> flat_map utf8_char l = l) as Id.
  { induction 1 as [|c l Hc _ IH]; [reflexivity|]. cbn [flat_map]. rewrite IH.
    destruct Hc as [->|[->| ->]]; reflexivity. }
  rewrite S2, S4. split; [|repeat split; assumption].
  rewrite flat_map_app, (Id _ F1). f_equal. rewrite flat_map_app. f_equal.
  cbn [app flat_map]. rewrite flat_map_app. rewrite (Id _ F2). reflexivity.
Qed.
Example C58_example : utf8_decode [226; 130; 172] = Some [8364] /\ utf8_decode [237; 160; 128] = None.
Proof. split; reflexivity. Qed.

(* ------------------------------------------------------------------ C70 *)
(* bytes and str input of the same text give the same result *)
Theorem C70_bytes_or_str m1 m2 s mode v ud :
  text_of m1 s -> text_of m2 s -> parse m1 mode v ud = parse m2 mode v ud.
Proof.
  intros T1 T2. unfold parse. rewrite (get_parts_text m1 s T1), (get_parts_text m2 s T2). reflexivity.
Qed.
(* ... so of every encodable text *)
Theorem C70_encoded s b mode v ud :
  utf8_encode s = Ok b -> parse (MBytes b) mode v ud = parse (MStr s) mode v ud.
Proof. intros E. apply (C70_bytes_or_str _ _ s); [exact E|reflexivity]. Qed.
Example C70_example : utf8_encode gll = Ok gll.
Proof. reflexivity. Qed.
