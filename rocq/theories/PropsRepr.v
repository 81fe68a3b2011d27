(* C57: the text of repr(msg) is an expression that reconstructs the message *)
From Coq Require Import Lia.
From Verif Require Import Message Reader BaseLemmas TextLemmas NumLemmas Spec ParseProofs MessageProofs
  SelectProofs DecodeProofs TableProofs StreamProofs PropsMessage PropsObject UniPrint Repr ReprSpec.
Local Open Scope N_scope.

Definition code_points (s : pystr) : Prop := Forall (fun c => c < 1114112) s.

(* ------------------------------------------------------------ escapes *)
Lemma hex_digit_value d : d < 16 -> hex_value (if d <? 10 then 48 + d else 87 + d) = Some d.
Proof.
  intros H. unfold hex_value. destruct (N.ltb_spec d 10).
  - replace ((48 <=? 48 + d) && (48 + d <=? 57)) with true; [f_equal; lia|].
    symmetry. rewrite andb_true_iff, !N.leb_le. lia.
  - replace ((48 <=? 87 + d) && (87 + d <=? 57)) with false.
    2:{ symmetry. rewrite andb_false_iff, !N.leb_gt. lia. }
    replace ((65 <=? 87 + d) && (87 + d <=? 70)) with false.
    2:{ symmetry. rewrite andb_false_iff, !N.leb_gt. lia. }
    replace ((97 <=? 87 + d) && (87 + d <=? 102)) with true; [f_equal; lia|].
    symmetry. rewrite andb_true_iff, !N.leb_le. lia.
Qed.
Lemma hex_number_app a b acc :
  hex_number acc (a ++ b) = match hex_number acc a with Some n => hex_number n b | None => None end.
Proof. revert acc. induction a as [|d a IH]; intros acc; cbn [app hex_number]; [reflexivity|]. destruct (hex_value d); auto. Qed.
Lemma hexw_length w c : length (hexw w c) = w.
Proof. revert c. induction w as [|w IH]; intros c; cbn [hexw]; [reflexivity|]. rewrite app_length, IH. cbn. lia. Qed.
Lemma hexw_value w c acc : c < 16 ^ N.of_nat w -> hex_number acc (hexw w c) = Some (acc * 16 ^ N.of_nat w + c).
Proof.
  revert c. induction w as [|w IH]; intros c H.
  - cbn [hexw hex_number]. change (16 ^ N.of_nat 0) with 1 in *. f_equal. lia.
  - cbn [hexw]. rewrite Nat2N.inj_succ, N.pow_succ_r' in *. rewrite hex_number_app, IH.
    2:{ apply N.div_lt_upper_bound; lia. }
    cbn [hex_number]. rewrite hex_digit_value by (apply N.mod_lt; lia). f_equal.
    pose proof (N.div_mod c 16 ltac:(lia)). lia.
Qed.
Lemma printable_source c : chr_isprintable c = true -> 127 <= c -> c < 1114112 -> source_char c = true.
Proof.
  intros P L B. unfold source_char. rewrite (proj2 (N.eqb_neq c 0)), (proj2 (N.eqb_neq c 10)), (proj2 (N.eqb_neq c 13)), (proj2 (N.ltb_lt _ _) B) by lia.
  destruct ((55296 <=? c) && (c <=? 57343)) eqn:S; [exfalso|reflexivity].
  rewrite andb_true_iff, !N.leb_le in S. unfold chr_isprintable in P. apply negb_true_iff in P.
  assert (existsb (fun r => (fst r <=? 55296) && (57343 <=? snd r)) nonprintable_ranges = true) as X by (vm_compute; reflexivity).
  apply existsb_exists in X. destruct X as (r & I & X). rewrite andb_true_iff, !N.leb_le in X.
  assert (in_ranges nonprintable_ranges c = true); [|congruence].
  apply existsb_exists. exists r. split; [exact I|]. rewrite andb_true_iff, !N.leb_le. lia.
Qed.

(* what is written for one character is read as this character *)
Lemma escape_hex e w c r :
  (e = 120 /\ w = 2%nat) \/ (e = 117 /\ w = 4%nat) \/ (e = 85 /\ w = 8%nat) ->
  c < 16 ^ N.of_nat w -> c < 1114112 -> escape (e :: hexw w c ++ r) = Some (c, r).
Proof.
  intros E C B.
  assert (escape (e :: hexw w c ++ r) =
    if (w =? 0)%nat || (length (hexw w c ++ r) <? w)%nat then None
    else match hex_number 0 (firstn w (hexw w c ++ r)) with
         | Some v => if v <? 1114112 then Some (v, skipn w (hexw w c ++ r)) else None
         | None => None
         end) as ->.
  { destruct E as [[-> ->] | [[-> ->] | [-> ->]]]; reflexivity. }
  pose proof (hexw_length w c) as L.
  replace (_ || _) with false.
  2:{ symmetry. rewrite orb_false_iff, Nat.eqb_neq, Nat.ltb_ge, app_length, L. lia. }
  rewrite firstn_app, skipn_app, L, Nat.sub_diag, firstn_O, app_nil_r, skipn_O, firstn_all2, skipn_all2 by lia.
  rewrite hexw_value, N.mul_0_l, N.add_0_l, (proj2 (N.ltb_lt _ _) B) by assumption. reflexivity.
Qed.
Lemma repr_chr_read q c r v t : q = 39 \/ q = 34 -> c < 1114112 ->
  string_body q r v t -> string_body q (repr_chr q c ++ r) (c :: v) t.
Proof.
  intros Q B R. unfold repr_chr.
  destruct ((c =? q) || (c =? 92)) eqn:E1.
  { apply (body_escape q (c :: r) c r); [|exact R]. cbn [escape].
    replace ((c =? 92) || (c =? 39) || (c =? 34)) with true; [reflexivity|]. symmetry.
    rewrite orb_true_iff, !N.eqb_eq in E1. rewrite !orb_true_iff, !N.eqb_eq. lia. }
  rewrite orb_false_iff, !N.eqb_neq in E1. destruct E1 as [E1 E2].
  assert (Hc : source_char c = true -> string_body q ([c] ++ r) (c :: v) t) by (intros S; apply body_char; assumption).
  assert (Hx : forall e w p, p = 92 :: e :: hexw w c ++ r -> (e = 120 /\ w = 2%nat) \/ (e = 117 /\ w = 4%nat) \/ (e = 85 /\ w = 8%nat) ->
     c < 16 ^ N.of_nat w -> string_body q p (c :: v) t).
  { intros e w p -> E C. eapply body_escape; [|exact R]. apply escape_hex; assumption. }
  assert (H2 : c < 256 -> string_body q ((u "\x" ++ hexw 2 c) ++ r) (c :: v) t) by (intros C; apply (Hx 120 2%nat); auto).
  assert (H4 : c < 65536 -> string_body q ((u "\u" ++ hexw 4 c) ++ r) (c :: v) t) by (intros C; apply (Hx 117 4%nat); auto).
  assert (H8 : string_body q ((u "\U" ++ hexw 8 c) ++ r) (c :: v) t).
  { apply (Hx 85 8%nat); auto. change (16 ^ N.of_nat 8) with 4294967296. lia. }
  destruct (c =? 9) eqn:E3.
  { apply N.eqb_eq in E3. subst c. eapply (body_escape q); [|exact R]. reflexivity. }
  destruct (c =? 10) eqn:E4.
  { apply N.eqb_eq in E4. subst c. eapply (body_escape q); [|exact R]. reflexivity. }
  destruct (c =? 13) eqn:E5.
  { apply N.eqb_eq in E5. subst c. eapply (body_escape q); [|exact R]. reflexivity. }
  rewrite N.eqb_neq in E3, E4, E5.
  destruct ((c <? 32) || (c =? 127)) eqn:E6.
  { apply H2. rewrite orb_true_iff, N.ltb_lt, N.eqb_eq in E6. lia. }
  rewrite orb_false_iff, N.ltb_ge, N.eqb_neq in E6.
  destruct (N.ltb_spec c 127).
  { apply Hc. unfold source_char. rewrite !andb_true_iff, !negb_true_iff, !N.eqb_neq, andb_false_iff, N.leb_gt, N.ltb_lt. lia. }
  destruct (chr_isprintable c) eqn:P; [apply Hc, printable_source; try assumption; lia|].
  destruct (N.leb_spec c 255); [apply H2; lia|]. destruct (N.leb_spec c 65535); [apply H4; lia|]. exact H8.
Qed.
Lemma repr_body_read q s r : q = 39 \/ q = 34 -> code_points s ->
  string_body q (flat_map (repr_chr q) s ++ [q] ++ r) s r.
Proof.
  intros Q B. induction B as [|c s C B IH]; cbn [flat_map].
  - apply body_end.
  - rewrite <- app_assoc. apply repr_chr_read; assumption.
Qed.
(* the literal of a string is read as the string *)
Lemma repr_str_read s r : code_points s -> hd 0 r <> 39 -> hd 0 r <> 34 -> string_literal (repr_str s ++ r) s r.
Proof.
  intros B R1 R2. unfold repr_str. cbv zeta.
  set (q := if _ && _ then 34 else 39). assert (q = 39 \/ q = 34) as Q by (unfold q; destruct (_ && _); auto).
  rewrite <- !app_assoc. exists q, (flat_map (repr_chr q) s ++ [q] ++ r). split; [reflexivity|]. split; [exact Q|].
  split; [apply repr_body_read; assumption|]. intros [_ X]. destruct Q as [Q|Q]; congruence.
Qed.
Lemma repr_elements l r : l <> [] -> Forall code_points l -> elements (join (u ", ") (map repr_str l) ++ u "]" ++ r) l r.
Proof.
  intros N B. induction B as [|s l S B IH]; [congruence|]. destruct l as [|s' l].
  - apply elements_last. cbn [map join]. apply repr_str_read; [assumption| |]; discriminate.
  - cbn [map join]. rewrite <- !app_assoc. eapply elements_more.
    + apply repr_str_read; [assumption| |]; discriminate.
    + apply IH. discriminate.
Qed.
Lemma repr_list_read l r : Forall code_points l -> list_display (repr_list l ++ r) l r.
Proof.
  intros B. unfold repr_list. rewrite <- !app_assoc. destruct l as [|s l]; [apply display_empty|].
  apply display_some. apply repr_elements; [discriminate|assumption].
Qed.
(* text without quotes, backslashes, line ends, NUL and surrogates can stand between single quotes *)
Definition quotable (s : pystr) : Prop := Forall (fun c => source_char c = true /\ c <> 39 /\ c <> 92) s.
Lemma plain_read s r : quotable s -> hd 0 r <> 39 -> string_literal (u "'" ++ s ++ u "'" ++ r) s r.
Proof.
  intros P R. exists 39, (s ++ 39 :: r). split; [reflexivity|]. split; [auto|]. split; [|intros [_ X]; congruence].
  induction P as [|c s (S & Q & Bs) P IH]; [apply body_end|]. apply body_char; assumption.
Qed.

(* ------------------------------------------- the reading is unambiguous *)
Lemma body_functional q s v t : q = 39 \/ q = 34 -> string_body q s v t ->
  forall v' t', string_body q s v' t' -> v = v' /\ t = t'.
Proof.
  intros Q. induction 1 as [r|s c r v t E B IH|c s v t N1 N2 S B IH]; intros v' t' H.
  - inversion H; subst; auto; try lia; try congruence.
  - inversion H; subst; try lia. match goal with E' : escape s = Some (?c', ?r') |- _ => rewrite E in E'; injection E' as <- <- end.
    match goal with H' : string_body _ _ _ _ |- _ => destruct (IH _ _ H') as [-> ->] end. auto.
  - inversion H; subst; try congruence; try lia.
    match goal with H' : string_body _ s _ _ |- _ => destruct (IH _ _ H') as [-> ->] end. auto.
Qed.
Lemma literal_functional s v t v' t' : string_literal s v t -> string_literal s v' t' -> v = v' /\ t = t'.
Proof.
  intros (q & r & -> & Q & B & _) (q' & r' & [= <- <-] & _ & B' & _). exact (body_functional _ _ _ _ Q B _ _ B').
Qed.
Lemma elements_functional s l t : elements s l t -> forall l' t', elements s l' t' -> l = l' /\ t = t'.
Proof.
  induction 1 as [s x r L|s x r xs t L E IH]; intros l' t' H; inversion H as [? x' r' L'|? x' r' xs' t1 L' E']; subst;
    destruct (literal_functional _ _ _ _ _ L L') as [<- K]; cbn in K; try discriminate K; injection K as <-; auto.
  destruct (IH _ _ E') as [-> ->]. auto.
Qed.
Lemma elements_start s l t : elements s l t -> hd 0 s = 39 \/ hd 0 s = 34.
Proof. destruct 1 as [s x r (q & r' & -> & Q & _)|s x r xs t (q & r' & -> & Q & _) _]; exact Q. Qed.
Lemma display_functional s l t l' t' : list_display s l t -> list_display s l' t' -> l = l' /\ t = t'.
Proof.
  intros H H'. inversion H as [r E|s1 xs r E]; subst; inversion H' as [r' E1 E2|s' xs' r' E' E1]; subst; auto.
  - apply elements_start in E'. cbn in E'. lia.
  - apply elements_start in E. cbn in E. lia.
  - eapply elements_functional; eassumption.
Qed.
Lemma call_functional text tk mi md fs tk' mi' md' fs' :
  call_text text tk mi md fs -> call_text text tk' mi' md' fs' -> tk = tk' /\ mi = mi' /\ md = md' /\ fs = fs'.
Proof.
  intros (s1 & s2 & s3 & mt & E & L1 & L2 & M & D) (s1' & s2' & s3' & mt' & E' & L1' & L2' & M' & D').
  rewrite E in E'. apply app_inv_head in E'. subst s1'.
  destruct (literal_functional _ _ _ _ _ L1 L1') as [<- K]. apply app_inv_head in K. subst s2'.
  destruct (literal_functional _ _ _ _ _ L2 L2') as [<- K]. apply app_inv_head in K.
  assert (md = md' /\ mt = mt') as [<- <-].
  { destruct M as [[-> ->] | [[-> ->] | [-> ->]]], M' as [[-> ->] | [[-> ->] | [-> ->]]]; auto; discriminate K. }
  apply app_inv_head, app_inv_head in K. subst s3'. destruct (display_functional _ _ _ _ _ D D') as [-> _]. auto.
Qed.

(* ------------------------------------------------------------------ C57 *)
(* The text of repr(msg) is the constructor call with the talker, msgID, mode
   and payload of the message, and can be read in no other way: for every
   message whose talker and msgID can stand between single quotes, whatever
   the payload contains. *)
Theorem C57_text x :
  quotable (m_talker x) -> quotable (m_msgID x) -> m_mode x = 0%Z \/ m_mode x = 1%Z \/ m_mode x = 2%Z ->
  Forall code_points (m_payload x) ->
  exists t, repr_of_msg x = Ok t
    /\ forall talker msgid mode fields, call_text t talker msgid mode fields <->
         talker = m_talker x /\ msgid = m_msgID x /\ mode = m_mode x /\ fields = m_payload x.
Proof.
  intros T I M P.
  assert (exists mt, str_of_Z (m_mode x) = Ok mt /\ mode_text (m_mode x) mt) as (mt & E & Mt).
  { unfold mode_text. destruct M as [-> | [-> | ->]]; [exists (u "0")|exists (u "1")|exists (u "2")]; (split; [reflexivity|]); auto. }
  unfold repr_of_msg. rewrite E. cbn [bind]. eexists. split; [reflexivity|].
  match goal with |- forall tk mi md fs, call_text ?t tk mi md fs <-> _ => assert (call_text t (m_talker x) (m_msgID x) (m_mode x) (m_payload x)) as C end.
  { exists (u "'" ++ m_talker x ++ u "'" ++ u "," ++ u "'" ++ m_msgID x ++ u "'" ++ u ", " ++ mt ++ u ", payload=" ++ repr_list (m_payload x) ++ u ")"),
      (u "'" ++ m_msgID x ++ u "'" ++ u ", " ++ mt ++ u ", payload=" ++ repr_list (m_payload x) ++ u ")"),
      (repr_list (m_payload x) ++ u ")"), mt.
    split; [reflexivity|]. split; [apply plain_read; [exact T|discriminate]|].
    split; [apply plain_read; [exact I|discriminate]|]. split; [exact Mt|]. apply repr_list_read, P. }
  intros tk mi md fs. split.
  - intros C'. destruct (call_functional _ _ _ _ _ _ _ _ _ C C') as (-> & -> & -> & ->). auto.
  - intros (-> & -> & -> & ->). exact C.
Qed.

Definition quotable_b (s : pystr) : bool := forallb (fun c => source_char c && negb (c =? 39) && negb (c =? 92)) s.
Lemma quotable_b_ok s : quotable_b s = true -> quotable s.
Proof.
  unfold quotable_b, quotable. rewrite forallb_forall, Forall_forall. intros H c C. specialize (H c C).
  rewrite !andb_true_iff, !negb_true_iff, !N.eqb_neq in H. tauto.
Qed.
Lemma known_quotable msgid : known_id [] msgid = true -> quotable msgid.
Proof.
  intros H. apply quotable_b_ok. unfold known_id in H. rewrite !orb_true_iff, !has_key_iff in H.
  assert (forallb quotable_b (map fst NMEA_MSGIDS) = true) as A by (vm_compute; reflexivity).
  assert (forallb quotable_b (map fst NMEA_MSGIDS_PROP) = true) as B by (vm_compute; reflexivity).
  assert (forallb quotable_b prefixes = true) as C by (vm_compute; reflexivity).
  rewrite forallb_forall in A, B, C. destruct H as [[[H|H]|H]|H].
  - apply A, H.
  - apply B, H.
  - apply C, str_in_iff, H.
  - destruct H.
Qed.
Lemma talker_quotable talker : has_key talker NMEA_TALKERS = true -> quotable talker.
Proof.
  intros H. apply quotable_b_ok. rewrite has_key_iff in H.
  assert (forallb quotable_b (map fst NMEA_TALKERS) = true) as A by (vm_compute; reflexivity).
  rewrite forallb_forall in A. auto.
Qed.

(* what eval(text) returns, with the defaults of the other arguments *)
Definition evaluates (clk : clock) (text : pystr) (r : result msg) : Prop :=
  exists talker msgid mode fields, call_text text talker msgid mode fields
    /\ r = NMEAMessage clk talker msgid mode false 1 [] None (Some fields) [].

(* every parsed sentence of a built-in id, with a definition and the right
   checksum, whose talker can be quoted: eval(repr(msg)) is the same message *)
Theorem C57_eval m content ck talker msgid fields mode v ud x d clk :
  given m content ck talker msgid fields -> parse m mode v ud = Ok (Some x) ->
  kept_as_is talker msgid fields -> code_points content -> quotable talker ->
  known_id [] msgid = true -> definition_for mode ud msgid fields = Some d ->
  is_checksum content ck ->
  exists t, repr_of_msg x = Ok t
    /\ (exists y, evaluates clk t (Ok y) /\ same_message x y)
    /\ (forall r r', evaluates clk t r -> evaluates clk t r' -> r = r').
Proof.
  intros G E K Cp Qt Kn D C.
  destruct (parse_given _ _ _ _ _ E) as (content' & ck' & talker' & msgid' & fields' & G' & V & _ & _ & L &
    X1 & X2 & X3 & _ & _ & _ & X4 & _ & X5 & _ & X).
  assert (content' = content /\ ck' = ck /\ talker' = talker /\ msgid' = msgid /\ fields' = fields) as (-> & -> & -> & -> & ->).
  { destruct G as ((s & T & F) & H), G' as ((s' & T' & F') & H'). rewrite (text_of_functional _ _ _ T' T) in F'.
    destruct (frame_functional _ _ _ _ _ F' F) as [-> ->].
    destruct (header_functional _ _ _ _ _ _ _ H' H) as (-> & -> & ->). repeat split. }
  rewrite D in X. destruct X as (s & M & X6 & X7).
  pose proof M as Pl. apply members_payload_kept in Pl; [|reflexivity|exact K]. cbn [a_payload] in Pl. rewrite Pl in X6.
  assert (Forall code_points fields) as Cf.
  { destruct G as (_ & (Hc & _)). rewrite Hc in Cp. unfold code_points in *. rewrite !Forall_app in Cp. destruct Cp as (_ & _ & Cp).
    clear - Cp. induction fields as [|f fs IH]; constructor; cbn [flat_map] in Cp; inversion Cp as [|? ? _ Cq]; subst;
      apply Forall_app in Cq; [apply Cq|apply IH, Cq]. }
  assert (mode = 0 \/ mode = 1 \/ mode = 2)%Z as Md.
  { unfold valid_mode in V. rewrite !orb_true_iff, !Z.eqb_eq in V. lia. }
  destruct (C57_text x) as (t & Et & Ct); [rewrite X1; exact Qt|rewrite X2; apply known_quotable, Kn|rewrite X3; exact Md|rewrite X6; exact Cf|].
  exists t. split; [exact Et|]. split.
  - destruct (C57_repr m content ck talker msgid fields mode v ud x d clk) as (y & Ey & Sy); try assumption.
    exists y. split; [|exact Sy]. do 4 eexists. split; [apply Ct; repeat split|]. symmetry. exact Ey.
  - intros r r' (a1 & a2 & a3 & a4 & A & ->) (b1 & b2 & b3 & b4 & B & ->).
    apply Ct in A, B. destruct A as (-> & -> & -> & ->), B as (-> & -> & -> & ->). reflexivity.
Qed.

(* a talker with a quote (accepted when ids are not validated) makes repr(msg)
   unreadable *)
Theorem C57_quote_refuted :
  exists x t, parse (MStr (u "$G'GLL,5327.04319,S,00214.41396,E,223232.00,A,A*01")) 0 1 [] = Ok (Some x)
    /\ repr_of_msg x = Ok t /\ forall talker msgid mode fields, ~ call_text t talker msgid mode fields.
Proof.
  eexists _, _. split; [vm_compute; reflexivity|]. split; [vm_compute; reflexivity|].
  intros tk mi md fs (s1 & s2 & s3 & mt & E & L1 & _).
  change (u "NMEAMessage(") with [78; 77; 69; 65; 77; 101; 115; 115; 97; 103; 101; 40] in E. cbn [app] in E. injection E as <-.
  destruct L1 as (q & r & E & Q & B & _). injection E as <- <-.
  inversion B as [| |c s v t N1 N2 S B1]; subst. inversion B1 as [|? ? ? ? ? Es|]; subst; try congruence.
Qed.
(* quotes, backslashes, control characters and other scripts in the payload are no problem *)
Example C57_text_example :
  exists x, parse (MStr (u "$GPTXT,01,01,02,it's ""q"" \" ++ [233; 10; 8232; 128512] ++ u "*34")) 0 0 [] = Ok (Some x)
    /\ quotable (m_talker x) /\ quotable (m_msgID x) /\ m_mode x = 0%Z /\ Forall code_points (m_payload x)
    /\ repr_of_msg x = Ok (u "NMEAMessage('GP','TXT', 0, payload=['01', '01', '02', 'it\'s ""q"" \\" ++ [233] ++ u "\n\u2028" ++ [128512] ++ u "'])").
Proof.
  eexists. split; [vm_compute; reflexivity|].
  split; [apply quotable_b_ok; vm_compute; reflexivity|]. split; [apply quotable_b_ok; vm_compute; reflexivity|].
  split; [reflexivity|]. split; [repeat constructor|]. vm_compute. reflexivity.
Qed.
