(* C75: what is written to a stream is what a reader delivers *)
From Coq Require Import Lia.
From Verif Require Import Message Reader Socket BaseLemmas TextLemmas NumLemmas Spec ParseProofs MessageProofs
  SelectProofs DecodeProofs TableProofs StreamProofs ReaderSpec ReaderProofs SocketSpec SocketProofs
  PropsMessage PropsReader PropsSocket PropsConstruct PropsGenerate PropsWrite KeywordSpec ValueSpec.
Local Open Scope N_scope.

Lemma utf8_char_in c b : In b (utf8_char c) -> b < 128 -> b = c.
Proof.
  unfold utf8_char. destruct (N.ltb_spec c 128) as [L|L]; [intros [<-|[]]; reflexivity|].
  destruct (N.ltb_spec c 2048); [|destruct (N.ltb_spec c 65536)]; cbn [In]; intros I B; exfalso;
    repeat match goal with H : _ \/ _ |- _ => destruct H as [H|H] end; try contradiction; subst b; lia.
Qed.
Lemma utf8_in s b : In b (flat_map utf8_char s) -> b < 128 -> In b s.
Proof. intros H B. apply in_flat_map in H. destruct H as (c & C & I). rewrite (utf8_char_in _ _ I B). exact C. Qed.

(* a message that may be sent: its talker begins with a character readers recognise,
   and there is no line feed inside *)
Definition content_text (x : msg) : pystr := content_of (m_talker x) (m_msgID x) (m_payload x).
Definition sendable (x : msg) : Prop :=
  (exists c r, m_talker x = c :: r /\ second c)
  /\ ~ In lf (content_text x) /\ ~ In lf (cksum_text (m_checksum x)).

Lemma second_ascii c : second c -> c < 128.
Proof.
  intros (t & d & I & E).
  assert (forallb (fun p => match nth_error (fst p) 0 with Some c => c <? 128 | None => true end) NMEA_TALKERS = true) as A by (vm_compute; reflexivity).
  rewrite forallb_forall in A. specialize (A _ I). cbn [fst] in A. rewrite E in A. apply N.ltb_lt in A. exact A.
Qed.
Lemma second_not_framing c : second c -> ~ framing c.
Proof.
  intros (t & d & I & E).
  assert (forallb (fun p => match nth_error (fst p) 0 with Some c => negb ((c =? 36) || (c =? 13) || (c =? 10)) | None => true end) NMEA_TALKERS = true)
    as A by (vm_compute; reflexivity).
  rewrite forallb_forall in A. specialize (A _ I). cbn [fst] in A. rewrite E, negb_true_iff, !orb_false_iff, !N.eqb_neq in A.
  unfold framing, dollar, cr, lf. tauto.
Qed.
(* the bytes of a sentence: "$", a recognised byte, no LF until CR LF *)
Lemma sent_shape x b : serialize x = Ok b -> sendable x ->
  exists c body, b = dollar :: c :: body ++ [cr; lf] /\ second c /\ ~ In lf body.
Proof.
  intros S ((c & r & T & Sc) & L & Lk). rewrite C10_serialize in S. unfold utf8_encode in S.
  unfold content_text, content_of in L. rewrite T in *.
  set (s := r ++ m_msgID x ++ flat_map (fun f => comma :: f) (m_payload x) ++ [star] ++ cksum_text (m_checksum x)).
  assert (sentence (c :: r) (m_msgID x) (m_payload x) (cksum_text (m_checksum x)) = dollar :: c :: s ++ [cr; lf]) as E
    by (unfold sentence, s; cbn [app]; rewrite <- !app_assoc; reflexivity).
  rewrite E in S. clear E. destruct (forallb is_scalar _); [|discriminate].
  assert (b = flat_map utf8_char (dollar :: c :: s ++ [cr; lf])) as -> by congruence. clear S.
  exists c, (flat_map utf8_char s). split; [|split; [exact Sc|]].
  - change (flat_map utf8_char (dollar :: c :: s ++ [cr; lf])) with (utf8_char dollar ++ utf8_char c ++ flat_map utf8_char (s ++ [cr; lf])).
    rewrite flat_map_app.
    assert (utf8_char c = [c]) as -> by (unfold utf8_char; rewrite (proj2 (N.ltb_lt _ _) (second_ascii _ Sc)); reflexivity).
    reflexivity.
  - assert (forall k, k < 128 -> k <> star -> ~ In k ((c :: r) ++ m_msgID x ++ flat_map (fun f => comma :: f) (m_payload x)) ->
        ~ In k (cksum_text (m_checksum x)) -> ~ In k (flat_map utf8_char s)) as K.
    { intros k B St H1 H2 H. apply (utf8_in _ _) in H; [|exact B]. unfold s in H. cbn [app In] in H1. rewrite !in_app_iff in *. cbn [In] in *.
      intuition congruence. }
    apply K; auto; try (unfold lf, cr, star; lia); discriminate.
Qed.
Lemma sent_line x b : serialize x = Ok b -> sendable x -> line_shape b.
Proof.
  intros S D. destruct (sent_shape _ _ S D) as (c & body & -> & Sc & L). exists c, (body ++ [cr]).
  split; [rewrite <- app_assoc; reflexivity|]. split; [exact Sc|]. rewrite in_app_iff. cbn. intros [H|[H|[]]]; [auto|discriminate H].
Qed.

Lemma interleave_nil lines : interleave (map (fun _ => []) lines) lines = concat lines.
Proof. induction lines as [|l ls IH]; [reflexivity|]. cbn [map interleave concat app]. rewrite IH. reflexivity. Qed.

(* reading back, provided each sentence is accepted on its own *)
Theorem C75_file cfg n fuel xs bs ys :
  Forall2 (fun x b => serialize x = Ok b) xs bs -> Forall sendable xs ->
  Forall2 (fun b y => parse (MBytes b) (r_mode cfg) (r_validate cfg) (r_userdefined cfg) = Ok (Some y)) bs ys ->
  (length (concat bs) < fuel)%nat -> (length (concat bs) < n)%nat ->
  fiterate cfg n fuel (concat bs) = Some (combine bs (map Some ys), None, [], []).
Proof.
  intros S D P F N.
  assert (Forall line_shape bs) as Sh.
  { clear P F N. induction S as [|x b xs bs Sx S IH]; inversion D; subst; constructor; [eapply sent_line; eassumption|auto]. }
  pose proof (C27_all_delivered cfg n fuel (map (fun _ => []) bs) bs (map Some ys) []) as H.
  rewrite interleave_nil, app_nil_r in H. apply H; auto.
  - apply map_length.
  - apply Forall_forall. intros g G. apply in_map_iff in G. destruct G as (? & <- & _). intros [].
  - clear - P. induction P; constructor; auto.
Qed.

Lemma crlf_concat bs : Forall (fun b => exists body, b = body ++ [cr; lf] /\ body <> [] /\ ~ In lf body) bs -> crlf_lines (concat bs).
Proof.
  induction 1 as [|b bs (body & -> & Ne & L) H IH]; intros p q E; cbn [concat] in E.
  - destruct p; discriminate.
  - rewrite <- app_assoc in E. cbn [app] in E.
    apply app_eq_app in E. destruct E as (l & [[E1 E2]|[E1 E2]]).
    + destruct l as [|k l]; [discriminate E2|]. elim L. rewrite E1, in_app_iff. right. injection E2 as <- _. left. reflexivity.
    + destruct l as [|k1 [|k2 l]]; try discriminate.
      * injection E2 as <- E2. right. exists body. exact E1.
      * injection E2 as <- <- E2. destruct (IH l q E2) as [-> | (l' & ->)].
        -- destruct H as [|b bs (body' & -> & Ne' & L') H]; [discriminate E2|]. destruct body' as [|k body']; [congruence|].
           injection E2 as -> _. elim L'. left. reflexivity.
        -- right. exists (body ++ cr :: lf :: l'). rewrite E1, <- app_assoc. reflexivity.
Qed.

(* the same over a connection, however the bytes are cut into segments *)
Theorem C75_socket cfg n fuel xs bs ys segs enc z :
  Forall2 (fun x b => serialize x = Ok b) xs bs -> Forall sendable xs ->
  Forall2 (fun b y => parse (MBytes b) (r_mode cfg) (r_validate cfg) (r_userdefined cfg) = Ok (Some y)) bs ys ->
  Z.testbit enc 0 = false -> Forall (fun d => d <> []) segs -> concat segs = concat bs ->
  (length (concat bs) < fuel)%nat -> (length (concat bs) < n)%nat ->
  exists k, siterate cfg n fuel (sock_init (map RData segs) enc z) = Some (combine bs (map Some ys), None, [], k).
Proof.
  intros S D P B Ne E F N. destruct (init_contents segs enc z B Ne) as (A1 & A2 & A3).
  assert (crlf_lines (concat bs)) as Cl.
  { apply crlf_concat. clear P F N E. induction S as [|x b xs bs Sx S IH]; inversion D; subst; constructor; [|auto].
    destruct (sent_shape x b Sx) as (c & body & -> & Sc & L); [assumption|]. exists (dollar :: c :: body). split; [reflexivity|].
    split; [discriminate|]. intros [X|[X|X]]; [discriminate X| |auto]. subst c. pose proof (second_not_framing _ Sc) as K. apply K. right. right. reflexivity. }
  destruct (C37_socket_file cfg n fuel (sock_init (map RData segs) enc z)) as (items & x & ev & k & rest & H1 & H2); try assumption;
    rewrite A3, E in *; try assumption.
  rewrite (C75_file cfg n fuel xs bs ys) in H2 by assumption. injection H2 as <- <- <- <-. eauto.
Qed.

(* ------------------------------------------------------ constructed messages *)
Lemma checksum_no_lf content k : is_checksum content k -> ~ In lf k.
Proof.
  intros K I. apply is_checksum_iff in K. subst k.
  assert (Forall (fun c => 48 <= c) (calc_checksum content)) as F.
  { unfold calc_checksum, fmt_02X, zfill. apply Forall_app. split.
    - apply Forall_forall. intros x Hx. apply repeat_spec in Hx. lia.
    - eapply Forall_impl; [|apply hex_of_N_ascii]. cbn. intros; lia. }
  rewrite Forall_forall in F. specialize (F _ I). unfold lf in F. lia.
Qed.

(* the result of sending messages: every reader of the stream, from a file or
   from a connection, gets the messages ys *)
Definition arrives (cfg : rcfg) (bs : list bytes) (ys : list msg) : Prop :=
  forall n fuel, (length (concat bs) < fuel)%nat -> (length (concat bs) < n)%nat ->
    fiterate cfg n fuel (concat bs) = Some (combine bs (map Some ys), None, [], [])
    /\ forall segs enc z, Z.testbit enc 0 = false -> Forall (fun d => d <> []) segs -> concat segs = concat bs ->
       exists k, siterate cfg n fuel (sock_init (map RData segs) enc z) = Some (combine bs (map Some ys), None, [], k).

Lemma send_all cfg (R : msg -> msg -> Prop) xs :
  Forall (fun x => sendable x /\ exists b y, serialize x = Ok b
            /\ parse (MBytes b) (r_mode cfg) (r_validate cfg) (r_userdefined cfg) = Ok (Some y) /\ R x y) xs ->
  exists bs ys, Forall2 (fun x b => serialize x = Ok b) xs bs /\ Forall2 R xs ys /\ arrives cfg bs ys.
Proof.
  intros H.
  assert (exists bs ys, Forall2 (fun x b => serialize x = Ok b) xs bs /\ Forall2 R xs ys
     /\ Forall2 (fun b y => parse (MBytes b) (r_mode cfg) (r_validate cfg) (r_userdefined cfg) = Ok (Some y)) bs ys) as (bs & ys & A & B & C).
  { induction H as [|x xs (_ & b & y & H1 & H2 & H3) H IH]; [exists [], []; repeat split; constructor|].
    destruct IH as (bs & ys & A & B & C). exists (b :: bs), (y :: ys). repeat split; constructor; assumption. }
  assert (Forall sendable xs) as D by (eapply Forall_impl; [|exact H]; cbn; tauto).
  exists bs, ys. split; [exact A|]. split; [exact B|]. intros n fuel F N. split.
  - eapply C75_file; eassumption.
  - intros segs enc z E Ne Cc. eapply C75_socket; eassumption.
Qed.

(* messages built from a list of fields *)
Definition from_fields (cfg : rcfg) (x : msg) : Prop :=
  exists clk talker msgid hp v0 fields,
    NMEAMessage clk talker msgid (r_mode cfg) hp v0 (r_userdefined cfg) None (Some fields) [] = Ok x
    /\ let content := content_of talker msgid fields in
       header content talker msgid fields /\ ~ In star content /\ ~ In lf content
       /\ (exists c r, talker = c :: r /\ second c)
       /\ kept_as_is talker msgid fields
       /\ definition_for (r_mode cfg) (r_userdefined cfg) msgid fields <> None
       /\ (wants_msgid (r_validate cfg) = true -> wants_msgid v0 = true)
       /\ Forall (fun c => (c <= 1114111) /\ ~ (55296 <= c <= 57343)) content.

Lemma scalar_sentence x k : m_checksum x = Some k ->
  Forall (fun c => (c <= 1114111) /\ ~ (55296 <= c <= 57343)) (content_text x) ->
  Forall (fun c => c < 55296) k -> exists b, serialize x = Ok b.
Proof.
  intros K C Ck. apply C10_serialize_fails. unfold sentence, content_text, content_of in *. rewrite K. rewrite !Forall_app in *.
  assert (forall l, Forall (fun c => c < 55296) l -> Forall (fun c => (c <= 1114111) /\ ~ (55296 <= c <= 57343)) l) as A.
  { intros l. apply Forall_impl. intros; lia. }
  destruct C as (C1 & C2 & C3). repeat split; auto; apply A; repeat constructor; assumption.
Qed.
Lemma checksum_ascii content k : is_checksum content k -> Forall (fun c => c < 55296) k.
Proof.
  intros K. apply is_checksum_iff in K. subst k. unfold calc_checksum, fmt_02X, zfill. apply Forall_app. split.
  - apply Forall_forall. intros x Hx. apply repeat_spec in Hx. lia.
  - eapply Forall_impl; [|apply hex_of_N_ascii]. cbn. intros; lia.
Qed.

Theorem C75_fields cfg xs :
  (forall name d, In (name, d) (r_userdefined cfg) -> well_formed d) -> Forall (from_fields cfg) xs ->
  exists bs ys, Forall2 (fun x b => serialize x = Ok b) xs bs /\ Forall2 same_message xs ys /\ arrives cfg bs ys.
Proof.
  intros WF H. apply send_all. eapply Forall_impl; [|exact H]. clear H. cbn beta.
  intros x (clk & talker & msgid & hp & v0 & fields & E & H & N1 & N2 & (c & r & T & Sc) & K & D & W & Sv). cbv zeta in *.
  destruct (C08_constructed_checksum _ _ _ _ _ _ _ _ _ E K D) as (k & K1 & K2 & K3 & K4).
  assert (m_talker x = talker /\ m_msgID x = msgid /\ m_payload x = fields) as (T1 & T2 & T3).
  { rewrite NMEAMessage_stream in E. destruct (negb (valid_mode (r_mode cfg))); [discriminate|].
    destruct (wants_msgid v0 && _); [discriminate|]. destruct (lacks_id (r_mode cfg) msgid fields); [discriminate|].
    destruct (definition_for (r_mode cfg) (r_userdefined cfg) msgid fields) as [d|]; [|contradiction D; reflexivity].
    unfold stream_result in E. destruct (set_members _ d [] _) as [s|e] eqn:M; cbn [type_errors] in E;
      [|destruct e; discriminate]. injection E as <-. cbn. repeat split.
    apply members_payload_kept in M; [exact M|reflexivity|exact K]. }
  assert (content_text x = content_of talker msgid fields) as Ct by (unfold content_text; rewrite T1, T2, T3; reflexivity).
  split.
  { split; [exists c, r; rewrite T1; auto|]. rewrite Ct, K1. split; [exact N2|]. cbn [cksum_text]. eapply checksum_no_lf, K2. }
  destruct (scalar_sentence x k K1) as (b & S); [rewrite Ct; exact Sv|eapply checksum_ascii, K2|].
  destruct (C08_constructed clk talker msgid (r_mode cfg) hp v0 (r_validate cfg) (r_userdefined cfg) None fields x k b) as (y & P & Q); try assumption.
  - intros c' r' X. rewrite T in X. cbn in X. injection X as <- _. apply second_not_framing, Sc.
  - rewrite K3. exact K2.
  - exists b, y. auto.
Qed.

(* messages built from keywords, with numbers for the number fields *)
Definition from_keywords (cfg : rcfg) (x : msg) : Prop :=
  exists clk talker msgid hp v0 kw d,
    NMEAMessage clk talker msgid (r_mode cfg) hp v0 (r_userdefined cfg) None None kw = Ok x
    /\ keyword_definition (r_mode cfg) (r_userdefined cfg) msgid kw = Some d /\ types_in field_types d
    /\ (forall sl k ty val, expands d sl -> In (k, ty) sl -> lookup k kw = Some val -> number_value ty val)
    /\ ~ reads_differently (r_mode cfg) msgid (m_payload x)
    /\ (msgid = u "ASHR" -> lookup (u "msgId") kw <> Some (VStr []))
    /\ (msgid = u "QTMSN" -> r_mode cfg = 0%Z -> m_payload x <> [])
    /\ (exists c r, talker = c :: r /\ second c)
    /\ let content := content_of talker msgid (m_payload x) in
       header content talker msgid (m_payload x) /\ ~ In star content /\ ~ In lf content
       /\ kept_as_is talker msgid (m_payload x)
       /\ (wants_msgid (r_validate cfg) = true -> wants_msgid v0 = true)
       /\ Forall (fun c => (c <= 1114111) /\ ~ (55296 <= c <= 57343)) content.

Theorem C75_keywords cfg xs :
  good (r_userdefined cfg) -> Forall (from_keywords cfg) xs ->
  exists bs ys, Forall2 (fun x b => serialize x = Ok b) xs bs
    /\ Forall2 (fun x y => m_talker y = m_talker x /\ m_msgID y = m_msgID x /\ m_payload y = m_payload x
                           /\ m_checksum y = m_checksum x /\ map fst (m_attrs y) = map fst (m_attrs x)) xs ys
    /\ arrives cfg bs ys.
Proof.
  intros G H. apply send_all. eapply Forall_impl; [|exact H]. clear H. cbn beta.
  intros x (clk & talker & msgid & hp & v0 & kw & d & E & D & Ty & Nv & Rd & As & Qt & (c & r & T & Sc) & Hd & N1 & N2 & K & W & Sv). cbv zeta in *.
  assert (m_talker x = talker /\ m_msgID x = msgid) as (T1 & T2).
  { pose proof E as E'. unfold NMEAMessage in E'. destruct (negb (valid_mode _)); [discriminate|].
    destruct (negb (has_key talker NMEA_TALKERS) && _); [discriminate|].
    destruct (find_defsource msgid (r_userdefined cfg)), (has_flag v0 VALMSGID); try discriminate;
      (destruct (do_attributes _ _ _) as [[[a p] k]|e]; cbn [bind] in E'; [|discriminate]; injection E' as <-; split; reflexivity). }
  pose proof (C10_checksum_keywords _ _ _ _ _ _ _ _ _ E) as Ck. rewrite D in Ck. destruct Ck as (k & K1 & K2).
  assert (content_text x = content_of talker msgid (m_payload x)) as Ct by (unfold content_text; rewrite T1, T2; reflexivity).
  split.
  { split; [exists c, r; rewrite T1; auto|]. rewrite Ct, K1. split; [exact N2|]. cbn [cksum_text]. eapply checksum_no_lf, K2. }
  destruct (scalar_sentence x k K1) as (b & S); [rewrite Ct; exact Sv|eapply checksum_ascii, K2|].
  destruct (C11_typed_accepted clk talker msgid (r_mode cfg) hp v0 (r_validate cfg) (r_userdefined cfg) kw x d b)
    as (y & P & Y1 & Y2 & Y3 & Y4 & Y5 & _); try assumption.
  - split; [exact N1|]. intros c' r' X. unfold content_of in X. rewrite T in X. cbn in X. injection X as <- _. apply second_not_framing, Sc.
  - exists b, y. split; [exact S|]. split; [exact P|]. rewrite T1, T2. auto.
Qed.

(* -------------------------------------------------------------- relaying *)
Lemma utf8_first d s b r : flat_map utf8_char (d :: s) = b :: r -> b < 128 -> d = b /\ flat_map utf8_char s = r.
Proof.
  intros E B. assert (In b (utf8_char d)) as I.
  { cbn [flat_map] in E. destruct (utf8_char d) eqn:U; [|cbn in E; injection E as <- _; left; reflexivity].
    exfalso. revert U. unfold utf8_char. destruct (d <? 128); [discriminate|]. destruct (d <? 2048); [discriminate|]. destruct (d <? 65536); discriminate. }
  apply utf8_char_in in I; [|exact B]. subst d. split; [reflexivity|]. cbn [flat_map] in E.
  assert (utf8_char b = [b]) as U by (unfold utf8_char; rewrite (proj2 (N.ltb_lt _ _) B); reflexivity).
  rewrite U in E. injection E as E. exact E.
Qed.
Lemma utf8_last s r b : flat_map utf8_char s = r ++ [b] -> b < 128 -> exists s0, s = s0 ++ [b] /\ flat_map utf8_char s0 = r.
Proof.
  intros E B. destruct s as [|d s0 _] using rev_ind; [destruct r; discriminate|].
  rewrite flat_map_app in E. cbn [flat_map] in E. rewrite app_nil_r in E.
  assert (exists l e, utf8_char d = l ++ [e]) as (l & e & U).
  { unfold utf8_char. destruct (d <? 128); [exists [], d; reflexivity|]. destruct (d <? 2048); [eexists [_], _; reflexivity|].
    destruct (d <? 65536); [eexists [_; _], _|eexists [_; _; _], _]; reflexivity. }
  rewrite U, app_assoc in E. apply app_inj_tail in E. destruct E as [E ->].
  assert (In b (utf8_char d)) as I by (rewrite U; apply in_or_app; right; left; reflexivity).
  apply utf8_char_in in I; [|exact B]. subst d.
  assert (utf8_char b = [b]) as U' by (unfold utf8_char; rewrite (proj2 (N.ltb_lt _ _) B); reflexivity).
  rewrite U' in U. destruct l as [|? [|]]; try discriminate. rewrite app_nil_r in E. exists s0. auto.
Qed.
Lemma utf8_keeps s b : In b s -> b < 128 -> In b (flat_map utf8_char s).
Proof.
  intros I B. apply in_flat_map. exists b. split; [exact I|]. unfold utf8_char. rewrite (proj2 (N.ltb_lt _ _) B). left. reflexivity.
Qed.

Lemma parsed_parts m mode v ud x content ck talker msgid fields :
  given m content ck talker msgid fields -> kept_as_is talker msgid fields -> parse m mode v ud = Ok (Some x) ->
  m_talker x = talker /\ m_msgID x = msgid /\ m_payload x = fields /\ m_checksum x = Some ck.
Proof.
  intros G K E.
  destruct (parse_given _ _ _ _ _ E) as (content' & ck' & talker' & msgid' & fields' & G' & V & _ & _ & L &
    X1 & X2 & X3 & _ & _ & _ & X4 & _ & X5 & _ & X).
  assert (content' = content /\ ck' = ck /\ talker' = talker /\ msgid' = msgid /\ fields' = fields) as (-> & -> & -> & -> & ->).
  { destruct G as ((s & T & F) & H), G' as ((s' & T' & F') & H'). rewrite (text_of_functional _ _ _ T' T) in F'.
    destruct (frame_functional _ _ _ _ _ F' F) as [-> ->].
    destruct (header_functional _ _ _ _ _ _ _ H' H) as (-> & -> & ->). repeat split. }
  repeat (split; [assumption|]). split; [|exact X5]. destruct (definition_for mode ud msgid fields).
  - destruct X as (s & M & X6 & X7). apply members_payload_kept in M; [|reflexivity|exact K]. cbn [a_payload] in M. congruence.
  - apply X.
Qed.
Lemma second_not c k : second c -> In k [star; comma] -> c <> k.
Proof. rewrite <- hdr_second_iff. intros H [<-|[<-|[]]] ->; revert H; vm_compute; discriminate. Qed.

Lemma delivered_sendable raw mode v ud x content ck talker msgid fields :
  line_shape raw -> given (MBytes raw) content ck talker msgid fields -> kept_as_is talker msgid fields ->
  parse (MBytes raw) mode v ud = Ok (Some x) -> sendable x /\ exists b, serialize x = Ok b.
Proof.
  intros (c & body & R & Sc & Nl) G K P. destruct (parsed_parts _ _ _ _ _ _ _ _ _ _ G K P) as (X1 & X2 & X3 & X4).
  pose proof (C09_serialize_after_parse _ _ _ _ _ _ _ _ _ _ G K P) as Se.
  destruct G as ((s & U & (pre & post & Es & Fp & Fq & Ns & Fc & Fk)) & (Hc & _ & _ & _ & Ht)). cbn [text_of] in U.
  unfold utf8_encode in U. destruct (forallb is_scalar s) eqn:Sv; [|discriminate]. injection U as U. rewrite R in U.
  assert (exists b, serialize x = Ok b) as Sb.
  { rewrite Se. unfold utf8_encode. rewrite Es in Sv. rewrite !forallb_app in Sv. rewrite !andb_true_iff in Sv.
    rewrite !forallb_app. destruct Sv as (_ & S1 & _ & S2 & _). rewrite S1, S2. eexists. reflexivity. }
  split; [|exact Sb]. clear Se Sb P.
  assert (exists s0, s = s0 ++ [lf] /\ ~ In lf s0) as (s0 & E0 & N0).
  { destruct (utf8_last s (dollar :: c :: body) lf) as (s0 & E0 & U0); [exact U|reflexivity|]. exists s0. split; [exact E0|].
    intros I. apply utf8_keeps in I; [|reflexivity]. rewrite U0 in I. destruct I as [I|[I|I]]; [discriminate I| |auto].
    subst c. apply (second_not_framing _ Sc). right. right. reflexivity. }
  assert (~ In lf content /\ ~ In lf ck) as [Lc Lk].
  { destruct post as [|p post _] using rev_ind.
    - exfalso. rewrite app_nil_r in Es. destruct ck as [|e ck _] using rev_ind.
      + rewrite E0, !app_assoc, app_nil_r in Es. apply app_inj_tail in Es. destruct Es as [_ Es]. discriminate Es.
      + rewrite E0, !app_assoc in Es. apply app_inj_tail in Es. destruct Es as [_ <-]. apply (Fk lf ck eq_refl). right. right. reflexivity.
    - rewrite E0, !app_assoc in Es. apply app_inj_tail in Es. destruct Es as [Es _]. rewrite Es, !in_app_iff in N0. tauto. }
  split; [|rewrite X4; cbn [cksum_text]; split; [|exact Lk]; unfold content_text, content_of; rewrite X1, X2, X3, <- Hc; exact Lc].
  rewrite X1.
  assert (exists r, s = dollar :: c :: r) as (r & Er).
  { destruct s as [|d1 s]; [discriminate U|]. destruct (utf8_first _ _ _ _ U) as [-> U1]; [reflexivity|].
    destruct s as [|d2 s]; [discriminate U1|]. destruct (utf8_first _ _ _ _ U1) as [-> _]; [apply second_ascii, Sc|]. eauto. }
  assert (exists r', content = c :: r') as (r' & Ec).
  { rewrite Er in Es. destruct pre as [|p1 [|p2 pre]].
    - destruct content as [|k content]; [discriminate Es|]. injection Es as <- _. elim (Fc dollar content eq_refl). left. reflexivity.
    - injection Es as _ Es. destruct content as [|k content]; [|injection Es as <- _; eauto].
      cbn in Es. injection Es as Es _. elim (second_not c star Sc); [left; reflexivity|exact Es].
    - injection Es as _ Es _. subst p2. inversion Fp as [|? ? _ Fp']; subst. inversion Fp' as [|? ? Fc' _]; subst. elim (second_not_framing _ Sc Fc'). }
  rewrite Ec in Hc. destruct talker as [|k talker].
  - destruct Ht as [Ht|(_ & [Ht|(_ & ->)])]; try discriminate. destruct fields as [|f fields]; [discriminate Hc|].
    cbn in Hc. injection Hc as Hc _. elim (second_not c comma Sc); [right; left; reflexivity|exact Hc].
  - cbn in Hc. injection Hc as <- _. eauto.
Qed.

(* the messages a reader delivered, in order *)
Definition delivered (items : list (bytes * option msg)) : list msg :=
  flat_map (fun i => match snd i with Some x => [x] | None => [] end) items.
(* Whatever was in a stream: the messages a reader delivered, serialized and
   written again, are delivered again unchanged, in the same order. PSSNSNC is
   excepted (its brackets are lost, C09). *)
Theorem C75_relay cfg n fuel s items e ev rest :
  fiterate cfg n fuel s = Some (items, e, ev, rest) ->
  Forall (fun x => forall t, m_talker x ++ m_msgID x ++ t <> u "PSSNSNC") (delivered items) ->
  exists bs, Forall2 (fun x b => serialize x = Ok b) (delivered items) bs /\ arrives cfg bs (delivered items).
Proof.
  intros F K. destruct (C26_slices _ _ _ _ _ _ _ _ F) as (_ & _ & _ & _ & Sh). pose proof (C33_iterate _ _ _ _ _ _ _ _ _ _ _ F) as Ps.
  assert (exists bs ys, Forall2 (fun x b => serialize x = Ok b) (delivered items) bs
    /\ Forall2 eq (delivered items) ys /\ arrives cfg bs ys) as (bs & ys & A & B & C).
  { apply send_all. unfold delivered in *. clear F. induction items as [|[raw m] items IH]; [constructor|].
    inversion Sh as [|? ? Sh1 Sh2]; subst. inversion Ps as [|? ? Ps1 Ps2]; subst. cbn [flat_map fst snd] in *. rewrite Forall_app in *.
    destruct K as [K1 K2]. split; [|apply IH; assumption]. destruct m as [x|]; constructor; [|constructor].
    inversion K1 as [|? ? Kx _]; subst.
    destruct (parse_given _ _ _ _ _ Ps1) as (content & ck & talker & msgid & fields & G & _ & _ & _ & _ & X1 & X2 & _).
    assert (kept_as_is talker msgid fields) as Kp by (left; rewrite <- X1, <- X2; exact Kx).
    destruct (delivered_sendable _ _ _ _ _ _ _ _ _ _ Sh1 G Kp Ps1) as (Sd & b & Sb).
    split; [exact Sd|]. exists b, x. split; [exact Sb|]. split; [|reflexivity].
    eapply C08_parse_after_serialize; eassumption. }
  assert (ys = delivered items) as ->; [|eauto]. clear - B. induction B; congruence.
Qed.

Lemma scalars_check l : forallb (fun c => (c <=? 1114111) && negb ((55296 <=? c) && (c <=? 57343))) l = true ->
  Forall (fun c => (c <= 1114111) /\ ~ (55296 <= c <= 57343)) l.
Proof.
  rewrite forallb_forall, Forall_forall. intros H c C. specialize (H c C).
  rewrite andb_true_iff, negb_true_iff, andb_false_iff, N.leb_le, !N.leb_gt in H. lia.
Qed.
(* a message from fields, one from keywords, and a stream with rubbish meet the hypotheses *)
Example C75_fields_example : exists x, from_fields (ex_cfg 1) x /\ m_payload x = [u "5327.04319"; u "S"; u "00214.41396"; u "E"; u "223232.00"; u "A"; u "A"].
Proof.
  eexists. split.
  { exists no_clock, (u "GN"), (u "GLL"), false, 1%Z, [u "5327.04319"; u "S"; u "00214.41396"; u "E"; u "223232.00"; u "A"; u "A"].
    split; [vm_compute; reflexivity|]. cbv zeta.
    split; [apply header_get; vm_compute; repeat split|].
    split; [vm_compute; intuition discriminate|]. split; [vm_compute; intuition discriminate|].
    split; [exists 71, [78]; split; [reflexivity|]; apply hdr_second_iff; vm_compute; reflexivity|].
    split; [left; intros y H; discriminate H|]. split; [vm_compute; discriminate|]. split; [discriminate|].
    apply scalars_check. vm_compute. reflexivity. }
  reflexivity.
Qed.
Example C75_keywords_example : exists x, from_keywords (ex_cfg 1) x /\ m_payload x = [u "5300.00000"; u "S"; []; u "E"; u "123456.78"; []; []].
Proof.
  eexists. split.
  { exists noon, (u "GN"), (u "GLL"), false, 1%Z, [(u "lat", VInt (-53))], def_g_GLL.
    split; [vm_compute; reflexivity|]. split; [vm_compute; reflexivity|].
    assert (plain def_g_GLL) as Pl by (apply plainb_ok; vm_compute; reflexivity).
    split. { intros sl X. apply expands_plain in X; [|exact Pl]. subst sl. apply Forall_forall. intros s I.
      assert (forallb (fun s => str_in (snd s) field_types) (plain_slots def_g_GLL) = true) as F by (vm_compute; reflexivity).
      rewrite forallb_forall in F. apply str_in_iff, F, I. }
    split. { intros sl k ty val X I L. apply expands_plain in X; [|exact Pl]. subst sl. apply lookup_In in L. cbn [In] in L.
      destruct L as [L|[]]. injection L as <- <-. vm_compute in I.
      repeat (destruct I as [I|I]; [injection I; intros; subst; try discriminate|]); [|contradiction].
      split; intros Q; try discriminate Q. }
    split; [unfold reads_differently; cbn [m_payload]; intros [(_ & [H|(e & H)])|[(_ & H & _)|(H & _)]]; discriminate|].
    split; [discriminate|]. split; [discriminate|].
    split; [exists 71, [78]; split; [reflexivity|]; apply hdr_second_iff; vm_compute; reflexivity|]. cbv zeta.
    split; [apply header_get; vm_compute; repeat split|].
    split; [vm_compute; intuition discriminate|]. split; [vm_compute; intuition discriminate|].
    split; [left; intros y H; discriminate H|]. split; [discriminate|].
    apply scalars_check. vm_compute. reflexivity. }
  reflexivity.
Qed.
Example C75_relay_example : exists items e ev rest, fiterate (ex_cfg 1) 300 300 ex_stream = Some (items, e, ev, rest)
  /\ length (delivered items) = 2%nat /\ Forall (fun x => forall t, m_talker x ++ m_msgID x ++ t <> u "PSSNSNC") (delivered items).
Proof.
  do 4 eexists. split; [vm_compute; reflexivity|]. split; [reflexivity|].
  repeat (constructor; [intros t H; discriminate H|]). constructor.
Qed.
