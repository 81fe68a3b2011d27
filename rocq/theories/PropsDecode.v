(* Theorems about decoding and selection of the definition:
   C12-C15, C17, C18, C20-C22, C54 *)
From Verif Require Import Message Reader BaseLemmas TextLemmas NumLemmas Spec ParseProofs MessageProofs
  SelectProofs DecodeProofs TableProofs StreamProofs PropsMessage.
Local Open Scope Z_scope.

Lemma given_functional m c1 k1 t1 i1 f1 c2 k2 t2 i2 f2 :
  given m c1 k1 t1 i1 f1 -> given m c2 k2 t2 i2 f2 -> c1 = c2 /\ k1 = k2 /\ t1 = t2 /\ i1 = i2 /\ f1 = f2.
Proof.
  intros ((s & T & F) & H) ((s' & T' & F') & H'). rewrite (text_of_functional _ _ _ T' T) in F'.
  destruct (frame_functional _ _ _ _ _ F' F) as [-> ->].
  destruct (header_functional _ _ _ _ _ _ _ H' H) as (-> & -> & ->). repeat split.
Qed.

(* --------------------------------------------------------- C13 and C12 *)
(* the attributes of a message are those of its definition *)
Theorem C13_decoded m content ck talker msgid fields mode v ud x d :
  given m content ck talker msgid fields -> parse m mode v ud = Ok (Some x) ->
  kept_as_is talker msgid fields ->
  definition_for mode ud msgid fields = Some d -> well_formed d ->
  decoded_by d fields (m_attrs x).
Proof.
  intros G E K D W.
  destruct (parse_given _ _ _ _ _ E) as (content' & ck' & talker' & msgid' & fields' & G' & _ & _ & _ & _ &
    _ & _ & _ & _ & _ & _ & _ & _ & _ & _ & X).
  destruct (given_functional _ _ _ _ _ _ _ _ _ _ _ G' G) as (_ & _ & -> & -> & ->).
  rewrite D in X. destruct X as (s & M & _ & ->).
  destruct (members_decode _ _ _ _ W (stream_streams _ _ _ _ _ _ _ _ K) M) as (sl & _ & L & Dc & _).
  exists sl. split; assumption.
Qed.
(* in particular of every built-in definition: the user dictionary is not involved *)
Theorem C13_builtin m content ck talker msgid fields mode v ud x d :
  given m content ck talker msgid fields -> parse m mode v ud = Ok (Some x) ->
  kept_as_is talker msgid fields -> known_id [] msgid = true ->
  definition_for mode ud msgid fields = Some d ->
  decoded_by d fields (m_attrs x).
Proof.
  intros G E K Kn D. eapply C13_decoded; try eassumption.
  apply definition_in in D as [(k & B)|(N & _)]; [apply (builtin_well_formed k d B)|congruence].
Qed.

(* group names and counts spelled out: slot number j of repeat r of an n-member group *)
Theorem C13_group_slots n i ms r j k ty :
  plain ms -> (r < n)%nat -> nth_error ms j = Some (k, ASingle ty) ->
  nth_error (group_slots n i ms) (r * length ms + j) = Some (k ++ [95%N] ++ index_text (i + N.of_nat r), ty).
Proof.
  intros P. revert i r. induction n as [|n IH]; intros i r L E; [lia|].
  assert (nth_error (plain_slots ms) j = Some (k, ty)) as E'.
  { clear IH L. revert j E. induction ms as [|[k0 a] ms IHm]; intros [|j] E; try discriminate;
      inversion P as [|? ? [t Et] P']; subst; cbn in Et; subst a; unfold plain_slots in *; cbn in *.
    - injection E as -> ->. reflexivity.
    - apply IHm; assumption. }
  assert (j < length ms)%nat as Lj by (apply nth_error_Some; rewrite E; discriminate).
  cbn [group_slots]. destruct r as [|r].
  - cbn [Nat.mul Nat.add]. rewrite nth_error_app1 by (rewrite map_length, plain_slots_length by exact P; exact Lj).
    erewrite map_nth_error by exact E'. cbn [fst snd].
    rewrite N.add_0_r. reflexivity.
  - rewrite nth_error_app2 by (rewrite map_length, plain_slots_length by exact P; nia). rewrite map_length, plain_slots_length by exact P.
    replace (S r * length ms + j - length ms)%nat with (r * length ms + j)%nat by nia.
    rewrite IH by (lia || assumption).
    replace (N.succ i + N.of_nat r)%N with (i + N.of_nat (S r))%N by lia. reflexivity.
Qed.
(* a trailing indeterminate group takes as many whole repeats as fit *)
Theorem C13_indeterminate val total pos k ms sl :
  layout val total pos [(k, AGroup (NStr (u "None")) ms)] sl ->
  sl = group_slots ((total - pos) / length ms) 1 ms.
Proof.
  intros L. inversion L as [| |? ? ? ? ? sl' cnt R L']; subst. inversion L'; subst. unfold repeats in R. rewrite str_eqb_refl in R.
  rewrite R, app_nil_r. reflexivity.
Qed.

Example C13_example :
  exists x, parse (MStr (u "$GPALC,1,1,5,2,a,b,3,c,d,7*00")) 0 0 [] = Ok (Some x)
    /\ definition_for 0 [] (u "ALC") (split_all 44 (u "1,1,5,2,a,b,3,c,d,7")) <> None
    /\ map fst (m_attrs x) = [u "numSen"; u "senNum"; u "seqmid"; u "numAlerts"; u "mfrcode_01"; u "alertid_01";
         u "revisionctr_01"; u "mfrcode_02"; u "alertid_02"; u "revisionctr_02"].
Proof. eexists. split; [vm_compute; reflexivity|]. split; [vm_compute; discriminate|vm_compute; reflexivity]. Qed.

(* ------------------------------------------------------------------ C12 *)
Lemma decode_nth sl fields attrs :
  decode sl fields = Some attrs ->
  length attrs = Nat.min (length sl) (length fields)
  /\ forall i k ty f, nth_error sl i = Some (k, ty) -> nth_error fields i = Some f ->
     exists val, str2val f ty = Ok val
       /\ nth_error attrs i = Some (k, settle k val (combine (skipn (S i) sl) (skipn (S i) fields))).
Proof.
  revert fields attrs. induction sl as [|[k0 t0] sl IH]; intros fields attrs D; cbn [decode] in D.
  - injection D as <-. split; [reflexivity|]. intros [|i]; discriminate.
  - destruct fields as [|f0 fields]; [injection D as <-; split; [reflexivity|]; intros i ? ? ? _ X; destruct i; discriminate|].
    destruct (str2val f0 t0) as [v0|] eqn:V; [|discriminate].
    destruct (decode sl fields) as [r|] eqn:D'; [|discriminate]. injection D as <-.
    apply IH in D' as [L Hn]. split; [cbn; rewrite L; reflexivity|].
    intros [|i] k ty f E1 E2; cbn in E1, E2.
    + injection E1 as <- <-. injection E2 as <-. exists v0. split; [exact V|reflexivity].
    + destruct (Hn i k ty f E1 E2) as (val & Hv & A). exists val. split; [exact Hv|]. exact A.
Qed.

(* exactly one attribute per entry with a field, in order, typed by the entry *)
Theorem C12_plain m content ck talker msgid fields mode v ud x d :
  given m content ck talker msgid fields -> parse m mode v ud = Ok (Some x) ->
  kept_as_is talker msgid fields ->
  definition_for mode ud msgid fields = Some d -> well_formed d -> plain d ->
  length (m_attrs x) = Nat.min (length d) (length fields)
  /\ forall i k ty f, nth_error d i = Some (k, ASingle ty) -> nth_error fields i = Some f ->
     exists val, str2val f ty = Ok val
       /\ nth_error (m_attrs x) i =
            Some (k, settle k val (combine (skipn (S i) (plain_slots d)) (skipn (S i) fields))).
Proof.
  intros G E K D W P.
  destruct (C13_decoded _ _ _ _ _ _ _ _ _ _ _ G E K D W) as (sl & L & Dc).
  assert (sl = plain_slots d) as ->.
  { apply expands_plain; [exact P|]. eapply layout_expands, L. }
  apply decode_nth in Dc as [L1 H1]. rewrite plain_slots_length in L1 by exact P. split; [exact L1|].
  intros i k ty f E1 E2. apply (H1 i k ty f); [|exact E2].
  clear -P E1. revert i E1. induction P as [|[k0 a] d [t Et] P IH]; intros [|i] E1; try discriminate;
    cbn in Et; subst a; unfold plain_slots in *; cbn in *; [injection E1 as -> ->; reflexivity|]. apply IH, E1.
Qed.

(* names other than lat and lon hold just the conversion *)
Theorem C12_settle_other k val later : k <> u "lat" -> k <> u "lon" -> settle k val later = val.
Proof. intros H1 H2. unfold settle. apply str_eqb_neq in H1, H2. rewrite H1, H2. reflexivity. Qed.

(* the typed conversions of non-text types are given by C40-C52; text is kept *)
Theorem C12_text f ty : In ty text_types -> str2val f ty = Ok (VStr f).
Proof. exact (text_type_ok ty f). Qed.

(* and parsing fails only when a field cannot be converted: NMEATypeError *)
Theorem C12_complete m content ck talker msgid fields mode v ud d :
  given m content ck talker msgid fields -> (mode = 0 \/ mode = 1 \/ mode = 2) ->
  (wants_checksum v = true -> is_checksum content (str_upper ck)) ->
  (wants_msgid v = true -> has_key talker NMEA_TALKERS = true /\ known_id ud msgid = true) ->
  lacks_id mode msgid fields = false ->
  kept_as_is talker msgid fields ->
  definition_for mode ud msgid fields = Some d -> well_formed d -> no_clash d -> plain d ->
  match decode (plain_slots d) fields with
  | Some attrs => exists x, parse m mode v ud = Ok (Some x) /\ m_attrs x = attrs /\ m_payload x = fields
  | None => parse m mode v ud = Raise NMEATypeError
  end.
Proof.
  intros G V C Kn L K D W N P. rewrite (parse_stream _ _ _ _ _ _ mode v ud G). apply valid_mode_iff in V.
  rewrite V, L, D. cbn [negb].
  replace (wants_checksum v && negb (str_eqb (str_upper ck) (calc_checksum content))) with false.
  2:{ symmetry. destruct (wants_checksum v); [|reflexivity]. specialize (C eq_refl). apply is_checksum_iff in C.
      rewrite C, str_eqb_refl. reflexivity. }
  replace (wants_msgid v && negb (has_key talker NMEA_TALKERS && known_id ud msgid)) with false.
  2:{ symmetry. destruct (wants_msgid v); [|reflexivity]. destruct (Kn eq_refl) as [-> ->]. reflexivity. }
  set (c := stream_ctx no_clock talker msgid mode false v ud).
  assert (streams c fields) as St by (split; [reflexivity|exact K]).
  destruct (decode (plain_slots d) fields) as [attrs|] eqn:Dc.
  - destruct (proj2 (members_plain_iff c d fields attrs P W N St) Dc) as (s & M & A & Pl).
    unfold stream_result. rewrite M. cbn [type_errors]. eexists. split; [reflexivity|]. split; assumption.
  - destruct (stream_result c fields d) as [s|e] eqn:R.
    + exfalso. unfold stream_result in R. destruct (set_members c d [] (mkast 0 [] fields)) as [s'|e] eqn:M; [|destruct e; discriminate].
      destruct (members_decode c d fields s' W St M) as (sl & X & _ & D' & _).
      rewrite (expands_plain d sl P X), Dc in D'. discriminate.
    + apply stream_result_exc in R as [->|[-> Z]]; [reflexivity| |reflexivity].
      exfalso. revert Z. apply members_zero; [reflexivity|]. apply flat_no_empty, W.
Qed.

(* its hypotheses hold of every group-free built-in definition *)
Theorem C12_builtin k d : In (k, d) builtin_definitions -> well_formed d /\ no_clash d.
Proof. intros H. split; [apply (builtin_well_formed k d H)|apply (builtin_no_clash k d H)]. Qed.

Example C12_example :
  exists d, definition_for 0 [] (u "GLL") [u "5327.04319"; u "S"; u "00214.41396"; u "E"] = Some d
    /\ plain d /\ In (u "GLL", d) builtin_definitions
    /\ exists a b, decode (plain_slots d) [u "5327.04319"; u "S"; u "00214.41396"; u "E"]
       = Some [(u "lat", VFloat a); (u "NS", VStr (u "S")); (u "lon", VFloat b); (u "EW", VStr (u "E"))]
       /\ fltb a fzero = true /\ fltb fzero b = true.
Proof.
  eexists. split; [vm_compute; reflexivity|]. split; [apply plainb_ok; vm_compute; reflexivity|].
  split; [unfold builtin_definitions; rewrite !in_app_iff; left; apply lookup_In; vm_compute; reflexivity|].
  eexists _, _. split; [vm_compute; reflexivity|]. split; vm_compute; reflexivity.
Qed.

(* ------------------------------------------------------------------ C14 *)
Lemma decode_app sl fs gs r :
  decode sl (fs ++ gs) = Some r ->
  exists r', decode sl fs = Some r' /\ map fst r' = map fst (firstn (length fs) r)
    /\ forall i k val, nth_error r' i = Some (k, val) -> k <> u "lat" -> k <> u "lon" ->
       nth_error r i = Some (k, val).
Proof.
  revert fs r. induction sl as [|[k t] sl IH]; intros fs r D; cbn [decode] in *.
  - injection D as <-. exists []. split; [reflexivity|]. rewrite firstn_nil. split; [reflexivity|]. intros [|i]; discriminate.
  - destruct fs as [|f fs]; [exists []; repeat split; intros [|i]; discriminate|].
    cbn [app] in D. destruct (str2val f t) as [v|]; [|discriminate].
    destruct (decode sl (fs ++ gs)) as [r1|] eqn:D1; [|discriminate]. injection D as <-.
    destruct (IH fs r1 D1) as (r' & -> & N & H). eexists. split; [reflexivity|]. split; [cbn; rewrite N; reflexivity|].
    intros [|i] k' val E N1 N2; cbn in *; [|apply H; assumption].
    injection E as -> <-. rewrite !C12_settle_other by assumption. reflexivity.
Qed.

(* dropping trailing fields of a sentence that parses *)
Theorem C14_prefix m1 m2 content1 content2 ck1 ck2 talker msgid fields rest mode v ud x d :
  given m1 content1 ck1 talker msgid (fields ++ rest) -> given m2 content2 ck2 talker msgid fields ->
  (wants_checksum v = true -> is_checksum content2 (str_upper ck2)) ->
  kept_as_is talker msgid (fields ++ rest) ->
  lacks_id mode msgid fields = false ->
  definition_for mode ud msgid (fields ++ rest) = Some d -> definition_for mode ud msgid fields = Some d ->
  well_formed d -> no_clash d -> plain d ->
  parse m1 mode v ud = Ok (Some x) ->
  exists y, parse m2 mode v ud = Ok (Some y)
    /\ map fst (m_attrs y) = map fst (firstn (length fields) (m_attrs x))
    /\ forall i k val, nth_error (m_attrs y) i = Some (k, val) -> k <> u "lat" -> k <> u "lon" ->
       nth_error (m_attrs x) i = Some (k, val).
Proof.
  intros G1 G2 C K L D1 D2 W N P E.
  destruct (parse_given _ _ _ _ _ E) as (c' & k' & t' & i' & f' & G' & V & _ & Kn & _ &
    _ & _ & _ & _ & _ & _ & _ & _ & _ & _ & X).
  destruct (given_functional _ _ _ _ _ _ _ _ _ _ _ G' G1) as (_ & _ & -> & -> & ->).
  rewrite D1 in X. destruct X as (s & M & _ & A).
  destruct (members_decode _ _ _ _ W (stream_streams _ _ _ _ _ _ _ _ K) M) as (sl & Ex & _ & Dc & _).
  rewrite (expands_plain d sl P Ex) in Dc. rewrite <- A in Dc.
  destruct (decode_app _ _ _ _ Dc) as (r' & D' & N' & H').
  assert (kept_as_is talker msgid fields) as K'.
  { destruct K as [K|K]; [left; exact K|right]. apply Forall_app in K. apply K. }
  pose proof (C12_complete m2 content2 ck2 talker msgid fields mode v ud d G2 (proj1 (valid_mode_iff mode) V) C Kn L K' D2 W N P) as Cm.
  rewrite D' in Cm. destruct Cm as (y & Ey & Ay & _). exists y. rewrite Ay. repeat split; assumption.
Qed.

(* extra fields beyond the definition change nothing *)
Theorem C14_extra sl fields rest :
  (length sl <= length fields)%nat -> decode sl (fields ++ rest) = decode sl fields.
Proof.
  revert fields. induction sl as [|[k t] sl IH]; intros fields L; [reflexivity|].
  destruct fields as [|f fields]; [cbn in L; lia|]. cbn [app decode]. cbn in L.
  rewrite IH by lia. assert (combine sl (fields ++ rest) = combine sl fields) as ->; [|reflexivity].
  assert (length sl <= length fields)%nat as L' by lia. clear -L'. revert fields L'.
  induction sl as [|x sl IH]; intros [|f fields] L; cbn in *; try reflexivity; [lia|].
  f_equal. apply IH. lia.
Qed.
(* the sign of lat does depend on the later NS field, and indeterminate groups on the length *)
Theorem C14_sign_refuted :
  exists x y, parse (MStr (u "$GNGLL,5327.04319,S*00")) 0 0 [] = Ok (Some x)
    /\ parse (MStr (u "$GNGLL,5327.04319*00")) 0 0 [] = Ok (Some y)
    /\ hd (u "", VNone) (m_attrs x) <> hd (u "", VNone) (m_attrs y).
Proof. eexists _, _. split; [vm_compute; reflexivity|]. split; [vm_compute; reflexivity|]. vm_compute. discriminate. Qed.

(* ------------------------------------------------------------------ C15 *)
Lemma last_of_Some ty l f : last_of ty l = Some f -> exists k, In ((k, ty), f) l.
Proof.
  induction l as [|[[k t] g] l IH]; cbn; intros E; [discriminate|].
  destruct (last_of ty l) as [g'|].
  - injection E as ->. destruct (IH eq_refl) as (k' & H). exists k'. right. exact H.
  - destruct (str_eqb_spec t ty) as [->|_]; [|discriminate]. injection E as ->. exists k. left. reflexivity.
Qed.
(* an NS field h is the last of its kind after the lat field *)
Definition final_hemisphere (ty : pystr) (later : list (slot * pystr)) (h : pystr) : Prop :=
  exists a k b, later = a ++ ((k, ty), h) :: b /\ (forall k' f', ~ In ((k', ty), f') b).
Lemma final_last ty later h : final_hemisphere ty later h -> last_of ty later = Some h.
Proof.
  intros (a & k & b & -> & Nb). induction a as [|[[k' t'] f'] a IH]; cbn.
  - destruct (last_of ty b) as [g|] eqn:E; [apply last_of_Some in E as (k0 & H); elim (Nb _ _ H)|].
    rewrite str_eqb_refl. reflexivity.
  - rewrite IH. reflexivity.
Qed.


(* the attribute of slot i *)
Lemma decoded_attr m content ck talker msgid fields mode v ud x d sl i k ty f :
  given m content ck talker msgid fields -> parse m mode v ud = Ok (Some x) ->
  kept_as_is talker msgid fields -> definition_for mode ud msgid fields = Some d -> well_formed d ->
  layout (int_attr (m_attrs x)) (length fields) 0 d sl ->
  nth_error sl i = Some (k, ty) -> nth_error fields i = Some f ->
  exists val, str2val f ty = Ok val
    /\ lookup k (m_attrs x) = Some (settle k val (combine (skipn (S i) sl) (skipn (S i) fields))).
Proof.
  intros G E K D W L E1 E2.
  destruct (parse_given _ _ _ _ _ E) as (content' & ck' & talker' & msgid' & fields' & G' & _ & _ & _ & _ &
    _ & _ & _ & _ & _ & _ & _ & _ & _ & _ & X).
  destruct (given_functional _ _ _ _ _ _ _ _ _ _ _ G' G) as (_ & _ & -> & -> & ->).
  rewrite D in X. destruct X as (s & M & _ & A).
  destruct (members_decode _ _ _ _ W (stream_streams _ _ _ _ _ _ _ _ K) M) as (sl' & Ex & L' & Dc & _).
  rewrite <- A in *. pose proof (layout_functional _ _ _ _ _ _ L L') as <-.
  destruct (decode_nth _ _ _ Dc) as [Ln Hn]. destruct (Hn i k ty f E1 E2) as (val & Hv & Hi).
  exists val. split; [exact Hv|]. apply lookup_NoDup; [|apply nth_error_In in Hi; exact Hi].
  destruct W as (_ & U & _). specialize (U _ Ex).
  assert (forall sl fs r, decode sl fs = Some r -> map fst r = firstn (length r) (map fst sl)) as Nm.
  { clear. induction sl as [|[k t] sl IH]; intros [|f fs] r D; cbn [decode] in D;
      try (injection D as <-; reflexivity).
    destruct (str2val f t); [|discriminate]. destruct (decode sl fs) as [r'|] eqn:D'; [|discriminate].
    injection D as <-. cbn. f_equal. apply (IH fs r' D'). }
  rewrite (Nm _ _ _ Dc). rewrite <- (firstn_skipn (length (m_attrs x)) (map fst sl)) in U.
  apply NoDup_prefix in U. exact U.
Qed.

(* lat: the last NS field after it gives the sign, the magnitude is that of the field *)
Theorem C15_lat m content ck talker msgid fields mode v ud x d sl i ty f lat h :
  given m content ck talker msgid fields -> parse m mode v ud = Ok (Some x) ->
  kept_as_is talker msgid fields -> definition_for mode ud msgid fields = Some d -> well_formed d ->
  layout (int_attr (m_attrs x)) (length fields) 0 d sl ->
  nth_error sl i = Some (u "lat", ty) -> nth_error fields i = Some f -> str2val f ty = Ok (VFloat lat) ->
  final_hemisphere (u "LAD") (combine (skipn (S i) sl) (skipn (S i) fields)) h ->
  lookup (u "lat") (m_attrs x) = Some (VFloat (if str_eqb h (u "S") then SFopp (SFabs lat) else SFabs lat)).
Proof.
  intros G E K D W L E1 E2 V H.
  destruct (decoded_attr _ _ _ _ _ _ _ _ _ _ _ _ _ _ _ _ G E K D W L E1 E2) as (val & V' & ->).
  rewrite V in V'. injection V' as <-. apply final_last in H. unfold settle. rewrite H. reflexivity.
Qed.
Theorem C15_lon m content ck talker msgid fields mode v ud x d sl i ty f lon h :
  given m content ck talker msgid fields -> parse m mode v ud = Ok (Some x) ->
  kept_as_is talker msgid fields -> definition_for mode ud msgid fields = Some d -> well_formed d ->
  layout (int_attr (m_attrs x)) (length fields) 0 d sl ->
  nth_error sl i = Some (u "lon", ty) -> nth_error fields i = Some f -> str2val f ty = Ok (VFloat lon) ->
  final_hemisphere (u "LND") (combine (skipn (S i) sl) (skipn (S i) fields)) h ->
  lookup (u "lon") (m_attrs x) = Some (VFloat (if str_eqb h (u "W") then SFopp (SFabs lon) else SFabs lon)).
Proof.
  intros G E K D W L E1 E2 V H.
  destruct (decoded_attr _ _ _ _ _ _ _ _ _ _ _ _ _ _ _ _ G E K D W L E1 E2) as (val & V' & ->).
  rewrite V in V'. injection V' as <-. apply final_last in H. unfold settle. rewrite H. reflexivity.
Qed.
(* without such a field the value is as converted *)
Theorem C15_no_hemisphere m content ck talker msgid fields mode v ud x d sl i k ty f val :
  given m content ck talker msgid fields -> parse m mode v ud = Ok (Some x) ->
  kept_as_is talker msgid fields -> definition_for mode ud msgid fields = Some d -> well_formed d ->
  layout (int_attr (m_attrs x)) (length fields) 0 d sl ->
  nth_error sl i = Some (k, ty) -> nth_error fields i = Some f -> str2val f ty = Ok val ->
  (forall k' f' t', In ((k', t'), f') (combine (skipn (S i) sl) (skipn (S i) fields)) ->
     t' <> u "LAD" /\ t' <> u "LND") ->
  lookup k (m_attrs x) = Some val.
Proof.
  intros G E K D W L E1 E2 V H.
  destruct (decoded_attr _ _ _ _ _ _ _ _ _ _ _ _ _ _ _ _ G E K D W L E1 E2) as (val' & V' & ->).
  rewrite V in V'. injection V' as <-.
  assert (forall t, t = u "LAD" \/ t = u "LND" -> last_of t (combine (skipn (S i) sl) (skipn (S i) fields)) = None) as N.
  { intros t Ht. destruct (last_of t _) as [g|] eqn:Lo; [|reflexivity]. apply last_of_Some in Lo as (k' & Hin).
    apply H in Hin. destruct Ht as [->| ->]; destruct Hin; contradiction. }
  unfold settle. rewrite !N by auto. destruct (str_eqb k (u "lat")); [reflexivity|].
  destruct (str_eqb k (u "lon")); reflexivity.
Qed.
Example C15_example :
  exists x d sl lat, parse (MStr (u "$GNGLL,5327.04319,S,00214.41396,W*00")) 0 0 [] = Ok (Some x)
  /\ definition_for 0 [] (u "GLL") (split_all 44 (u "5327.04319,S,00214.41396,W")) = Some d
  /\ layout (int_attr (m_attrs x)) 4 0 d sl
  /\ nth_error sl 0 = Some (u "lat", u "LA") /\ str2val (u "5327.04319") (u "LA") = Ok (VFloat lat)
  /\ final_hemisphere (u "LAD") (combine (skipn 1 sl) (skipn 1 (split_all 44 (u "5327.04319,S,00214.41396,W")))) (u "S").
Proof.
  eexists _, _, _, _. split; [vm_compute; reflexivity|]. split; [vm_compute; reflexivity|].
  split; [repeat constructor|]. split; [vm_compute; reflexivity|]. split; [vm_compute; reflexivity|].
  exists [], (u "NS"). eexists. split; [vm_compute; reflexivity|]. 
  intros k' f' H. cbn in H. destruct H as [H|[H|H]]; [injection H; discriminate..|contradiction].
Qed.

(* ------------------------------------------------------------------ C17 *)
Theorem C17_unknown m content ck talker msgid fields mode v ud :
  given m content ck talker msgid fields -> (mode = 0 \/ mode = 1 \/ mode = 2) ->
  (wants_checksum v = true -> is_checksum content (str_upper ck)) ->
  wants_msgid v = false -> lacks_id mode msgid fields = false ->
  definition_for mode ud msgid fields = None ->
  exists x, parse m mode v ud = Ok (Some x) /\ m_attrs x = numbered 1 fields /\ m_payload x = fields
            /\ m_talker x = talker /\ m_msgID x = msgid /\ m_checksum x = Some ck.
Proof.
  intros G V C W L D. rewrite (parse_stream _ _ _ _ _ _ mode v ud G). apply valid_mode_iff in V.
  rewrite V, L, D, W. cbn [negb andb].
  replace (wants_checksum v && negb (str_eqb (str_upper ck) (calc_checksum content))) with false.
  2:{ symmetry. destruct (wants_checksum v); [|reflexivity]. specialize (C eq_refl). apply is_checksum_iff in C.
      rewrite C, str_eqb_refl. reflexivity. }
  eexists. split; [reflexivity|]. repeat split.
Qed.
Theorem C17_numbered fields i :
  nth_error (numbered 1 fields) i =
    match nth_error fields i with
    | Some f => Some (u "field_" ++ index_text (N.of_nat (S i)), VStr f)
    | None => None
    end.
Proof.
  assert (forall n, nth_error (numbered n fields) i =
    match nth_error fields i with
    | Some f => Some (u "field_" ++ index_text (n + N.of_nat i)%N, VStr f) | None => None end) as H.
  { revert i. induction fields as [|f fields IH]; intros [|i] n; try reflexivity.
    - cbn [nth_error numbered N.of_nat]. rewrite N.add_0_r. reflexivity.
    - cbn [numbered nth_error]. rewrite IH. destruct (nth_error fields i); [|reflexivity].
      replace (N.succ n + N.of_nat i)%N with (n + N.of_nat (S i))%N by lia. reflexivity. }
  rewrite H. destruct (nth_error fields i); [|reflexivity].
  replace (1 + N.of_nat i)%N with (N.of_nat (S i)) by lia. reflexivity.
Qed.
Example C17_example : exists x, parse (MStr (u "$GPZZZ,,a,\*00")) 0 0 [] = Ok (Some x)
  /\ m_attrs x = [(u "field_01", VStr []); (u "field_02", VStr (u "a")); (u "field_03", VStr (u "\"))].
Proof. eexists. split; vm_compute; reflexivity. Qed.

(* ------------------------------------------------------------------ C18 *)
Theorem C18_accepts m content ck talker msgid fields mode v ud x :
  given m content ck talker msgid fields -> wants_msgid v = true -> parse m mode v ud = Ok (Some x) ->
  has_key talker NMEA_TALKERS = true /\ known_id ud msgid = true /\ definition_for mode ud msgid fields <> None.
Proof.
  intros G W E.
  destruct (parse_given _ _ _ _ _ E) as (content' & ck' & talker' & msgid' & fields' & G' & _ & _ & Kn & _ &
    _ & _ & _ & _ & _ & _ & _ & _ & _ & _ & X).
  destruct (given_functional _ _ _ _ _ _ _ _ _ _ _ G' G) as (_ & _ & -> & -> & ->).
  destruct (Kn W) as [K1 K2]. repeat (split; [assumption|]). intros D. rewrite D in X. destruct X as [X _]. congruence.
Qed.
Theorem C18_rejects m content ck talker msgid fields mode v ud :
  given m content ck talker msgid fields -> wants_msgid v = true ->
  has_key talker NMEA_TALKERS = false \/ known_id ud msgid = false
    \/ (lacks_id mode msgid fields = false /\ definition_for mode ud msgid fields = None) ->
  parse m mode v ud = Raise NMEAParseError.
Proof.
  intros G W H. rewrite (parse_stream _ _ _ _ _ _ mode v ud G), W.
  destruct (negb (valid_mode mode)); [reflexivity|]. destruct (wants_checksum v && _); [reflexivity|].
  destruct H as [H|[H|[H1 H2]]].
  - rewrite H. reflexivity.
  - rewrite H, andb_false_r. reflexivity.
  - rewrite H1, H2. destruct (true && _); reflexivity.
Qed.
(* without the flag neither the talker nor recognition of the msgID matters *)
Theorem C18_off m content ck talker msgid fields mode v ud :
  given m content ck talker msgid fields -> (mode = 0 \/ mode = 1 \/ mode = 2) ->
  (wants_checksum v = true -> is_checksum content (str_upper ck)) ->
  wants_msgid v = false -> known_id ud msgid = false -> definition_for mode ud msgid fields = None ->
  exists x, parse m mode v ud = Ok (Some x).
Proof.
  intros G V C W Kn D.
  destruct (C17_unknown m content ck talker msgid fields mode v ud G V C W) as (x & E & _); [|exact D|exists x; exact E].
  unfold known_id in Kn. apply orb_false_iff in Kn as [Kn _]. apply orb_false_iff in Kn as [Kn K3].
  apply orb_false_iff in Kn as [K1 K2]. unfold lacks_id. rewrite K3. cbn [andb orb].
  destruct special_is_prop as (S1 & S2 & _).
  destruct (str_eqb_spec msgid (u "QTMSN")) as [->|_]; [congruence|].
  destruct (str_eqb_spec msgid (u "STMDRSENMSG")) as [->|_]; [congruence|]. cbn. apply andb_false_r.
Qed.
(* ... and a sentence differing in the talker alone is treated alike (but for PSSNSNC, whose
   fields lose their brackets, and the proprietary prefixes, where the talker P selects that) *)
Theorem C18_talker m1 m2 content1 content2 ck1 ck2 talker1 talker2 msgid fields mode v ud :
  given m1 content1 ck1 talker1 msgid fields -> given m2 content2 ck2 talker2 msgid fields ->
  (wants_checksum v = true -> is_checksum content1 (str_upper ck1) /\ is_checksum content2 (str_upper ck2)) ->
  wants_msgid v = false -> ~ In msgid prefixes ->
  talker1 ++ msgid <> u "PSSNSNC" -> talker2 ++ msgid <> u "PSSNSNC" ->
  match parse m1 mode v ud, parse m2 mode v ud with
  | Ok (Some x), Ok (Some y) =>
      m_talker x = talker1 /\ m_talker y = talker2 /\ m_msgID x = m_msgID y /\ m_mode x = m_mode y
      /\ m_attrs x = m_attrs y /\ m_payload x = m_payload y
  | Raise e1, Raise e2 => e1 = e2
  | _, _ => False
  end.
Proof.
  intros G1 G2 C W NP N1 N2. rewrite (parse_stream _ _ _ _ _ _ mode v ud G1), (parse_stream _ _ _ _ _ _ mode v ud G2).
  destruct (negb (valid_mode mode)); [reflexivity|].
  assert (forall content ck, (wants_checksum v = true -> is_checksum content (str_upper ck)) ->
            wants_checksum v && negb (str_eqb (str_upper ck) (calc_checksum content)) = false) as Ck.
  { intros content ck X. destruct (wants_checksum v); [|reflexivity]. specialize (X eq_refl). apply is_checksum_iff in X.
    rewrite X, str_eqb_refl. reflexivity. }
  rewrite (Ck content1 ck1), (Ck content2 ck2) by (intros X; apply C, X). rewrite W. cbn [andb].
  destruct (lacks_id mode msgid fields); [reflexivity|].
  destruct (definition_for mode ud msgid fields) as [d|]; [|cbn; repeat split].
  assert (str_in msgid NMEA_PREFIX_PROP = false) as Np.
  { rewrite prefixes_eq. destruct (str_in msgid prefixes) eqn:E; [|reflexivity]. apply str_in_iff in E. contradiction. }
  unfold stream_result.
  rewrite (set_members_congr (stream_ctx no_clock talker1 msgid mode false v ud) (stream_ctx no_clock talker2 msgid mode false v ud)).
  - destruct (type_errors _) as [s|e]; [|reflexivity]. cbn. repeat split.
  - intros. unfold set_single, fetch, identity_of, stream_ctx. cbn [x_streaming x_talker x_msgID]. rewrite Np, !andb_false_r. cbn [bind].
    destruct (str_eqb_spec (talker1 ++ msgid) (u "PSSNSNC")); [contradiction|].
    destruct (str_eqb_spec (talker2 ++ msgid) (u "PSSNSNC")); [contradiction|]. reflexivity.
  - intros. reflexivity.
Qed.
Example C18_talker_example :
  exists x y, parse (MStr (u "$XXGLL,,,,,,V*00")) 0 0 [] = Ok (Some x) /\ parse (MStr (u "$GPGLL,,,,,,V*00")) 0 0 [] = Ok (Some y)
    /\ m_attrs x = m_attrs y /\ m_attrs x <> [] /\ ~ In (u "GLL") prefixes /\ has_key (u "XX") NMEA_TALKERS = false.
Proof.
  eexists. eexists. split; [vm_compute; reflexivity|]. split; [vm_compute; reflexivity|].
  split; [reflexivity|]. split; [discriminate|]. split; [|vm_compute; reflexivity].
  intros H. apply str_in_iff in H. vm_compute in H. discriminate.
Qed.
Example C18_example :
  parse (MStr (u "$GPZZZ*00")) 0 2 [] = Raise NMEAParseError
  /\ parse (MStr (u "$XXGLL*00")) 0 2 [] = Raise NMEAParseError
  /\ (exists x, parse (MStr (u "$GPGLL*00")) 0 2 [] = Ok (Some x))
  /\ (exists x, parse (MStr (u "$GPZZZ*00")) 0 2 [(u "ZZZ", [])] = Ok (Some x)).
Proof.
  split; [vm_compute; reflexivity|]. split; [vm_compute; reflexivity|].
  split; eexists; vm_compute; reflexivity.
Qed.

(* ------------------------------------------------------------------ C20 *)
Theorem C20_user_definition m content ck talker msgid fields mode v ud x d :
  given m content ck talker msgid fields -> parse m mode v ud = Ok (Some x) ->
  kept_as_is talker msgid fields ->
  known_id [] msgid = false -> has_key msgid ud = true ->
  lookup (str_upper msgid) ud = Some d -> well_formed d ->
  decoded_by d fields (m_attrs x).
Proof.
  intros G E K Kn U L W. eapply C13_decoded; try eassumption.
  unfold known_id in Kn. cbn [has_key lookup] in Kn. rewrite orb_false_r in Kn.
  apply orb_false_iff in Kn as [Kn K3]. apply orb_false_iff in Kn as [K1 K2].
  unfold definition_for. rewrite K1, K2, K3, U. cbn [orb]. unfold lookup_id. rewrite K3. exact L.
Qed.
(* built-in ids ignore the dictionary *)
Theorem C20_builtin m content ck talker msgid fields mode v ud1 ud2 :
  given m content ck talker msgid fields -> known_id [] msgid = true ->
  match parse m mode v ud1, parse m mode v ud2 with
  | Ok (Some x), Ok (Some y) => same_message x y
  | Ok None, Ok None => True
  | Raise e1, Raise e2 => e1 = e2
  | _, _ => False
  end.
Proof.
  intros G Kn. rewrite (parse_stream _ _ _ _ _ _ mode v ud1 G), (parse_stream _ _ _ _ _ _ mode v ud2 G).
  destruct (negb (valid_mode mode)); [reflexivity|]. destruct (wants_checksum v && _); [reflexivity|].
  unfold known_id in *. cbn [has_key lookup] in Kn. rewrite orb_false_r in Kn. rewrite Kn, !orb_true_l.
  destruct (wants_msgid v && negb (has_key talker NMEA_TALKERS && true)); [reflexivity|].
  destruct (lacks_id mode msgid fields); [reflexivity|].
  assert (definition_for mode ud1 msgid fields = definition_for mode ud2 msgid fields
          /\ find_defsource msgid ud1 = find_defsource msgid ud2) as [<- Ds].
  { unfold definition_for, find_defsource. destruct (has_key msgid NMEA_MSGIDS); [split; reflexivity|].
    rewrite prefixes_eq. cbn [orb] in Kn. rewrite Kn. split; reflexivity. }
  destruct (definition_for mode ud1 msgid fields) as [d|].
  - unfold stream_result.
    rewrite (set_members_congr (stream_ctx no_clock talker msgid mode false v ud1)
               (stream_ctx no_clock talker msgid mode false v ud2)).
    + destruct (type_errors _) as [s|e]; [|reflexivity].
      unfold same_message, identity, serialize, serialize_text, str_of_msg. cbn. rewrite Ds. repeat split.
    + intros. unfold set_single, fetch. reflexivity.
    + intros. unfold group_count, getattr_num. cbn. rewrite Ds. reflexivity.
  - destruct (wants_msgid v); [reflexivity|].
    unfold same_message, identity, serialize, serialize_text, str_of_msg. cbn. rewrite Ds. repeat split.
Qed.
Definition my_defs : userdefs := [(u "ABC", [(u "n", ASingle (u "IN")); (u "grp", AGroup (NStr (u "n")) [(u "v", ASingle (u "ST"))])])].
Example C20_example :
  exists x, parse (MStr (u "$GPABC,2,x,y*00")) 0 0 my_defs = Ok (Some x)
    /\ m_attrs x = [(u "n", VInt 2); (u "v_01", VStr (u "x")); (u "v_02", VStr (u "y"))]
    /\ known_id [] (u "ABC") = false /\ has_key (u "ABC") my_defs = true
    /\ well_formed (snd (hd (u "", []) my_defs)).
Proof. eexists. repeat (split; [vm_compute; reflexivity|]). apply well_formedb_ok. reflexivity. Qed.
(* a dictionary key that is not upper case: recognised, but its definition is not found *)
Theorem C20_lower_case m content ck talker msgid fields mode v ud :
  given m content ck talker msgid fields -> (mode = 0 \/ mode = 1 \/ mode = 2) ->
  (wants_checksum v = true -> is_checksum content (str_upper ck)) ->
  known_id [] msgid = false -> has_key msgid ud = true -> lookup (str_upper msgid) ud = None ->
  if wants_msgid v then parse m mode v ud = Raise NMEAParseError
  else exists x, parse m mode v ud = Ok (Some x) /\ m_attrs x = numbered 1 fields /\ m_payload x = fields.
Proof.
  intros G V C Kn U L. pose proof Kn as Kn0. unfold known_id in Kn. cbn [has_key lookup] in Kn. rewrite orb_false_r in Kn.
  apply orb_false_iff in Kn as [Kn K3]. apply orb_false_iff in Kn as [K1 K2].
  assert (definition_for mode ud msgid fields = None) as D.
  { unfold definition_for. rewrite K1, K2, K3, U. cbn [orb]. unfold lookup_id. rewrite K3. exact L. }
  assert (lacks_id mode msgid fields = false) as Lk.
  { unfold lacks_id. rewrite K3. cbn [andb orb]. destruct special_is_prop as (S1 & S2 & _).
    destruct (str_eqb_spec msgid (u "QTMSN")) as [->|_]; [congruence|].
    destruct (str_eqb_spec msgid (u "STMDRSENMSG")) as [->|_]; [congruence|]. cbn. apply andb_false_r. }
  destruct (wants_msgid v) eqn:W.
  - eapply C18_rejects; [exact G|exact W|]. right; right. split; assumption.
  - destruct (C17_unknown m content ck talker msgid fields mode v ud G V C W Lk D) as (x & E & A & P & _). exists x. auto.
Qed.
(* a user id that is not upper case is recognised but its definition never found *)
Theorem C20_lower_case_refuted :
  let ud := [(u "abc", [(u "n", ASingle (u "IN"))])] in
  (exists x, parse (MStr (u "$GPabc,2*00")) 0 0 ud = Ok (Some x) /\ m_attrs x = [(u "field_01", VStr (u "2"))])
  /\ parse (MStr (u "$GPabc,2*00")) 0 2 ud = Raise NMEAParseError.
Proof. cbv zeta. split; [eexists; split; vm_compute; reflexivity|vm_compute; reflexivity]. Qed.

(* ------------------------------------------------------------------ C21 *)
Lemma prefix_definition mode ud msgid fields :
  In msgid prefixes ->
  definition_for mode ud msgid fields
  = lookup (variant_of (lookup_id msgid fields) mode fields) (definitions_proprietary mode).
Proof.
  intros H. apply str_in_iff in H. destruct (prefix_not_id msgid H) as [N _].
  unfold definition_for. rewrite N, H, orb_true_r. reflexivity.
Qed.
(* the key of a prefix message is none of the special ids *)
Lemma prefix_key msgid x :
  In msgid prefixes -> forall mode fields, variant_of (str_upper (msgid ++ x)) mode fields = str_upper (msgid ++ x).
Proof.
  intros H mode fields. rewrite str_upper_app.
  assert (forall w : pystr, hd 0%N (str_upper msgid) <> hd 0%N w -> w <> [] ->
            str_eqb (str_upper msgid ++ str_upper x) w = false) as Q.
  { intros w Hw Nw. apply str_eqb_neq. intros E. apply Hw. rewrite <- E.
    cbn [prefixes In] in H. destruct H as [<-|[<-|[<-|[<-|[<-|[<-|[]]]]]]]; reflexivity. }
  assert (forall w : pystr, hd 0%N w = 81%N -> str_eqb (str_upper msgid ++ str_upper x) w = false) as Qq.
  { intros w Hw. apply Q; [|destruct w; discriminate]. rewrite Hw. cbn [prefixes In] in H.
    destruct H as [<-|[<-|[<-|[<-|[<-|[<-|[]]]]]]]; discriminate. }
  assert (forall v, In v variants -> str_eqb (fst (fst (fst v))) (str_upper msgid ++ str_upper x) = false) as Qv.
  { intros v Hv. rewrite str_eqb_sym. apply Qq.
    assert (forallb (fun v => (hd 0 (fst (fst (fst v))) =? 81)%N) variants = true) as B by (vm_compute; reflexivity).
    rewrite forallb_forall in B. apply B in Hv. apply N.eqb_eq, Hv. }
  unfold variant_of.
  assert (find (fun v => let '(k, m, n, _) := v in
                       str_eqb k (str_upper msgid ++ str_upper x) && (m =? mode) && Nat.eqb n (length fields)) variants = None) as ->.
  { match goal with |- find ?g ?l = None => destruct (find g l) as [[[[k m] n] nm]|] eqn:F; [|reflexivity] end.
    apply find_some in F as [F1 F2]. rewrite (Qv _ F1 : str_eqb k _ = false) in F2. discriminate. }
  rewrite (Qq (u "QTMSN")) by reflexivity. cbn [andb].
  replace (str_eqb (str_upper msgid ++ str_upper x) (u "STMDRSENMSG")) with false.
  2:{ symmetry. apply str_eqb_neq. cbn [prefixes In] in H.
      destruct H as [<-|[<-|[<-|[<-|[<-|[<-|[]]]]]]]; intros E;
      match type of E with ?a ++ _ = _ => let b := eval vm_compute in a in change a with b in E end; discriminate. }
  replace (str_eqb (firstn 3 (str_upper msgid ++ str_upper x)) (u "QTM")) with false.
  2:{ symmetry. apply str_eqb_neq. cbn [prefixes In] in H.
      destruct H as [<-|[<-|[<-|[<-|[<-|[<-|[]]]]]]]; intros E;
      match type of E with firstn 3 (?a ++ _) = _ => let b := eval vm_compute in a in change a with b in E end; discriminate. }
  reflexivity.
Qed.
Theorem C21_prefix m content ck talker msgid f rest mode v ud x d :
  given m content ck talker msgid (f :: rest) -> parse m mode v ud = Ok (Some x) ->
  In msgid prefixes -> ~ (msgid = u "ASHR" /\ chr_isdigit (nth 1 f 0%N) = true) ->
  kept_as_is talker msgid (f :: rest) ->
  lookup (str_upper (msgid ++ f)) (definitions_proprietary mode) = Some d ->
  decoded_by d (f :: rest) (m_attrs x).
Proof.
  intros G E P A K L.
  assert (definition_for mode ud msgid (f :: rest) = Some d) as D.
  { rewrite prefix_definition by exact P. unfold lookup_id. pose proof P as P'. apply str_in_iff in P'. rewrite P'.
    cbn [hd]. destruct (str_eqb_spec msgid (u "ASHR")) as [Ea|_]; cbn [andb].
    - destruct (chr_isdigit (nth 1 f 0%N)); [elim A; split; [exact Ea|reflexivity]|].
      rewrite prefix_key by exact P. exact L.
    - rewrite prefix_key by exact P. exact L. }
  eapply C13_decoded; try eassumption.
  apply definition_in in D as [(k & B)|(N & _)]; [apply (builtin_well_formed k d B)|].
  exfalso. unfold known_id in N. pose proof P as P'. apply str_in_iff in P'. rewrite P', orb_true_r in N. discriminate.
Qed.
Theorem C21_ashr m content ck talker f rest mode v ud x d :
  given m content ck talker (u "ASHR") (f :: rest) -> parse m mode v ud = Ok (Some x) ->
  chr_isdigit (nth 1 f 0%N) = true ->
  lookup (u "ASHR") (definitions_proprietary mode) = Some d ->
  decoded_by d (f :: rest) (m_attrs x).
Proof.
  intros G E A L. assert (In (u "ASHR") prefixes) as P by (left; reflexivity).
  assert (definition_for mode ud (u "ASHR") (f :: rest) = Some d) as D.
  { rewrite prefix_definition by exact P. unfold lookup_id. pose proof P as P'. apply str_in_iff in P'. rewrite P'.
    cbn [hd]. rewrite str_eqb_refl, A. cbn [andb].
    replace (u "ASHR") with (u "ASHR" ++ []) at 1 by reflexivity. rewrite prefix_key by exact P. exact L. }
  eapply C13_decoded; try eassumption.
  - left. intros y Y.
    destruct G as (_ & H). destruct H as (_ & _ & _ & _ & [->|[Hp [Hl|[_ Hn]]]]).
    + discriminate.
    + destruct talker as [|a [|b [|? ?]]]; discriminate.
    + discriminate.
  - apply definition_in in D as [(k & B)|(N & _)]; [apply (builtin_well_formed k d B)|discriminate].
Qed.
Example C21_example :
  exists x, parse (MStr (u "$PUBX,04,073731.00,091202,113851.00,1196,15D,1930035,-2660.664,43*00")) 0 0 [] = Ok (Some x)
    /\ nth_error (m_attrs x) 0 = Some (u "msgId", VStr (u "04"))
    /\ exists d, lookup (str_upper (u "UBX" ++ u "04")) (definitions_proprietary 0) = Some d.
Proof. eexists. split; [vm_compute; reflexivity|]. split; [vm_compute; reflexivity|]. eexists. vm_compute. reflexivity. Qed.

(* ------------------------------------------------------------------ C22 *)
(* a proprietary id: the definition is a function of id, mode and fields *)
Theorem C22_variant m content ck talker msgid fields mode v ud x d :
  given m content ck talker msgid fields -> parse m mode v ud = Ok (Some x) ->
  has_key msgid NMEA_MSGIDS_PROP = true -> ~ In msgid prefixes ->
  kept_as_is talker msgid fields ->
  lookup (variant_of (str_upper msgid) mode fields) (definitions_proprietary mode) = Some d ->
  decoded_by d fields (m_attrs x).
Proof.
  intros G E Hp Np K L.
  assert (has_key msgid NMEA_MSGIDS = false) as Ns.
  { destruct (has_key msgid NMEA_MSGIDS) eqn:S; [|reflexivity]. apply special_not_std in S. destruct S as (_ & _ & _ & S). congruence. }
  assert (definition_for mode ud msgid fields = Some d) as D.
  { unfold definition_for. rewrite Ns, Hp. cbn [orb]. unfold lookup_id.
    destruct (str_in msgid prefixes) eqn:P; [elim Np; apply str_in_iff, P|]. exact L. }
  eapply C13_decoded; try eassumption.
  apply definition_in in D as [(k & B)|(N & _)]; [apply (builtin_well_formed k d B)|].
  exfalso. unfold known_id in N. rewrite Hp, orb_true_r in N. discriminate.
Qed.
(* ... and without a definition the fields are numbered *)
Theorem C22_unknown_variant m content ck talker msgid fields mode v ud x :
  given m content ck talker msgid fields -> parse m mode v ud = Ok (Some x) ->
  has_key msgid NMEA_MSGIDS_PROP = true -> ~ In msgid prefixes ->
  lookup (variant_of (str_upper msgid) mode fields) (definitions_proprietary mode) = None ->
  m_attrs x = numbered 1 fields.
Proof.
  intros G E Hp Np L.
  assert (has_key msgid NMEA_MSGIDS = false) as Ns.
  { destruct (has_key msgid NMEA_MSGIDS) eqn:S; [|reflexivity]. apply special_not_std in S. destruct S as (_ & _ & _ & S). congruence. }
  assert (definition_for mode ud msgid fields = None) as D.
  { unfold definition_for. rewrite Ns, Hp. cbn [orb]. unfold lookup_id.
    destruct (str_in msgid prefixes) eqn:P; [elim Np; apply str_in_iff, P|]. exact L. }
  destruct (parse_given _ _ _ _ _ E) as (content' & ck' & talker' & msgid' & fields' & G' & _ & _ & _ & _ &
    _ & _ & _ & _ & _ & _ & _ & _ & _ & _ & X).
  destruct (given_functional _ _ _ _ _ _ _ _ _ _ _ G' G) as (_ & _ & -> & -> & ->).
  rewrite D in X. apply X.
Qed.
(* every variant of the table has a definition in the table of its mode *)
Theorem C22_variants_exist key mode n name :
  In (key, mode, n, name) variants -> lookup name (definitions_proprietary mode) <> None.
Proof.
  intros H. assert (forallb (fun v => let '(_, mode, _, name) := v in has_key name (definitions_proprietary mode)) variants = true) as B
    by (vm_compute; reflexivity).
  rewrite forallb_forall in B. apply B in H. unfold has_key in H. destruct (lookup name _); [discriminate|discriminate].
Qed.
Example C22_example :
  variant_of (u "QTMCFGUART") 1 [u "W"; u "115200"] = u "QTMCFGUART_CURRBAUD"
  /\ variant_of (u "QTMCFGSAT") 0 [u "OK"] = u "QTMACK"
  /\ variant_of (u "QTMCFGSAT") 0 [u "ERROR"; u "1"] = u "QTMNAK"
  /\ variant_of (u "QTMCFGUART") 0 [u "OK"] = u "QTMCFGUART"
  /\ variant_of (u "STMDRSENMSG") 0 [u "3"] = u "STMDRSENMSG_3"
  /\ exists x, parse (MStr (u "$PQTMCFGSAT,ERROR,1*00")) 0 2 [] = Ok (Some x)
      /\ m_attrs x = [(u "status", VStr (u "ERROR")); (u "errcode", VInt 1)].
Proof. repeat (split; [vm_compute; reflexivity|]). eexists. split; vm_compute; reflexivity. Qed.
