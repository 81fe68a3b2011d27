(* Theorems about the built-in definition tables: C54, C55. *)
From Verif Require Import Message Reader BaseLemmas TextLemmas NumLemmas Spec ParseProofs MessageProofs
  SelectProofs DecodeProofs TableProofs StreamProofs KeywordSpec KeywordProofs CompleteProofs PropsDecode PropsConstruct.
Local Open Scope Z_scope.

(* ------------------------------------------------------------------ C54 *)
(* properties, methods and constructor parameters of a message *)
Definition message_names : list pystr :=
  [u "identity"; u "talker"; u "msgID"; u "msgmode"; u "payload"; u "checksum"; u "hpnmeamode"; u "serialize";
   u "validate"; u "userdefined"; u "nomval"; u "str2val"; u "val2str"; u "self"].
Definition names_okb (d : pdict) : bool :=
  forallb (fun w => negb (may_occur w d)) message_names
  && forallb (fun e => match snd e with
                       | ASingle _ => negb (hd 95 (fst e) =? 95)%N
                       | AGroup _ ms => forallb (fun m => negb (hd 95 (fst m) =? 95)%N) ms
                       end) d.
Lemma names_okb_ok d sl s : flat d -> names_okb d = true -> expands d sl -> In s sl ->
  ~ In (fst s) message_names /\ hd 95%N (fst s) <> 95%N.
Proof.
  intros Fl B E Hs. unfold names_okb in B. apply andb_true_iff in B as [B1 B2]. split.
  - intros Hin. rewrite forallb_forall in B1. specialize (B1 _ Hin).
    rewrite (expands_names d sl (fst s) Fl E (in_map fst _ _ Hs)) in B1. discriminate.
  - clear B1. induction E as [|k ty d sl E IH|k n ms d sl cnt E IH]; [contradiction Hs| |];
      inversion Fl as [|? ? F1 F2]; subst; cbn [forallb snd fst] in B2; apply andb_true_iff in B2 as [B2 B3].
    + destruct Hs as [<-|Hs]; [|apply IH; assumption]. cbn [fst]. apply N.eqb_neq, negb_true_iff, B2.
    + apply in_app_or in Hs as [Hs|Hs]; [|apply IH; assumption].
      apply (in_map fst) in Hs. apply group_names in Hs as (m & j & Hm & _ & E'); [|apply F1]. rewrite E'.
      apply in_map_iff in Hm as (e & <- & He). rewrite forallb_forall in B2. specialize (B2 _ He). cbn beta in B2.
      destruct e as [nm ad]. cbn [fst] in *. destruct nm as [|c0 r0]; [discriminate B2|]. cbn [app hd] in *. apply N.eqb_neq, negb_true_iff, B2.
Qed.
Lemma builtin_names : forallb (fun e => names_okb (snd e)) builtin_definitions = true.
Proof. vm_compute. reflexivity. Qed.

(* names are distinct, whatever the repeat counts *)
Theorem C54_distinct k d sl : In (k, d) builtin_definitions -> expands d sl -> NoDup (map fst sl).
Proof. intros H E. destruct (builtin_well_formed k d H) as (_ & U & _). apply U, E. Qed.
(* none is a property, method or parameter of a message, or looks like an internal *)
Theorem C54_public k d sl s : In (k, d) builtin_definitions -> expands d sl -> In s sl ->
  ~ In (fst s) message_names /\ hd 95%N (fst s) <> 95%N.
Proof.
  intros H E S. destruct (builtin_well_formed k d H) as (Fl & _). pose proof builtin_names as B.
  rewrite forallb_forall in B. specialize (B _ H). eapply names_okb_ok; eassumption.
Qed.
(* repeat counts: fixed, to the end of the sentence, or an integer attribute that comes before *)
Theorem C54_counts k d : In (k, d) builtin_definitions -> counts_earlier [] d.
Proof. intros H. destruct (builtin_in_order k d H) as (_ & _ & C & _). exact C. Qed.
(* groups are not empty and not nested *)
Theorem C54_groups k d name n ms : In (k, d) builtin_definitions -> In (name, AGroup n ms) d ->
  ms <> [] /\ forall e, In e ms -> exists ty, snd e = ASingle ty.
Proof.
  intros H G. destruct (builtin_well_formed k d H) as (Fl & _). unfold flat in Fl. rewrite Forall_forall in Fl.
  specialize (Fl _ G). cbn [snd] in Fl. destruct Fl as [P Ne]. split; [exact Ne|].
  intros e He. unfold plain in P. rewrite Forall_forall in P. apply P, He.
Qed.
(* at most one group per definition, and the fixed counts are positive *)
Definition shape_okb (d : pdict) : bool :=
  (length (filter (fun e => match snd e with AGroup _ _ => true | _ => false end) d) <=? 1)%nat
  && forallb (fun e => match snd e with AGroup (NInt z) _ => 0 <? z | _ => true end) d.
Lemma builtin_shapes : forallb (fun e => shape_okb (snd e)) builtin_definitions = true.
Proof. vm_compute. reflexivity. Qed.
Theorem C54_one_group k d : In (k, d) builtin_definitions ->
  (length (filter (fun e => match snd e with AGroup _ _ => true | _ => false end) d) <= 1)%nat
  /\ forall name z ms, In (name, AGroup (NInt z) ms) d -> 0 < z.
Proof.
  intros H. pose proof builtin_shapes as B. rewrite forallb_forall in B. specialize (B _ H). cbn [snd] in B.
  unfold shape_okb in B. apply andb_true_iff in B as [B1 B2]. split; [apply Nat.leb_le, B1|].
  intros name z ms G. rewrite forallb_forall in B2. specialize (B2 _ G). apply Z.ltb_lt, B2.
Qed.
Example C54_example : exists d, In (u "GSV", d) builtin_definitions /\ (4 <= length d)%nat /\ exists sl, expands d sl /\ length sl = 12%nat.
Proof.
  eexists. split; [apply in_or_app; left; apply (lookup_In (u "GSV") NMEA_PAYLOADS_GET); vm_compute; reflexivity|].
  split; [cbn [length]; lia|]. eexists. split.
  - do 3 apply expands_single. eapply (expands_group _ _ _ _ _ 2%nat). apply expands_single. apply expands_nil.
  - vm_compute. reflexivity.
Qed.

(* ------------------------------------------------------------------ C55 *)
(* the entry a sentence selects: which table (standard?), which key *)
Definition selects (mode : Z) (msgid : pystr) (fields : list pystr) : bool * pystr :=
  let key := lookup_id msgid fields in
  if has_key msgid NMEA_MSGIDS then (true, key)
  else if has_key msgid NMEA_MSGIDS_PROP || str_in msgid prefixes then (false, variant_of key mode fields)
  else (true, key).
Definition table (standard : bool) (mode : Z) := if standard then definitions_standard mode else definitions_proprietary mode.
Lemma selects_definition mode msgid fields :
  definition_for mode [] msgid fields = lookup (snd (selects mode msgid fields)) (table (fst (selects mode msgid fields)) mode).
Proof.
  unfold definition_for, selects. destruct (has_key msgid NMEA_MSGIDS); [reflexivity|].
  destruct (has_key msgid NMEA_MSGIDS_PROP || str_in msgid prefixes); reflexivity.
Qed.

(* candidate sentences for an entry *)
Definition nominal_field (ty : pystr) : pystr := if str_in ty [u "IN"; u "DE"; u "HX"] then u "1" else [].
(* fields of the definition, up to the first type that no text can be converted to *)
Fixpoint convertible (d : pdict) : pdict :=
  match d with
  | (k, ASingle ty) :: d' => if str_in ty (u "DTL" :: nil) || negb (str_in ty attribute_types) then [] else (k, ASingle ty) :: convertible d'
  | e :: d' => e :: convertible d'
  | [] => []
  end.
Definition sample (d : pdict) : list pystr :=
  flat_map (fun e => match snd e with
                     | ASingle ty => [nominal_field ty]
                     | AGroup n ms =>
                         let one := map (fun e => match snd e with ASingle ty => nominal_field ty | _ => [] end) ms in
                         match n with NInt z => concat (repeat one (Z.to_nat z)) | _ => one end
                     end) (convertible d).
Definition heads (standard : bool) (k : pystr) : list (pystr * list pystr) :=
  if standard then [(k, [])]
  else (k, []) :: flat_map (fun p => match starts_with p k with Some r => [(p, [r])] | None => [] end) prefixes
       ++ flat_map (fun v => let '(b, _, _, nm) := v in if str_eqb nm k then [(b, [])] else []) variants
       ++ [(u "QTMVERNO", [u "OK"]); (u "QTMVERNO", [u "ERROR"; u "1"]); (u "QTMSN", [u "1"]); (u "ASHR", [u "123456.00"])]
       ++ match starts_with (u "STMDRSENMSG_") k with Some r => [(u "STMDRSENMSG", [r])] | None => [] end.
Definition reaches (standard : bool) (mode : Z) (e : pystr * pdict) (c : pystr * list pystr) : bool :=
  let fields := snd c ++ skipn (length (snd c)) (sample (snd e)) in
  let talker := if standard then u "GN" else u "P" in
  let '(st, k) := selects mode (fst c) fields in
  Bool.eqb st standard && str_eqb k (fst e)
  && match parse (MStr (sentence talker (fst c) fields (calc_checksum (content_of talker (fst c) fields)))) mode 3 [] with
     | Ok (Some _) => true | _ => false end.
Definition reachable (standard : bool) (mode : Z) (e : pystr * pdict) : bool :=
  existsb (reaches standard mode e) (heads standard (fst e)).

(* entries that recognised message ids do not select *)
Definition stray_poll : list pystr :=
  map fst (filter (fun e => negb (has_key (fst e) NMEA_MSGIDS)) NMEA_PAYLOADS_POLL).
Definition unreachable (standard : bool) (mode : Z) : list pystr :=
  if standard then (if mode =? 2 then stray_poll else [])
  else if mode =? 0 then [u "TNLGGKx"; u "QTMCFGGEOFENCE_DIS"] else [].

(* the response-only definitions are selected by payload, not by keywords *)
Definition unbuildable (standard : bool) (mode : Z) : list pystr :=
  unreachable standard mode
  ++ (if standard then (if mode =? 0 then [u "FOO"] else [])
      else if mode =? 0 then [u "QTMACK"; u "QTMNAK"; u "QTMSN_ALT"] else []).

(* construction *)
Definition kw_selects (mode : Z) (msgid : pystr) (kw : kwargs) : option (bool * pystr) :=
  match keyword_id msgid kw with
  | None => None
  | Some key =>
      if has_key msgid NMEA_MSGIDS then Some (true, key)
      else if has_key msgid NMEA_MSGIDS_PROP || str_in msgid prefixes then
        match keyword_variant key mode kw with Some k => Some (false, k) | None => None end
      else Some (true, key)
  end.
Definition kw_heads (standard : bool) (mode : Z) (k : pystr) : list (pystr * kwargs) :=
  if standard then [(k, [])]
  else (k, []) :: flat_map (fun p => match starts_with p k with Some r => [(p, [(u "msgId", VStr r)])] | None => [] end) prefixes
       ++ flat_map (fun v => let '(b, m, yes, _, nm) := v in
                     if str_eqb nm k && (m =? mode) then [(b, map (fun n => (n, VInt 1)) yes)] else []) keyword_variants
       ++ [(u "QTMCFGPPS", [(u "enable", VInt 0)]); (u "QTMCFGGEOFENCE", [(u "geofencemode", VInt 0)]);
           (u "QTMCFGUART", [(u "baudrate", VInt 1); (u "portid", VInt 1); (u "databit", VInt 8)]);
           (u "QTMCFGMSGRATE", [(u "msgver", VInt 1)]); (u "QTMCFGUART", [(u "portid", VInt 1)]);
           (u "QTMCFGSAT", [(u "maskhigh", VInt 1)])]
       ++ match starts_with (u "STMDRSENMSG_") k with Some r => [(u "STMDRSENMSG", [(u "msgtype", VStr r)])] | None => [] end.
Definition builds_from (standard : bool) (mode : Z) (e : pystr * pdict) (c : pystr * kwargs) : bool :=
  match kw_selects mode (fst c) (snd c) with
  | Some (st, k) => Bool.eqb st standard && str_eqb k (fst e)
      && match NMEAMessage noon (if standard then u "GN" else u "P") (fst c) mode false 3 [] None None (snd c) with
         | Ok _ => true | _ => false end
  | None => false
  end.
Definition buildable (standard : bool) (mode : Z) (e : pystr * pdict) : bool :=
  existsb (builds_from standard mode e) (kw_heads standard mode (fst e)).

Lemma all_reached : forallb (fun mode => forallb (fun st => forallb (fun e =>
    str_in (fst e) (unreachable st mode) || reachable st mode e) (table st mode)) [true; false]) [0; 1; 2] = true.
Proof. vm_compute. reflexivity. Qed.
Lemma all_built : forallb (fun mode => forallb (fun st => forallb (fun e =>
    str_in (fst e) (unbuildable st mode) || buildable st mode e) (table st mode)) [true; false]) [0; 1; 2] = true.
Proof. vm_compute. reflexivity. Qed.
Lemma tables_keys : forallb (fun mode => forallb (fun st => nodupb (map fst (table st mode))) [true; false]) [0; 1; 2] = true.
Proof. vm_compute. reflexivity. Qed.
Lemma table_lookup st mode k d : (mode = 0 \/ mode = 1 \/ mode = 2) -> In (k, d) (table st mode) -> lookup k (table st mode) = Some d.
Proof.
  intros M H. apply lookup_NoDup; [|exact H]. apply nodupb_ok.
  pose proof tables_keys as T. rewrite forallb_forall in T. specialize (T mode). 
  rewrite forallb_forall in T. apply T; [cbn; intuition|destruct st; cbn; tauto].
Qed.

(* every entry is used to decode some sentence that passes all validation, except the strays *)
Theorem C55_parse standard mode k d :
  (mode = 0 \/ mode = 1 \/ mode = 2) ->
  In (k, d) (if standard : bool then definitions_standard mode else definitions_proprietary mode) ->
  ~ In k (unreachable standard mode) ->
  exists talker msgid fields ck x,
    parse (MStr (sentence talker msgid fields ck)) mode 3 [] = Ok (Some x)
    /\ definition_for mode [] msgid fields = Some d
    /\ selects mode msgid fields = (standard, k).
Proof.
  intros M H N. pose proof all_reached as A. rewrite forallb_forall in A. specialize (A mode ltac:(cbn; intuition)).
  rewrite forallb_forall in A. specialize (A standard ltac:(destruct standard; cbn; tauto)).
  rewrite forallb_forall in A. specialize (A (k, d) H). cbn [fst] in A.
  apply orb_true_iff in A as [A|A]; [apply str_in_iff in A; contradiction|].
  unfold reachable in A. apply existsb_exists in A as ([msgid hd0] & _ & R). unfold reaches in R. cbn [fst snd] in R.
  set (fields := hd0 ++ skipn (length hd0) (sample d)) in *.
  set (talker := if standard then u "GN" else u "P") in *.
  destruct (selects mode msgid fields) as [st k'] eqn:S.
  apply andb_true_iff in R as [R P]. apply andb_true_iff in R as [R1 R2].
  apply Bool.eqb_prop in R1. apply str_eqb_eq in R2. subst st k'.
  destruct (parse _ mode 3 []) as [[x|]|] eqn:E; try discriminate.
  exists talker, msgid, fields, (calc_checksum (content_of talker msgid fields)), x.
  split; [exact E|]. split; [|exact S]. rewrite selects_definition, S. cbn [fst snd].
  apply table_lookup; assumption.
Qed.

Lemma kw_selects_definition mode msgid kw st k :
  kw_selects mode msgid kw = Some (st, k) -> keyword_definition mode [] msgid kw = lookup k (table st mode).
Proof.
  unfold kw_selects, keyword_definition. destruct (keyword_id msgid kw); [|discriminate].
  destruct (has_key msgid NMEA_MSGIDS). { intros H. injection H as <- <-. reflexivity. }
  destruct (has_key msgid NMEA_MSGIDS_PROP || str_in msgid prefixes).
  - destruct (keyword_variant _ mode kw); [|discriminate]. intros H. injection H as <- <-. reflexivity.
  - intros H. injection H as <- <-. reflexivity.
Qed.
(* and to build some message from keywords *)
Theorem C55_construct standard mode k d :
  (mode = 0 \/ mode = 1 \/ mode = 2) ->
  In (k, d) (if standard : bool then definitions_standard mode else definitions_proprietary mode) ->
  ~ In k (unbuildable standard mode) ->
  exists talker msgid kw x,
    NMEAMessage noon talker msgid mode false 3 [] None None kw = Ok x
    /\ keyword_definition mode [] msgid kw = Some d
    /\ kw_selects mode msgid kw = Some (standard, k).
Proof.
  intros M H N. pose proof all_built as A. rewrite forallb_forall in A. specialize (A mode ltac:(cbn; intuition)).
  rewrite forallb_forall in A. specialize (A standard ltac:(destruct standard; cbn; tauto)).
  rewrite forallb_forall in A. specialize (A (k, d) H). cbn [fst] in A.
  apply orb_true_iff in A as [A|A]; [apply str_in_iff in A; contradiction|].
  unfold buildable in A. apply existsb_exists in A as ([msgid kw] & _ & R). unfold builds_from in R. cbn [fst snd] in R.
  destruct (kw_selects mode msgid kw) as [[st k']|] eqn:S; [|discriminate].
  apply andb_true_iff in R as [R P]. apply andb_true_iff in R as [R1 R2].
  apply Bool.eqb_prop in R1. apply str_eqb_eq in R2. subst st k'.
  destruct (NMEAMessage _ _ _ _ _ _ _ _ _ _) as [x|] eqn:E; [|discriminate].
  eexists _, msgid, kw, x. split; [exact E|]. split; [|exact S].
  rewrite (kw_selects_definition _ _ _ _ _ S). apply table_lookup; assumption.
Qed.

(* --------------------------------------- the strays are not selected *)
Lemma upper_no_lower c : forallb (fun x => negb ((97 <=? x) && (x <=? 122))%N) (upper_char c) = true.
Proof.
  assert (forallb (fun p => forallb (fun x => negb ((97 <=? x) && (x <=? 122))%N) (snd p)) upper_table = true) as T
    by (vm_compute; reflexivity).
  unfold upper_char. destruct (N.ltb_spec c 128).
  - destruct ((97 <=? c) && (c <=? 122))%N eqn:E; cbn [forallb]; rewrite andb_true_r; [|rewrite E; reflexivity].
    apply negb_true_iff. lia.
  - destruct (find _ upper_table) as [p|] eqn:F.
    + apply find_some in F as [F _]. rewrite forallb_forall in T. apply T, F.
    + cbn [forallb]. rewrite andb_true_r. apply negb_true_iff. lia.
Qed.
Lemma upper_no_x s : ~ In 120%N (str_upper s).
Proof.
  unfold str_upper. intros H. apply in_flat_map in H as (c & _ & H). pose proof (upper_no_lower c) as L.
  rewrite forallb_forall in L. specialize (L _ H). discriminate.
Qed.

(* the keys a recognised proprietary id can give *)
Lemma lookup_id_upper msgid fields : exists s, lookup_id msgid fields = str_upper s.
Proof. eexists. reflexivity. Qed.
Lemma prop_upper_checked : forallb (fun r => let k := str_upper (fst r) in
    negb (str_in k [u "QTMCFGGEOFENCE_DIS"; u "QTMACK"; u "QTMNAK"; u "QTMSN_ALT"])) NMEA_MSGIDS_PROP
  && forallb (fun p => negb (hd 0%N (str_upper p) =? 81)%N && negb (Nat.eqb (length (str_upper p)) 0)) prefixes = true.
Proof. vm_compute. reflexivity. Qed.
Definition quectel_keys := [u "QTMCFGGEOFENCE_DIS"; u "QTMACK"; u "QTMNAK"; u "QTMSN_ALT"].
Lemma key_not_quectel msgid s k :
  has_key msgid NMEA_MSGIDS_PROP || str_in msgid prefixes = true -> In k quectel_keys ->
  str_upper (if str_in msgid prefixes then msgid ++ s else msgid) <> k.
Proof.
  intros Kn Hk E. destruct (proj1 (andb_true_iff _ _) prop_upper_checked) as [C1 C2].
  destruct (str_in msgid prefixes) eqn:P.
  - rewrite forallb_forall in C2. specialize (C2 msgid (proj1 (str_in_iff _ _) P)).
    rewrite str_upper_app in E. destruct (str_upper msgid) as [|c r]; [discriminate|]. cbn [hd] in C2.
    assert (c = 81%N) as -> by (cbn [quectel_keys In] in Hk; destruct Hk as [<-|[<-|[<-|[<-|[]]]]]; cbn in E; injection E; auto).
    discriminate.
  - rewrite orb_false_r in Kn. apply has_key_iff in Kn. apply in_map_iff in Kn as (r & <- & Hr).
    rewrite forallb_forall in C1. specialize (C1 _ Hr). cbn beta zeta in C1. rewrite E in C1.
    apply negb_true_iff in C1. fold quectel_keys in C1. apply str_in_iff in Hk. congruence.
Qed.
Lemma lookup_id_prefixed msgid fields : exists s,
  lookup_id msgid fields = str_upper (if str_in msgid prefixes then msgid ++ s else msgid).
Proof.
  unfold lookup_id. destruct (str_in msgid prefixes); [|exists []; reflexivity].
  destruct (_ && _); [exists []; rewrite app_nil_r; reflexivity|exists (hd [] fields); reflexivity].
Qed.
Lemma variant_of_cases key mode fields :
  variant_of key mode fields = key
  \/ (exists b n, In (b, mode, n, variant_of key mode fields) variants)
  \/ variant_of key mode fields = u "QTMSN_ALT" \/ variant_of key mode fields = u "QTMACK"
  \/ variant_of key mode fields = u "QTMNAK" \/ exists r, variant_of key mode fields = u "STMDRSENMSG_" ++ r.
Proof.
  unfold variant_of.
  match goal with |- context [find ?g variants] => destruct (find g variants) as [[[[k m] n] nm]|] eqn:F end.
  - apply find_some in F as [F1 F2]. apply andb_true_iff in F2 as [F2 _]. apply andb_true_iff in F2 as [_ F2].
    apply Z.eqb_eq in F2. subst m. right. left. exists k, n. exact F1.
  - destruct (_ && _ && _); [right; right; left; reflexivity|].
    destruct (str_eqb key _); [repeat right; eexists; reflexivity|].
    destruct (_ && _ && _); [|left; reflexivity].
    destruct fields as [|a [|b [|]]]; try (left; reflexivity).
    + destruct (str_eqb a _); [do 3 right; left; reflexivity|left; reflexivity].
    + destruct (str_eqb a _); [do 4 right; left; reflexivity|left; reflexivity].
Qed.

Lemma not_stm k r : In k [u "TNLGGKx"; u "QTMCFGGEOFENCE_DIS"; u "QTMACK"; u "QTMNAK"; u "QTMSN_ALT"] -> u "STMDRSENMSG_" ++ r <> k.
Proof. intros H E. cbn [In] in H. destruct H as [<-|[<-|[<-|[<-|[<-|[]]]]]]; discriminate E. Qed.

Theorem C55_unreachable standard mode k msgid fields :
  In k (unreachable standard mode) -> known_id [] msgid = true -> selects mode msgid fields <> (standard, k).
Proof.
  intros U K S. unfold unreachable in U. destruct standard.
  - destruct (Z.eqb_spec mode 2) as [->|]; [|contradiction U]. unfold selects in S.
    unfold known_id in K. rewrite orb_false_r in K.
    destruct (has_key msgid NMEA_MSGIDS) eqn:H1.
    + assert (forallb (fun r => negb (str_in (fst r) prefixes) && negb (str_in (str_upper (fst r)) stray_poll)) NMEA_MSGIDS = true) as C
        by (vm_compute; reflexivity).
      apply has_key_iff in H1. apply in_map_iff in H1 as (r & <- & Hr).
      rewrite forallb_forall in C. specialize (C _ Hr). apply andb_true_iff in C as [C1 C2].
      apply negb_true_iff in C1, C2. unfold lookup_id in S. rewrite C1 in S. injection S as S.
      apply str_in_iff in U. rewrite <- S in U. congruence.
    + cbn [orb] in K. rewrite K in S. discriminate S.
  - destruct (Z.eqb_spec mode 0) as [->|]; [|contradiction U]. unfold selects in S.
    unfold known_id in K. rewrite orb_false_r in K.
    destruct (has_key msgid NMEA_MSGIDS) eqn:H1; [discriminate S|]. cbn [orb] in K. rewrite K in S. injection S as S.
    assert (In k [u "TNLGGKx"; u "QTMCFGGEOFENCE_DIS"; u "QTMACK"; u "QTMNAK"; u "QTMSN_ALT"]) as U' by (cbn [In] in *; tauto).
    destruct (variant_of_cases (lookup_id msgid fields) 0 fields) as [V|[(b & n & V)|[V|[V|[V|(r & V)]]]]]; rewrite S in V.
    + destruct U as [<-|[<-|[]]].
      * destruct (lookup_id_upper msgid fields) as (s & E). rewrite E in V. apply (upper_no_x s). rewrite <- V. cbn. tauto.
      * destruct (lookup_id_prefixed msgid fields) as (s & E). rewrite E in V.
        apply (key_not_quectel msgid s (u "QTMCFGGEOFENCE_DIS") K); [left; reflexivity|]. symmetry. exact V.
    + assert (forallb (fun v => let '(_, m, _, nm) := v in negb (m =? 0) || negb (str_in nm [u "TNLGGKx"; u "QTMCFGGEOFENCE_DIS"])) variants = true) as C
        by (vm_compute; reflexivity).
      rewrite forallb_forall in C. specialize (C _ V). cbn beta iota in C. cbn [Z.eqb negb orb] in C.
      apply negb_true_iff in C. apply str_in_iff in U. congruence.
    + rewrite V in U. cbn [In] in U. destruct U as [U|[U|[]]]; discriminate U.
    + rewrite V in U. cbn [In] in U. destruct U as [U|[U|[]]]; discriminate U.
    + rewrite V in U. cbn [In] in U. destruct U as [U|[U|[]]]; discriminate U.
    + symmetry in V. exact (not_stm k r U' V).
Qed.
Lemma find_none_forall {A} (f : A -> bool) l : (forall x, In x l -> f x = false) -> find f l = None.
Proof. induction l as [|x l IH]; intros H; [reflexivity|]. cbn [find]. rewrite (H x) by (left; reflexivity). apply IH. intros y Hy. apply H. right. exact Hy. Qed.
(* in particular the poll definitions of the proprietary messages *)
Corollary C55_poll_refuted :
  length stray_poll = 66%nat /\ In (u "UBX00") stray_poll /\
  forall fields, selects 2 (u "UBX") fields <> (true, u "UBX00") /\ definition_for 2 [] (u "UBX") (u "00" :: fields) = None.
Proof.
  split; [vm_compute; reflexivity|]. assert (In (u "UBX00") stray_poll) as I by (apply str_in_iff; vm_compute; reflexivity).
  split; [exact I|]. intros fields. split; [apply C55_unreachable; [exact I|vm_compute; reflexivity]|].
  unfold definition_for. change (has_key (u "UBX") NMEA_MSGIDS) with false. cbn match.
  replace (has_key (u "UBX") NMEA_MSGIDS_PROP || str_in (u "UBX") prefixes) with true by (vm_compute; reflexivity).
  change (lookup_id (u "UBX") (u "00" :: fields)) with (u "UBX00").
  assert (variant_of (u "UBX00") 2 (u "00" :: fields) = u "UBX00") as ->.
  { unfold variant_of.
    match goal with |- context [find ?g variants] => assert (find g variants = None) as -> end.
    { apply find_none_forall. assert (forallb (fun v => negb (str_eqb (fst (fst (fst v))) (u "UBX00"))) variants = true) as C by (vm_compute; reflexivity).
      rewrite forallb_forall in C. intros [[[k m] n] nm] Hv. specialize (C _ Hv). cbn [fst] in C. apply negb_true_iff in C. rewrite C. reflexivity. }
    reflexivity. }
  vm_compute. reflexivity.
Qed.

(* definitions that only describe responses are not built from keywords *)
Lemma keyword_variant_cases key mode kw k : keyword_variant key mode kw = Some k ->
  k = key \/ (exists b y n, In (b, mode, y, n, k) keyword_variants)
  \/ (mode = 1 /\ (k = u "QTMCFGPPS_DIS" \/ k = u "QTMCFGGEOFENCE_DIS")) \/ exists r, k = u "STMDRSENMSG_" ++ r.
Proof.
  unfold keyword_variant.
  match goal with |- context [find ?g keyword_variants] => destruct (find g keyword_variants) as [[[[[b m] y] n] nm]|] eqn:F end.
  - intros H. injection H as ->. apply find_some in F as [F1 F2]. rewrite !andb_true_iff in F2. destruct F2 as [[[_ F2] _] _].
    apply Z.eqb_eq in F2. subst m. right. left. exists b, y, n. exact F1.
  - destruct (str_eqb key (u "QTMCFGPPS") && (mode =? 1)) eqn:E1; cbn [andb].
    + apply andb_true_iff in E1 as [E0 E1]. apply Z.eqb_eq in E1. destruct (zero_value _).
      * intros H. right. right. left. split; [exact E1|]. left. congruence.
      * apply str_eqb_eq in E0. subst key mode. 
        replace (str_eqb (u "QTMCFGPPS") (u "QTMCFGGEOFENCE")) with false by (vm_compute; reflexivity). cbn [andb].
        replace (str_eqb (u "QTMCFGPPS") (u "STMDRSENMSG")) with false by (vm_compute; reflexivity). intros H. left. congruence.
    + destruct (str_eqb key (u "QTMCFGGEOFENCE") && (mode =? 1)) eqn:E2; cbn [andb].
      * apply andb_true_iff in E2 as [E0 E2]. apply Z.eqb_eq in E2. destruct (zero_value _).
        -- intros H. right. right. left. split; [exact E2|]. right. congruence.
        -- apply str_eqb_eq in E0. subst key mode.
           replace (str_eqb (u "QTMCFGGEOFENCE") (u "STMDRSENMSG")) with false by (vm_compute; reflexivity). intros H. left. congruence.
      * destruct (str_eqb key (u "STMDRSENMSG")); [|intros H; left; congruence].
        intros H. right. right. right.
        destruct (lookup (u "msgtype") kw) as [v|]; [|exists []; rewrite app_nil_r; congruence].
        destruct (str_of_val v) as [t|]; [|discriminate]. exists t. congruence.
Qed.
Theorem C55_unbuildable k msgid kw :
  In k [u "TNLGGKx"; u "QTMCFGGEOFENCE_DIS"; u "QTMACK"; u "QTMNAK"; u "QTMSN_ALT"] ->
  known_id [] msgid = true -> kw_selects 0 msgid kw <> Some (false, k).
Proof.
  intros U K S. unfold kw_selects in S. unfold known_id in K. rewrite orb_false_r in K.
  destruct (keyword_id msgid kw) as [key|] eqn:E; [|discriminate].
  destruct (has_key msgid NMEA_MSGIDS) eqn:H1; [discriminate S|]. cbn [orb] in K. rewrite K in S.
  destruct (keyword_variant key 0 kw) as [k'|] eqn:V; [|discriminate]. injection S as ->.
  assert (exists s, key = str_upper (if str_in msgid prefixes then msgid ++ s else msgid)) as (s & Es).
  { unfold keyword_id in E. destruct (str_in msgid prefixes).
    - destruct (lookup (u "msgId") kw) as [[]|]; try discriminate. injection E as <-. eexists. reflexivity.
    - injection E as <-. exists []. reflexivity. }
  apply keyword_variant_cases in V as [V|[(b & y & n & V)|[[V _]|(r & V)]]].
  - rewrite Es in V. destruct U as [<-|U].
    + apply (upper_no_x (if str_in msgid prefixes then msgid ++ s else msgid)). rewrite <- V. cbn. tauto.
    + apply (key_not_quectel msgid s k K U). symmetry. exact V.
  - assert (forallb (fun v => let '(_, m, _, _, nm) := v in negb (m =? 0)
      || negb (str_in nm [u "TNLGGKx"; u "QTMCFGGEOFENCE_DIS"; u "QTMACK"; u "QTMNAK"; u "QTMSN_ALT"])) keyword_variants = true) as C
      by (vm_compute; reflexivity).
    rewrite forallb_forall in C. specialize (C _ V). cbn beta iota in C. cbn [Z.eqb negb orb] in C.
    apply negb_true_iff in C. apply str_in_iff in U. congruence.
  - discriminate V.
  - symmetry in V. exact (not_stm k r U V).
Qed.
Example C55_example : exists d, In (u "QTMCFGUART_BAUD", d) (definitions_proprietary 1) /\ ~ In (u "QTMCFGUART_BAUD") (unbuildable false 1).
Proof.
  eexists. split; [apply (lookup_In (u "QTMCFGUART_BAUD")); vm_compute; reflexivity|]. vm_compute. tauto.
Qed.
