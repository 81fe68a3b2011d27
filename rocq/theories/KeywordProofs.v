(* Construction from keyword arguments. *)
From Verif Require Import Message Reader BaseLemmas TextLemmas NumLemmas Spec ParseProofs MessageProofs
  SelectProofs DecodeProofs TableProofs StreamProofs KeywordSpec.
Local Open Scope Z_scope.

(* ------------------------------------------------ choice of definition *)
Lemma str_of_val_exc v e : str_of_val v = Raise e -> e = ValueError.
Proof.
  destruct v; try discriminate. cbn. unfold str_of_Z. destruct (_ <? _)%N; congruence.
Qed.

Lemma zero_value_eq n kw : kw_is_zero n kw = zero_value (lookup (u n) kw).
Proof.
  unfold kw_is_zero. destruct (lookup (u n) kw) as [[|z|x|[]| | | |]|]; try reflexivity.
Qed.

Lemma prop_key_keywords key mode kw :
  valid_mode mode = true ->
  prop_key key mode false [] kw =
    if has_key (u "key") kw || (str_in key special_ids && has_key (u "mode") kw) then Raise TypeError
    else match keyword_variant key mode kw with Some k => Ok k | None => Raise ValueError end.
Proof.
  intros V. apply valid_mode_iff in V. unfold prop_key, kw_has.
  destruct (has_key (u "key") kw); cbn [orb]; [reflexivity|].
  set (M := has_key (u "mode") kw).
  destruct (str_eqb_spec key (u "QTMCFGGEOFENCE")) as [->|N1].
  { change (str_in (u "QTMCFGGEOFENCE") special_ids) with true. cbn [andb].
    destruct M; [reflexivity|]. unfold qtmcfggeofence. rewrite zero_value_eq.
    unfold kw_has. cbn [andb orb negb].
    destruct V as [->|[->| ->]]; destruct (has_key (u "lon1") kw) eqn:H1;
      destruct (zero_value (lookup (u "geofencemode") kw)) eqn:H2;
      unfold keyword_variant; cbn [find keyword_variants str_eqb forallb]; rewrite ?H1, ?H2; reflexivity. }
  destruct (str_eqb_spec key (u "QTMCFGMSGRATE")) as [->|N2].
  { change (str_in (u "QTMCFGMSGRATE") special_ids) with true. cbn [andb].
    destruct M; [reflexivity|]. unfold qtmcfgmsgrate, kw_has. cbn [andb orb negb].
    destruct V as [->|[->| ->]]; destruct (has_key (u "msgver") kw) eqn:H1;
      destruct (has_key (u "porttype") kw) eqn:H2;
      unfold keyword_variant; cbn [find keyword_variants str_eqb forallb]; rewrite ?H1, ?H2; reflexivity. }
  destruct (str_eqb_spec key (u "QTMCFGPPS")) as [->|N3].
  { change (str_in (u "QTMCFGPPS") special_ids) with true. cbn [andb].
    destruct M; [reflexivity|]. unfold qtmcfgpps. rewrite zero_value_eq. cbn [andb orb negb].
    destruct V as [->|[->| ->]]; destruct (zero_value (lookup (u "enable") kw)) eqn:H2;
      unfold keyword_variant; cbn [find keyword_variants str_eqb forallb]; rewrite ?H2; reflexivity. }
  destruct (str_eqb_spec key (u "QTMCFGSAT")) as [->|N4].
  { change (str_in (u "QTMCFGSAT") special_ids) with true. cbn [andb].
    destruct M; [reflexivity|]. unfold qtmcfgsat, kw_has. cbn [andb orb negb length Nat.eqb].
    destruct V as [->|[->| ->]]; destruct (has_key (u "maskhigh") kw) eqn:H1;
      unfold keyword_variant; cbn [find keyword_variants str_eqb forallb]; rewrite ?H1; reflexivity. }
  destruct (str_eqb_spec key (u "QTMCFGUART")) as [->|N5].
  { change (str_in (u "QTMCFGUART") special_ids) with true. cbn [andb].
    destruct M; [reflexivity|]. unfold qtmcfguart, kw_has. cbn [andb orb negb].
    destruct V as [->|[->| ->]]; destruct (has_key (u "portid") kw) eqn:H1;
      destruct (has_key (u "baudrate") kw) eqn:H2; destruct (has_key (u "databit") kw) eqn:H3;
      unfold keyword_variant; cbn [find keyword_variants str_eqb forallb]; rewrite ?H1, ?H2, ?H3; reflexivity. }
  assert (keyword_variant key mode kw =
      if str_eqb key (u "STMDRSENMSG") then
        match lookup (u "msgtype") kw with
        | None => Some (u "STMDRSENMSG_")
        | Some v => match str_of_val v with Ok t => Some (u "STMDRSENMSG_" ++ t) | Raise _ => None end
        end
      else Some key) as VE.
  { unfold keyword_variant, keyword_variants. cbn [find].
    rewrite (str_eqb_sym (u "QTMCFGUART")), (str_eqb_sym (u "QTMCFGMSGRATE")),
      (str_eqb_sym (u "QTMCFGSAT")), (str_eqb_sym (u "QTMCFGGEOFENCE")).
    apply str_eqb_neq in N1, N2, N3, N4, N5. rewrite N1, N2, N3, N4, N5. reflexivity. }
  rewrite VE. clear VE.
  apply str_eqb_neq in N1, N2, N3, N4, N5.
  destruct (str_eqb_spec key (u "QTMSN")) as [->|N6].
  { change (str_in (u "QTMSN") special_ids) with true. cbn [andb]. destruct M; [reflexivity|].
    unfold qtmsn. rewrite andb_false_r. reflexivity. }
  destruct (str_eqb_spec key (u "STMDRSENMSG")) as [->|N7].
  { change (str_in (u "STMDRSENMSG") special_ids) with true. cbn [andb]. destruct M; [reflexivity|].
    unfold stmdrsenmsg. destruct (lookup (u "msgtype") kw) as [v|]; [|reflexivity].
    destruct (str_of_val v) as [t|e] eqn:E; [reflexivity|]. apply str_of_val_exc in E. subst e. reflexivity. }
  apply str_eqb_neq in N6, N7.
  assert (str_in key special_ids = false) as NA.
  { unfold str_in, special_ids. cbn [existsb]. rewrite N1, N2, N3, N4, N5, N6, N7. reflexivity. }
  rewrite NA. cbn [andb].
  unfold qtmacknak. destruct (str_eqb (firstn 3 key) (u "QTM")); [|reflexivity]. destruct (mode =? GET); reflexivity.
Qed.

(* the special ids are compared after upper-casing; that makes no difference *)
Lemma special_upper k kw key :
  has_key k NMEA_MSGIDS_PROP || str_in k prefixes = true -> keyword_id k kw = Some key ->
  str_in key special_ids = str_in k special_ids.
Proof.
  intros H E. unfold keyword_id in E. destruct (str_in k prefixes) eqn:P.
  - destruct (lookup (u "msgId") kw) as [[s| | | | | | |]|]; try discriminate. injection E as <-.
    clear H. rewrite str_upper_app. apply str_in_iff in P. cbn [prefixes In] in P.
    destruct P as [<-|[<-|[<-|[<-|[<-|[<-|[]]]]]]]; reflexivity.
  - rewrite orb_false_r in H. injection E as <-. apply has_key_iff in H.
    assert (forallb (fun k => Bool.eqb (str_in (str_upper k) special_ids) (str_in k special_ids))
              (map fst NMEA_MSGIDS_PROP) = true) as G by (vm_compute; reflexivity).
    rewrite forallb_forall in G. specialize (G k H). apply eqb_prop, G.
Qed.
Lemma special_prop k : str_in k special_ids = true -> has_key k NMEA_MSGIDS = false /\ has_key k NMEA_MSGIDS_PROP = true.
Proof.
  intros H. apply str_in_iff in H. cbn [special_ids In] in H.
  destruct H as [<-|[<-|[<-|[<-|[<-|[<-|[<-|[]]]]]]]]; split; vm_compute; reflexivity.
Qed.

(* proprietary ids pass the keywords to helpers with parameters key and mode *)
Definition key_blocked (msgid : pystr) (kw : kwargs) : bool :=
  negb (has_key msgid NMEA_MSGIDS) && (has_key msgid NMEA_MSGIDS_PROP || str_in msgid prefixes)
  && (has_key (u "key") kw || (str_in msgid special_ids && has_key (u "mode") kw)).
(* a proprietary definition selected by a msgtype without text *)
Definition no_variant (mode : Z) (msgid : pystr) (kw : kwargs) : bool :=
  negb (has_key msgid NMEA_MSGIDS) && (has_key msgid NMEA_MSGIDS_PROP || str_in msgid prefixes)
  && match keyword_id msgid kw with
     | Some key => match keyword_variant key mode kw with Some _ => false | None => true end
     | None => false end.

Lemma get_dict_keywords c :
  x_streaming c = false -> valid_mode (x_mode c) = true ->
  x_defsource c = find_defsource (x_msgID c) (x_userdefined c) ->
  get_dict c [] =
    match keyword_id (x_msgID c) (x_kwargs c) with
    | None => Raise (match lookup (u "msgId") (x_kwargs c) with None => NMEAMessageError | Some _ => TypeError end)
    | Some _ =>
        if key_blocked (x_msgID c) (x_kwargs c) then Raise TypeError
        else if no_variant (x_mode c) (x_msgID c) (x_kwargs c) then Raise ValueError
        else match keyword_definition (x_mode c) (x_userdefined c) (x_msgID c) (x_kwargs c) with
             | Some d => Ok (Some d)
             | None => if wants_msgid (x_validate c) then Raise NMEAMessageError else Ok None
             end
    end.
Proof.
  intros St V Ds. unfold get_dict. rewrite has_flag_msgid.
  assert (dict_key c [] = match keyword_id (x_msgID c) (x_kwargs c) with
            | Some k => Ok k
            | None => Raise (match lookup (u "msgId") (x_kwargs c) with None => NMEAMessageError | Some _ => TypeError end)
            end) as ->.
  { unfold dict_key, keyword_id. rewrite prefixes_eq, St. destruct (str_in (x_msgID c) prefixes); [|reflexivity].
    destruct (lookup (u "msgId") (x_kwargs c)) as [[]|]; reflexivity. }
  unfold key_blocked, no_variant, keyword_definition.
  destruct (keyword_id (x_msgID c) (x_kwargs c)) as [key|] eqn:K.
  2:{ destruct (lookup (u "msgId") (x_kwargs c)); reflexivity. }
  cbn [bind]. rewrite Ds, St. unfold find_defsource. rewrite prefixes_eq.
  destruct (has_key (x_msgID c) NMEA_MSGIDS) eqn:H1.
  { cbn [negb andb]. rewrite std_table_eq by exact V. unfold of_lookup. destruct (lookup _ _); reflexivity. }
  cbn [negb andb].
  destruct (has_key (x_msgID c) NMEA_MSGIDS_PROP || str_in (x_msgID c) prefixes) eqn:H2; cbn [andb].
  - rewrite prop_key_keywords by exact V. rewrite (special_upper _ _ _ H2 K).
    destruct (has_key (u "key") (x_kwargs c) || _); [reflexivity|].
    destruct (keyword_variant key (x_mode c) (x_kwargs c)) as [k|]; [|reflexivity].
    cbn [bind]. rewrite prop_table_eq by exact V. unfold of_lookup. destruct (lookup _ _); reflexivity.
  - destruct (has_key (x_msgID c) (x_userdefined c)).
    + unfold of_lookup. destruct (lookup _ _); reflexivity.
    + rewrite std_table_eq by exact V. unfold of_lookup. destruct (lookup _ _); reflexivity.
Qed.

(* ------------------------------------------------------- the constructor *)
Definition kw_ctx ck talker msgid mode hp v ud kw : ctx :=
  mkctx talker msgid mode hp v ud (find_defsource msgid ud) false kw ck.
Definition mk_kw_msg talker msgid mode hp v ud ck pl attrs : msg :=
  mkmsg talker msgid mode hp v ud (find_defsource msgid ud) false ck pl attrs true.

(* the members of a definition, unless a keyword is called like a helper's parameter *)
Definition kw_result (c : ctx) (d : pdict) : result ast :=
  match d with
  | [] => Ok (mkast 0 [] [])
  | _ => if kw_clash (x_kwargs c) then Raise NMEATypeError
         else type_errors (set_members c d [] (mkast 0 [] []))
  end.

Lemma NMEAMessage_keywords ckk talker msgid mode hp v ud ck kw :
  NMEAMessage ckk talker msgid mode hp v ud ck None kw =
  if negb (valid_mode mode) then Raise NMEAMessageError
  else if wants_msgid v && negb (has_key talker NMEA_TALKERS && known_id ud msgid) then Raise NMEAMessageError
  else match keyword_id msgid kw with
       | None => Raise (match lookup (u "msgId") kw with None => NMEAMessageError | Some _ => NMEATypeError end)
       | Some _ =>
           if key_blocked msgid kw || no_variant mode msgid kw then Raise NMEATypeError
           else match keyword_definition mode ud msgid kw with
                | None =>
                    if wants_msgid v then Raise NMEAMessageError
                    else Ok (mk_kw_msg talker msgid mode hp v ud ck [] [])
                | Some d =>
                    match kw_result (kw_ctx ckk talker msgid mode hp v ud kw) d with
                    | Ok s => Ok (mk_kw_msg talker msgid mode hp v ud
                                    (Some (match ck with Some k => k
                                           | None => calc_checksum (talker ++ msgid ++ flat_map (fun f => comma :: f) (a_payload s)) end))
                                    (a_payload s) (a_attrs s))
                    | Raise e => Raise e
                    end
                end
       end.
Proof.
  unfold NMEAMessage. destruct (valid_mode mode) eqn:V; cbn [negb]; [|reflexivity].
  rewrite has_flag_msgid, andb_comm, find_defsource_known.
  set (X := wants_msgid v && negb (has_key talker NMEA_TALKERS && _)).
  assert (forall A B : result msg,
    (if wants_msgid v && negb (has_key talker NMEA_TALKERS) then A
     else match find_defsource msgid ud, wants_msgid v with DEF_UNKN, true => A | _, _ => B end) =
    if X then A else B) as ->.
  { intros A B. subst X. destruct (wants_msgid v); cbn [andb].
    - destruct (has_key talker NMEA_TALKERS); cbn [negb andb]; [|reflexivity].
      destruct (find_defsource msgid ud); reflexivity.
    - destruct (find_defsource msgid ud); reflexivity. }
  destruct X; [reflexivity|].
  fold (kw_ctx ckk talker msgid mode hp v ud kw). unfold do_attributes.
  rewrite get_dict_keywords by (reflexivity || exact V).
  cbn [x_mode x_msgID x_userdefined x_validate kw_ctx x_kwargs].
  destruct (keyword_id msgid kw) as [key|]; [|destruct (lookup (u "msgId") kw); reflexivity].
  destruct (key_blocked msgid kw); cbn [orb]; [reflexivity|].
  destruct (no_variant mode msgid kw); cbn [orb]; [reflexivity|].
  destruct (keyword_definition mode ud msgid kw) as [d|].
  - cbn [bind]. unfold kw_result. destruct d as [|e d].
    + cbn [bind type_errors]. rewrite generate_checksum_calc. destruct ck; reflexivity.
    + cbn [x_kwargs kw_ctx]. destruct (kw_clash kw); [reflexivity|].
      destruct (set_members _ (e :: d) [] _) as [s|x]; [|destruct x; reflexivity].
      cbn [bind type_errors]. rewrite generate_checksum_calc. destruct ck; reflexivity.
  - destruct (wants_msgid v); reflexivity.
Qed.

(* ----------------------------------------------------- filling the slots *)
Lemma below_zero_eq v : numeric v && negative v = below_zero v.
Proof. destruct v; try reflexivity; destruct b; reflexivity. Qed.

Lemma text_in (x : pystr) l y : In y l -> str_in x l = false -> str_eqb x y = false.
Proof. intros H E. apply str_eqb_neq. intros ->. apply str_in_iff in H. congruence. Qed.

Lemma nomval_table ty mode now :
  valid_mode mode = true ->
  nomval ty mode now = match lookup ty (nominal_values mode now) with Some v => Ok v | None => Raise NMEATypeError end.
Proof.
  intros V. unfold nomval, nominal_values. cbn [lookup].
  unfold str_in. cbn [existsb].
  change (u "CH") with ty_CH. change (u "ST") with ty_ST. change (u "LA") with ty_LA. change (u "LN") with ty_LN.
  change (u "LAD") with ty_LAD. change (u "LND") with ty_LND. change (u "HX") with ty_HX. change (u "DE") with ty_DE.
  change (u "IN") with ty_IN. change (u "TM") with ty_TM. change (u "DT") with ty_DT. change (u "DTL") with ty_DTL.
  change (u "DM") with ty_DM. change (u "QS") with ty_QS.
  repeat match goal with |- context [str_eqb ty ?t] => destruct (str_eqb ty t); cbn [orb]; [reflexivity|] end.
  reflexivity.
Qed.

Lemma supply_value c att keyr s :
  valid_mode (x_mode c) = true ->
  length (a_payload s) = length (a_attrs s) ->
  supply c att keyr s =
  match value_for (x_mode c) (x_clock c (length (a_attrs s))) (x_kwargs c) (a_attrs s) keyr att with
  | Some v => Ok v
  | None => Raise NMEATypeError
  end.
Proof.
  intros V L. unfold supply, value_for. rewrite nomval_table by exact V. rewrite L.
  change (u "LAD") with ty_LAD. change (u "LND") with ty_LND.
  change (u "lat") with n_lat. change (u "lon") with n_lon.
  destruct (str_eqb_spec att ty_LND) as [->|N1].
  { change (str_eqb ty_LND ty_LAD) with false. cbn [andb].
    set (now := x_clock c (length (a_attrs s))).
    assert (lookup ty_LND (nominal_values (x_mode c) now) = Some (VStr (u "E"))) as -> by reflexivity.
    unfold has_key. destruct (lookup n_lon (a_attrs s)) as [v|]; [|reflexivity].
    rewrite below_zero_eq. reflexivity. }
  destruct (str_eqb_spec att ty_LAD) as [->|N2].
  { cbn [andb]. set (now := x_clock c (length (a_attrs s))).
    assert (lookup ty_LAD (nominal_values (x_mode c) now) = Some (VStr (u "N"))) as -> by reflexivity.
    unfold has_key. destruct (lookup n_lat (a_attrs s)) as [v|]; [|reflexivity].
    rewrite below_zero_eq. reflexivity. }
  cbn [andb]. destruct (lookup att (nominal_values _ _)); reflexivity.
Qed.

(* a keyword context *)
Definition keyed (c : ctx) : Prop := x_streaming c = false /\ valid_mode (x_mode c) = true.
(* as many fields as attributes *)
Definition level (s : ast) : Prop := length (a_payload s) = length (a_attrs s) /\ a_pindex s = length (a_attrs s).

Lemma slot_keyword c k ty s s' :
  keyed c -> level s -> ~ In k (map fst (a_attrs s)) -> ~ In k property_names ->
  set_slot c (k, ty) s = Ok s' <->
  exists v f, value_for (x_mode c) (x_clock c (length (a_attrs s))) (x_kwargs c) (a_attrs s) k ty = Some v
    /\ val2str v ty (x_hp c) = Ok f
    /\ s' = mkast (S (a_pindex s)) (a_attrs s ++ [(k, v)]) (a_payload s ++ [f]).
Proof.
  intros [St V] [L _] Nk Np. unfold set_slot, set_single. cbn [fst snd suffix flat_map].
  change (k ++ flat_map (fun i : N => 95%N :: fmt_02d i) []) with (k ++ []). rewrite app_nil_r, St.
  rewrite supply_value by assumption.
  destruct (value_for _ _ _ _ _ _) as [v|]; cbn [bind].
  2:{ split; [discriminate|]. intros (? & ? & ? & _). discriminate. }
  destruct (val2str v ty (x_hp c)) as [f|e] eqn:Hf; cbn [bind].
  2:{ split; [discriminate|]. intros (? & ? & E & H & _). injection E as <-. congruence. }
  unfold setattr. replace (str_in k property_names) with false.
  2:{ symmetry. destruct (str_in k property_names) eqn:E; [|reflexivity]. elim Np. apply str_in_iff, E. }
  cbn [bind a_attrs a_payload a_pindex]. rewrite dict_set_fresh by exact Nk. split.
  - intros [= <-]. exists v, f. split; [reflexivity|]. split; [exact Hf|reflexivity].
  - intros (v' & f' & [= <-] & E & ->). replace f' with f by congruence. reflexivity.
Qed.

Lemma level_step s k v f : level s -> level (mkast (S (a_pindex s)) (a_attrs s ++ [(k, v)]) (a_payload s ++ [f])).
Proof. intros [L P]. split; cbn [a_pindex a_attrs a_payload]; rewrite !app_length; cbn; lia. Qed.

Lemma run_slots_fills c sl s s' :
  keyed c -> level s -> NoDup (map fst (a_attrs s) ++ map fst sl) ->
  Forall (fun x => ~ In (fst x) property_names) sl ->
  run_slots c sl s = Ok s' <->
  exists r fs, fills (x_clock c) (x_mode c) (x_hp c) (x_kwargs c) (a_attrs s) sl r fs
    /\ s' = mkast (a_pindex s + length sl) (a_attrs s ++ r) (a_payload s ++ fs).
Proof.
  intros K. revert s. induction sl as [|[k ty] sl IH]; intros s L ND F.
  - cbn [run_slots length]. rewrite Nat.add_0_r. split.
    + intros [= <-]. exists [], []. split; [constructor|]. rewrite !app_nil_r. destruct s; reflexivity.
    + intros (r & fs & H & ->). inversion H; subst. rewrite !app_nil_r. destruct s; reflexivity.
  - cbn [run_slots]. inversion F as [|? ? F1 F2]; subst. cbn [fst] in F1. cbn [map fst] in ND.
    assert (~ In k (map fst (a_attrs s))) as Nk.
    { apply NoDup_remove_2 in ND. rewrite in_app_iff in ND. tauto. }
    pose proof (slot_keyword c k ty s) as SK.
    split.
    + intros E. apply bind_Ok in E as (s1 & E1 & E2). apply SK in E1; [|assumption..].
      destruct E1 as (v & f & Hv & Hf & ->).
      apply IH in E2; cbn [a_attrs a_payload a_pindex] in *; [|apply level_step, L| |exact F2].
      2:{ rewrite map_app, <- app_assoc. exact ND. }
      destruct E2 as (r & fs & H & ->). exists ((k, v) :: r), (f :: fs).
      split; [econstructor; eassumption|]. rewrite <- !app_assoc. cbn [app length]. f_equal. lia.
    + intros (r & fs & H & ->). inversion H as [|? ? ? ? v f r' fs' Hv Hf H']; subst.
      rewrite (proj2 (SK _ K L Nk F1) (ex_intro _ v (ex_intro _ f (conj Hv (conj Hf eq_refl))))). cbn [bind].
      apply IH; cbn [a_attrs a_payload a_pindex]; [apply level_step, L| |exact F2|].
      { rewrite map_app, <- app_assoc. exact ND. }
      exists r', fs'. split; [exact H'|]. rewrite <- !app_assoc. cbn [app length]. f_equal. lia.
Qed.

Lemma fills_names ck mode hp kw b sl r fs : fills ck mode hp kw b sl r fs -> map fst r = map fst sl /\ length fs = length sl.
Proof. induction 1 as [|b k ty sl v f r fs _ _ _ [IH1 IH2]]; [split; reflexivity|]. cbn. rewrite IH1, IH2. split; reflexivity. Qed.

Lemma group_count_kw c n ms s cnt :
  keyed c -> public_counts [(n, AGroup cnt ms)] ->
  forall k, (exists rng, group_count c cnt ms s = Ok rng /\ k = Z.to_nat rng)
            <-> kw_repeats (x_kwargs c) (a_attrs s) cnt k.
Proof.
  intros [St _] P k. inversion P as [|? ? P1 _]; subst. cbn [snd] in P1.
  unfold group_count, kw_repeats. destruct cnt as [z|name].
  - split; [intros (r & [= <-] & ->); reflexivity|]. intros ->. exists z. split; reflexivity.
  - rewrite St. destruct (str_eqb_spec name (u "None")) as [->|Nn]; [reflexivity|].
    destruct P1 as [->|(M1 & _ & _ & M4)]; [congruence|].
    unfold getattr_num, int_attr. apply str_eqb_neq in M1. rewrite M1.
    assert (forall w : pystr, hd 0%N w = 95%N -> str_eqb name w = false) as Pr.
    { intros w Hw. apply str_eqb_neq. intros ->. contradiction. }
    rewrite !Pr by reflexivity.
    destruct (lookup name (a_attrs s)) as [[| z| |b| | | |]|]; split; intros (r & E & Hk); try discriminate;
      injection E as <-; eexists; (split; [reflexivity|exact Hk]).
Qed.

(* members of a definition, completely *)
Lemma members_builds c d s s' :
  keyed c -> level s -> flat d -> public_counts d ->
  (forall sl, expands d sl -> NoDup (map fst (a_attrs s) ++ map fst sl)
                              /\ Forall (fun x => ~ In (fst x) property_names) sl) ->
  set_members c d [] s = Ok s' <->
  exists r fs, builds (x_clock c) (x_mode c) (x_hp c) (x_kwargs c) (a_attrs s) d r fs
    /\ s' = mkast (a_pindex s + length fs) (a_attrs s ++ r) (a_payload s ++ fs).
Proof.
  intros K. revert s. induction d as [|[k a] d IH]; intros s L Fl P H.
  - cbn [set_members]. split.
    + intros [= <-]. exists [], []. split; [constructor|]. cbn. rewrite !app_nil_r, Nat.add_0_r. destruct s; reflexivity.
    + intros (r & fs & B & ->). inversion B; subst. cbn. rewrite !app_nil_r, Nat.add_0_r. destruct s; reflexivity.
  - inversion Fl as [|? ? F1 F2]; subst. inversion P as [|? ? P1 P2]; subst. cbn [snd] in F1, P1.
    assert (exists sl0, expands d sl0) as [sl0 X0].
    { clear -F2. induction d as [|[k [t|n ms]] d IH]; [exists []; constructor| |];
        inversion F2; subst; destruct IH as [sl X]; try assumption.
      - exists ((k, t) :: sl). constructor. exact X.
      - exists (group_slots 0 1 ms ++ sl). constructor. exact X. }
    destruct a as [ty|n ms].
    + cbn [set_members set_attribute]. rewrite set_single_slot. cbn [suffix flat_map]. rewrite app_nil_r.
      assert (~ In k (map fst (a_attrs s)) /\ ~ In k property_names) as [Nk Np].
      { destruct (H ((k, ty) :: sl0)) as [ND F]; [constructor; exact X0|]. inversion F as [|? ? Fa _]; subst.
        split; [|exact Fa]. cbn in ND. apply NoDup_remove_2 in ND. rewrite in_app_iff in ND. tauto. }
      pose proof (slot_keyword c k ty s) as SK.
      assert (forall v f, let s1 := mkast (S (a_pindex s)) (a_attrs s ++ [(k, v)]) (a_payload s ++ [f]) in
        forall sl, expands d sl -> NoDup (map fst (a_attrs s1) ++ map fst sl) /\ Forall (fun x => ~ In (fst x) property_names) sl) as H'.
      { intros v f s1 sl X. destruct (H ((k, ty) :: sl)) as [ND F]; [constructor; exact X|].
        inversion F; subst. split; [|assumption]. cbn [s1 a_attrs]. rewrite map_app, <- app_assoc. exact ND. }
      split.
      * intros E. apply bind_Ok in E as (s1 & E1 & E2). apply SK in E1; [|assumption..].
        destruct E1 as (v & f & Hv & Hf & ->).
        apply IH in E2; [|apply level_step, L|exact F2|exact P2|apply H'].
        cbn [a_attrs a_payload a_pindex] in E2. destruct E2 as (r & fs & B & ->).
        exists ((k, v) :: r), (f :: fs). split; [econstructor; eassumption|].
        rewrite <- !app_assoc. cbn [app length]. f_equal. lia.
      * intros (r & fs & B & ->). inversion B as [|? ? ? ? v f r' fs' Hv Hf B'|]; subst.
        rewrite (proj2 (SK _ K L Nk Np) (ex_intro _ v (ex_intro _ f (conj Hv (conj Hf eq_refl))))). cbn [bind].
        apply IH; [apply level_step, L|exact F2|exact P2|apply H'|].
        cbn [a_attrs a_payload a_pindex].
        exists r', fs'. split; [exact B'|]. rewrite <- !app_assoc. cbn [app length]. f_equal. lia.
    + destruct F1 as [Pm _]. cbn [set_members]. rewrite set_attribute_group.
      assert (public_counts [(k, AGroup n ms)]) as Pg by (constructor; [exact P1|constructor]).
      pose proof (group_count_kw c k ms s n K Pg) as GC.
      assert (forall cnt sl, expands d sl ->
        NoDup (map fst (a_attrs s) ++ map fst (group_slots cnt 1 ms) ++ map fst sl)
        /\ Forall (fun x => ~ In (fst x) property_names) (group_slots cnt 1 ms)
        /\ Forall (fun x => ~ In (fst x) property_names) sl) as H'.
      { intros cnt sl X. destruct (H (group_slots cnt 1 ms ++ sl)) as [ND F]; [constructor; exact X|].
        rewrite map_app in ND. apply Forall_app in F as [Fa Fb]. repeat split; assumption. }
      assert (forall cnt r fs, fills (x_clock c) (x_mode c) (x_hp c) (x_kwargs c) (a_attrs s) (group_slots cnt 1 ms) r fs ->
        let s1 := mkast (a_pindex s + length (group_slots cnt 1 ms)) (a_attrs s ++ r) (a_payload s ++ fs) in
        level s1 /\ forall sl, expands d sl -> NoDup (map fst (a_attrs s1) ++ map fst sl)
                               /\ Forall (fun x => ~ In (fst x) property_names) sl) as H2.
      { intros cnt r fs Hf s1. apply fills_names in Hf as [Q1 Q2].
        assert (length r = length (group_slots cnt 1 ms)) as Q3 by (rewrite <- (map_length fst r), Q1; apply map_length).
        split. { destruct L as [L1 L2]. split; cbn [s1 a_attrs a_payload a_pindex]; rewrite !app_length; lia. }
        intros sl X. destruct (H' cnt sl X) as (ND & _ & F). split; [|exact F].
        cbn [s1 a_attrs]. rewrite map_app, Q1, <- app_assoc. exact ND. }
      assert (forall cnt s1, run_slots c (group_slots cnt 1 ms) s = Ok s1 <->
        exists r fs, fills (x_clock c) (x_mode c) (x_hp c) (x_kwargs c) (a_attrs s) (group_slots cnt 1 ms) r fs
          /\ s1 = mkast (a_pindex s + length (group_slots cnt 1 ms)) (a_attrs s ++ r) (a_payload s ++ fs)) as RS.
      { intros cnt s1. destruct (H' cnt sl0 X0) as (ND & F & _). apply run_slots_fills; [exact K|exact L| |exact F].
        rewrite app_assoc in ND. apply NoDup_prefix in ND. exact ND. }
      split.
      * intros E. apply bind_Ok in E as (s1 & E1 & E2). apply bind_Ok in E1 as (rng & Ec & E1).
        rewrite repeat_group in E1 by exact Pm.
        apply RS in E1 as (r1 & f1 & Hf1 & ->). destruct (H2 _ _ _ Hf1) as [L1 H3].
        apply IH in E2; [|exact L1|exact F2|exact P2|exact H3].
        cbn [a_attrs a_payload a_pindex] in E2. destruct E2 as (r & fs & B & ->).
        exists (r1 ++ r), (f1 ++ fs). split.
        { econstructor; [|exact Hf1|exact B]. apply GC. exists rng. split; [exact Ec|reflexivity]. }
        rewrite <- !app_assoc. f_equal. rewrite app_length. apply fills_names in Hf1 as [_ Q]. lia.
      * intros (r & fs & B & ->).
        inversion B as [| |? ? ? ? ? cnt r1 f1 r2 f2 Hc Hf1 B']; subst.
        apply GC in Hc as (rng & Ec & ->). rewrite Ec. cbn [bind].
        rewrite repeat_group by exact Pm.
        assert (run_slots c (group_slots (Z.to_nat rng) 1 ms) s =
          Ok (mkast (a_pindex s + length (group_slots (Z.to_nat rng) 1 ms)) (a_attrs s ++ r1) (a_payload s ++ f1))) as ->.
        { apply RS. exists r1, f1. split; [exact Hf1|reflexivity]. }
        cbn [bind]. destruct (H2 _ _ _ Hf1) as [L1 H3].
        apply IH; [exact L1|exact F2|exact P2|exact H3|].
        cbn [a_attrs a_payload a_pindex]. exists r2, f2. split; [exact B'|].
        rewrite <- !app_assoc. f_equal. rewrite app_length. apply fills_names in Hf1 as [_ Q]. lia.
Qed.

(* a whole definition *)
Lemma definition_builds c d s :
  keyed c -> well_formed d -> no_clash d ->
  set_members c d [] (mkast 0 [] []) = Ok s <->
  builds (x_clock c) (x_mode c) (x_hp c) (x_kwargs c) [] d (a_attrs s) (a_payload s)
  /\ s = mkast (length (a_payload s)) (a_attrs s) (a_payload s).
Proof.
  intros K (Fl & U & P) N.
  rewrite (members_builds c d (mkast 0 [] []) s K); cbn [a_attrs a_payload a_pindex].
  - split.
    + intros (r & fs & B & ->). cbn. split; [exact B|reflexivity].
    + intros [B E]. exists (a_attrs s), (a_payload s). split; [exact B|exact E].
  - split; reflexivity.
  - exact Fl.
  - exact P.
  - intros sl X. split; [exact (U sl X)|]. specialize (N sl X). eapply Forall_impl; [|exact N].
    intros x [H _]. exact H.
Qed.
