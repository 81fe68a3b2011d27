(* Proofs about definition selection and the streaming constructor. *)
From Verif Require Import Reader BaseLemmas TextLemmas NumLemmas Spec ParseProofs MessageProofs.
Local Open Scope Z_scope.

Lemma prefixes_eq : NMEA_PREFIX_PROP = prefixes.
Proof. reflexivity. Qed.

Lemma std_table_eq mode : valid_mode mode = true -> std_table mode = definitions_standard mode.
Proof.
  intros V. apply valid_mode_iff in V. unfold std_table, definitions_standard, POLL, SET.
  destruct V as [->|[->| ->]]; reflexivity.
Qed.
Lemma prop_table_eq mode : valid_mode mode = true -> prop_table mode = definitions_proprietary mode.
Proof.
  intros V. apply valid_mode_iff in V. unfold prop_table, definitions_proprietary, POLL, SET.
  destruct V as [->|[->| ->]]; reflexivity.
Qed.

(* facts about the id tables, by computation *)
Lemma qtmsn_unique k :
  has_key k NMEA_MSGIDS_PROP = true -> str_upper k = u "QTMSN" -> k = u "QTMSN".
Proof.
  intros H E. apply has_key_iff in H.
  assert (forallb (fun k => negb (str_eqb (str_upper k) (u "QTMSN")) || str_eqb k (u "QTMSN"))
            (map fst NMEA_MSGIDS_PROP) = true) as G by (vm_compute; reflexivity).
  rewrite forallb_forall in G. specialize (G k H).
  apply orb_true_iff in G as [G|G]; [|apply str_eqb_eq, G].
  apply negb_true_iff, str_eqb_neq in G. contradiction.
Qed.
Lemma stmdrsenmsg_unique k :
  has_key k NMEA_MSGIDS_PROP = true -> str_upper k = u "STMDRSENMSG" -> k = u "STMDRSENMSG".
Proof.
  intros H E. apply has_key_iff in H.
  assert (forallb (fun k => negb (str_eqb (str_upper k) (u "STMDRSENMSG")) || str_eqb k (u "STMDRSENMSG"))
            (map fst NMEA_MSGIDS_PROP) = true) as G by (vm_compute; reflexivity).
  rewrite forallb_forall in G. specialize (G k H).
  apply orb_true_iff in G as [G|G]; [|apply str_eqb_eq, G].
  apply negb_true_iff, str_eqb_neq in G. contradiction.
Qed.
Lemma prefix_not_special k x :
  str_in k prefixes = true ->
  str_eqb (str_upper (k ++ x)) (u "QTMSN") = false /\ str_eqb (str_upper (k ++ x)) (u "STMDRSENMSG") = false.
Proof.
  intros H. apply str_in_iff in H. rewrite str_upper_app.
  cbn [prefixes In] in H.
  destruct H as [<-|[<-|[<-|[<-|[<-|[<-|[]]]]]]]; split; reflexivity.
Qed.
Lemma prefix_not_id k :
  str_in k prefixes = true ->
  has_key k NMEA_MSGIDS = false /\ str_eqb k (u "QTMSN") = false /\ str_eqb k (u "STMDRSENMSG") = false.
Proof.
  intros H. apply str_in_iff in H. cbn [prefixes In] in H.
  destruct H as [<-|[<-|[<-|[<-|[<-|[<-|[]]]]]]]; repeat split; vm_compute; reflexivity.
Qed.
Lemma special_not_std k :
  has_key k NMEA_MSGIDS = true -> str_eqb k (u "QTMSN") = false /\ str_eqb k (u "STMDRSENMSG") = false
                                  /\ str_in k prefixes = false /\ has_key k NMEA_MSGIDS_PROP = false.
Proof.
  intros H. apply has_key_iff in H.
  assert (forallb (fun k => negb (str_eqb k (u "QTMSN")) && negb (str_eqb k (u "STMDRSENMSG"))
                            && negb (str_in k prefixes) && negb (has_key k NMEA_MSGIDS_PROP))
            (map fst NMEA_MSGIDS) = true) as G by (vm_compute; reflexivity).
  rewrite forallb_forall in G. specialize (G k H).
  rewrite !andb_true_iff, !negb_true_iff in G. tauto.
Qed.

Lemma special_is_prop :
  has_key (u "QTMSN") NMEA_MSGIDS_PROP = true /\ has_key (u "STMDRSENMSG") NMEA_MSGIDS_PROP = true
  /\ str_in (u "QTMSN") prefixes = false /\ str_in (u "STMDRSENMSG") prefixes = false
  /\ has_key (u "QTMSN") NMEA_MSGIDS = false /\ has_key (u "STMDRSENMSG") NMEA_MSGIDS = false.
Proof. vm_compute. repeat split. Qed.

Lemma dict_key_streaming c fields :
  x_streaming c = true -> 
  dict_key c fields =
    if str_in (x_msgID c) prefixes
       && match fields with [] => true | f :: _ => str_eqb (x_msgID c) (u "ASHR") && (length f <? 2)%nat end
    then Raise IndexError
    else Ok (lookup_id (x_msgID c) fields).
Proof.
  intros St. unfold dict_key, lookup_id. rewrite prefixes_eq, St.
  destruct (str_in (x_msgID c) prefixes); cbn [andb bind]; [|reflexivity].
  destruct (str_eqb (x_msgID c) (u "ASHR")); cbn [andb bind].
  - destruct fields as [|f fs]; [reflexivity|]. cbn [py_index nth_error bind hd].
    destruct f as [|a [|b f]]; [reflexivity|reflexivity|].
    cbn [py_index nth_error bind length Nat.ltb Nat.leb nth].
    destruct (chr_isdigit b); reflexivity.
  - destruct fields as [|f fs]; reflexivity.
Qed.

Ltac lit := repeat match goal with |- context [u ?s] => let v := eval vm_compute in (u s) in change (u s) with v end.

(* the Quectel variants *)
Lemma prop_key_streaming key mode fields :
  valid_mode mode = true ->
  prop_key key mode true fields [] =
    match fields with
    | [] => if (str_eqb key (u "QTMSN") && (mode =? 0)) || str_eqb key (u "STMDRSENMSG") then Raise IndexError
            else Ok (variant_of key mode fields)
    | _ => Ok (variant_of key mode fields)
    end.
Proof.
  intros V. apply valid_mode_iff in V.
  unfold prop_key. cbn [kw_has has_key lookup].
  set (A := fun m => match find (fun v => let '(k, m, n, _) := v in
                       str_eqb k key && (m =? mode)%Z && Nat.eqb n (length fields)) variants with Some (_,_,_,n) => n | None => m end).
  assert (Hfind : forall k0, key = k0 -> True) by trivial.
  destruct (str_eqb_spec key (u "QTMCFGGEOFENCE")) as [->|N1].
  { destruct V as [->|[->| ->]];
      (do 14 (destruct fields as [|? fields]; [reflexivity|]); reflexivity). }
  destruct (str_eqb_spec key (u "QTMCFGMSGRATE")) as [->|N2].
  { destruct V as [->|[->| ->]];
      (do 14 (destruct fields as [|? fields]; [reflexivity|]); reflexivity). }
  destruct (str_eqb_spec key (u "QTMCFGPPS")) as [->|N3].
  { destruct V as [->|[->| ->]];
      (do 14 (destruct fields as [|? fields]; [reflexivity|]); reflexivity). }
  destruct (str_eqb_spec key (u "QTMCFGSAT")) as [->|N4].
  { destruct V as [->|[->| ->]];
      (do 14 (destruct fields as [|? fields]; [reflexivity|]); reflexivity). }
  destruct (str_eqb_spec key (u "QTMCFGUART")) as [->|N5].
  { destruct V as [->|[->| ->]];
      (do 14 (destruct fields as [|? fields]; [reflexivity|]); reflexivity). }
  assert (variant_of key mode fields =
      if str_eqb key (u "QTMSN") && (mode =? 0)%Z && str_isnumeric (hd [] fields) then u "QTMSN_ALT"
      else if str_eqb key (u "STMDRSENMSG") then u "STMDRSENMSG_" ++ hd [] fields
      else if str_eqb (firstn 3 key) (u "QTM") && (mode =? 0)%Z && negb (str_in key no_ack) then
        match fields with
        | [a] => if str_eqb a (u "OK") then u "QTMACK" else key
        | [a; _] => if str_eqb a (u "ERROR") then u "QTMNAK" else key
        | _ => key
        end
      else key) as VE.
  { unfold variant_of, variants. cbn [find].
    rewrite (str_eqb_sym (u "QTMCFGUART")), (str_eqb_sym (u "QTMCFGMSGRATE")), (str_eqb_sym (u "QTMCFGPPS")),
      (str_eqb_sym (u "QTMCFGSAT")), (str_eqb_sym (u "QTMCFGGEOFENCE")).
    apply str_eqb_neq in N1, N2, N3, N4, N5. rewrite N1, N2, N3, N4, N5. reflexivity. }
  rewrite VE. clear VE A Hfind.
  apply str_eqb_neq in N1, N2, N3, N4, N5.
  destruct (str_eqb_spec key (u "QTMSN")) as [->|N6].
  { unfold qtmsn, GET. destruct V as [->|[->| ->]]; destruct fields as [|f fields]; try reflexivity.
    }
  destruct (str_eqb_spec key (u "STMDRSENMSG")) as [->|N7].
  { unfold stmdrsenmsg. destruct fields as [|f fields]; reflexivity. }
  apply str_eqb_neq in N6, N7. cbn [andb orb].
  assert (str_in key no_ack = false) as NA.
  { unfold str_in, no_ack. cbn [existsb]. rewrite N5, N2, N3, N6. reflexivity. }
  rewrite NA. cbn [negb]. rewrite andb_true_r.
  unfold qtmacknak, GET.
  destruct (str_eqb (firstn 3 key) (u "QTM")); destruct V as [->|[->| ->]];
    destruct fields as [|f [|g [|h fields]]]; reflexivity.
Qed.

Lemma get_dict_streaming c fields :
  x_streaming c = true -> x_kwargs c = [] -> valid_mode (x_mode c) = true ->
  x_defsource c = find_defsource (x_msgID c) (x_userdefined c) ->
  get_dict c fields =
    if lacks_id (x_mode c) (x_msgID c) fields then Raise IndexError
    else match definition_for (x_mode c) (x_userdefined c) (x_msgID c) fields with
         | Some d => Ok (Some d)
         | None => if wants_msgid (x_validate c) then Raise NMEAMessageError else Ok None
         end.
Proof.
  intros St Kw V Ds. unfold get_dict. rewrite dict_key_streaming by exact St. rewrite has_flag_msgid.
  rewrite Kw, Ds, St. unfold lacks_id.
  set (L1 := str_in (x_msgID c) prefixes && _).
  destruct L1 eqn:E1; [cbn [bind orb]; reflexivity|]. cbn [bind orb].
  unfold definition_for, find_defsource. rewrite prefixes_eq.
  destruct (has_key (x_msgID c) NMEA_MSGIDS) eqn:H1.
  { apply special_not_std in H1 as (S1 & S2 & _). rewrite S1, S2. cbn [orb andb].
    rewrite andb_false_r. rewrite std_table_eq by exact V.
    unfold of_lookup. destruct (lookup _ (definitions_standard _)); reflexivity. }
  destruct (has_key (x_msgID c) NMEA_MSGIDS_PROP || str_in (x_msgID c) prefixes) eqn:H2.
  - rewrite prop_key_streaming by exact V. rewrite prop_table_eq by exact V.
    destruct fields as [|f fields].
    + (* payload [] *)
      assert (str_in (x_msgID c) prefixes = false) as Np.
      { subst L1. rewrite andb_true_r in E1. exact E1. }
      rewrite Np, orb_false_r in H2. unfold lookup_id. rewrite Np. rewrite andb_true_l.
      replace (str_eqb (str_upper (x_msgID c)) (u "QTMSN")) with (str_eqb (x_msgID c) (u "QTMSN")).
      2:{ destruct (str_eqb_spec (x_msgID c) (u "QTMSN")) as [->|N]; [reflexivity|].
          symmetry. apply str_eqb_neq. intros E. apply N. apply qtmsn_unique; assumption. }
      replace (str_eqb (str_upper (x_msgID c)) (u "STMDRSENMSG")) with (str_eqb (x_msgID c) (u "STMDRSENMSG")).
      2:{ destruct (str_eqb_spec (x_msgID c) (u "STMDRSENMSG")) as [->|N]; [reflexivity|].
          symmetry. apply str_eqb_neq. intros E. apply N. apply stmdrsenmsg_unique; assumption. }
      destruct ((str_eqb (x_msgID c) (u "QTMSN") && (x_mode c =? 0)) || str_eqb (x_msgID c) (u "STMDRSENMSG"));
        [reflexivity|]. cbn [bind]. unfold of_lookup.
      destruct (lookup _ (definitions_proprietary _)); reflexivity.
    + cbn [andb bind]. unfold of_lookup. destruct (lookup _ (definitions_proprietary _)); reflexivity.
  - apply orb_false_iff in H2 as [H2 H3].
    assert (str_eqb (x_msgID c) (u "QTMSN") = false /\ str_eqb (x_msgID c) (u "STMDRSENMSG") = false) as [S1 S2].
    { destruct special_is_prop as (P1 & P2 & _).
      split; apply str_eqb_neq; intros E; rewrite E in H2; congruence. }
    rewrite S1, S2. cbn [andb orb]. rewrite andb_false_r.
    destruct (has_key (x_msgID c) (x_userdefined c)).
    + unfold of_lookup. destruct (lookup _ (x_userdefined c)); reflexivity.
    + rewrite std_table_eq by exact V. unfold of_lookup. destruct (lookup _ (definitions_standard _)); reflexivity.
Qed.

(* the constructor with payload=... and no other keyword *)
Definition stream_ctx ck talker msgid mode hp v ud : ctx :=
  mkctx talker msgid mode hp v ud (find_defsource msgid ud) true [] ck.

Definition stream_result (c : ctx) (fields : list pystr) (d : pdict) : result ast :=
  type_errors (set_members c d [] (mkast 0 [] fields)).

Lemma find_defsource_known msgid ud :
  known_id ud msgid = negb (match find_defsource msgid ud with DEF_UNKN => true | _ => false end).
Proof.
  unfold known_id, find_defsource. rewrite prefixes_eq.
  destruct (has_key msgid NMEA_MSGIDS); [reflexivity|].
  destruct (has_key msgid NMEA_MSGIDS_PROP || str_in msgid prefixes) eqn:E; cbn [orb]; rewrite E; [reflexivity|].
  destruct (has_key msgid ud); reflexivity.
Qed.

Lemma fmt_02d_index i : fmt_02d i = index_text i.
Proof. reflexivity. Qed.

Lemma index_text_no_us i : Forall (fun c => 48 <= c <= 57)%N (index_text i).
Proof.
  unfold index_text, pad_left. apply Forall_app. split; [|apply dec_of_N_ascii].
  apply Forall_forall. intros x H. apply repeat_spec in H. lia.
Qed.

Lemma zfill_dec_inj w a b : zfill w (dec_of_N a) = zfill w (dec_of_N b) -> a = b.
Proof.
  intros H.
  set (f := fun s => match us_digits dec_digit true s with Some l => digits_val 10 l | None => 0%N end).
  assert (forall n, f (zfill w (dec_of_N n)) = n) as F.
  { intros n. unfold f, zfill, dec_of_N. rewrite map_length.
    set (k := (w - length (N_digits 10 n))%nat).
    replace (repeat 48%N k ++ map dec_char (N_digits 10 n)) with (map dec_char (repeat 0%N k ++ N_digits 10 n)).
    2:{ rewrite map_app. f_equal. clear. induction k; cbn; [reflexivity|]. rewrite IHk. reflexivity. }
    rewrite us_digits_dec.
    - rewrite digits_val_zeros. apply N_digits_val; lia.
    - apply Forall_app; split; [|apply N_digits_lt; lia]. clear. induction k; cbn; constructor; [lia|assumption].
    - intros E. apply app_eq_nil in E as [_ E]. revert E. apply (N_digits_canon 10 n); lia. }
  rewrite <- (F a), <- (F b), H. reflexivity.
Qed.
Lemma index_text_inj a b : index_text a = index_text b -> a = b.
Proof. apply (zfill_dec_inj 2). Qed.

Lemma set_nominal_numbered i fields s :
  (forall j f, In (u "field_" ++ index_text j, f) (a_attrs s) -> (j < i)%N) ->
  set_nominal i fields s = Ok (mkast (a_pindex s) (a_attrs s ++ numbered i fields) (a_payload s)).
Proof.
  revert i s. induction fields as [|f fields IH]; intros i s H; cbn [set_nominal numbered].
  - rewrite app_nil_r. destruct s; reflexivity.
  - unfold setattr. rewrite fmt_02d_index.
    assert (str_in (u "field_" ++ index_text i) property_names = false) as NP.
    { destruct (str_in _ _) eqn:E; [|reflexivity]. apply str_in_iff in E. cbn [property_names In] in E.
      exfalso. destruct E as [E|[E|[E|[E|[E|[E|[]]]]]]]; discriminate E. }
    rewrite NP. cbn [bind]. rewrite dict_set_fresh.
    2:{ intros Hin. apply in_map_iff in Hin as ([k v] & Ek & Hin). cbn in Ek. subst k.
        specialize (H _ _ Hin). lia. }
    rewrite IH; cbn [a_pindex a_attrs a_payload].
    + rewrite <- app_assoc. reflexivity.
    + intros j g Hin. apply in_app_or in Hin as [Hin|[Hin|[]]].
      * specialize (H _ _ Hin). lia.
      * assert (u "field_" ++ index_text i = u "field_" ++ index_text j) as E by congruence.
        apply app_inv_head in E. rename E into E'.
        apply index_text_inj in E'. lia.
Qed.

Definition mk_stream_msg talker msgid mode hp v ud ck pl attrs : msg :=
  mkmsg talker msgid mode hp v ud (find_defsource msgid ud) true ck pl attrs true.

Lemma NMEAMessage_stream ckk talker msgid mode hp v ud ck fields :
  NMEAMessage ckk talker msgid mode hp v ud ck (Some fields) [] =
  if negb (valid_mode mode) then Raise NMEAMessageError
  else if wants_msgid v && negb (has_key talker NMEA_TALKERS && known_id ud msgid) then Raise NMEAMessageError
  else if lacks_id mode msgid fields then Raise IndexError
  else match definition_for mode ud msgid fields with
       | None =>
           if wants_msgid v then Raise NMEAMessageError
           else Ok (mk_stream_msg talker msgid mode hp v ud ck fields (numbered 1 fields))
       | Some d =>
           match stream_result (stream_ctx ckk talker msgid mode hp v ud) fields d with
           | Ok s => Ok (mk_stream_msg talker msgid mode hp v ud
                           (Some (match ck with Some k => k
                                  | None => calc_checksum (talker ++ msgid ++ flat_map (fun f => comma :: f) (a_payload s)) end))
                           (a_payload s) (a_attrs s))
           | Raise e => Raise e
           end
       end.
Proof.
  unfold NMEAMessage. destruct (valid_mode mode) eqn:V; cbn [negb]; [|reflexivity].
  rewrite has_flag_msgid, andb_comm, find_defsource_known.
  destruct (wants_msgid v) eqn:W; cbn [andb].
  - destruct (has_key talker NMEA_TALKERS); cbn [negb andb]; [|reflexivity].
    destruct (find_defsource msgid ud) eqn:D; cbn [negb]; [| | |reflexivity];
    (unfold do_attributes; fold (stream_ctx ckk talker msgid mode hp v ud);
     rewrite <- D; fold (stream_ctx ckk talker msgid mode hp v ud);
     rewrite get_dict_streaming by (reflexivity || exact V);
     cbn [x_mode x_msgID x_userdefined x_validate stream_ctx];
     destruct (lacks_id mode msgid fields); [reflexivity|];
     destruct (definition_for mode ud msgid fields) as [d|]; [|rewrite W; reflexivity];
     cbn [bind x_kwargs stream_ctx kw_clash existsb clash_names has_key lookup x_talker x_msgID];
     unfold stream_result;
     replace (match d with [] => _ | _ => _ end) with
       (set_members (stream_ctx ckk talker msgid mode hp v ud) d [] (mkast 0 [] fields)) by (destruct d; reflexivity);
     destruct (set_members _ d [] _) as [s|e]; [|destruct e; reflexivity];
     cbn [bind type_errors]; rewrite generate_checksum_calc; destruct ck; reflexivity).
  - replace (match find_defsource msgid ud, false with
             | DEF_UNKN, true => Raise NMEAMessageError
             | _, _ => _ end) with
      (let! (attrs, pl', ck') := do_attributes (stream_ctx ckk talker msgid mode hp v ud) fields ck in
       Ok (mk_stream_msg talker msgid mode hp v ud ck' pl' attrs))
      by (unfold stream_ctx, mk_stream_msg; destruct (find_defsource msgid ud); reflexivity).
    unfold do_attributes. rewrite get_dict_streaming by (reflexivity || exact V).
    cbn [x_mode x_msgID x_userdefined x_validate stream_ctx].
    destruct (lacks_id mode msgid fields); [reflexivity|].
    destruct (definition_for mode ud msgid fields) as [d|].
    + cbn [bind x_kwargs stream_ctx kw_clash existsb clash_names has_key lookup x_talker x_msgID].
      unfold stream_result.
      replace (match d with [] => _ | _ => _ end) with
        (set_members (stream_ctx ckk talker msgid mode hp v ud) d [] (mkast 0 [] fields)) by (destruct d; reflexivity).
      destruct (set_members _ d [] _) as [s|e]; [|destruct e; reflexivity].
      cbn [bind type_errors]. rewrite generate_checksum_calc. destruct ck; reflexivity.
    + rewrite W. cbn [bind x_streaming stream_ctx].
      rewrite set_nominal_numbered by (cbn; tauto). reflexivity.
Qed.
