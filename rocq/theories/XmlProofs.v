(* Track files: characters of values, and the shape of what is written. *)
From Coq Require Import List NArith ZArith Lia Bool.
From Verif Require Import Message NumLemmas BaseLemmas Tracker XmlSpec.
Import ListNotations.
Local Open Scope N_scope.

(* characters that need no care in XML *)
Definition plain_char (c : N) : Prop := ~ is_lt c /\ ~ is_amp c /\ ~ is_dquote c.
Definition plain_charb (c : N) : bool := negb (c =? 60) && negb (c =? 38) && negb (c =? 34).
Lemma plain_charb_ok c : plain_charb c = true -> plain_char c.
Proof. unfold plain_charb, plain_char, is_lt, is_amp, is_dquote. lia. Qed.
Lemma plain_lit s : forallb plain_charb s = true -> Forall plain_char s.
Proof. intros H. apply Forall_forall. intros c C. apply plain_charb_ok. exact (proj1 (forallb_forall _ _) H c C). Qed.
Ltac plain_literal := apply plain_lit; vm_compute; reflexivity.

Ltac flat := repeat match goal with
  | |- context [(?a ++ ?b) ++ ?c] => rewrite <- (app_assoc a b c)
  | |- context [?a ++ []] => rewrite (app_nil_r a)
  | |- context [[] ++ ?a] => change ([] ++ a) with a end.
Ltac parts := repeat match goal with |- Forall _ (_ ++ _) => apply Forall_app; split end.

Lemma plain_digits s : Forall (fun c => 48 <= c <= 57) s -> Forall plain_char s.
Proof. intros F. eapply Forall_impl; [|exact F]. unfold plain_char, is_lt, is_amp, is_dquote. cbn. lia. Qed.
Lemma plain_dec n : Forall plain_char (dec_of_N n).
Proof. apply plain_digits, dec_of_N_ascii. Qed.
Lemma plain_zeros c n : plain_char c -> Forall plain_char (repeat c n).
Proof. intros P. apply Forall_forall. intros x X. apply repeat_spec in X. subst. exact P. Qed.
Lemma plain_zero : plain_char 48. Proof. unfold plain_char, is_lt, is_amp, is_dquote. lia. Qed.
Lemma plain_zfill n s : Forall plain_char s -> Forall plain_char (zfill n s).
Proof. intros F. unfold zfill. apply Forall_app. split; [apply plain_zeros, plain_zero|exact F]. Qed.
Lemma plain_pad n z : Forall plain_char (pad n z).
Proof. apply plain_zfill, plain_dec. Qed.

Lemma plain_map ds : Forall (fun d => d < 10) ds -> Forall plain_char (map dec_char ds).
Proof. intros F. apply Forall_map. eapply Forall_impl; [|exact F]. unfold plain_char, is_lt, is_amp, is_dquote, dec_char. cbn. lia. Qed.
Lemma plain_repr ds pt : Forall (fun d => d < 10) ds -> Forall plain_char (repr_text ds pt).
Proof.
  intros F. apply plain_map in F. unfold repr_text. cbv zeta. set (c := map dec_char ds) in *.
  destruct (_ || _).
  - apply Forall_app. split; [|apply Forall_app; split; [destruct (_ <? _)%Z; plain_literal|apply plain_zfill, plain_dec]].
    destruct c as [|d [|d' r]]; [constructor|exact F|]. inversion F as [|? ? F1 F2]; subst. constructor; [exact F1|]. constructor; [apply plain_charb_ok; reflexivity|exact F2].
  - destruct (_ <=? _)%Z; [|destruct (_ <=? _)%Z].
    + apply Forall_app. split; [plain_literal|]. apply Forall_app. split; [apply plain_zeros, plain_zero|exact F].
    + apply Forall_app. split; [exact F|]. apply Forall_app. split; [apply plain_zeros, plain_zero|plain_literal].
    + rewrite <- (firstn_skipn (Z.to_nat pt) c) in F. apply Forall_app in F as [F1 F2]. apply Forall_app. split; [exact F1|]. apply Forall_app. split; [plain_literal|exact F2].
Qed.
Lemma lstrip_Forall (P : N -> Prop) f l : Forall P l -> Forall P (lstrip_if f l).
Proof. induction l as [|c l IH]; cbn [lstrip_if]; intros F; [exact F|]. destruct (f c); [inversion F; auto|exact F]. Qed.
Lemma plain_float x : Forall plain_char (str_of_float x).
Proof.
  destruct x as [s|s| |s m e]; cbn [str_of_float]; [destruct s; plain_literal|destruct s; plain_literal|plain_literal|].
  cbv zeta. assert (Forall plain_char (match shortest 17 m e (dec_point m e) 1 with
    | Some (d, ex) => let ds := N_digits 10 d in repr_text (strip_zeros ds) (ex + Z.of_nat (length ds)) | None => u "?" end)) as G.
  { destruct (shortest _ _ _ _ _) as [[d ex]|]; [|plain_literal]. apply plain_repr. unfold strip_zeros.
    apply Forall_rev, lstrip_Forall, Forall_rev, N_digits_lt. lia. }
  destruct s; [constructor; [apply plain_charb_ok; reflexivity|exact G]|exact G].
Qed.
Lemma plain_date d : Forall plain_char (str_of_date d).
Proof. unfold str_of_date. parts; try apply plain_pad; plain_literal. Qed.
Lemma plain_time t : Forall plain_char (str_of_time t).
Proof.
  unfold str_of_time. parts; try apply plain_pad; try plain_literal.
  destruct (_ =? _)%Z; [constructor|]. apply Forall_app. split; [plain_literal|apply plain_pad].
Qed.
Lemma plain_iso d t : Forall plain_char (isoformat d t ++ u "Z").
Proof. unfold isoformat. parts; try apply plain_date; try apply plain_time; plain_literal. Qed.

(* -------------------------------------------------------------- content *)
Lemma content_plain s r : Forall plain_char s -> xml_content r -> xml_content (s ++ r).
Proof. induction 1 as [|c s [A [B _]] F IH]; intros R; [exact R|]. apply xc_char; auto. Qed.
Lemma content_app s r : xml_content s -> xml_content r -> xml_content (s ++ r).
Proof.
  induction 1 as [|c s A B S IH|n a b s N A B _ S IH]; intros R; [exact R|apply xc_char; auto|].
  rewrite <- !app_assoc. apply xc_element; auto.
Qed.
Lemma content_only s : Forall plain_char s -> xml_content s.
Proof. intros F. rewrite <- (app_nil_r s). apply content_plain; [exact F|constructor]. Qed.
Definition name_charb (c : N) : bool := ((65 <=? c) && (c <=? 90)) || ((97 <=? c) && (c <=? 122)) || (c =? 58).
Lemma name_lit s : negb (match s with [] => true | _ => false end) && forallb name_charb s = true -> xml_name s.
Proof.
  intros H. apply andb_true_iff in H as [A B]. split; [intros ->; discriminate|]. apply Forall_forall. intros c C.
  pose proof (proj1 (forallb_forall _ _) B c C) as Q. unfold name_charb in Q. lia.
Qed.
Ltac name_literal := apply name_lit; vm_compute; reflexivity.
Lemma content_tag n s r : xml_name n -> Forall plain_char s -> xml_content r -> xml_content (xml_tag n s ++ r).
Proof.
  intros N F R. unfold xml_tag. rewrite <- !app_assoc. apply (xc_element n [] s r); auto; [constructor|apply content_only, F].
Qed.

(* every element has two "<" *)
Definition count_lt (s : pystr) : nat := count_occ N.eq_dec s 60.
Lemma count_lt_app s r : count_lt (s ++ r) = (count_lt s + count_lt r)%nat.
Proof. apply count_occ_app. Qed.
Lemma count_none s : Forall (fun c => ~ is_lt c) s -> count_lt s = 0%nat.
Proof. intros F. apply count_occ_not_In. intros H. exact (proj1 (Forall_forall _ _) F _ H eq_refl). Qed.
Lemma name_lt n : xml_name n -> count_lt n = 0%nat.
Proof. intros [_ F]. apply count_none. eapply Forall_impl; [|exact F]. unfold is_lt. cbn. lia. Qed.
Lemma attributes_lt a : xml_attributes a -> count_lt a = 0%nat.
Proof.
  induction 1 as [|n v r N V R IH]; [reflexivity|]. rewrite !count_lt_app, IH, (name_lt n N).
  rewrite (count_none v) by (eapply Forall_impl; [|exact V]; cbn; tauto). reflexivity.
Qed.
Lemma content_even s : xml_content s -> Nat.Even (count_lt s).
Proof.
  induction 1 as [|c s A B S IH|n a b s N A B IHb S IH]; [exists 0%nat; reflexivity| |].
  - change (c :: s) with ([c] ++ s). rewrite count_lt_app. rewrite (count_none [c]) by (constructor; [exact A|constructor]). exact IH.
  - rewrite !count_lt_app, (name_lt n N), (attributes_lt a A). change (count_lt (u "<")) with 1%nat. change (count_lt (u "</")) with 1%nat. change (count_lt (u ">")) with 0%nat.
    destruct IHb as [i ->], IH as [j ->]. exists (1 + i + j)%nat. lia.
Qed.
Lemma document_odd s : xml_document s -> Nat.Odd (count_lt s).
Proof.
  intros (n & a & b & N & A & B & ->). rewrite !count_lt_app, (name_lt n N), (attributes_lt a A).
  match goal with |- context [count_lt (u ?l)] => change (count_lt (u l)) with 1%nat end.
  change (count_lt (u "<")) with 1%nat. change (count_lt (u "</")) with 1%nat. change (count_lt (u ">")) with 0%nat.
  destruct (content_even b B) as [i ->]. exists (1 + i)%nat. lia.
Qed.

(* ----------------------------------------------------- what is written *)
Lemma trkpnt_content lat lon ele tim fixt hdop t r :
  gpx_trkpnt lat lon ele tim fixt hdop = Ok t -> Forall plain_char tim -> Forall plain_char fixt ->
  (forall v s, In v [lat; lon; ele; hdop] -> str_of_val v = Ok s -> Forall plain_char s) ->
  xml_content r -> xml_content (t ++ r).
Proof.
  unfold gpx_trkpnt. intros E T F V R.
  destruct (str_of_val lat) as [s1|] eqn:E1; [|discriminate]. destruct (str_of_val lon) as [s2|] eqn:E2; [|discriminate].
  destruct (str_of_val ele) as [s3|] eqn:E3; [|discriminate]. destruct (str_of_val hdop) as [s4|] eqn:E4; [|discriminate].
  cbn [bind] in E. match type of E with Ok ?x = Ok _ => assert (x = t) as <- by congruence end. clear E.
  pose proof (V lat s1 ltac:(cbn; tauto) E1) as P1. pose proof (V lon s2 ltac:(cbn; tauto) E2) as P2.
  pose proof (V ele s3 ltac:(cbn; tauto) E3) as P3. pose proof (V hdop s4 ltac:(cbn; tauto) E4) as P4.
  pose proof (xa_one (u "lat") s1 (u " " ++ u "lon" ++ u "=""" ++ s2 ++ u """" ++ []) ltac:(name_literal) P1
    (xa_one (u "lon") s2 [] ltac:(name_literal) P2 xa_none)) as A.
  assert (xml_content (xml_tag (u "ele") s3 ++ xml_tag (u "time") tim ++ xml_tag (u "fix") fixt ++ xml_tag (u "hdop") s4 ++ [])) as B.
  { apply content_tag; [name_literal|exact P3|]. apply content_tag; [name_literal|exact T|]. apply content_tag; [name_literal|exact F|].
    apply content_tag; [name_literal|exact P4|constructor]. }
  pose proof (xc_element (u "trkpt") _ _ r ltac:(name_literal) A B R) as X.
  unfold xml_tag in *. clear - X.
  match type of X with xml_content ?x => match goal with |- xml_content ?g => assert (x = g) as <- end end; [|exact X].
  clear X. flat. vm_compute. reflexivity.
Qed.
Lemma gga_point_content now m t r :
  gga_point now m = Ok t ->
  (forall k v s, In k [u "lat"; u "lon"; u "alt"; u "HDOP"] -> lookup k (m_attrs m) = Some v -> str_of_val v = Ok s -> Forall plain_char s) ->
  xml_content r -> xml_content (t ++ r).
Proof.
  unfold gga_point, attribute. intros E V R.
  destruct (lookup (u "time") _) as [[]|]; try discriminate. cbn [bind] in E.
  destruct (lookup (u "quality") _) as [q|]; [|discriminate]. cbn [bind] in E.
  destruct (lookup (u "lat") _) as [v1|] eqn:E1; [|discriminate]. cbn [bind] in E.
  destruct (lookup (u "lon") _) as [v2|] eqn:E2; [|discriminate]. cbn [bind] in E.
  destruct (lookup (u "alt") _) as [v3|] eqn:E3; [|discriminate]. cbn [bind] in E.
  destruct (lookup (u "HDOP") _) as [v4|] eqn:E4; [|discriminate]. cbn [bind] in E.
  eapply trkpnt_content; [exact E|apply plain_iso| | |exact R].
  - destruct (equals_int q 1); [plain_literal|]. destruct (equals_int q 2); plain_literal.
  - intros v s [<-|[<-|[<-|[<-|[]]]]] H.
    + apply (V (u "lat") v1 s); [cbn; tauto|exact E1|exact H].
    + apply (V (u "lon") v2 s); [cbn; tauto|exact E2|exact H].
    + apply (V (u "alt") v3 s); [cbn; tauto|exact E3|exact H].
    + apply (V (u "HDOP") v4 s); [cbn; tauto|exact E4|exact H].
Qed.

(* the file: header, points and trailer are a document; without the trailer they are none *)
Lemma iso_lt d t : count_lt (isoformat d t ++ u "Z") = 0%nat.
Proof. apply count_none. eapply Forall_impl; [|apply plain_iso]. intros c H. apply H. Qed.
Lemma track_document now w : xml_content w -> xml_document (gpx_hdr now ++ w ++ gpx_tlr).
Proof.
  intros W.
  assert (xml_attributes (u " " ++ GPX_NS)) as A.
  { pose proof (xa_one (u "xmlns") (u "http://www.topografix.com/GPX/1/1") _ ltac:(name_literal) ltac:(plain_literal)
      (xa_one (u "creator") (u "pynmeagps") _ ltac:(name_literal) ltac:(plain_literal)
      (xa_one (u "version") (u "1.1") _ ltac:(name_literal) ltac:(plain_literal)
      (xa_one (u "xmlns:xsi") (u "http://www.w3.org/2001/XMLSchema-instance") _ ltac:(name_literal) ltac:(plain_literal)
      (xa_one (u "xsi:schemaLocation") (u "http://www.topografix.com/GPX/1/1 http://www.topografix.com/GPX/1/1/gpx.xsd") [] ltac:(name_literal) ltac:(plain_literal) xa_none))))) as Q.
    vm_compute in Q. vm_compute. exact Q. }
  pose proof (xa_one (u "href") GITHUB_LINK [] ltac:(name_literal) ltac:(plain_literal) xa_none) as AL.
  assert (xml_content (xml_tag (u "text") (u "pynmeagps") ++ [])) as B1 by (apply content_tag; [name_literal|plain_literal|constructor]).
  assert (xml_content (xml_tag (u "time") (isoformat (fst now) (snd now) ++ u "Z") ++ [])) as B2 by (apply content_tag; [name_literal|apply plain_iso|constructor]).
  pose proof (xc_element (u "link") _ _ _ ltac:(name_literal) AL B1 B2) as B3.
  assert (xml_content (xml_tag (u "name") (u "GPX track from NMEA datalog") ++ u "<" ++ u "trkseg" ++ [] ++ u ">" ++ w ++ u "</" ++ u "trkseg" ++ u ">" ++ [])) as B4.
  { apply content_tag; [name_literal|plain_literal|]. apply xc_element; [name_literal|constructor|exact W|constructor]. }
  pose proof (xc_element (u "trk") [] _ [] ltac:(name_literal) xa_none B4 xc_end) as B5.
  pose proof (xc_element (u "metadata") [] _ _ ltac:(name_literal) xa_none B3 B5) as B6.
  eexists (u "gpx"), (u " " ++ GPX_NS), _. split; [name_literal|]. split; [exact A|]. split; [exact B6|].
  clear. unfold gpx_hdr, gpx_tlr, xml_tag. set (i := isoformat _ _ ++ u "Z"). clearbody i.
  flat. vm_compute. reflexivity.
Qed.
Lemma cut_off_document now w : xml_content w -> ~ xml_document (gpx_hdr now ++ w).
Proof.
  intros W D. apply document_odd in D. rewrite count_lt_app in D. destruct (content_even w W) as [i E]. rewrite E in D.
  assert (count_lt (gpx_hdr now) = 14%nat) as H.
  { unfold gpx_hdr. rewrite !count_lt_app, <- count_lt_app. rewrite iso_lt. vm_compute. reflexivity. }
  rewrite H in D. destruct D as [j D]. lia.
Qed.
