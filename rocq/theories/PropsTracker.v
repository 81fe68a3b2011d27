(* C101: the track file that examples/gpxtracker.py writes. *)
From Coq Require Import List NArith ZArith Lia Bool.
From Verif Require Import Message Reader Spec ReaderSpec TimeSpec TimeProofs ValueSpec BaseLemmas StreamProofs PropsReader PropsCodes Tracker XmlSpec XmlProofs SlotProofs.
Import ListNotations.
Local Open Scope Z_scope.

(* ------------------------------------------------------- specification *)
(* what a fix needs: the time of day, the quality, the position, height and dilution of precision *)
Definition fix_values (m : msg) (t : time) (q lat lon alt hdop : pyval) : Prop :=
  lookup (u "time") (m_attrs m) = Some (VTime t) /\ lookup (u "quality") (m_attrs m) = Some q
  /\ lookup (u "lat") (m_attrs m) = Some lat /\ lookup (u "lon") (m_attrs m) = Some lon
  /\ lookup (u "alt") (m_attrs m) = Some alt /\ lookup (u "HDOP") (m_attrs m) = Some hdop.
Definition usable (m : msg) : Prop := exists t q lat lon alt hdop, fix_values m t q lat lon alt hdop.
(* ISO 8601: today's date, the sentence's hour, minute and second, the clock's microseconds (left out if 0) *)
Definition iso_text (d : date) (h mi s us : Z) : pystr :=
  numeral_text 4 (d_year d) ++ u "-" ++ numeral_text 2 (d_month d) ++ u "-" ++ numeral_text 2 (d_day d)
  ++ u "T" ++ numeral_text 2 h ++ u ":" ++ numeral_text 2 mi ++ u ":" ++ numeral_text 2 s
  ++ (if us =? 0 then [] else u "." ++ numeral_text 6 us) ++ u "Z".
(* 1 -> 3d, 2 -> 2d, otherwise none *)
Definition fix_text (q : pyval) : pystr :=
  match q with VInt 1 => u "3d" | VInt 2 => u "2d" | _ => u "none" end.
(* the track point of a fix: values as str() shows them *)
Definition point (now : date * time) (m : msg) (text : pystr) : Prop :=
  exists t q lat lon alt hdop slat slon salt shdop,
    fix_values m t q lat lon alt hdop
    /\ str_of_val lat = Ok slat /\ str_of_val lon = Ok slon /\ str_of_val alt = Ok salt /\ str_of_val hdop = Ok shdop
    /\ text = u "<trkpt lat=""" ++ slat ++ u """ lon=""" ++ slon ++ u """><ele>" ++ salt
              ++ u "</ele><time>" ++ iso_text (fst now) (t_hour t) (t_min t) (t_sec t) (t_us (snd now))
              ++ u "</time><fix>" ++ fix_text q ++ u "</fix><hdop>" ++ shdop ++ u "</hdop></trkpt>".
(* the messages with a point: GGA, in the order read *)
Fixpoint fixes (items : list (bytes * option msg)) : list msg :=
  match items with
  | [] => []
  | (_, Some m) :: r => if str_eqb (m_msgID m) (u "GGA") then m :: fixes r else fixes r
  | (_, None) :: r => fixes r
  end.
(* something was parsed, and if it is a GGA then all that is needed is there *)
Definition usable_item (it : bytes * option msg) : Prop :=
  exists m, snd it = Some m /\ (m_msgID m = u "GGA" -> usable m).
(* the clock shows a date and a time of day *)
Definition clock_ok (clk : nat -> date * time) : Prop :=
  forall i, calendar_date (fst (clk i)) /\ time_of_day (snd (clk i)).
(* the i-th point is made of the i-th fix and the clock's reading number c + i *)
Inductive points (clk : nat -> date * time) : nat -> list msg -> list pystr -> Prop :=
| points_none c : points clk c [] []
| points_one c m ms t ts : point (clk c) m t -> points clk (S c) ms ts -> points clk c (m :: ms) (t :: ts).
(* how the file starts and ends *)
Definition file_start (now : date * time) : pystr :=
  u "<?xml version=""1.0"" encoding=""UTF-8"" standalone=""yes""?><gpx xmlns=""http://www.topografix.com/GPX/1/1"" creator=""pynmeagps"" version=""1.1"" xmlns:xsi=""http://www.w3.org/2001/XMLSchema-instance"" xsi:schemaLocation=""http://www.topografix.com/GPX/1/1 http://www.topografix.com/GPX/1/1/gpx.xsd""><metadata><link href=""https://github.com/semuconsulting/pynmeagps""><text>pynmeagps</text></link><time>"
  ++ iso_text (fst now) (t_hour (snd now)) (t_min (snd now)) (t_sec (snd now)) (t_us (snd now))
  ++ u "</time></metadata><trk><name>GPX track from NMEA datalog</name><trkseg>".
Definition file_end : pystr := u "</trkseg></trk></gpx>".

(* ------------------------------------------------------------ messages *)
Definition from_parse (it : bytes * option msg) : Prop := parse (MBytes (fst it)) 0 0 [] = Ok (snd it).
Lemma items_parsed hs ts items x : happens tracker_cfg ts hs -> policy_ignore hs = (items, x) -> Forall from_parse items.
Proof.
  intros H. revert items x. induction H; intros items x P; cbn [policy_ignore] in P; try (inversion P; subst; constructor); eauto.
  destruct (policy_ignore hs) as [l y]. inversion P; subst. constructor; [assumption|]. eapply IHhappens. reflexivity.
Qed.

Ltac slot_of i0 k0 ty0 := match goal with G : given _ _ _ _ ?id ?f, P : parse _ 0 _ _ = Ok (Some ?x) |- _ =>
  let H := fresh "SL" in
  pose proof (standard_slot _ _ _ _ _ _ _ _ _ i0 (u k0) (u ty0) def_g_GGA _ 71%N G P eq_refl eq_refl eq_refl
    ltac:(present) ltac:(absent) eq_refl eq_refl) as H end.
Lemma gga_values m content ck talker fields v ud x :
  given m content ck talker (u "GGA") fields -> parse m 0 v ud = Ok (Some x) ->
  forall i k ty, In (i, k, ty) [(0%nat, u "time", u "TM"); (5%nat, u "quality", u "IN"); (1%nat, u "lat", u "LA"); (3%nat, u "lon", u "LN"); (8%nat, u "alt", u "DE"); (7%nat, u "HDOP", u "DE")] ->
  ((i < length fields)%nat -> exists w, lookup k (m_attrs x) = Some w /\ typed ty w)
  /\ ((length fields <= i)%nat -> lookup k (m_attrs x) = None).
Proof.
  intros G P i k ty H.
  assert (match nth_error fields i with Some _ => exists w, lookup k (m_attrs x) = Some w /\ typed ty w | None => lookup k (m_attrs x) = None end) as Q.
  { assert (exists sl, fixed_slots def_g_GGA = Some sl /\ nth_error sl i = Some (k, ty)) as (sl & FS & NS).
    { eexists. split; [vm_compute; reflexivity|].
      repeat destruct H as [H|H]; [..|destruct H]; (assert (i = i) by reflexivity; inversion H; subst; vm_compute; reflexivity). }
    pose proof (standard_slot m content ck talker (u "GGA") fields v ud x i k ty def_g_GGA sl 71%N G P
      ltac:(vm_compute; reflexivity) ltac:(vm_compute; reflexivity) ltac:(vm_compute; reflexivity) ltac:(present) ltac:(absent) FS NS) as Q.
    destruct (nth_error fields i); [|exact Q]. destruct Q as (val & _ & L & T). eexists. split; eassumption. }
  split; intros Hi; destruct (nth_error fields i) eqn:E; try exact Q.
  - apply nth_error_None in E. lia.
  - assert (nth_error fields i <> None) as E' by congruence. apply nth_error_Some in E'. lia.
Qed.

Lemma typed_text ty v : typed ty v -> In ty [u "DE"; u "LA"; u "LN"] -> exists s, str_of_val v = Ok s /\ Forall plain_char s.
Proof.
  intros T H. destruct T as [->|[[T _]|[[T _]|[[_ [x ->]]|[[T _]|[T _]]]]]].
  - exists []. split; [reflexivity|constructor].
  - exfalso. clear - T H. vm_compute in T, H. rows; congruence.
  - exfalso. clear - T H. vm_compute in T, H. rows; congruence.
  - exists (str_of_float x). split; [reflexivity|apply plain_float].
  - exfalso. clear - T H. vm_compute in T, H. rows; congruence.
  - exfalso. clear - T H. vm_compute in T, H. rows; congruence.
Qed.
Lemma typed_quality v z : typed (u "IN") v -> equals_int v z = true <-> v = VInt z.
Proof.
  intros [->|[[T _]|[[_ [x ->]]|[[T _]|[[T _]|[T _]]]]]].
  - split; [discriminate|congruence].
  - exfalso. clear - T. vm_compute in T. rows; congruence.
  - cbn. split; [intros E; apply Z.eqb_eq in E; congruence|intros E; apply Z.eqb_eq; congruence].
  - exfalso. clear - T. vm_compute in T. rows; congruence.
  - exfalso. clear - T. vm_compute in T. congruence.
  - exfalso. clear - T. vm_compute in T. rows; congruence.
Qed.
Lemma fix_text_ok q : typed (u "IN") q ->
  (if equals_int q 1 then u "3d" else if equals_int q 2 then u "2d" else u "none") = fix_text q.
Proof.
  intros T. pose proof (typed_quality q 1 T) as A. pose proof (typed_quality q 2 T) as B.
  destruct (equals_int q 1). { rewrite (proj1 A eq_refl). reflexivity. }
  destruct (equals_int q 2). { rewrite (proj1 B eq_refl). reflexivity. }
  destruct q as [|z| | | | | |]; try reflexivity. destruct z as [|[p|[p|p|]|]|]; try reflexivity.
  - assert (false = true) by (apply B; reflexivity). discriminate.
  - assert (false = true) by (apply A; reflexivity). discriminate.
Qed.

Lemma date_bounds d : calendar_date d -> 1 <= d_year d <= 9999 /\ 1 <= d_month d <= 12 /\ 1 <= d_day d <= 31.
Proof. intros [Y (n & L & D)]. split; [exact Y|]. unfold month_length in L. cbn [In] in L. lia. Qed.
Lemma iso_ok d h mi s us : calendar_date d -> 0 <= h < 24 -> 0 <= mi < 60 -> 0 <= s < 60 -> 0 <= us < 1000000 ->
  isoformat d (mktime h mi s us) ++ u "Z" = iso_text d h mi s us.
Proof.
  intros C H1 H2 H3 H4. apply date_bounds in C. unfold isoformat, str_of_date, str_of_time, iso_text. cbn [t_hour t_min t_sec t_us].
  rewrite (pad_numeral 4), !(pad_numeral 2) by (cbn; lia).
  replace (if us =? 0 then [] else u "." ++ pad 6 us) with (if us =? 0 then [] else u "." ++ numeral_text 6 us)
    by (rewrite (pad_numeral 6) by (cbn; lia); reflexivity).
  flat. reflexivity.
Qed.

(* a GGA message from the log: either everything is there and a point is written, or AttributeError *)
Lemma gga_cases now raw m :
  from_parse (raw, Some m) -> m_msgID m = u "GGA" -> calendar_date (fst now) -> time_of_day (snd now) ->
  (usable m -> exists t, gga_point now m = Ok t /\ point now m t /\ forall r, xml_content r -> xml_content (t ++ r))
  /\ (~ usable m -> gga_point now m = Raise AttributeError).
Proof.
  intros P I C T. unfold from_parse in P. cbn [fst snd] in P.
  destruct (parse_given _ _ _ _ _ P) as (content & ck & talker & msgid & fields & G & _ & _ & _ & _ & _ & Mi & _). rewrite I in Mi. subst msgid.
  pose proof (gga_values _ _ _ _ _ _ _ _ G P) as V.
  assert (forall i k ty w, In (i, k, ty) [(0%nat, u "time", u "TM"); (5%nat, u "quality", u "IN"); (1%nat, u "lat", u "LA"); (3%nat, u "lon", u "LN"); (8%nat, u "alt", u "DE"); (7%nat, u "HDOP", u "DE")] ->
    lookup k (m_attrs m) = Some w -> typed ty w) as Ty.
  { intros i k ty w H L. destruct (V i k ty H) as [V1 V2]. destruct (Nat.lt_ge_cases i (length fields)) as [D|D].
    - destruct (V1 D) as (w' & L' & T'). congruence.
    - rewrite (V2 D) in L. discriminate. }
  split.
  - intros (t & q & lat & lon & alt & hdop & F). pose proof F as (F1 & F2 & F3 & F4 & F5 & F6).
    pose proof (Ty 0%nat _ _ _ ltac:(left; reflexivity) F1) as T1.
    pose proof (Ty 5%nat _ _ _ ltac:(right; left; reflexivity) F2) as T2.
    pose proof (Ty 1%nat _ _ _ ltac:(do 2 right; left; reflexivity) F3) as T3.
    pose proof (Ty 3%nat _ _ _ ltac:(do 3 right; left; reflexivity) F4) as T4.
    pose proof (Ty 8%nat _ _ _ ltac:(do 4 right; left; reflexivity) F5) as T5.
    pose proof (Ty 7%nat _ _ _ ltac:(do 5 right; left; reflexivity) F6) as T6.
    destruct (typed_text _ _ T3 ltac:(right; left; reflexivity)) as (s3 & S3 & P3).
    destruct (typed_text _ _ T4 ltac:(do 2 right; left; reflexivity)) as (s4 & S4 & P4).
    destruct (typed_text _ _ T5 ltac:(left; reflexivity)) as (s5 & S5 & P5).
    destruct (typed_text _ _ T6 ltac:(left; reflexivity)) as (s6 & S6 & P6).
    assert (time_of_day t) as Td.
    { destruct T1 as [T1|[[_ [s T1]]|[[_ [s T1]]|[[_ [s T1]]|[[_ [s [T1 D]]]|[_ [s [T1 _]]]]]]]]; try discriminate. congruence. }
    set (txt := u "<trkpt lat=""" ++ s3 ++ u """ lon=""" ++ s4 ++ u """><ele>" ++ s5
              ++ u "</ele><time>" ++ iso_text (fst now) (t_hour t) (t_min t) (t_sec t) (t_us (snd now))
              ++ u "</time><fix>" ++ fix_text q ++ u "</fix><hdop>" ++ s6 ++ u "</hdop></trkpt>").
    assert (gga_point now m = Ok txt) as E.
    { unfold gga_point, attribute. rewrite F1. cbn [bind]. rewrite F2, F3, F4, F5, F6. cbn [bind]. unfold gpx_trkpnt.
      rewrite S3, S4, S5, S6. cbn [bind]. rewrite iso_ok; [|exact C|apply Td..|apply T]. rewrite (fix_text_ok q T2).
      f_equal. unfold txt, xml_tag. clear. generalize (iso_text (fst now) (t_hour t) (t_min t) (t_sec t) (t_us (snd now))) (fix_text q). intros a b.
      flat. vm_compute. reflexivity. }
    exists txt. split; [exact E|]. split.
    + exists t, q, lat, lon, alt, hdop, s3, s4, s5, s6. repeat split; assumption.
    + intros r R. eapply gga_point_content; [exact E| |exact R].
      intros k v s K L Sv. destruct K as [<-|[<-|[<-|[<-|[]]]]]; congruence.
  - intros N. unfold gga_point, attribute.
    destruct (lookup (u "time") (m_attrs m)) as [w|] eqn:L1; [|reflexivity]. cbn [bind].
    destruct w as [| | | | | |t|]; try reflexivity.
    destruct (lookup (u "quality") (m_attrs m)) as [q|] eqn:L2; [|reflexivity]. cbn [bind].
    destruct (lookup (u "lat") (m_attrs m)) as [la|] eqn:L3; [|reflexivity]. cbn [bind].
    destruct (lookup (u "lon") (m_attrs m)) as [lo|] eqn:L4; [|reflexivity]. cbn [bind].
    destruct (lookup (u "alt") (m_attrs m)) as [al|] eqn:L5; [|reflexivity]. cbn [bind].
    destruct (lookup (u "HDOP") (m_attrs m)) as [hd|] eqn:L6; [|reflexivity].
    exfalso. apply N. exists t, q, la, lo, al, hd. repeat split; assumption.
Qed.

Lemma loop_good clk c items : clock_ok clk -> Forall from_parse items -> Forall usable_item items ->
  exists texts, points clk c (fixes items) texts /\ track_loop clk c items = (concat texts, length texts, None) /\ xml_content (concat texts).
Proof.
  intros Ck P U. revert c P. induction U as [|[raw o] items (m & E & H) U IH]; intros c P.
  - exists []. repeat split; constructor.
  - inversion P as [|? ? P1 P2]; subst. cbn [snd] in E. subst o. cbn [fixes track_loop].
    destruct (str_eqb_spec (m_msgID m) (u "GGA")) as [I|_]; [|apply IH, P2].
    destruct (gga_cases (clk c) raw m P1 I (proj1 (Ck c)) (proj2 (Ck c))) as [G _].
    destruct (G (H I)) as (t & Et & Pt & Xt). destruct (IH (S c) P2) as (ts & Pts & Ets & Xts).
    exists (t :: ts). rewrite Et, Ets. cbn [concat length]. split; [constructor; assumption|]. split; [reflexivity|]. apply Xt, Xts.
Qed.
Lemma loop_bad clk c items bad more : clock_ok clk -> Forall from_parse (items ++ bad :: more) -> Forall usable_item items -> ~ usable_item bad ->
  exists texts, points clk c (fixes items) texts /\ track_loop clk c (items ++ bad :: more) = (concat texts, length texts, Some AttributeError) /\ xml_content (concat texts).
Proof.
  intros Ck P U B. revert c P. induction U as [|[raw o] items (m & E & H) U IH]; intros c P; cbn [app] in *; inversion P as [|? ? P1 P2]; subst.
  - exists []. split; [constructor|]. split; [|constructor]. destruct bad as [raw [m|]]; cbn [track_loop]; [|reflexivity].
    destruct (str_eqb_spec (m_msgID m) (u "GGA")) as [I|I].
    + destruct (gga_cases (clk c) raw m P1 I (proj1 (Ck c)) (proj2 (Ck c))) as [_ G]. rewrite G; [reflexivity|].
      intros Us. apply B. exists m. split; [reflexivity|]. intros _. exact Us.
    + exfalso. apply B. exists m. split; [reflexivity|]. intros I'. destruct (I I').
  - cbn [snd] in E. subst o. cbn [fixes track_loop]. destruct (str_eqb_spec (m_msgID m) (u "GGA")) as [I|_]; [|apply IH, P2].
    destruct (gga_cases (clk c) raw m P1 I (proj1 (Ck c)) (proj2 (Ck c))) as [G _].
    destruct (G (H I)) as (t & Et & Pt & Xt). destruct (IH (S c) P2) as (ts & Pts & Ets & Xts).
    exists (t :: ts). rewrite Et, Ets. cbn [concat length]. split; [constructor; assumption|]. split; [reflexivity|]. apply Xt, Xts.
Qed.
Lemma hdr_ok now : calendar_date (fst now) -> time_of_day (snd now) -> gpx_hdr now = file_start now.
Proof.
  intros C T. unfold gpx_hdr, file_start. destruct now as [d [h mi s us]]. cbn [fst snd t_hour t_min t_sec t_us] in *.
  unfold time_of_day in T. cbn [t_hour t_min t_sec t_us] in T.
  rewrite iso_ok by (exact C || apply T). generalize (iso_text d h mi s us). intros a. flat. vm_compute. reflexivity.
Qed.
Lemma iterated log n fuel ts hs items x :
  (length log < fuel)%nat -> (length log < n)%nat -> tokens [lf] log ts -> happens tracker_cfg ts hs -> policy_ignore hs = (items, x) ->
  exists ev rest, fiterate tracker_cfg n fuel log = Some (items, x, ev, rest).
Proof.
  intros L1 L2 Tk Hp P. destruct (C29_log tracker_cfg n fuel log ts hs Tk Hp L1 L2 eq_refl) as (rest & E).
  { intros f e H. discriminate. }
  rewrite P in E. cbn [fst snd] in E. eexists. exists rest. exact E.
Qed.
Lemma usable_dec m : usable m \/ ~ usable m.
Proof.
  unfold usable, fix_values.
  destruct (lookup (u "time") (m_attrs m)) as [[]|]; try (right; intros (? & ? & ? & ? & ? & ? & ? & ?); discriminate).
  destruct (lookup (u "quality") (m_attrs m)) as [q|]; [|right; intros (? & ? & ? & ? & ? & ? & ? & ? & ?); discriminate].
  destruct (lookup (u "lat") (m_attrs m)) as [a|]; [|right; intros (? & ? & ? & ? & ? & ? & ? & ? & ? & ?); discriminate].
  destruct (lookup (u "lon") (m_attrs m)) as [b|]; [|right; intros (? & ? & ? & ? & ? & ? & ? & ? & ? & ? & ?); discriminate].
  destruct (lookup (u "alt") (m_attrs m)) as [c|]; [|right; intros (? & ? & ? & ? & ? & ? & ? & ? & ? & ? & ? & ?); discriminate].
  destruct (lookup (u "HDOP") (m_attrs m)) as [e|]; [|right; intros (? & ? & ? & ? & ? & ? & ? & ? & ? & ? & ? & ?); discriminate].
  left. repeat eexists.
Qed.
Lemma first_bad items : Forall usable_item items \/ exists good bad more, items = good ++ bad :: more /\ Forall usable_item good /\ ~ usable_item bad.
Proof.
  induction items as [|[raw o] items IH]; [left; constructor|].
  assert (usable_item (raw, o) \/ ~ usable_item (raw, o)) as [U|U].
  { destruct o as [m|]; [|right; intros (m & E & _); discriminate].
    destruct (str_eqb_spec (m_msgID m) (u "GGA")) as [I|I].
    - destruct (usable_dec m) as [U|U]; [left; exists m; split; [reflexivity|intros _; exact U]|right; intros (m' & E & H)].
      cbn [snd] in E. assert (m = m') as <- by congruence. exact (U (H I)).
    - left. exists m. split; [reflexivity|]. intros I'. destruct (I I'). }
  - destruct IH as [IH|(g & b & mo & -> & F & B)]; [left; constructor; assumption|].
    right. exists ((raw, o) :: g), b, mo. split; [reflexivity|]. split; [constructor; assumption|exact B].
  - right. exists [], (raw, o), items. repeat split; [constructor|exact U].
Qed.

(* ------------------------------------------------------------------ C101 *)
Section File.
Variables (clk : nat -> date * time) (log : bytes) (n fuel : nat) (ts : list token) (hs : list happening).
Hypothesis (Ck : clock_ok clk) (L1 : (length log < fuel)%nat) (L2 : (length log < n)%nat).
Hypothesis (Tk : tokens [lf] log ts) (Hp : happens tracker_cfg ts hs).

(* every item parsed and every GGA with a fix: one point for each GGA, in order, between start and end of
   the file; an exception that the reader raises comes out after the points, and then there is no end *)
Theorem C101_written items x : policy_ignore hs = (items, x) -> Forall usable_item items ->
  exists texts, points clk 1 (fixes items) texts
    /\ track n fuel clk log = Some (file_start (clk 0%nat) ++ concat texts ++ match x with None => file_end | Some _ => [] end, length texts, x).
Proof.
  intros P U. destruct (iterated log n fuel ts hs items x L1 L2 Tk Hp P) as (ev & rest & E).
  destruct (loop_good clk 1 items Ck (items_parsed _ _ _ _ Hp P) U) as (texts & Pt & El & _).
  exists texts. split; [exact Pt|]. unfold track. rewrite E, El. rewrite (hdr_ok _ (proj1 (Ck 0%nat)) (proj2 (Ck 0%nat))).
  destruct x; [rewrite app_nil_r|]; reflexivity.
Qed.

(* the first item that was not parsed, or GGA without a fix, ends the program with AttributeError:
   the points up to there are written, and not the end *)
Theorem C101_stops good bad more x : policy_ignore hs = (good ++ bad :: more, x) -> Forall usable_item good -> ~ usable_item bad ->
  exists texts, points clk 1 (fixes good) texts
    /\ track n fuel clk log = Some (file_start (clk 0%nat) ++ concat texts, length texts, Some AttributeError).
Proof.
  intros P U B. destruct (iterated log n fuel ts hs _ x L1 L2 Tk Hp P) as (ev & rest & E).
  destruct (loop_bad clk 1 good bad more Ck (items_parsed _ _ _ _ Hp P) U B) as (texts & Pt & El & _).
  exists texts. split; [exact Pt|]. unfold track. rewrite E, El. rewrite (hdr_ok _ (proj1 (Ck 0%nat)) (proj2 (Ck 0%nat))). reflexivity.
Qed.

(* the file is a well-formed XML document exactly if the program ended without an exception, whatever the log *)
Theorem C101_document : exists text i e, track n fuel clk log = Some (text, i, e) /\ (xml_document text <-> e = None).
Proof.
  destruct (policy_ignore hs) as [items x] eqn:P. destruct (iterated log n fuel ts hs _ x L1 L2 Tk Hp P) as (ev & rest & E).
  pose proof (items_parsed _ _ _ _ Hp P) as Ip. unfold track. rewrite E.
  destruct (first_bad items) as [U|(g & b & mo & -> & U & B)].
  - destruct (loop_good clk 1 items Ck Ip U) as (texts & _ & El & X). rewrite El. destruct x as [e|].
    + do 3 eexists. split; [reflexivity|]. split; [intros D; destruct (cut_off_document _ _ X D)|discriminate].
    + do 3 eexists. split; [reflexivity|]. split; [reflexivity|]. intros _. apply track_document, X.
  - destruct (loop_bad clk 1 g b mo Ck Ip U B) as (texts & _ & El & X). rewrite El.
    do 3 eexists. split; [reflexivity|]. split; [intros D; destruct (cut_off_document _ _ X D)|discriminate].
Qed.
End File.

(* one of the two is always the case *)
Theorem C101_cases items : Forall usable_item items \/ exists good bad more, items = good ++ bad :: more /\ Forall usable_item good /\ ~ usable_item bad.
Proof. exact (first_bad items). Qed.

(* what that means for a GGA sentence: nine fields, and the first is read as a time *)
Theorem C101_sentence m content ck talker fields v ud x :
  given m content ck talker (u "GGA") fields -> parse m 0 v ud = Ok (Some x) ->
  usable x <-> (9 <= length fields)%nat /\ exists t, lookup (u "time") (m_attrs x) = Some (VTime t).
Proof.
  intros G P. pose proof (gga_values _ _ _ _ _ _ _ _ G P) as V.
  split.
  - intros (t & q & lat & lon & alt & hdop & F1 & F2 & F3 & F4 & F5 & F6). split; [|exists t; exact F1].
    destruct (V 8%nat (u "alt") (u "DE") ltac:(do 4 right; left; reflexivity)) as [_ A].
    destruct (Nat.lt_ge_cases 8 (length fields)) as [L|L]; [lia|]. rewrite (A L) in F5. discriminate.
  - intros (L & t & T).
    destruct (V 5%nat (u "quality") (u "IN") ltac:(right; left; reflexivity)) as [A _]. destruct (A ltac:(lia)) as (q & Q & _).
    destruct (V 1%nat (u "lat") (u "LA") ltac:(do 2 right; left; reflexivity)) as [B _]. destruct (B ltac:(lia)) as (la & La & _).
    destruct (V 3%nat (u "lon") (u "LN") ltac:(do 3 right; left; reflexivity)) as [C _]. destruct (C ltac:(lia)) as (lo & Lo & _).
    destruct (V 8%nat (u "alt") (u "DE") ltac:(do 4 right; left; reflexivity)) as [D _]. destruct (D ltac:(lia)) as (al & Al & _).
    destruct (V 7%nat (u "HDOP") (u "DE") ltac:(do 5 right; left; reflexivity)) as [E _]. destruct (E ltac:(lia)) as (hd & Hd & _).
    exists t, q, la, lo, al, hd. repeat split; assumption.
Qed.
(* the first field a time of day: that time; empty: no time *)
Theorem C101_sentence_time m content ck talker f fields v ud x :
  given m content ck talker (u "GGA") (f :: fields) -> parse m 0 v ud = Ok (Some x) ->
  (forall t, stands_for (u "TM") f (VTime t) -> lookup (u "time") (m_attrs x) = Some (VTime t))
  /\ (f = [] -> ~ usable x).
Proof.
  intros G P.
  assert (exists sl, fixed_slots def_g_GGA = Some sl /\ nth_error sl 0 = Some (u "time", u "TM")) as (sl & FS & NS)
    by (eexists; split; [vm_compute; reflexivity|vm_compute; reflexivity]).
  pose proof (standard_slot m content ck talker (u "GGA") (f :: fields) v ud x 0 (u "time") (u "TM") def_g_GGA sl 71%N G P
      ltac:(vm_compute; reflexivity) ltac:(vm_compute; reflexivity) ltac:(vm_compute; reflexivity) ltac:(present) ltac:(absent) FS NS) as Q.
  cbn [nth_error] in Q. destruct Q as (val & V & L & _).
  match type of L with _ = Some ?e => change e with val in L end. split.
  - intros t St. destruct (PropsValue.C71_read _ _ _ St) as (w & R & _ & E). rewrite L. f_equal.
    transitivity w; [congruence|]. apply E. absent.
  - intros -> U. apply (C101_sentence _ _ _ _ _ _ _ _ G P) in U as (_ & t & T). rewrite L in T.
    vm_compute in V. congruence.
Qed.

(* a log of GGA sentences with a fix, anything but "$" between them: as many points as sentences *)
Theorem C101_log clk n fuel gaps lines ms tail :
  clock_ok clk -> length gaps = length lines ->
  Forall (fun g => ~ In dollar g) gaps -> ~ In dollar tail -> Forall line_shape lines ->
  Forall2 (fun raw m => parse (MBytes raw) 0 0 [] = Ok (Some m) /\ m_msgID m = u "GGA" /\ usable m) lines ms ->
  (length (interleave gaps lines ++ tail) < fuel)%nat -> (length (interleave gaps lines ++ tail) < n)%nat ->
  exists texts, points clk 1 ms texts /\ length texts = length lines
    /\ track n fuel clk (interleave gaps lines ++ tail) = Some (file_start (clk 0%nat) ++ concat texts ++ file_end, length lines, None).
Proof.
  intros Ck Lg Fg Ft Fl F L1 L2.
  assert (Forall2 (parses tracker_cfg) lines (map Some ms)) as Fp.
  { clear - F. induction F as [|raw m lines ms (P & _) F IH]; constructor; [exact P|exact IH]. }
  pose proof (C27_all_delivered tracker_cfg n fuel gaps lines (map Some ms) tail Lg Fg Ft Fl Fp L1 L2) as E.
  assert (Forall from_parse (combine lines (map Some ms)) /\ Forall usable_item (combine lines (map Some ms)) /\ fixes (combine lines (map Some ms)) = ms) as (Ip & U & Fx).
  { clear - F. induction F as [|raw m lines ms (P & I & Us) F (A & B & C)]; [repeat split; constructor|].
    cbn [map combine fixes]. split; [constructor; [exact P|exact A]|]. split.
    - constructor; [exists m; split; [reflexivity|intros _; exact Us]|exact B].
    - rewrite I. cbn. rewrite C. reflexivity. }
  destruct (loop_good clk 1 _ Ck Ip U) as (texts & Pt & El & _). rewrite Fx in Pt.
  assert (length texts = length lines) as Le.
  { assert (length lines = length ms) as -> by (clear - F; induction F; cbn; congruence). clear - Pt. induction Pt; cbn; congruence. }
  exists texts. split; [exact Pt|]. split; [exact Le|]. unfold track. rewrite E, El, Le.
  rewrite (hdr_ok _ (proj1 (Ck 0%nat)) (proj2 (Ck 0%nat))). reflexivity.
Qed.

(* --------------------------------------------------------------- cases *)
Definition ex_clock : nat -> date * time := fun i => (mkdate 2021 3 7, mktime 12 0 0 (Z.of_nat i mod 10)).
Definition ex_gga : bytes := u "$GNGGA,103607.00,5327.03942,N,10214.42462,W,1,06,5.88,56.0,M,48.5,M,,0*64" ++ [13%N; 10%N].
Definition ex_nofix : bytes := u "$GNGGA,,,,,,0,00,99.99,,,,,,*56" ++ [13%N; 10%N].
Lemma ex_clock_ok : clock_ok ex_clock.
Proof.
  intros i. unfold ex_clock. cbn [fst snd]. split.
  - split; [cbn; lia|]. exists 31. split; [left; split; [cbn; tauto|reflexivity]|cbn; lia].
  - unfold time_of_day. cbn [t_hour t_min t_sec t_us]. pose proof (Z.mod_pos_bound (Z.of_nat i) 10). lia.
Qed.
Example C101_example :
  clock_ok ex_clock
  /\ track 200 200 ex_clock ex_gga = Some (file_start (ex_clock 0%nat)
       ++ u "<trkpt lat=""53.450657"" lon=""-102.2404103333""><ele>56.0</ele><time>2021-03-07T10:36:07.000001Z</time><fix>3d</fix><hdop>5.88</hdop></trkpt>"
       ++ file_end, 1%nat, None).
Proof. split; [exact ex_clock_ok|]. vm_compute. reflexivity. Qed.

(* a receiver without a fix, a GGA that is cut short and a line without "*" end the program and leave the file open *)
Theorem C101_no_fix_refuted :
  (exists m, parse (MBytes ex_nofix) 0 0 [] = Ok (Some m) /\ m_msgID m = u "GGA" /\ ~ usable m)
  /\ track 300 300 ex_clock (ex_nofix ++ ex_gga) = Some (file_start (ex_clock 0%nat), 0%nat, Some AttributeError)
  /\ (let short := u "$GNGGA,103607.00,5327.03942,N,10214.42462,W,1,06,5.88*00" ++ [13%N; 10%N] in
      track 300 300 ex_clock (short ++ ex_gga) = Some (file_start (ex_clock 0%nat), 0%nat, Some AttributeError))
  /\ (let plain := u "$GNTXT,no star" ++ [13%N; 10%N] in
      track 300 300 ex_clock (plain ++ ex_gga) = Some (file_start (ex_clock 0%nat), 0%nat, Some AttributeError)).
Proof.
  split.
  { eexists. split; [vm_compute; reflexivity|]. split; [vm_compute; reflexivity|].
    intros (t & q & lat & lon & alt & hdop & F & _). vm_compute in F. congruence. }
  split; [vm_compute; reflexivity|]. split; [vm_compute; reflexivity|]. vm_compute. reflexivity.
Qed.
