(* Theorems about the text written for keyword values: C72, and C11 for typed values. *)
From Coq Require Import Reals Lia Lra.
From Flocq Require Import Core BinarySingleNaN.
From Verif Require Import Message Reader BaseLemmas TextLemmas NumLemmas Spec ParseProofs DecodeProofs TimeSpec TimeProofs CoordSpec FloatProofs
  DecimalProofs CoordProofs ValueSpec KeywordSpec KeywordProofs PropsTime PropsHelpers PropsDecode PropsCoord PropsMessage PropsConstruct
  PropsKeyword GenerateProofs PropsGenerate TableProofs PropsTables PropsValue.
Local Open Scope Z_scope.

(* ------------------------------------------------------------------ C72 *)
Lemma integer_text_unique z s t : integer_text z s -> integer_text z t -> s = t.
Proof.
  intros (a & A1 & A2 & A3 & A4 & ->) (b & B1 & B2 & B3 & B4 & ->). f_equal.
  destruct (digit_text_list a A1) as (l & -> & Fl & _ & Vl). destruct (digit_text_list b B1) as (k & -> & Fk & _ & Vk).
  assert (forall l, Forall digit l -> map dec_char l <> [] -> (hd 0%N (map dec_char l) = 48%N -> map dec_char l = [48%N]) ->
    l = N_digits 10 (digits_val 10 l)) as G.
  { intros q F NE Z0. destruct q as [|d q]; [elim NE; reflexivity|]. cbn [map hd] in Z0. apply canon_digits; [lia|]. split; [reflexivity|]. split.
    { eapply Forall_impl; [|exact F]. intros a Da. exact Da. }
    split; [discriminate|]. destruct (N.eq_dec d 0) as [->|Nd].
    - specialize (Z0 eq_refl). destruct q; [|discriminate Z0]. split; [intros H; elim H; reflexivity|reflexivity].
    - split; [intros _; exact Nd|]. intros H. exfalso. rewrite digits_val_cons in H.
      assert (10 ^ lenN q <> 0)%N by (apply N.pow_nonzero; lia). nia. }
  rewrite (G l Fl A2 A4), (G k Fk B2 B4). do 2 f_equal. lia.
Qed.
Lemma str_of_Z_text z s : str_of_Z z = Ok s -> integer_text z s.
Proof.
  unfold str_of_Z. cbv zeta. destruct (_ <? _)%N; [discriminate|]. intros E. exists (dec_of_N (Z.abs_N z)).
  split; [apply dec_of_N_ascii|]. split; [apply dec_of_N_nonempty|].
  destruct (N_digits_canon 10 (Z.abs_N z)) as (C1 & C2 & C3 & C4 & C5); [lia|]. split; [|split].
  - unfold dec_of_N, number. rewrite number_acc_digits; [rewrite C1; lia|]. eapply Forall_impl; [|exact C2]. intros a A. exact A.
  - unfold dec_of_N. intros H. destruct (N.eq_dec (Z.abs_N z) 0) as [Z0|Z0]; [rewrite (C5 Z0); reflexivity|].
    specialize (C4 Z0). destruct (N_digits 10 (Z.abs_N z)) as [|d l]; [congruence|]. cbn [map hd] in H, C4. unfold dec_char in H. lia.
  - destruct (z <? 0); injection E as <-; reflexivity.
Qed.
Lemma str_of_Z_total z : Z.abs z < 10 ^ 4300 -> exists s, str_of_Z z = Ok s.
Proof. intros H. destruct (C50_round_trip z false H) as (s & E & _). exists s. exact E. Qed.
Lemma text_val2str v ty hp : In ty (u "DE" :: u "IN" :: text_types) -> val2str v ty hp = str_of_val v.
Proof. cbn [In text_types]. intros H. repeat (destruct H as [<-|H]; [reflexivity|]). contradiction. Qed.

Lemma pair_eq {A B} (a c : A) (b d : B) : (a, b) = (c, d) -> c = a /\ d = b.
Proof. intros E. split; congruence. Qed.
Lemma digit_not_58 c : (48 <= c <= 57)%N -> c <> 58%N /\ c <> 45%N.
Proof. lia. Qed.
Lemma remove_app c a b : remove_char c (a ++ b) = remove_char c a ++ remove_char c b.
Proof. apply filter_app. Qed.
Lemma remove_numeral w z : remove_char 45 (numeral_text w z) = numeral_text w z.
Proof. apply remove_none. eapply Forall_impl; [|apply numeral_digit_text]. cbn. intros; lia. Qed.
Lemma slice_mid {A} (a b c : list A) i j : length a = i -> length b = (j - i)%nat -> slice i j (a ++ b ++ c) = b.
Proof.
  intros La Lb. unfold slice. rewrite skipn_app, skipn_all2 by lia. rewrite La, Nat.sub_diag. cbn [app skipn].
  rewrite <- Lb, firstn_app, Nat.sub_diag, firstn_all. cbn [firstn]. apply app_nil_r.
Qed.

Theorem C72_written hp ty v s0 : written_as hp ty v s0 ->
  exists s, val2str v ty hp = Ok s /\ written_as hp ty v s /\ ((forall x, v <> VFloat x) -> s = s0).
Proof.
  intros H. pose proof H as H0. destruct H.
  - exists s. split; [rewrite text_val2str by assumption; reflexivity|]. split; [exact H0|reflexivity].
  - destruct (str_of_Z_total z H1) as (t & E). exists t. split; [rewrite text_val2str by assumption; exact E|].
    pose proof (str_of_Z_text _ _ E) as T. split; [apply wa_integer; assumption|]. intros _. eapply integer_text_unique; eassumption.
  - eexists. split; [|split; [exact H0|reflexivity]]. exact (f_equal Ok (C40_time2str t H)).
  - exists (hh ++ mm ++ r). split; [|split; [exact H0|reflexivity]].
    change (val2str (VStr (hh ++ u ":" ++ mm ++ u ":" ++ r)) (u "TM") hp) with (Ok (remove_char 58 (hh ++ u ":" ++ mm ++ u ":" ++ r))).
    f_equal. rewrite !remove_app. change (remove_char 58 (u ":")) with (@nil N). cbn [app].
    rewrite <- !remove_app. apply remove_none. apply Forall_forall. intros c I ->. contradiction.
  - exists s. split; [|split; [exact H0|reflexivity]]. destruct (C41_text d H) as (T1 & T2 & _).
    destruct H1 as [E|[E|[]]]; apply pair_eq in E as [-> ->];
      [exact (f_equal Ok T1)|exact (f_equal Ok T2)].
  - eexists. split; [|split; [exact H0|reflexivity]]. destruct (C41_text d H) as (_ & _ & T). exact (f_equal Ok (T H1)).
  - exists s. split; [|split; [exact H0|reflexivity]].
    assert (remove_char 45 (iso_date sep d) = numeral_text 4 (d_year d) ++ numeral_text 2 (d_month d) ++ numeral_text 2 (d_day d)) as R.
    { unfold iso_date. rewrite !remove_app, !remove_numeral. assert (remove_char 45 sep = []) as -> by (destruct H1 as [<-|[<-|[]]]; reflexivity). reflexivity. }
    assert (slice 6 8 (remove_char 45 (iso_date sep d)) = numeral_text 2 (d_day d)) as S1.
    { rewrite R, app_assoc. rewrite <- (app_nil_r (numeral_text 2 (d_day d))). apply slice_mid; rewrite ?app_length, !numeral_text_length; reflexivity. }
    assert (slice 4 6 (remove_char 45 (iso_date sep d)) = numeral_text 2 (d_month d)) as S2.
    { rewrite R. apply slice_mid; rewrite !numeral_text_length; reflexivity. }
    assert (slice 0 4 (remove_char 45 (iso_date sep d)) = numeral_text 4 (d_year d)) as S3.
    { rewrite R. apply (slice_mid []); rewrite ?numeral_text_length; reflexivity. }
    assert (slice 2 4 (remove_char 45 (iso_date sep d)) = numeral_text 2 (d_year d mod 100)) as S4.
    { rewrite R. destruct H as [Hy _]. change 100 with (10 ^ Z.of_nat 2). rewrite numeral_mod by lia.
      change 4%nat with (2 + 2)%nat at 2. rewrite numeral_text_split by lia. rewrite <- app_assoc.
      apply slice_mid; rewrite !numeral_text_length; reflexivity. }
    destruct H2 as [E|[E|[E|[]]]]; apply pair_eq in E as [-> ->].
    + change (Ok (slice 6 8 (remove_char 45 (iso_date sep d)) ++ slice 4 6 (remove_char 45 (iso_date sep d)) ++ slice 2 4 (remove_char 45 (iso_date sep d))) = Ok (day_month_year d)).
      rewrite S1, S2, S4. reflexivity.
    + change (Ok (slice 4 6 (remove_char 45 (iso_date sep d)) ++ slice 6 8 (remove_char 45 (iso_date sep d)) ++ slice 2 4 (remove_char 45 (iso_date sep d))) = Ok (month_day_year d)).
      rewrite S1, S2, S4. reflexivity.
    + change (Ok (slice 6 8 (remove_char 45 (iso_date sep d)) ++ slice 4 6 (remove_char 45 (iso_date sep d)) ++ slice 0 4 (remove_char 45 (iso_date sep d))) = Ok (day_month_long_year d)).
      rewrite S1, S2, S3. reflexivity.
  - exists []. split; [|split; [exact H0|reflexivity]]. destruct H as [<-|[<-|[<-|[<-|[]]]]]; reflexivity.
  - destruct H as [E|[E|[]]]; apply pair_eq in E as [-> ->].
    + destruct (C47_latitude x hp (if hp then 7%nat else 5%nat) H1 H2 eq_refl) as (d' & m' & V & Bd & Bm & A).
      eexists. split; [exact V|]. split; [|intros Q; elim (Q x); reflexivity].
      apply (wa_position hp (u "LA") 2 x d' m'); [left; reflexivity|exact H1|exact H2|exact Bd|destruct hp; exact Bm|destruct hp; exact A].
    + destruct (C47_longitude x hp (if hp then 7%nat else 5%nat) H1 H2 eq_refl) as (d' & m' & V & Bd & Bm & A).
      eexists. split; [exact V|]. split; [|intros Q; elim (Q x); reflexivity].
      apply (wa_position hp (u "LN") 3 x d' m'); [right; left; reflexivity|exact H1|exact H2|exact Bd|destruct hp; exact Bm|destruct hp; exact A].
  - eexists. split; [|split; [exact H0|reflexivity]].
    destruct (C47_integer (Z.abs z) hp _ w (conj (Z.abs_nonneg z) H1) eq_refl) as [A B].
    destruct H as [E|[E|[]]]; apply pair_eq in E as [-> ->].
    + destruct A as [A1 A2]; [reflexivity|]. destruct (Z_le_dec 0 z) as [Q|Q].
      * rewrite Z.abs_eq in * by exact Q. exact A1.
      * rewrite Z.abs_neq in * by lia. rewrite Z.opp_involutive in A2. exact A2.
    + destruct B as [A1 A2]; [reflexivity|]. destruct (Z_le_dec 0 z) as [Q|Q].
      * rewrite Z.abs_eq in * by exact Q. exact A1.
      * rewrite Z.abs_neq in * by lia. rewrite Z.opp_involutive in A2. exact A2.
  - exists []. split; [|split; [exact H0|reflexivity]]. destruct H as [<-|[<-|[]]]; reflexivity.
Qed.

(* in a message built from keywords *)
Theorem C72_placed clk talker msgid mode hp v ud cks kw x d i k ty val s0 :
  good ud -> NMEAMessage clk talker msgid mode hp v ud cks None kw = Ok x ->
  keyword_definition mode ud msgid kw = Some d -> plain d -> nth_error d i = Some (k, ASingle ty) ->
  lookup k kw = Some val -> ty <> u "LAD" -> ty <> u "LND" -> written_as hp ty val s0 ->
  exists s, nth_error (m_payload x) i = Some s /\ nth_error (m_attrs x) i = Some (k, val) /\ written_as hp ty val s
    /\ ((forall y, val <> VFloat y) -> s = s0).
Proof.
  intros G E D P N L N1 N2 W. destruct (C68_placed _ _ _ _ _ _ _ _ _ _ _ _ _ _ G E D P N) as (val' & f & A & B & C & _ & V).
  specialize (V N1 N2). rewrite L in V. subst val'. destruct (C72_written hp ty val s0 W) as (s & Es & Ws & Us).
  rewrite C in Es. assert (f = s) as -> by congruence. exists s. repeat split; assumption.
Qed.
(* also in repeating groups *)
Theorem C72_slots clk talker msgid mode hp v ud cks kw x d :
  good ud -> NMEAMessage clk talker msgid mode hp v ud cks None kw = Ok x ->
  keyword_definition mode ud msgid kw = Some d ->
  exists sl, expands d sl /\ map fst sl = map fst (m_attrs x) /\ length sl = length (m_payload x)
    /\ forall i k ty val s0, nth_error sl i = Some (k, ty) -> lookup k kw = Some val -> ty <> u "LAD" -> ty <> u "LND" ->
       written_as hp ty val s0 ->
       exists s, nth_error (m_payload x) i = Some s /\ nth_error (m_attrs x) i = Some (k, val) /\ written_as hp ty val s
         /\ ((forall y, val <> VFloat y) -> s = s0).
Proof.
  intros G E D. destruct (C68_built _ _ _ _ _ _ _ _ _ _ G E) as (_ & _ & _ & B). rewrite D in B.
  destruct (builds_slots _ _ _ _ _ _ _ _ B) as (sl & X & F). destruct (fills_names _ _ _ _ _ _ _ _ F) as [Nm Ln].
  exists sl. split; [exact X|]. split; [congruence|]. split; [congruence|]. intros i k ty val s0 N L N1 N2 W.
  destruct (fills_nth _ _ _ _ _ _ _ _ _ _ _ F N) as (w & f & A1 & A2 & A3 & A4).
  assert (w = val) as ->.
  { unfold value_for in A4. destruct (lookup ty _); [|discriminate]. cbv zeta in A4. rewrite L in A4.
    apply str_eqb_neq in N1, N2. rewrite N1, N2 in A4. congruence. }
  destruct (C72_written hp ty val s0 W) as (s & Es & Ws & Us). rewrite A3 in Es. assert (f = s) as -> by congruence. exists s. repeat split; assumption.
Qed.
Lemma repeat_digits n : digit_text (numeral_text n 0).
Proof. apply numeral_digit_text. Qed.
(* a position given as text is not written at all *)
Theorem C72_position_text_refuted :
  exists x, NMEAMessage noon (u "GN") (u "GLL") 0 false 0 [] None None [(u "lat", VStr (u "51.5"))] = Ok x
    /\ nth_error (m_payload x) 0 = Some [] /\ nth_error (m_attrs x) 0 = Some (u "lat", VStr (u "51.5")).
Proof. eexists. split; [vm_compute; reflexivity|]. split; vm_compute; reflexivity. Qed.
Example C72_example :
  written_as false (u "DT") (VStr (u "2024-02-29")) (u "290224") /\ written_as false (u "DM") (VStr (u "20240229")) (u "022924")
  /\ written_as false (u "TM") (VStr (u "12:34:56.78")) (u "123456.78") /\ written_as true (u "LN") (VInt (-7)) (u "00700.0000000")
  /\ written_as false (u "IN") (VInt (-120)) (u "-120")
  /\ exists x, NMEAMessage noon (u "GN") (u "RMC") 0 false 0 [] None None
       [(u "date", VStr (u "2024-02-29")); (u "time", VStr (u "12:34:56.78")); (u "lon", VInt (-7))] = Ok x
     /\ m_payload x = [u "123456.78"; []; []; u "N"; u "00700.00000"; u "W"; u "0.0"; u "0.0"; u "290224"; u "0.0"; []; []; []].
Proof.
  assert (calendar_date (mkdate 2024 2 29)) as C by (apply valid_date_iff; reflexivity).
  split; [apply (wa_date_text false (u "DT") (mkdate 2024 2 29) (u "-")); [exact C|right; left; reflexivity|left; reflexivity]|].
  split; [apply (wa_date_text false (u "DM") (mkdate 2024 2 29) []); [exact C|left; reflexivity|right; left; reflexivity]|].
  split; [apply (wa_time_text false (u "12") (u "34") (u "56.78")); vm_compute; intuition discriminate|].
  split; [apply (wa_whole_degrees true (u "LN") 3 (-7)); [right; left; reflexivity|cbn; lia]|].
  split; [apply (wa_integer false (u "IN") (-120)); [right; left; reflexivity|change (Z.abs (-120)) with 120; lia|]|].
  { exists (u "120"). split; [unfold digit_text; vm_compute; repeat (constructor; [split; discriminate|]); constructor|].
    split; [discriminate|]. split; [reflexivity|]. split; [discriminate|reflexivity]. }
  eexists. split; vm_compute; reflexivity.
Qed.

(* ------------------------------------------------------------------ C11 *)
Lemma group_slots_incl a b i ms : (a <= b)%nat -> incl (group_slots a i ms) (group_slots b i ms).
Proof.
  revert b i. induction a as [|a IH]; intros b i L; [intros s []|]. destruct b as [|b]; [lia|]. cbn [group_slots].
  intros s H. apply in_app_or in H as [H|H]; apply in_or_app; [left; exact H|right]. revert H. apply IH. lia.
Qed.
Lemma expands_join d s1 s2 : expands d s1 -> expands d s2 -> exists s3, expands d s3 /\ incl s1 s3 /\ incl s2 s3.
Proof.
  intros E. revert s2. induction E as [|k ty d sl E IH|k n ms d sl cnt E IH]; intros s2 E2; inversion E2; subst.
  - exists []. split; [constructor|]. split; intros s [].
  - match goal with H : expands d _ |- _ => destruct (IH _ H) as (s3 & A & B & C) end. exists ((k, ty) :: s3).
    split; [constructor; exact A|]. split; apply incl_cons; try (left; reflexivity); apply incl_tl; assumption.
  - match goal with H : expands d _, H' : expands d ?s2' |- _ => destruct (IH s2') as (s3 & A & B & C); [assumption|] end.
    match goal with |- context [group_slots ?c 1 ms ++ sl0] => exists (group_slots (Nat.max cnt c) 1 ms ++ s3) end.
    split; [constructor; exact A|]. split; apply incl_app; try (apply incl_appr; assumption); apply incl_appl, group_slots_incl; lia.
Qed.
Lemma slot_type d s1 s2 k t1 t2 : unambiguous d -> expands d s1 -> expands d s2 -> In (k, t1) s1 -> In (k, t2) s2 -> t1 = t2.
Proof.
  intros U E1 E2 I1 I2. destruct (expands_join d s1 s2 E1 E2) as (s3 & E3 & A & B). pose proof (U s3 E3) as N.
  apply A, (In_lookup_nodup _ _ _ N) in I1. apply B, (In_lookup_nodup _ _ _ N) in I2. congruence.
Qed.
Lemma read_int_text z s : str_of_Z z = Ok s -> exists w, str2val s (u "IN") = Ok w.
Proof.
  intros E. pose proof (int_of_str_of_Z z s E) as I. exists (VInt z). rewrite int_branch; [rewrite I; reflexivity|]. intros ->. discriminate I.
Qed.
Lemma read_dec_text z s : str_of_Z z = Ok s -> exists w, str2val s (u "DE") = Ok w.
Proof.
  intros E. destruct (str_of_Z_text z s E) as (ds & D & NE & _ & _ & Es).
  assert (exists sg, sign_mark sg (z <? 0) /\ s = sg ++ ds) as (sg & S & ->).
  { destruct (z <? 0); [exists (u "-")|exists []]; (split; [constructor|exact Es]). }
  exists (VFloat (f_of_dec (z <? 0) (Z.to_N (number ds)) 0)).
  rewrite dec_branch by (apply app_not_nil, NE).
  rewrite (read_whole _ _ ds (f_of_dec (z <? 0) (Z.to_N (number ds)) 0) S D NE).
  - reflexivity.
  - rewrite minus_sign. pose proof (f_of_dec_correct (z <? 0) (Z.to_N (number ds)) 0) as C. rewrite Z2N.id in C.
    + change (pow10 0) with 1%R in C. rewrite Rmult_1_r in C. exact C.
    + destruct (digit_text_list ds D) as (l & -> & _ & _ & V). lia.
Qed.
Lemma other_readable ty f : In ty field_types -> ty <> u "IN" -> ty <> u "DE" -> exists w, str2val f ty = Ok w.
Proof.
  cbn [In field_types]. intros H N1 N2. repeat (destruct H as [<-|H]; [try (eexists; reflexivity); congruence|]). contradiction.
Qed.
Lemma value_IN mode now kw before k w : value_for mode now kw before k (u "IN") = Some w ->
  w = match lookup k kw with Some v => v | None => VInt 0 end.
Proof. intros H. change (Some (match lookup k kw with Some v => v | None => VInt 0 end) = Some w) in H. congruence. Qed.
Lemma value_DE mode now kw before k w : value_for mode now kw before k (u "DE") = Some w ->
  w = match lookup k kw with Some v => v | None => VFloat (S754_zero false) end.
Proof. intros H. change (Some (match lookup k kw with Some v => v | None => VFloat (S754_zero false) end) = Some w) in H. congruence. Qed.
Theorem C11_typed clk talker msgid mode hp v ud cks kw x d :
  good ud -> NMEAMessage clk talker msgid mode hp v ud cks None kw = Ok x ->
  keyword_definition mode ud msgid kw = Some d -> types_in field_types d ->
  (forall sl k ty val, expands d sl -> In (k, ty) sl -> lookup k kw = Some val -> number_value ty val) ->
  readable d x.
Proof.
  intros G E D T H. destruct (C68_built _ _ _ _ _ _ _ _ _ _ G E) as (_ & _ & _ & B). rewrite D in B.
  pose proof (keyword_definition_order _ _ _ _ _ G D) as ((_ & U & _) & _).
  destruct (builds_slots _ _ _ _ _ _ _ _ B) as (sl' & X' & F'). destruct (fills_names _ _ _ _ _ _ _ _ F') as [Nm Ln].
  intros sl i k ty f X Nm' N P.
  assert (exists t', nth_error sl' i = Some (k, t')) as (t' & N').
  { assert (nth_error (map fst sl') i = Some k) as Q.
    { transitivity (nth_error (map fst sl) i); [f_equal; congruence|]. exact (map_nth_error fst i sl N). }
    destruct (nth_error sl' i) as [[k' t']|] eqn:N'.
    - pose proof (map_nth_error fst i sl' N') as Q'. rewrite Q in Q'. cbn [fst] in Q'. assert (k' = k) as -> by congruence. exists t'. reflexivity.
    - apply nth_error_None in N'. assert (nth_error (map fst sl') i = None) as Q' by (apply nth_error_None; rewrite map_length; exact N'). congruence. }
  assert (t' = ty) as ->.
  { eapply slot_type; [exact U|exact X'|exact X|eapply nth_error_In, N'|eapply nth_error_In, N]. }
  pose proof (T sl X) as Ty. rewrite Forall_forall in Ty. specialize (Ty _ (nth_error_In _ _ N)). cbn [snd] in Ty.
  destruct (str_eqb_spec ty (u "IN")) as [->|N1].
  - destruct (fills_nth _ _ _ _ _ _ _ _ _ _ _ F' N') as (w & f' & A1 & A2 & A3 & A4). rewrite P in A2. injection A2 as <-.
    pose proof (value_IN mode _ kw _ k w A4) as ->. clear A4.
    destruct (lookup k kw) as [val|] eqn:L.
    + destruct (H sl k _ val X (nth_error_In _ _ N) L) as [Q _]. destruct (Q eq_refl) as [(z & ->)|(s & w & -> & S)].
      * eapply read_int_text, A3.
      * change (Ok s = Ok f) in A3. assert (f = s) as -> by congruence. destruct (C71_read _ _ _ S) as (w' & R & _). exists w'. exact R.
    + change (Ok (u "0") = Ok f) in A3. assert (f = u "0") as -> by congruence. eexists. vm_compute. reflexivity.
  - destruct (str_eqb_spec ty (u "DE")) as [->|N2]; [|apply other_readable; assumption].
    destruct (fills_nth _ _ _ _ _ _ _ _ _ _ _ F' N') as (w & f' & A1 & A2 & A3 & A4). rewrite P in A2. injection A2 as <-.
    pose proof (value_DE mode _ kw _ k w A4) as ->. clear A4.
    destruct (lookup k kw) as [val|] eqn:L.
    + destruct (H sl k _ val X (nth_error_In _ _ N) L) as [_ Q]. destruct (Q eq_refl) as [(z & ->)|[(y & -> & Vy)|(s & w & -> & S)]].
      * eapply read_dec_text, A3.
      * destruct (C51_round_trip y hp Vy) as (s & R1 & R2). assert (f = s) as -> by congruence. eexists. exact R2.
      * change (Ok s = Ok f) in A3. assert (f = s) as -> by congruence. destruct (C71_read _ _ _ S) as (w' & R & _). exists w'. exact R.
    + change (Ok (u "0.0") = Ok f) in A3. assert (f = u "0.0") as -> by congruence. eexists. vm_compute. reflexivity.
Qed.
(* a message built from keywords with typed numbers is accepted *)
Corollary C11_typed_accepted clk talker msgid mode hp v0 v ud kw x d b :
  good ud -> NMEAMessage clk talker msgid mode hp v0 ud None None kw = Ok x ->
  keyword_definition mode ud msgid kw = Some d -> types_in field_types d ->
  (forall sl k ty val, expands d sl -> In (k, ty) sl -> lookup k kw = Some val -> number_value ty val) ->
  ~ reads_differently mode msgid (m_payload x) ->
  (msgid = u "ASHR" -> lookup (u "msgId") kw <> Some (VStr [])) ->
  (msgid = u "QTMSN" -> mode = 0 -> m_payload x <> []) ->
  header (content_of talker msgid (m_payload x)) talker msgid (m_payload x) ->
  no_framing (content_of talker msgid (m_payload x)) -> kept_as_is talker msgid (m_payload x) ->
  (wants_msgid v = true -> wants_msgid v0 = true) -> serialize x = Ok b ->
  exists y, parse (MBytes b) mode v ud = Ok (Some y)
    /\ m_talker y = talker /\ m_msgID y = msgid /\ m_payload y = m_payload x /\ m_checksum y = m_checksum x
    /\ map fst (m_attrs y) = map fst (m_attrs x) /\ decoded_by d (m_payload x) (m_attrs y).
Proof.
  intros G E D T H R A Q Hd Nf K W S. destruct (C11_same_definition _ _ _ _ _ _ _ _ _ _ _ G E D R A Q) as [D' La].
  eapply C11_accepted; try eassumption. eapply C11_typed; eassumption.
Qed.
Example C11_typed_example :
  exists x d, NMEAMessage noon (u "GN") (u "GGA") 0 false 3 [] None None
      [(u "numSV", VInt 7); (u "HDOP", VInt 2); (u "alt", VStr (u "12.5")); (u "lat", VInt (-53))] = Ok x
    /\ keyword_definition 0 [] (u "GGA") [(u "numSV", VInt 7); (u "HDOP", VInt 2); (u "alt", VStr (u "12.5")); (u "lat", VInt (-53))] = Some d
    /\ types_in field_types d
    /\ (forall sl k ty val, expands d sl -> In (k, ty) sl ->
          lookup k [(u "numSV", VInt 7); (u "HDOP", VInt 2); (u "alt", VStr (u "12.5")); (u "lat", VInt (-53))] = Some val -> number_value ty val).
Proof.
  eexists _, def_g_GGA. split; [vm_compute; reflexivity|]. split; [vm_compute; reflexivity|].
  assert (plain def_g_GGA) as Pl by (apply plainb_ok; vm_compute; reflexivity). split.
  - intros sl X. apply expands_plain in X; [|exact Pl]. subst sl. apply Forall_forall. intros s I.
    assert (forallb (fun s => str_in (snd s) field_types) (plain_slots def_g_GGA) = true) as F by (vm_compute; reflexivity).
    rewrite forallb_forall in F. apply str_in_iff, F, I.
  - intros sl k ty val X I L. apply expands_plain in X; [|exact Pl]. subst sl. apply lookup_In in L. cbn [In] in L.
    assert (NoDup (map fst (plain_slots def_g_GGA))) as N.
    { apply (C54_distinct (u "GGA") def_g_GGA); [apply in_or_app; left; apply lookup_In; vm_compute; reflexivity|]. vm_compute. repeat constructor. }
    pose proof (In_lookup_nodup _ _ _ N I) as Lk.
    destruct L as [L|[L|[L|[L|[]]]]]; injection L as <- <-; vm_compute in Lk; injection Lk as <-; split; intros Q; try discriminate Q.
    + left. eexists. reflexivity.
    + left. eexists. reflexivity.
    + right. right. exists (u "12.5"), (VFloat (f_of_dec false 125 (- (1)))). split; [reflexivity|].
      apply (sf_decimal [] false (u "12") (u "5")); [constructor| | |discriminate|].
      1,2: unfold digit_text; vm_compute; repeat (constructor; [split; discriminate|]); constructor.
      cbn [with_minusR]. change (number (u "12" ++ u "5")) with 125. change (length (u "5")) with 1%nat. change (10 ^ Z.of_nat 1) with 10.
      pose proof (f_of_dec_correct false 125 (- (1))) as C. rewrite pow10_neg, pow10_IZR in C by lia. exact C.
Qed.
