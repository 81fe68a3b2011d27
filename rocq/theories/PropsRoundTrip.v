(* Theorems about values put into a message and read back: C83. *)
From Coq Require Import Reals Lia Lra.
From Flocq Require Import Core BinarySingleNaN.
From Verif Require Import Message Reader BaseLemmas TextLemmas NumLemmas Spec ParseProofs MessageProofs SelectProofs CompleteProofs StreamProofs DecodeProofs TimeSpec TimeProofs CoordSpec FloatProofs
  DecimalProofs CoordProofs ValueSpec KeywordSpec KeywordProofs PropsTime PropsHelpers PropsDecode PropsCoord PropsMessage PropsConstruct
  PropsKeyword GenerateProofs PropsGenerate TableProofs PropsTables PropsValue PropsWrite.
Local Open Scope Z_scope.

(* a keyword value given for a field of type [ty], and the value of the attribute of
   the message parsed from the sentence that was generated *)
Inductive survives : pystr -> pyval -> pyval -> Prop :=
| sv_text ty s : In ty text_types -> survives ty (VStr s) (VStr s)
| sv_integer z : Z.abs z < 10 ^ 4300 -> survives (u "IN") (VInt z) (VInt z)
| sv_decimal x : binary64 x -> survives (u "DE") (VFloat x) (VFloat x)
| sv_whole z x : Z.abs z < 10 ^ 4300 -> nearest (z <? 0) (IZR z) x -> survives (u "DE") (VInt z) (VFloat x)
| sv_numeral ty s w : In ty [u "IN"; u "DE"] -> stands_for ty s w -> survives ty (VStr s) w
| sv_time t : time_of_day t ->     (* hundredths of a second are kept *)
    survives (u "TM") (VTime t) (VTime (mktime (t_hour t) (t_min t) (t_sec t) (t_us t / 10000 * 10000)))
| sv_date ty d : In ty [u "DT"; u "DM"] -> calendar_date d -> 1969 <= d_year d <= 2068 -> survives ty (VDate d) (VDate d).

(* what the definition, the keywords and the message must be like: as in C11 *)
Definition generated (clk : clock) (talker msgid : pystr) (mode : Z) (hp : bool) (v0 v : Z) (ud : userdefs) (kw : kwargs)
    (x : msg) (d : pdict) (b : bytes) : Prop :=
  good ud /\ NMEAMessage clk talker msgid mode hp v0 ud None None kw = Ok x
  /\ keyword_definition mode ud msgid kw = Some d
  /\ definition_for mode ud msgid (m_payload x) = Some d /\ lacks_id mode msgid (m_payload x) = false
  /\ header (content_of talker msgid (m_payload x)) talker msgid (m_payload x)
  /\ no_framing (content_of talker msgid (m_payload x)) /\ kept_as_is talker msgid (m_payload x)
  /\ (wants_msgid v = true -> wants_msgid v0 = true)
  /\ readable d x /\ serialize x = Ok b.

Lemma nth_error_of_In {A B} (l : list (A * B)) k : In k (map fst l) -> exists i t, nth_error l i = Some (k, t).
Proof.
  intros H. apply in_map_iff in H as ([k' t] & <- & H). apply In_nth_error in H as (i & H). exists i, t. exact H.
Qed.

Lemma generated_value clk talker msgid mode hp v0 v ud kw x d b :
  generated clk talker msgid mode hp v0 v ud kw x d b ->
  exists y, parse (MBytes b) mode v ud = Ok (Some y)
  /\ map fst (m_attrs y) = map fst (m_attrs x)
  /\ forall sl k ty val, expands d sl -> In (k, ty) sl -> In k (map fst (m_attrs x)) ->
     lookup k kw = Some val -> ty <> u "LAD" -> ty <> u "LND" -> k <> u "lat" -> k <> u "lon" ->
     exists f w, val2str val ty hp = Ok f /\ str2val f ty = Ok w /\ lookup k (m_attrs y) = Some w.
Proof.
  intros (G & E & D & Df & La & H & N & K & W & R & S).
  destruct (C11_accepted _ _ _ _ _ _ _ _ _ _ _ _ G E D Df La H N K W R S) as (y & Py & _ & _ & Pl & _ & Nm & _).
  exists y. split; [exact Py|]. split; [exact Nm|].
  destruct (generated_given _ _ _ _ _ _ _ _ _ _ _ E D H N S) as (c & _ & _ & _ & Gv).
  destruct (C68_built _ _ _ _ _ _ _ _ _ _ G E) as (_ & _ & _ & B). rewrite D in B.
  pose proof (keyword_definition_order _ _ _ _ _ G D) as O. pose proof O as ((_ & U & _) & _).
  destruct (built_decodes _ _ _ _ _ _ O B R) as (sl0 & attrs & Ly & Dc & F & _).
  assert (m_attrs y = attrs) as Ay.
  { assert (decoded_by d (m_payload x) attrs) as Db by (exists sl0; split; assumption).
    destruct (C13_complete _ _ _ _ _ _ mode v ud d Gv) as [I _]; try assumption.
    - apply valid_mode_iff. eapply keyword_ok_mode, E.
    - intros Wc. destruct (parse_given _ _ _ _ _ Py) as (c' & k' & t' & i' & f' & G' & _ & Q & _).
      destruct (given_functional _ _ _ _ _ _ _ _ _ _ _ G' Gv) as (-> & -> & _). apply is_checksum_iff, Q, Wc.
    - intros Wm. destruct (parse_given _ _ _ _ _ Py) as (c' & k' & t' & i' & f' & G' & _ & _ & Q & _).
      destruct (given_functional _ _ _ _ _ _ _ _ _ _ _ G' Gv) as (_ & _ & -> & -> & _). apply Q, Wm.
    - apply I in Db as (y' & Py' & Ay & _). rewrite Py in Py'. injection Py' as <-. exact Ay. }
  pose proof (layout_expands _ _ _ _ _ Ly) as X0. destruct (fills_names _ _ _ _ _ _ _ _ F) as [Nmx Ln].
  intros sl k ty val X I Ix L N1 N2 N3 N4.
  rewrite Nmx in Ix. destruct (nth_error_of_In _ _ Ix) as (i & t' & Ni).
  assert (t' = ty) as -> by (eapply slot_type; [exact U|exact X0|exact X|eapply nth_error_In, Ni|exact I]).
  destruct (fills_nth _ _ _ _ _ _ _ _ _ _ _ F Ni) as (w' & f & P1 & P2 & P3 & V1).
  assert (w' = val) as ->.
  { unfold value_for in V1. destruct (lookup ty _); [|discriminate]. cbv zeta in V1. rewrite L in V1.
    apply str_eqb_neq in N1, N2. rewrite N1, N2 in V1. congruence. }
  destruct (decode_nth _ _ _ Dc) as [_ Hd]. destruct (Hd i k ty f Ni P2) as (w & Hw & Hi).
  rewrite C12_settle_other in Hi by assumption.
  exists f, w. split; [exact P3|]. split; [exact Hw|]. rewrite Ay.
  apply In_lookup_nodup; [|eapply nth_error_In, Hi]. rewrite <- Ay, Nm, Nmx. apply U, X0.
Qed.

(* one field: written and read back *)
Lemma text_textual ty : In ty text_types -> In ty textual_types.
Proof. intros I. repeat (destruct I as [<-|I]; [cbn; tauto|]). destruct I. Qed.
Lemma whole_read z x s : str_of_Z z = Ok s -> nearest (z <? 0) (IZR z) x -> str2val s (u "DE") = Ok (VFloat x).
Proof.
  intros E Nx. destruct (str_of_Z_text z s E) as (ds & D & NE & V & _ & Es).
  assert (exists sg, sign_mark sg (z <? 0) /\ s = sg ++ ds) as (sg & Sg & ->).
  { destruct (z <? 0); [exists (u "-")|exists []]; (split; [constructor|exact Es]). }
  assert (stands_for (u "DE") (sg ++ ds) (VFloat x)) as St.
  { apply (sf_whole sg (z <? 0)); try assumption. rewrite V.
    replace (with_minusR (z <? 0) (IZR (Z.abs z))) with (IZR z); [exact Nx|].
    unfold with_minusR. destruct (z <? 0) eqn:Q; [rewrite <- opp_IZR|]; f_equal; lia. }
  destruct (C71_read _ _ _ St) as (w' & A & _ & Eq). rewrite Eq in A; [exact A|]. cbn; intuition discriminate.
Qed.
Lemma survives_field hp ty val w f : survives ty val w -> val2str val ty hp = Ok f -> str2val f ty = Ok w.
Proof.
  intros H. destruct H as [ty s I|z B|x B|z x B Nx|ty s w I St|t T|ty d I C Y]; intros V.
  - destruct (C52_round_trip s ty hp (text_textual _ I)) as [A1 A2]. rewrite A1 in V. injection V as <-. exact A2.
  - destruct (C50_round_trip z hp B) as (s & A1 & A2). rewrite A1 in V. injection V as <-. exact A2.
  - destruct (C51_round_trip x hp B) as (s & A1 & A2). rewrite A1 in V. injection V as <-. exact A2.
  - exact (whole_read z x f V Nx).
  - assert (Ok s = Ok f) as Q by (destruct I as [<-|[<-|[]]]; exact V). injection Q as <-.
    destruct (C71_read _ _ _ St) as (w' & A & _ & E). rewrite E in A; [exact A|].
    destruct I as [<-|[<-|[]]]; cbn; intuition discriminate.
  - assert (val2str (VTime t) (u "TM") hp = Ok (time2str (VTime t))) as V' by reflexivity.
    rewrite V' in V. injection V as <-. exact (f_equal Ok (C40_round_trip t T)).
  - destruct (C41_round_trip d C Y) as [R1 R2]. destruct I as [<-|[<-|[]]].
    + assert (val2str (VDate d) (u "DT") hp = Ok (date2str (VDate d) (u "DT"))) as V' by reflexivity.
      rewrite V' in V. injection V as <-. exact (f_equal Ok R1).
    + assert (val2str (VDate d) (u "DM") hp = Ok (date2str (VDate d) (u "DM"))) as V' by reflexivity.
      rewrite V' in V. injection V as <-. exact (f_equal Ok R2).
Qed.

(* ------------------------------------------------------------------ C71 *)
(* the position of a parsed sentence: degrees and decimal minutes, negative for S and W *)
Lemma signed_read m (neg : bool) : fdata m -> (0 <= rval m)%R ->
  fdata (if neg then SFopp (SFabs m) else SFabs m)
  /\ rval (if neg then SFopp (SFabs m) else SFabs m) = (if neg then - rval m else rval m)%R.
Proof.
  intros Dm Pm. destruct (fabs_correct m (proj1 Dm)) as (Va & Ra & Fa & _). change (fabs m) with (SFabs m) in Va, Ra, Fa.
  assert (fdata (SFabs m)) as Da by (split; [exact Va|rewrite Fa; exact (proj2 Dm)]).
  rewrite Rabs_pos_eq in Ra by exact Pm. destruct neg; [|auto].
  destruct (fopp_correct _ Da) as [Do Ro]. change (fopp (SFabs m)) with (SFopp (SFabs m)) in Do, Ro. rewrite Ra in Ro. auto.
Qed.
Theorem C71_position m content ck talker msgid fields mode v ud x d sl i pos ty hty neg other dd mm ff h :
  given m content ck talker msgid fields -> parse m mode v ud = Ok (Some x) ->
  kept_as_is talker msgid fields -> definition_for mode ud msgid fields = Some d -> well_formed d ->
  layout (int_attr (m_attrs x)) (length fields) 0 d sl ->
  In (pos, ty, hty, neg, other) axes -> nth_error sl i = Some (pos, ty) ->
  nth_error fields i = Some (dd ++ mm ++ u "." ++ ff) ->
  digit_text dd -> digit_text mm -> digit_text ff -> (2 <= length dd)%nat -> length mm = 2%nat -> number dd <= 100000 ->
  final_hemisphere hty (combine (skipn (S i) sl) (skipn (S i) fields)) h ->
  let magnitude := (IZR (number dd) + IZR (number (mm ++ ff)) / (60 * IZR (10 ^ Z.of_nat (length ff))))%R in
  exists y, lookup pos (m_attrs x) = Some (VFloat y) /\ fdata y
    /\ (Rabs (rval y - (if str_eqb h neg then - magnitude else magnitude)) <= / 10000000000)%R
    /\ (if str_eqb h neg then rval y <= 0 else 0 <= rval y)%R.
Proof.
  intros G P K D W Ly A Ns Nf D1 D2 D3 L1 L2 B Fh magnitude.
  destruct (C49_value dd mm ff D1 D2 D3 L1 L2 B) as (y & Ey & Dy & Py & By). fold magnitude in By.
  assert (lookup pos (m_attrs x) = Some (VFloat (if str_eqb h neg then SFopp (SFabs y) else SFabs y))) as Lk.
  { destruct A as [A|[A|[]]]; inversion A; subst.
    - eapply C15_lat; eassumption.
    - rewrite <- C49_longitude in Ey. eapply C15_lon; eassumption. }
  pose proof (signed_read y (str_eqb h neg) Dy Py) as [Ds Rs]. revert Lk Ds Rs. match goal with |- _ -> fdata ?t -> _ => generalize t end.
  intros sy Lk Ds Rs. exists sy. split; [exact Lk|]. split; [exact Ds|]. rewrite Rs.
  destruct (str_eqb h neg); [|split; assumption]. split; [|lra].
  replace (- rval y - - magnitude)%R with (- (rval y - magnitude))%R by ring. rewrite Rabs_Ropp. exact By.
Qed.
Example C71_position_example :
  exists x d sl, parse (MStr (u "$GNGLL,5327.04319,S,00214.41396,W*00")) 0 0 [] = Ok (Some x)
  /\ definition_for 0 [] (u "GLL") (split_all 44 (u "5327.04319,S,00214.41396,W")) = Some d
  /\ layout (int_attr (m_attrs x)) 4 0 d sl
  /\ nth_error sl 2 = Some (u "lon", u "LN") /\ nth_error (split_all 44 (u "5327.04319,S,00214.41396,W")) 2 = Some (u "002" ++ u "14" ++ u "." ++ u "41396")
  /\ final_hemisphere (u "LND") (combine (skipn 3 sl) (skipn 3 (split_all 44 (u "5327.04319,S,00214.41396,W")))) (u "W")
  /\ lookup (u "lon") (m_attrs x) = Some (VFloat (f_of_dec true 22402326667 (-10))).
Proof.
  eexists _, _, _. split; [vm_compute; reflexivity|]. split; [vm_compute; reflexivity|].
  split; [repeat constructor|]. split; [vm_compute; reflexivity|]. split; [vm_compute; reflexivity|].
  split; [|vm_compute; reflexivity].
  exists [], (u "EW"). eexists. split; [vm_compute; reflexivity|]. intros k' f' H. cbn in H. contradiction.
Qed.

(* ------------------------------------------------------------------ C83 *)
(* what was given is what is read back *)
Theorem C83_values clk talker msgid mode hp v0 v ud kw x d b :
  generated clk talker msgid mode hp v0 v ud kw x d b ->
  exists y, parse (MBytes b) mode v ud = Ok (Some y)
  /\ map fst (m_attrs y) = map fst (m_attrs x)
  /\ forall sl k ty val w, expands d sl -> In (k, ty) sl -> In k (map fst (m_attrs x)) ->
     lookup k kw = Some val -> ~ In ty [u "LAD"; u "LND"] -> ~ In k [u "lat"; u "lon"] ->
     survives ty val w -> lookup k (m_attrs y) = Some w.
Proof.
  intros G. destruct (generated_value _ _ _ _ _ _ _ _ _ _ _ _ G) as (y & Py & Nm & F).
  exists y. split; [exact Py|]. split; [exact Nm|]. intros sl k ty val w X I Ix L N1 N2 Sv.
  destruct (F sl k ty val X I Ix L) as (f & w' & V & R & Lw).
  - intros ->. apply N1. left. reflexivity.
  - intros ->. apply N1. right. left. reflexivity.
  - intros ->. apply N2. left. reflexivity.
  - intros ->. apply N2. right. left. reflexivity.
  - rewrite (survives_field _ _ _ _ _ Sv V) in R. congruence.
Qed.

(* positions: a number of degrees *)
Inductive degrees : pyval -> R -> Prop :=
| degrees_float x : fdata x -> degrees (VFloat x) (rval x)
| degrees_whole z : degrees (VInt z) (IZR z).
(* half a unit of the last decimal of the minutes, and 1e-10 *)
Definition position_error (hp : bool) : R := (/ 2 / (60 * (if hp then 10000000 else 100000)) + / 10000000000)%R.

Lemma position_field hp ty w val r f :
  In (ty, w) position_digits -> degrees val r -> (Rabs r < IZR (10 ^ Z.of_nat w))%R -> val2str val ty hp = Ok f ->
  exists m, str2val f ty = Ok (VFloat m) /\ fdata m /\ (0 <= rval m)%R /\ (Rabs (rval m - Rabs r) <= position_error hp)%R.
Proof.
  intros I D B V. destruct D as [x Dx|z].
  - destruct I as [E|[E|[]]]; apply pair_eq in E as [-> ->].
    + destruct (C48_latitude x hp Dx B) as (s & m & A1 & A2 & A3 & A4 & A5). rewrite A1 in V. injection V as <-. exists m. auto.
    + destruct (C48_longitude x hp Dx B) as (s & m & A1 & A2 & A3 & A4 & A5). rewrite A1 in V. injection V as <-. exists m. auto.
  - rewrite <- abs_IZR in *. apply lt_IZR in B.
    destruct (C72_written hp ty (VInt z) _ (wa_whole_degrees hp ty w z I B)) as (s & A & _ & Es).
    rewrite Es in A by discriminate. rewrite A in V. injection V as <-. unfold degrees_text.
    rewrite Z.div_0_l by (apply Z.pow_nonzero; lia).
    set (k := if hp then 7%nat else 5%nat).
    destruct (C49_value (numeral_text w (Z.abs z)) (numeral_text 2 0) (numeral_text k 0)) as (m & M & Dm & Pm & Bm);
      try apply numeral_digit_text.
    + rewrite numeral_text_length. destruct I as [E|[E|[]]]; apply pair_eq in E as [_ ->]; lia.
    + apply numeral_text_length.
    + rewrite numeral_number, Z.mod_small by lia. destruct I as [E|[E|[]]]; apply pair_eq in E as [_ ->]; cbn in B; lia.
    + exists m. split; [destruct I as [E|[E|[]]]; apply pair_eq in E as [-> _]; exact M|]. split; [exact Dm|]. split; [exact Pm|].
      rewrite numeral_number, Z.mod_small in Bm by lia.
      replace (number (numeral_text 2 0 ++ numeral_text k 0)) with 0 in Bm by (unfold k; destruct hp; reflexivity).
      unfold position_error.
      assert (0 < / 2 / (60 * (if hp then 10000000 else 100000)))%R as P by (destruct hp; apply Rdiv_lt_0_compat; lra).
      replace (IZR (Z.abs z) + 0 / (60 * IZR (10 ^ Z.of_nat (length (numeral_text k 0)))))%R with (IZR (Z.abs z)) in Bm by (unfold Rdiv; ring).
      lra.
Qed.
Lemma signed_degrees val r m : degrees val r -> fdata m -> (0 <= rval m)%R ->
  fdata (if below_zero val then SFopp (SFabs m) else SFabs m)
  /\ rval (if below_zero val then SFopp (SFabs m) else SFabs m) = (if Rlt_bool r 0 then - rval m else rval m)%R.
Proof.
  intros D Dm Pm.
  assert (below_zero val = Rlt_bool r 0) as ->.
  { destruct D as [x Dx|z]; cbn [below_zero].
    - change (fltb x fzero = Rlt_bool (rval x) 0). rewrite fltb_correct; [reflexivity|exact Dx|split; reflexivity].
    - destruct (Z.ltb_spec z 0) as [L|L]; symmetry; [apply Rlt_bool_true|apply Rlt_bool_false]; [apply IZR_lt|apply IZR_le]; exact L. }
  apply signed_read; assumption.
Qed.

(* lat and lon come back with their sign *)
Theorem C83_position clk talker msgid mode hp v0 v ud kw x b pos ty hty neg other d1 d2 d3 ns w val r :
  In (pos, ty, hty, neg, other) axes -> without_type hty d3 ->
  generated clk talker msgid mode hp v0 v ud kw x (d1 ++ (pos, ASingle ty) :: d2 ++ (ns, ASingle hty) :: d3) b ->
  lookup pos kw = Some val -> In (ty, w) position_digits -> degrees val r -> (Rabs r < IZR (10 ^ Z.of_nat w))%R ->
  exists y m, parse (MBytes b) mode v ud = Ok (Some y) /\ lookup pos (m_attrs y) = Some (VFloat m) /\ fdata m
    /\ (Rabs (rval m - r) <= position_error hp)%R
    /\ ((0 <= r)%R -> (0 <= rval m)%R) /\ ((r < 0)%R -> (rval m <= 0)%R).
Proof.
  intros A W (G & E & D & Df & La & H & N & K & Wm & R & S) L I Dg B.
  destruct (C16_recovered _ _ _ _ _ _ v _ _ _ _ _ _ _ _ _ _ _ _ _ _ A W G E D L Df La H N K Wm R S)
    as (y & i & f & Py & _ & _ & V & Q).
  destruct (position_field _ _ _ _ _ _ I Dg B V) as (m & Rm & Dm & Pm & Bm).
  destruct (signed_degrees _ _ m Dg Dm Pm) as [Ds Rs].
  specialize (Q _ Rm). revert Q Ds Rs. match goal with |- _ -> fdata ?t -> _ => generalize t end. intros sm Q Ds Rs.
  exists y, sm. split; [exact Py|]. split; [exact Q|]. split; [exact Ds|]. rewrite Rs.
  destruct (Rlt_bool_spec r 0) as [Lt|Le].
  - rewrite (Rabs_left r) in Bm by exact Lt. split; [|split; lra].
    replace (- rval m - r)%R with (- (rval m - - r))%R by ring. rewrite Rabs_Ropp. exact Bm.
  - rewrite (Rabs_pos_eq r) in Bm by exact Le. split; [exact Bm|split; lra].
Qed.
(* positions under any other name: the magnitude *)
Theorem C83_magnitude clk talker msgid mode hp v0 v ud kw x d b :
  generated clk talker msgid mode hp v0 v ud kw x d b ->
  exists y, parse (MBytes b) mode v ud = Ok (Some y)
  /\ forall sl k ty w val r, expands d sl -> In (k, ty) sl -> In k (map fst (m_attrs x)) ->
     lookup k kw = Some val -> ~ In k [u "lat"; u "lon"] -> In (ty, w) position_digits -> degrees val r ->
     (Rabs r < IZR (10 ^ Z.of_nat w))%R ->
     exists m, lookup k (m_attrs y) = Some (VFloat m) /\ fdata m /\ (0 <= rval m)%R
       /\ (Rabs (rval m - Rabs r) <= position_error hp)%R.
Proof.
  intros G. destruct (generated_value _ _ _ _ _ _ _ _ _ _ _ _ G) as (y & Py & _ & F).
  exists y. split; [exact Py|]. intros sl k ty w val r X I Ix L N2 P Dg B.
  destruct (F sl k ty val X I Ix L) as (f & w' & V & R & Lw).
  - intros ->. destruct P as [P|[P|[]]]; apply pair_eq in P as [P _]; discriminate P.
  - intros ->. destruct P as [P|[P|[]]]; apply pair_eq in P as [P _]; discriminate P.
  - intros ->. apply N2. left. reflexivity.
  - intros ->. apply N2. right. left. reflexivity.
  - destruct (position_field _ _ _ _ _ _ P Dg B V) as (m & Rm & Dm & Pm & Bm). rewrite R in Rm. injection Rm as ->.
    exists m. auto.
Qed.

(* the conditions hold when numbers are given for numeric fields, the definition can be
   told from the fields, and no text breaks the framing *)
Theorem C83_conditions clk talker msgid mode hp v0 v ud kw x d b :
  good ud -> NMEAMessage clk talker msgid mode hp v0 ud None None kw = Ok x ->
  keyword_definition mode ud msgid kw = Some d -> types_in field_types d ->
  (forall sl k ty val, expands d sl -> In (k, ty) sl -> lookup k kw = Some val -> number_value ty val) ->
  ~ reads_differently mode msgid (m_payload x) ->
  (msgid = u "ASHR" -> lookup (u "msgId") kw <> Some (VStr [])) ->
  (msgid = u "QTMSN" -> mode = 0 -> m_payload x <> []) ->
  header (content_of talker msgid (m_payload x)) talker msgid (m_payload x) ->
  no_framing (content_of talker msgid (m_payload x)) -> kept_as_is talker msgid (m_payload x) ->
  (wants_msgid v = true -> wants_msgid v0 = true) -> serialize x = Ok b ->
  generated clk talker msgid mode hp v0 v ud kw x d b.
Proof.
  intros G E D T H R A Q Hd Nf K W S. destruct (C11_same_definition _ _ _ _ _ _ _ _ _ _ _ G E D R A Q) as [D' La].
  unfold generated. split; [exact G|]. split; [exact E|]. split; [exact D|]. split; [exact D'|]. split; [exact La|].
  split; [exact Hd|]. split; [exact Nf|]. split; [exact K|]. split; [exact W|]. split; [|exact S].
  eapply C11_typed; eassumption.
Qed.

Definition rmc_kw : kwargs :=
  [(u "time", VTime (mktime 23 59 58 456789)); (u "status", VStr (u "A")); (u "lat", VFloat (f_of_dec true 53450657 (-6)));
   (u "lon", VInt (-2)); (u "spd", VInt 7); (u "cog", VFloat (f_of_dec false 1 (-1))); (u "date", VDate (mkdate 2024 2 29))].
Example C83_example :
  exists x d3 b y, let d := [(u "time", ASingle (u "TM")); (u "status", ASingle (u "CH"))] ++ (u "lat", ASingle (u "LA"))
      :: [] ++ (u "NS", ASingle (u "LAD")) :: d3 in
    generated noon (u "GN") (u "RMC") 0 false 3 3 [] rmc_kw x d b /\ without_type (u "LAD") d3
    /\ parse (MBytes b) 0 3 [] = Ok (Some y)
    /\ survives (u "TM") (VTime (mktime 23 59 58 456789)) (VTime (mktime 23 59 58 450000))
    /\ lookup (u "time") (m_attrs y) = Some (VTime (mktime 23 59 58 450000))
    /\ lookup (u "lat") (m_attrs y) = Some (VFloat (f_of_dec true 534506570 (-7)))
    /\ lookup (u "lon") (m_attrs y) = Some (VFloat (f_of_dec true 2 0))
    /\ lookup (u "spd") (m_attrs y) = Some (VFloat (f_of_dec false 7 0))
    /\ lookup (u "date") (m_attrs y) = Some (VDate (mkdate 2024 2 29)).
Proof.
  eexists _, (skipn 4 def_g_RMC), _, _. cbv zeta. split.
  - unfold generated. split; [intros k' d' []|]. split; [vm_compute; reflexivity|]. split; [vm_compute; reflexivity|].
    split; [vm_compute; reflexivity|]. split; [vm_compute; reflexivity|].
    split. { apply header_get. vm_compute. repeat split. }
    split. { split; [vm_compute; intuition discriminate|]. intros c r H. vm_compute in H. injection H as <- _.
             unfold framing, dollar, cr, lf. intuition discriminate. }
    split. { left. intros y H. discriminate H. }
    split; [reflexivity|]. split; [|vm_compute; reflexivity].
    intros sl i k ty f X _ N F. apply expands_plain in X; [|apply plainb_ok; vm_compute; reflexivity]. subst sl. vm_compute in N, F.
    do 13 (destruct i as [|i]; [cbn in N, F; injection N as <- <-; injection F as <-; eexists; vm_compute; reflexivity|]).
    destruct i; discriminate.
  - split. { intros sl X. apply expands_plain in X; [|apply plainb_ok; vm_compute; reflexivity]. subst sl.
             vm_compute. repeat (constructor; [discriminate|]). constructor. }
    split; [vm_compute; reflexivity|].
    split; [apply (sv_time (mktime 23 59 58 456789)); repeat split; cbn; lia|].
    repeat split; vm_compute; reflexivity.
Qed.
