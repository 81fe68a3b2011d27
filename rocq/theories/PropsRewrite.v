(* Theorems about sentences that are read and written again: C98. *)
From Coq Require Import Reals Lia Lra.
From Flocq Require Import Core BinarySingleNaN.
From Verif Require Import Message Reader BaseLemmas TextLemmas NumLemmas Spec ParseProofs MessageProofs SelectProofs CompleteProofs StreamProofs DecodeProofs TimeSpec TimeProofs CoordSpec FloatProofs
  DecimalProofs CoordProofs ValueSpec KeywordSpec KeywordProofs PropsTime PropsHelpers PropsDecode PropsCoord PropsMessage PropsConstruct
  PropsKeyword GenerateProofs PropsGenerate TableProofs PropsTables PropsValue PropsWrite RewriteSpec RewriteProofs PropsRoundTrip.
Local Open Scope Z_scope.

(* ------------------------------------------------------------------ fields *)
Lemma nearest_exists neg r : (exists n e, r = signR neg (IZR (Z.of_N n) * pow10 e))%R -> exists x, nearest neg r x.
Proof. intros (n & e & ->). eexists. apply f_of_dec_correct. Qed.
Lemma whole_nearest neg ds : digit_text ds -> exists x, nearest neg (with_minusR neg (IZR (number ds))) x.
Proof.
  intros D. destruct (digit_text_list ds D) as (l & _ & _ & _ & V). apply nearest_exists. exists (digits_val 10 l), 0.
  rewrite V. change (pow10 0) with 1%R. rewrite Rmult_1_r. reflexivity.
Qed.
Lemma decimal_nearest neg ip fp : digit_text ip -> digit_text fp -> exists x, nearest neg (decimal_value neg ip fp) x.
Proof.
  intros D1 D2. destruct (digit_text_list (ip ++ fp)) as (l & _ & _ & _ & V); [apply Forall_app; split; assumption|]. apply nearest_exists.
  exists (digits_val 10 l), (- Z.of_nat (length fp)). rewrite V, pow10_neg, pow10_IZR by lia. reflexivity.
Qed.
Lemma position_sign y att hp (minus : bool) : ddd2dmm_float (if minus then SFopp (SFabs y) else SFabs y) att hp = ddd2dmm_float y att hp.
Proof. unfold ddd2dmm_float. destruct minus, y; reflexivity. Qed.
Lemma date_text_read ty d s (hp : bool) : calendar_date d -> 1969 <= d_year d <= 2068 ->
  In (ty, s) [(u "DT", day_month_year d); (u "DM", month_day_year d)] -> str2val s ty = Ok (VDate d) /\ val2str (VDate d) ty hp = Ok s.
Proof.
  intros C Y I. destruct (C41_round_trip d C Y) as [R1 R2]. destruct (C41_text d C) as (T1 & T2 & _).
  destruct I as [I|[I|[]]]; injection I as <- <-.
  - split; [|exact (f_equal Ok T1)]. rewrite T1 in R1. exact (f_equal Ok R1).
  - split; [|exact (f_equal Ok T2)]. rewrite T2 in R2. exact (f_equal Ok R2).
Qed.

(* a field that is read and written again *)
Theorem C98_field (hp : bool) ty f g : rewritten hp ty f g -> exists v, str2val f ty = Ok v /\ val2str v ty hp = Ok g.
Proof.
  intros H. destruct H as [ty I|ty f I|sg neg ds g S D L T|sg neg ds ip fp S D NE P E|sg neg ip0 fp0 ip fp S D1 D2 NE P E|h m s Hh Hm Hs|h m s w f Hh Hm Hs Hw Hf|ty d s C Y I|ty w j z d m I D M J].
  - exists (VStr []). repeat (destruct I as [<-|I]; [split; destruct hp; reflexivity|]). destruct I.
  - exists (VStr f). destruct (C52_round_trip f ty hp (text_textual _ I)) as [A1 A2]. split; assumption.
  - set (z := with_minus neg (number ds)) in *. exists (VInt z).
    assert (stands_for (u "IN") (sg ++ ds) (VInt z)) as St by (apply sf_integer; assumption).
    destruct (C71_read _ _ _ St) as (w & A & _ & Ew). rewrite Ew in A by (cbn; intuition discriminate). split; [exact A|].
    assert (Z.abs z < 10 ^ 4300) as B.
    { destruct (digit_text_list ds D) as (l & _ & Fl & Ll & V). pose proof (digits_val_bound 10 l ltac:(lia) Fl) as B. apply N2Z.inj_lt in B.
      rewrite V, N2Z.inj_pow in B. unfold lenN in B. rewrite nat_N_Z, Ll in B. change (Z.of_N 10) with 10 in B.
      assert (0 <= number ds) by lia. assert (Z.abs z = number ds) as -> by (unfold z, with_minus; destruct neg; lia).
      eapply Z.lt_le_trans; [exact B|]. apply Z.pow_le_mono_r; lia. }
    assert (written_as hp (u "IN") (VInt z) g) as W by (apply wa_integer; [right; left; reflexivity|exact B|exact T]).
    destruct (C72_written _ _ _ _ W) as (s & E & _ & Es). rewrite E. f_equal. apply Es. discriminate.
  - destruct (whole_nearest neg ds D) as (x & Nx). exists (VFloat x).
    assert (stands_for (u "DE") (sg ++ ds) (VFloat x)) as St by (eapply sf_whole; eassumption).
    destruct (C71_read _ _ _ St) as (w & A & _ & Ew). rewrite Ew in A by (cbn; intuition discriminate). split; [exact A|].
    rewrite E in Nx. change (val2str (VFloat x) (u "DE") hp) with (Ok (str_of_float x)). f_equal. apply plain_decimal_text; assumption.
  - destruct (decimal_nearest neg ip0 fp0 D1 D2) as (x & Nx). exists (VFloat x).
    assert (stands_for (u "DE") (sg ++ ip0 ++ u "." ++ fp0) (VFloat x)) as St by (eapply sf_decimal; eassumption).
    destruct (C71_read _ _ _ St) as (w & A & _ & Ew). rewrite Ew in A by (cbn; intuition discriminate). split; [exact A|].
    rewrite E in Nx. change (val2str (VFloat x) (u "DE") hp) with (Ok (str_of_float x)). f_equal. apply plain_decimal_text; assumption.
  - exists (VTime (mktime h m s 0)). split; [exact (f_equal Ok (C40_whole_seconds h m s Hh Hm Hs))|].
    assert (time_of_day (mktime h m s 0)) as T by (unfold time_of_day; cbn [t_hour t_min t_sec t_us]; lia).
    exact (f_equal Ok (C40_time2str _ T)).
  - set (us := f * 10 ^ (6 - Z.of_nat w)). exists (VTime (mktime h m s us)). split; [exact (f_equal Ok (C40_decimals h m s w f Hh Hm Hs Hw Hf))|].
    assert (0 < 10 ^ Z.of_nat w) as P1 by (apply Z.pow_pos_nonneg; lia). assert (0 < 10 ^ (6 - Z.of_nat w)) as P2 by (apply Z.pow_pos_nonneg; lia).
    assert (10 ^ Z.of_nat w * 10 ^ (6 - Z.of_nat w) = 1000000) as P3 by (rewrite <- Z.pow_add_r by lia; replace (Z.of_nat w + (6 - Z.of_nat w)) with 6 by lia; reflexivity).
    assert (0 <= us < 1000000) as U by (unfold us; nia).
    assert (time_of_day (mktime h m s us)) as T by (unfold time_of_day; cbn [t_hour t_min t_sec t_us]; lia).
    transitivity (Ok (hms h m s ++ u "." ++ numeral_text 2 (us / 10000))); [exact (f_equal Ok (C40_time2str _ T))|]. f_equal. unfold hms, clock_text.
    rewrite <- !app_assoc. do 4 f_equal.
    assert (w = 1 \/ (2 <= w))%nat as [->|W2] by lia.
    + unfold us. change (6 - Z.of_nat 1) with 5. change (10 ^ 5) with (10 * 10000). rewrite Z.mul_assoc, Z.div_mul by lia.
      change (Z.of_nat 1) with 1 in Hf. cbn [numeral_text app firstn].
      rewrite Z.div_mul, Z.mod_mul by lia. reflexivity.
    + replace w with (2 + (w - 2))%nat at 1 by lia. rewrite numeral_text_split by lia. rewrite <- app_assoc.
      rewrite firstn_app, numeral_text_length, Nat.sub_diag, firstn_O, app_nil_r.
      rewrite firstn_all2 by (rewrite numeral_text_length; lia). f_equal. unfold us.
      assert (10000 = 10 ^ Z.of_nat (w - 2) * 10 ^ (6 - Z.of_nat w)) as E by (rewrite <- Z.pow_add_r by lia; replace (Z.of_nat (w - 2) + (6 - Z.of_nat w)) with 4 by lia; reflexivity).
      rewrite E. apply Z.div_mul_cancel_r; [apply Z.pow_nonzero; lia|lia].
  - destruct (date_text_read ty d s hp C Y I) as [R W]. exists (VDate d). split; assumption.
  - destruct (position_rewritten hp ty w j z d m I D M J) as (y & E1 & E2). exists (VFloat y).
    destruct I as [I|[I|[]]]; injection I as <- <-; (split; [exact (f_equal Ok E1)|exact E2]).
Qed.

(* ---------------------------------------------------------------- sentences *)
(* a hemisphere field after the attribute lat or lon says what the sign of that says,
   and that attribute has a position type *)
Definition hemispheres_agree (attrs : list (pystr * pyval)) (sl : list slot) (fields : list pystr) : Prop :=
  forall pos ty0 hty neg other i j ty h, In (pos, ty0, hty, neg, other) axes ->
    (i < j)%nat -> nth_error sl i = Some (pos, ty) -> nth_error sl j = Some (h, hty) ->
    In ty [u "LA"; u "LN"]
    /\ exists v, lookup pos attrs = Some v /\ nth_error fields j = Some (if below_zero v then neg else other).

Lemma skipn_nth {A} (l : list A) n a : nth_error l n = Some a -> skipn n l = a :: skipn (S n) l.
Proof. revert n. induction l as [|b l IH]; intros [|n] H; try discriminate; [injection H as <-; reflexivity|]. cbn [nth_error] in H. cbn [skipn]. rewrite (IH n H). reflexivity. Qed.
Lemma firstn_nth {A} (l : list A) n a : nth_error l n = Some a -> firstn (S n) l = firstn n l ++ [a].
Proof. revert n. induction l as [|b l IH]; intros [|n] H; try discriminate; [injection H as <-; reflexivity|]. cbn [nth_error] in H. cbn [firstn app]. f_equal. exact (IH n H). Qed.
Lemma last_of_In ty l f : last_of ty l = Some f -> exists k, In ((k, ty), f) l.
Proof.
  induction l as [|[[k t] g] l IH]; cbn [last_of]; [discriminate|]. destruct (last_of ty l) as [g'|].
  - intros E. destruct (IH E) as (k' & I). exists k'. right. exact I.
  - destruct (str_eqb_spec t ty) as [->|]; [|discriminate]. intros E. injection E as ->. exists k. left. reflexivity.
Qed.
Lemma nth_skipn {A} (l : list A) n i : nth_error (skipn n l) i = nth_error l (n + i).
Proof. revert l. induction n as [|n IH]; intros l; [reflexivity|]. destruct l as [|a l]; [destruct i; reflexivity|]. cbn [skipn Nat.add nth_error]. apply IH. Qed.
Lemma combine_nth_In {A B} (a : list A) (b : list B) x y : In (x, y) (combine a b) -> exists i, nth_error a i = Some x /\ nth_error b i = Some y.
Proof.
  revert b. induction a as [|c a IH]; intros [|d b] I; try destruct I as [E|I]; try contradiction.
  - injection E as <- <-. exists 0%nat. split; reflexivity.
  - destruct (IH b I) as (i & H). exists (S i). exact H.
Qed.
Lemma lookup_firstn (attrs : list (pystr * pyval)) n k v : lookup k (firstn n attrs) = Some v -> exists i, (i < n)%nat /\ nth_error attrs i = Some (k, v).
Proof.
  intros L. apply lookup_In in L. apply In_nth_error in L as (i & H). exists i.
  assert (i < length (firstn n attrs))%nat as Li by (apply nth_error_Some; congruence). rewrite firstn_length in Li. split; [lia|].
  rewrite <- (firstn_skipn n attrs). rewrite nth_error_app1 by (rewrite firstn_length; lia). exact H.
Qed.

Section Rewriting.
  Variables (clk : clock) (mode : Z) (hp : bool) (sl : list slot) (fields gs : list pystr) (attrs : list (pystr * pyval)).
  Hypothesis Dc : decode sl fields = Some attrs.
  Hypothesis Ls : length sl = length fields.
  Hypothesis Lg : length gs = length fields.
  Hypothesis U : NoDup (map fst sl).
  Hypothesis Rw : forall i k ty f g, nth_error sl i = Some (k, ty) -> nth_error fields i = Some f -> nth_error gs i = Some g -> rewritten hp ty f g.
  Hypothesis He : hemispheres_agree attrs sl fields.

  Lemma rw_names : map fst attrs = map fst sl.
  Proof. rewrite (PropsTruncate.decode_names _ _ _ Dc). rewrite firstn_all2; [reflexivity|]. destruct (decode_nth _ _ _ Dc) as [E _]. rewrite map_length. change (@length (pystr * pystr) sl) with (@length slot sl). lia. Qed.
  Lemma rw_value i k ty f g : nth_error sl i = Some (k, ty) -> nth_error fields i = Some f -> nth_error gs i = Some g ->
    exists w, nth_error attrs i = Some (k, w) /\ val2str w ty hp = Ok g /\ In ty field_types /\ (In ty text_types -> w = VStr f).
  Proof.
    intros N F G. destruct (decode_nth _ _ _ Dc) as [_ H]. destruct (H i k ty f N F) as (val & V & Ha).
    set (later := combine (skipn (S i) sl) (skipn (S i) fields)) in *. exists (settle k val later). split; [exact Ha|].
    destruct (C71_typed _ _ _ V) as [Ty Ft]. destruct (C98_field hp ty f g (Rw i k ty f g N F G)) as (val' & V' & W). rewrite V in V'. assert (val' = val) as -> by congruence.
    assert (forall pos ty0 hty neg other fl, In (pos, ty0, hty, neg, other) axes -> k = pos -> last_of hty later = Some fl -> In ty [u "LA"; u "LN"]) as Pos.
    { intros pos ty0 hty neg other fl Ia -> L. apply last_of_In in L as (h & L). apply combine_nth_In in L as (j & J1 & J2). rewrite nth_skipn in J1.
      destruct (He pos ty0 hty neg other i (S i + j)%nat ty h Ia ltac:(lia) N J1) as [I _]. exact I. }
    assert (forall neg o, In ty [u "LA"; u "LN"] -> val2str (with_sign neg o val) ty hp = Ok g) as Sg.
    { intros neg o I. destruct o as [fl|]; [|exact W]. assert (str2val f ty = Ok (dmm2ddd f)) as Ed by (destruct I as [<-|[<-|[]]]; reflexivity).
      assert (val = dmm2ddd f) as -> by congruence.
      destruct (C49_total f) as [Q|(y & Q)]; change (str2val f (u "LA")) with (Ok (dmm2ddd f)) in Q; injection Q as Q; rewrite Q in *; cbn [with_sign].
      - exact W.
      - assert (forall x, val2str (VFloat x) ty hp = ddd2dmm_float x ty hp) as Vf by (intros x; destruct I as [<-|[<-|[]]]; reflexivity).
        rewrite Vf in W. rewrite Vf, position_sign. exact W. }
    split; [|split; [exact Ft|]].
    - unfold settle. destruct (str_eqb_spec k (u "lat")) as [Ek|]; [|destruct (str_eqb_spec k (u "lon")) as [Ek|]; [|exact W]].
      + destruct (last_of (u "LAD") later) as [fl|] eqn:L; [|exact W]. apply Sg. eapply (Pos (u "lat")); [left; reflexivity|exact Ek|exact L].
      + destruct (last_of (u "LND") later) as [fl|] eqn:L; [|exact W]. apply Sg. eapply (Pos (u "lon")); [right; left; reflexivity|exact Ek|exact L].
    - intros T. rewrite (C12_text f ty T) in V. assert (val = VStr f) as -> by congruence. unfold settle.
      destruct (str_eqb k (u "lat")); [destruct (last_of _ _); reflexivity|]. destruct (str_eqb k (u "lon")); [destruct (last_of _ _); reflexivity|reflexivity].
  Qed.
  Lemma rw_lookup i k w : nth_error attrs i = Some (k, w) -> lookup k attrs = Some w.
  Proof. intros H. apply In_lookup_nodup; [rewrite rw_names; exact U|eapply nth_error_In, H]. Qed.
  Lemma rw_value_for i k ty f w : nth_error sl i = Some (k, ty) -> nth_error fields i = Some f -> nth_error attrs i = Some (k, w) -> In ty field_types ->
    (In ty text_types -> w = VStr f) -> forall now, value_for mode now attrs (firstn i attrs) k ty = Some w.
  Proof.
    intros N F A Ft T now. unfold value_for. rewrite (rw_lookup _ _ _ A).
    assert (exists nom, lookup ty (nominal_values mode now) = Some nom) as (nom & ->).
    { clear - Ft. repeat (destruct Ft as [<-|Ft]; [eexists; reflexivity|]). destruct Ft. }
    cbv zeta.
    assert (forall pos ty0 hty neg other v, In (pos, ty0, hty, neg, other) axes -> ty = hty -> lookup pos (firstn i attrs) = Some v ->
       w = VStr (if below_zero v then neg else other)) as Hm.
    { intros pos ty0 hty neg other v Ia -> L. apply lookup_firstn in L as (j & Lj & J). pose proof (rw_lookup _ _ _ J) as Lv.
      assert (exists t, nth_error sl j = Some (pos, t)) as (t & St).
      { assert (nth_error (map fst attrs) j = Some pos) as Q by (erewrite map_nth_error by exact J; reflexivity). rewrite rw_names in Q.
        destruct (nth_error sl j) as [[a t]|] eqn:E.
        - erewrite map_nth_error in Q by exact E. cbn [fst] in Q. exists t. injection Q as ->. reflexivity.
        - apply nth_error_None in E. assert (nth_error (map fst sl) j = None) as Q' by (apply nth_error_None; rewrite map_length; exact E). congruence. }
      destruct (He pos ty0 hty neg other j i t k Ia Lj St N) as (_ & v' & Lv' & Fi). assert (v' = v) as -> by congruence.
      rewrite F in Fi. rewrite T; [congruence|]. destruct Ia as [Ia|[Ia|[]]]; injection Ia as <- <- <- <- <-; cbn; tauto. }
    destruct (str_eqb_spec ty (u "LAD")) as [Et|_]; [|destruct (str_eqb_spec ty (u "LND")) as [Et|_]; [|reflexivity]].
    - destruct (lookup (u "lat") (firstn i attrs)) as [v|] eqn:L; [|reflexivity]. f_equal. symmetry. eapply Hm; [left; reflexivity|exact Et|exact L].
    - destruct (lookup (u "lon") (firstn i attrs)) as [v|] eqn:L; [|reflexivity]. f_equal. symmetry. eapply Hm; [right; left; reflexivity|exact Et|exact L].
  Qed.
  Lemma rw_fills : fills clk mode hp attrs [] sl attrs gs.
  Proof.
    assert (length attrs = length sl) as La by (destruct (decode_nth _ _ _ Dc) as [E _]; lia).
    assert (forall m n, (m = length sl - n)%nat -> (n <= length sl)%nat -> fills clk mode hp attrs (firstn n attrs) (skipn n sl) (skipn n attrs) (skipn n gs)) as G.
    { induction m as [|m IH]; intros n Em Hn.
      - rewrite !skipn_all2 by lia. constructor.
      - destruct (nth_error sl n) as [[k ty]|] eqn:N; [|apply nth_error_None in N; lia].
        destruct (nth_error fields n) as [f|] eqn:F; [|apply nth_error_None in F; lia].
        destruct (nth_error gs n) as [g|] eqn:Gn; [|apply nth_error_None in Gn; lia].
        destruct (rw_value n k ty f g N F Gn) as (w & A & W & Ft & T).
        rewrite (skipn_nth _ _ _ N), (skipn_nth _ _ _ Gn), (skipn_nth _ _ _ A). constructor.
        + eapply rw_value_for; eassumption.
        + exact W.
        + rewrite <- (firstn_nth _ _ _ A). apply IH; lia. }
    exact (G (length sl) 0%nat ltac:(lia) ltac:(lia)).
  Qed.
End Rewriting.

(* ------------------------------------------------ the repeat counts are found again *)
(* the keyword names tell how often an indeterminate group repeats *)
Definition countable (d : pdict) : Prop :=
  no_indeterminate d
  \/ exists d1 g ms d2, d = d1 ++ (g, AGroup (NStr (u "None")) ms) :: d2 /\ plain d1 /\ plain ms /\ plain d2 /\ ms <> []
       /\ Forall (fun e => ~ In 95%N (fst e)) (d1 ++ ms ++ d2).

Lemma fills_app clk mode hp kw sl1 : forall before sl2 a f, fills clk mode hp kw before (sl1 ++ sl2) a f ->
  exists a1 a2 f1 f2, a = a1 ++ a2 /\ f = f1 ++ f2 /\ map fst a1 = map fst sl1
    /\ fills clk mode hp kw before sl1 a1 f1 /\ fills clk mode hp kw (before ++ a1) sl2 a2 f2.
Proof.
  induction sl1 as [|[k ty] sl1 IH]; intros before sl2 a f H.
  - exists [], a, [], f. rewrite app_nil_r. repeat split; [constructor|exact H].
  - cbn [app] in H. inversion H as [|? ? ? ? v g attrs' fields' V W H']; subst. destruct (IH _ _ _ _ H') as (a1 & a2 & f1 & f2 & -> & -> & Nm & F1 & F2).
    exists ((k, v) :: a1), a2, (g :: f1), f2. repeat split.
    + cbn [map fst]. rewrite Nm. reflexivity.
    + constructor; assumption.
    + rewrite <- app_assoc in F2. exact F2.
Qed.
Lemma builds_plain clk mode hp kw d : forall before a f, plain d -> fills clk mode hp kw before (plain_slots d) a f ->
  forall d2 a2 f2, builds clk mode hp kw (before ++ a) d2 a2 f2 -> builds clk mode hp kw before (d ++ d2) (a ++ a2) (f ++ f2).
Proof.
  induction d as [|[k e] d IH]; intros before a f P H d2 a2 f2 B.
  - inversion H; subst. rewrite app_nil_r in B. exact B.
  - inversion P as [|? ? [ty E] P']; subst. cbn [snd] in E. subst e. cbn [plain_slots flat_map snd fst app] in H. fold (plain_slots d) in H.
    inversion H as [|? ? ? ? v g attrs' fields' V W H']; subst. cbn [app]. constructor; [exact V|exact W|]. apply IH; [exact P'|exact H'|].
    rewrite <- app_assoc. exact B.
Qed.
Lemma fills_names clk mode hp kw sl : forall before a f, fills clk mode hp kw before sl a f -> map fst a = map fst sl.
Proof. induction sl as [|[k ty] sl IH]; intros before a f H; inversion H; subst; [reflexivity|]. cbn [map fst]. f_equal. eapply IH. eassumption. Qed.

(* counts given by an earlier attribute or a number *)
Lemma builds_counted clk mode hp attrs total d : forall pos sl earlier before a f,
  layout (int_attr attrs) total pos d sl -> no_indeterminate d -> counts_earlier earlier d ->
  NoDup (map fst attrs) -> attrs = before ++ a -> incl (map fst earlier) (map fst before) ->
  fills clk mode hp attrs before sl a f -> builds clk mode hp attrs before d a f.
Proof.
  induction d as [|[k e] d IH]; intros pos sl earlier before a f L NI C ND Ea I H.
  - inversion L; subst. inversion H; subst. constructor.
  - inversion NI as [|? ? N1 N2]; subst. cbn [snd] in N1. inversion L as [|? ? ty ? sl' L'|? ? n ms ? sl' cnt Rp L']; subst.
    + inversion H as [|? ? ? ? v g a' f' V W H']; subst. constructor; [exact V|exact W|]. cbn [counts_earlier] in C.
      eapply (IH (S pos) sl' (earlier ++ [(k, ty)])); try eassumption.
      * rewrite <- app_assoc. reflexivity.
      * rewrite !map_app. intros x Hx. apply in_app_or in Hx. apply in_or_app. destruct Hx as [Hx|Hx]; [left; apply I, Hx|right; exact Hx].
    + destruct (fills_app _ _ _ _ _ _ _ _ _ H) as (a1 & a2 & f1 & f2 & -> & -> & _ & F1 & F2).
      econstructor; [|exact F1|].
      * unfold kw_repeats, repeats in *. destruct n as [z|name]; [exact Rp|]. destruct (str_eqb_spec name (u "None")) as [->|Nn]; [contradiction N1; reflexivity|].
        destruct Rp as (z & Ez & Ec). exists z. split; [|exact Ec]. cbn [counts_earlier] in C. destruct C as [[->|Cin] _]; [contradiction Nn; reflexivity|].
        assert (lookup name (before ++ a1 ++ a2) = lookup name before) as Lk.
        { apply (in_map fst) in Cin. apply I in Cin. cbn [fst] in Cin. apply in_map_iff in Cin as ([n' w] & <- & Hw). cbn [fst].
          transitivity (Some w); [|symmetry]; (apply In_lookup_nodup; [|]).
          - exact ND.
          - apply in_or_app. left. exact Hw.
          - rewrite map_app in ND. apply NoDup_prefix in ND. exact ND.
          - exact Hw. }
        unfold int_attr in Ez. rewrite Lk in Ez. exact Ez.
      * eapply (IH _ sl' earlier); try eassumption.
        -- destruct n; cbn in C; [exact C|apply C].
        -- rewrite app_assoc. reflexivity.
        -- intros x Hx. rewrite map_app. apply in_or_app. left. apply I, Hx.
Qed.

(* counts read from the keyword names *)
Lemma names_count names cnt : (N.of_nat cnt < 10 ^ 4300)%N ->
  (forall a, In a names -> ~ In 95%N a \/ exists p i, a = p ++ [95%N] ++ index_text i /\ ~ In 95%N p /\ (i <= N.of_nat cnt)%N) ->
  ((0 < cnt)%nat -> exists p, ~ In 95%N p /\ In (p ++ [95%N] ++ index_text (N.of_nat cnt)) names) ->
  groupsize names = Ok (Z.of_nat cnt).
Proof.
  intros B H M. assert (forall i, (i <= N.of_nat cnt)%N -> int_of_str (index_text i) = Ok (Z.of_N i)) as V.
  { intros i Li. rewrite <- fmt_02d_index. destruct (int_of_fmt i) as [E|E]; [exact E|]. exfalso. apply (N.lt_irrefl (10 ^ 4300)). eapply N.le_lt_trans; [exact E|]. eapply N.le_lt_trans; eassumption. }
  assert (forall a t, In a names -> suffix_text a t -> exists i, t = index_text i /\ (i <= N.of_nat cnt)%N) as K.
  { intros a t Ia Sa. destruct (H a Ia) as [Nu|(p & i & -> & Np & Li)].
    - destruct Sa as (p & -> & _). elim Nu. apply in_or_app. right. left. reflexivity.
    - exists i. split; [|exact Li]. eapply suffix_functional; [exact Sa|]. exists p. split; [reflexivity|exact Np]. }
  destruct (C56_size names) as (n & E & P & Mx & C).
  { intros a t Ia Sa. destruct (K a t Ia Sa) as (i & -> & Li). exists (Z.of_N i). apply V, Li. }
  rewrite E. f_equal. apply Z.le_antisymm.
  - destruct C as [->|(a & t & Ia & Sa & W)]; [lia|]. destruct (K a t Ia Sa) as (i & -> & Li). rewrite (V i Li) in W. assert (n = Z.of_N i) as -> by congruence. lia.
  - destruct cnt as [|c]; [exact P|]. destruct M as (p & Np & Ip); [lia|]. rewrite <- (nat_N_Z (S c)). eapply Mx; [exact Ip| |apply V; lia]. exists p. split; [reflexivity|exact Np].
Qed.
Lemma plain_names d : plain d -> map fst (plain_slots d) = map fst d.
Proof. induction 1 as [|[k e] d [ty E] P IH]; [reflexivity|]. cbn [snd] in E. subst e. cbn [plain_slots flat_map snd fst app map]. fold (plain_slots d). rewrite IH. reflexivity. Qed.
Lemma group_names n ms : forall i a, plain ms -> In a (map fst (group_slots n i ms)) ->
  exists p j, In p (map fst ms) /\ a = p ++ [95%N] ++ index_text j /\ (i <= j < i + N.of_nat n)%N.
Proof.
  induction n as [|n IH]; intros i a P H; [contradiction|]. cbn [group_slots] in H. rewrite map_app in H. apply in_app_or in H as [H|H].
  - rewrite map_map in H. cbn [fst] in H. apply in_map_iff in H as (s & <- & Hs). exists (fst s), i. split; [|split; [reflexivity|lia]].
    rewrite <- (plain_names ms P). apply in_map, Hs.
  - destruct (IH _ _ P H) as (p & j & I & E & L). exists p, j. split; [exact I|]. split; [exact E|lia].
Qed.
Lemma group_last n ms : forall i p, plain ms -> In p (map fst ms) -> In (p ++ [95%N] ++ index_text (i + N.of_nat n)) (map fst (group_slots (S n) i ms)).
Proof.
  induction n as [|n IH]; intros i p P H.
  - rewrite N.add_0_r. cbn [group_slots]. rewrite app_nil_r, map_map. cbn [fst]. rewrite <- (plain_names ms P) in H. apply in_map_iff in H as (s & <- & Hs).
    apply in_map_iff. exists s. split; [reflexivity|exact Hs].
  - cbn [group_slots]. rewrite map_app. apply in_or_app. right. specialize (IH (N.succ i) p P H).
    replace (N.succ i + N.of_nat n)%N with (i + N.of_nat (S n))%N in IH by lia. exact IH.
Qed.
Lemma layout_app_plain val total d1 : forall pos d2 sl, plain d1 -> layout val total pos (d1 ++ d2) sl ->
  exists sl2, sl = plain_slots d1 ++ sl2 /\ layout val total (pos + length d1) d2 sl2.
Proof.
  induction d1 as [|[k e] d1 IH]; intros pos d2 sl P L; [exists sl; rewrite Nat.add_0_r; split; [reflexivity|exact L]|].
  inversion P as [|? ? [ty E] P']; subst. cbn [snd] in E. subst e. cbn [app] in L. inversion L as [|? ? ? ? sl' L'|]; subst.
  destruct (IH _ _ _ P' L') as (sl2 & -> & L2). exists sl2. split; [reflexivity|]. cbn [length]. replace (pos + S (length d1))%nat with (S pos + length d1)%nat by lia. exact L2.
Qed.

(* every layout that is filled is built *)
Lemma layout_builds clk mode hp attrs d sl fields :
  in_order d -> countable d -> (N.of_nat (length attrs) < 10 ^ 4300)%N -> length sl = length attrs ->
  layout (int_attr attrs) (length attrs) 0 d sl -> fills clk mode hp attrs [] sl attrs fields -> builds clk mode hp attrs [] d attrs fields.
Proof.
  intros ((Fl & Un & _) & _ & C & _) K B Ln L H. pose proof (Un _ (layout_expands _ _ _ _ _ L)) as ND. pose proof (fills_names _ _ _ _ _ _ _ _ H) as Nm.
  destruct K as [NI|(d1 & g & ms & d2 & -> & P1 & Pm & P2 & Ne & Nu)].
  - eapply builds_counted; try eassumption; [rewrite Nm; exact ND|reflexivity|intros x []].
  - destruct (layout_app_plain _ _ _ _ _ _ P1 L) as (sl2 & -> & L2). inversion L2 as [| |? ? ? ? ? sl3 cnt Rp L3]; subst.
    pose proof (expands_plain _ _ P2 (layout_expands _ _ _ _ _ L3)) as ->.
    assert (groupsize (map fst attrs) = Ok (Z.of_nat cnt)) as Gs.
    { rewrite Nm, !map_app, !plain_names by assumption. rewrite !Forall_app in Nu. destruct Nu as (U1 & U2 & U3). rewrite Forall_forall in U1, U2, U3.
      assert (forall a d, (forall e, In e d -> ~ In 95%N (fst e)) -> In a (map (@fst pystr adef) d) -> ~ In 95%N a) as Sn.
      { intros a d Hd Ha. apply in_map_iff in Ha as (e & <- & He). apply Hd, He. }
      apply names_count.
      - eapply N.le_lt_trans; [|exact B]. rewrite <- Ln, !app_length, group_slots_length by exact Pm. assert (1 <= length ms)%nat by (destruct ms; [contradiction Ne; reflexivity|cbn; lia]). nia.
      - intros a Ia. apply in_app_or in Ia as [Ia|Ia]; [left; eapply (Sn a d1); eassumption|]. apply in_app_or in Ia as [Ia|Ia]; [|left; eapply (Sn a d2); eassumption].
        right. destruct (group_names _ _ _ _ Pm Ia) as (p & j & Ip & E & Lj). exists p, j. split; [exact E|]. split; [eapply (Sn p ms); eassumption|lia].
      - intros Pc. destruct cnt as [|c]; [lia|]. destruct ms as [|[p e] ms]; [contradiction Ne; reflexivity|]. exists p. split; [apply (U2 (p, e)); left; reflexivity|].
        apply in_or_app. right. apply in_or_app. left. replace (N.of_nat (S c)) with (1 + N.of_nat c)%N by lia. apply group_last; [exact Pm|]. left. reflexivity. }
    destruct (fills_app _ _ _ _ _ _ _ _ _ H) as (a1 & a2 & f1 & f2 & Ea & -> & _ & F1 & F2).
    destruct (fills_app _ _ _ _ _ _ _ _ _ F2) as (a3 & a4 & f3 & f4 & -> & -> & _ & F3 & F4).
    rewrite Ea at 2. eapply builds_plain; [exact P1|exact F1|]. econstructor.
    + unfold kw_repeats. change (str_eqb (u "None") (u "None")) with true. cbv iota. exists (Z.of_nat cnt). split; [exact Gs|]. rewrite Nat2Z.id. reflexivity.
    + exact F3.
    + rewrite <- (app_nil_r d2), <- (app_nil_r a4), <- (app_nil_r f4). eapply builds_plain; [exact P2|exact F4|]. constructor.
Qed.

Lemma all_rewritten_nth hp sl fields gs : all_rewritten hp sl fields gs ->
  length sl = length fields /\ length gs = length fields
  /\ forall i k ty f g, nth_error sl i = Some (k, ty) -> nth_error fields i = Some f -> nth_error gs i = Some g -> rewritten hp ty f g.
Proof.
  induction 1 as [|k ty f g sl fields gs R _ (L1 & L2 & IH)].
  - repeat split. intros [|i] k ty f g E; discriminate.
  - cbn [length]. split; [lia|]. split; [lia|]. intros [|i] k' ty' f' g'; cbn [nth_error]; [congruence|apply IH].
Qed.

(* a message made from the attributes of a parsed one has the same attributes, and the rewritten fields *)
Theorem C98_rebuilt clk m content ck talker msgid fields mode v ud x d sl hp v' gs :
  given m content ck talker msgid fields -> parse m mode v ud = Ok (Some x) -> kept_as_is talker msgid fields ->
  definition_for mode ud msgid fields = Some d -> in_order d -> countable d -> good ud ->
  layout (int_attr (m_attrs x)) (length fields) 0 d sl -> all_rewritten hp sl fields gs -> hemispheres_agree (m_attrs x) sl fields ->
  (N.of_nat (length fields) < 10 ^ 4300)%N ->
  (wants_msgid v' = true -> has_key talker NMEA_TALKERS = true /\ known_id ud msgid = true) ->
  (forall n, In n (reserved msgid) -> ~ In n (map fst (m_attrs x))) ->
  keyword_definition mode ud msgid (m_attrs x) = Some d ->
  exists y, NMEAMessage clk talker msgid mode hp v' ud None None (m_attrs x) = Ok y
    /\ m_talker y = m_talker x /\ m_msgID y = m_msgID x /\ m_mode y = m_mode x
    /\ m_attrs y = m_attrs x /\ m_payload y = gs.
Proof.
  intros G E K D O Ct Gd L R He Bn Wv Rs Kd. destruct (all_rewritten_nth _ _ _ _ R) as (L1 & L2 & Rn).
  pose proof O as (W & _). destruct (C13_decoded _ _ _ _ _ _ _ _ _ _ _ G E K D W) as (sl' & L' & Dc).
  pose proof (layout_functional _ _ _ _ _ _ L L') as <-. destruct (decode_nth _ _ _ Dc) as [La _].
  assert (length (m_attrs x) = length fields) as La' by lia.
  pose proof W as (_ & Un & _). pose proof (Un _ (layout_expands _ _ _ _ _ L)) as ND.
  pose proof (rw_fills clk mode hp sl fields gs (m_attrs x) Dc L1 L2 ND Rn He) as F.
  assert (builds clk mode hp (m_attrs x) [] d (m_attrs x) gs) as B.
  { eapply layout_builds; try eassumption; [rewrite La'; exact Bn|lia|rewrite La'; exact L]. }
  destruct (parse_given _ _ _ _ _ E) as (content' & ck' & talker' & msgid' & fields' & G' & P').
  destruct (given_functional _ _ _ _ _ _ _ _ _ _ _ G' G) as (-> & -> & -> & -> & ->).
  destruct P' as (Vm & _ & _ & _ & X1 & X2 & X3 & _).
  destruct (C68_complete clk talker msgid mode hp v' ud None (m_attrs x) d (m_attrs x) gs Gd) as (y & Y & A & P); try assumption.
  { apply valid_mode_iff, Vm. }
  destruct (C68_built _ _ _ _ _ _ _ _ _ _ Gd Y) as (Y1 & Y2 & Y3 & _).
  exists y. split; [exact Y|]. rewrite Y1, Y2, Y3, X1, X2, X3. repeat split; assumption.
Qed.

(* when the fields are already written as the library writes them, the sentence itself comes back *)
Theorem C98_sentence clk m content ck talker msgid fields mode v ud x d sl hp v' :
  given m content ck talker msgid fields -> parse m mode v ud = Ok (Some x) -> kept_as_is talker msgid fields ->
  definition_for mode ud msgid fields = Some d -> in_order d -> countable d -> good ud ->
  layout (int_attr (m_attrs x)) (length fields) 0 d sl -> all_rewritten hp sl fields fields -> hemispheres_agree (m_attrs x) sl fields ->
  (N.of_nat (length fields) < 10 ^ 4300)%N ->
  (wants_msgid v' = true -> has_key talker NMEA_TALKERS = true /\ known_id ud msgid = true) ->
  (forall n, In n (reserved msgid) -> ~ In n (map fst (m_attrs x))) ->
  keyword_definition mode ud msgid (m_attrs x) = Some d -> is_checksum content ck ->
  exists y, NMEAMessage clk talker msgid mode hp v' ud None None (m_attrs x) = Ok y
    /\ serialize y = utf8_encode ([dollar] ++ content ++ [star] ++ ck ++ [cr; lf]).
Proof.
  intros G E K D O Ct Gd L R He Bn Wv Rs Kd Ck.
  destruct (C98_rebuilt clk m content ck talker msgid fields mode v ud x d sl hp v' fields) as (y & Y & Y1 & Y2 & _ & _ & P); try assumption.
  destruct (parse_given _ _ _ _ _ E) as (content' & ck' & talker' & msgid' & fields' & G' & _ & _ & _ & _ & X1 & X2 & _).
  destruct (given_functional _ _ _ _ _ _ _ _ _ _ _ G' G) as (-> & -> & -> & -> & ->).
  exists y. split; [exact Y|]. rewrite C10_serialize, Y1, Y2, P, X1, X2.
  pose proof (C10_checksum_keywords _ _ _ _ _ _ _ _ _ Y) as Q. rewrite Kd in Q. destruct Q as (k & Ek & Qk). rewrite Ek. rewrite P in Qk.
  destruct G as [_ (Ec & _)]. 
  apply is_checksum_iff in Qk. apply is_checksum_iff in Ck. unfold content_of in Qk. rewrite <- Ec, <- Ck in Qk. subst k.
  unfold sentence. rewrite Ec, <- !app_assoc. reflexivity.
Qed.

(* ---------------------------------------------------- standard sentences *)
Definition no_underscoreb (k : pystr) : bool := negb (existsb (N.eqb 95) k).
Lemma no_underscoreb_ok k : no_underscoreb k = true -> ~ In 95%N k.
Proof. unfold no_underscoreb. intros E I. rewrite negb_true_iff in E. assert (existsb (N.eqb 95) k = true) as Q by (apply existsb_exists; exists 95%N; split; [exact I|reflexivity]). congruence. Qed.
Fixpoint plain_nub (d : pdict) : bool :=
  match d with [] => true | (k, ASingle _) :: d' => no_underscoreb k && plain_nub d' | _ => false end.
Lemma plain_nub_ok d : plain_nub d = true -> plain d /\ Forall (fun e => ~ In 95%N (fst e)) d.
Proof.
  induction d as [|[k [ty|n ms]] d IH]; [split; constructor| |discriminate]. cbn [plain_nub]. intros E. apply andb_true_iff in E as [E1 E2].
  destruct (IH E2) as [P F]. split; constructor; try assumption; [eexists; reflexivity|apply no_underscoreb_ok, E1].
Qed.
Fixpoint countb (d : pdict) : bool :=
  match d with
  | (k, ASingle _) :: d' => no_underscoreb k && countb d'
  | (_, AGroup (NStr n) (m :: ms)) :: d' => str_eqb n (u "None") && plain_nub (m :: ms) && plain_nub d'
  | _ => false
  end.
Lemma countb_ok d : countb d = true -> exists d1 g ms d2, d = d1 ++ (g, AGroup (NStr (u "None")) ms) :: d2 /\ plain d1 /\ plain ms /\ plain d2 /\ ms <> []
       /\ Forall (fun e => ~ In 95%N (fst e)) (d1 ++ ms ++ d2).
Proof.
  induction d as [|[k [ty|[z|n] [|m ms]]] d IH]; try discriminate; cbn [countb]; intros E.
  - apply andb_true_iff in E as [E1 E2]. destruct (IH E2) as (d1 & g & ms & d2 & -> & P1 & Pm & P2 & Ne & Nu).
    exists ((k, ASingle ty) :: d1), g, ms, d2. repeat split; try assumption; constructor; try assumption; [eexists; reflexivity|apply no_underscoreb_ok, E1].
  - apply andb_true_iff in E as [E E3]. apply andb_true_iff in E as [E1 E2]. apply plain_nub_ok in E2 as [P1 N1], E3 as [P2 N2]. apply str_eqb_eq in E1. subst n.
    exists [], k, (m :: ms), d. repeat split; try assumption; [constructor|discriminate|]. cbn [app]. change (m :: ms ++ d) with ((m :: ms) ++ d). apply Forall_app. split; assumption.
Qed.
Definition no_indetb (d : pdict) : bool := forallb (fun e => match snd e with AGroup (NStr n) _ => negb (str_eqb n (u "None")) | _ => true end) d.
Definition countableb (d : pdict) : bool := no_indetb d || countb d.
Lemma countableb_ok d : countableb d = true -> countable d.
Proof.
  unfold countableb. intros E. apply orb_true_iff in E as [E|E]; [left|right; apply countb_ok, E].
  unfold no_indetb in E. rewrite forallb_forall in E. apply Forall_forall. intros e Ie. specialize (E e Ie).
  destruct (snd e) as [|[|n] ?]; try exact I. apply negb_true_iff, str_eqb_neq in E. exact E.
Qed.
Definition plain_names_okb (bad : list pystr) (d : pdict) : bool :=
  forallb (fun e => match snd e with ASingle _ => negb (str_in (fst e) bad) | _ => true end) d.
Definition helper_names := [u "pindex"; u "pdict"; u "key"; u "gindex"; u "att"].
Lemma standard_checked : forallb (fun mode => forallb (fun e => countableb (snd e) && plain_names_okb helper_names (snd e)) (definitions_standard mode)) [0; 1; 2] = true.
Proof. vm_compute. reflexivity. Qed.
Lemma standard_ids_checked : forallb (fun e => negb (str_in (fst e) prefixes) && negb (str_in (fst e) special_ids)) NMEA_MSGIDS = true.
Proof. vm_compute. reflexivity. Qed.
Lemma expands_names d sl a : flat d -> expands d sl -> In a (map fst sl) -> (exists ty, In (a, ASingle ty) d) \/ In 95%N a.
Proof.
  intros Fl X. induction X as [|k ty d sl X IH|k n ms d sl cnt X IH]; intros I; [contradiction| |]; inversion Fl as [|? ? F1 F2]; subst.
  - cbn [map fst] in I. destruct I as [<-|I]; [left; exists ty; left; reflexivity|]. destruct (IH F2 I) as [(t & It)|It]; [left; exists t; right; exact It|right; exact It].
  - rewrite map_app in I. apply in_app_or in I as [I|I].
    + right. cbn [snd] in F1. destruct (group_names _ _ _ _ (proj1 F1) I) as (p & j & _ & -> & _). apply in_or_app. right. left. reflexivity.
    + destruct (IH F2 I) as [(t & It)|It]; [left; exists t; right; exact It|right; exact It].
Qed.
Lemma standard_facts msgid mode ud fields d : has_key msgid NMEA_MSGIDS = true -> (mode = 0 \/ mode = 1 \/ mode = 2) ->
  definition_for mode ud msgid fields = Some d ->
  in_order d /\ countable d /\ (forall kw, keyword_definition mode ud msgid kw = Some d)
  /\ (forall sl n, expands d sl -> In n (reserved msgid) -> ~ In n (map fst sl)).
Proof.
  intros Hk Hm D. pose proof standard_ids_checked as Ci. rewrite forallb_forall in Ci.
  assert (str_in msgid prefixes = false /\ str_in msgid special_ids = false) as [Np Ns].
  { unfold has_key in Hk. destruct (lookup msgid NMEA_MSGIDS) as [w|] eqn:Lk; [|discriminate]. apply lookup_In in Lk. specialize (Ci _ Lk). cbn [fst] in Ci.
    apply andb_true_iff in Ci as [C1 C2]. apply negb_true_iff in C1, C2. split; assumption. }
  assert (lookup (str_upper msgid) (definitions_standard mode) = Some d) as Lk.
  { unfold definition_for, lookup_id in D. rewrite Hk, Np in D. exact D. }
  pose proof (lookup_In _ _ _ Lk) as Id.
  assert (In (str_upper msgid, d) builtin_definitions) as Ib.
  { unfold builtin_definitions. unfold definitions_standard in Id. rewrite !in_app_iff. destruct (mode =? 0); [tauto|]. destruct (mode =? 1); tauto. }
  pose proof (C13_builtin_in_order _ _ Ib) as O. pose proof standard_checked as Cs. rewrite forallb_forall in Cs.
  assert (In mode [0; 1; 2]) as Im by (destruct Hm as [->|[->| ->]]; cbn; tauto).
  pose proof (Cs mode Im) as Cm. rewrite forallb_forall in Cm. pose proof (Cm _ Id) as Cd. cbn [snd] in Cd. apply andb_true_iff in Cd as [Cd1 Cd2].
  split; [exact O|]. split; [apply countableb_ok, Cd1|]. split.
  - intros kw. unfold keyword_definition, keyword_id. rewrite Np, Hk. exact Lk.
  - intros sl n X In In'. unfold reserved in In. rewrite Ns, app_nil_r in In. fold helper_names in In.
    destruct O as ((Fl & _) & _). destruct (expands_names _ _ _ Fl X In') as [(ty & It)|It].
    + unfold plain_names_okb in Cd2. rewrite forallb_forall in Cd2. specialize (Cd2 _ It). cbn [snd fst] in Cd2. apply negb_true_iff in Cd2.
      apply str_in_iff in In. congruence.
    + clear - In It. repeat (destruct In as [<-|In]; [cbn in It; intuition discriminate|]). destruct In.
Qed.

Lemma In_firstn {A} (l : list A) n a : In a (firstn n l) -> In a l.
Proof. intros I. rewrite <- (firstn_skipn n l). apply in_or_app. left. exact I. Qed.

(* the conditions are met by every sentence with a standard message id *)
Theorem C98_standard clk m content ck talker msgid fields mode v ud x d sl hp v' gs :
  given m content ck talker msgid fields -> parse m mode v ud = Ok (Some x) -> kept_as_is talker msgid fields ->
  has_key msgid NMEA_MSGIDS = true -> definition_for mode ud msgid fields = Some d -> good ud ->
  layout (int_attr (m_attrs x)) (length fields) 0 d sl -> all_rewritten hp sl fields gs -> hemispheres_agree (m_attrs x) sl fields ->
  (N.of_nat (length fields) < 10 ^ 4300)%N -> (wants_msgid v' = true -> has_key talker NMEA_TALKERS = true) ->
  exists y, NMEAMessage clk talker msgid mode hp v' ud None None (m_attrs x) = Ok y
    /\ m_attrs y = m_attrs x /\ m_payload y = gs
    /\ (gs = fields -> is_checksum content ck -> serialize y = utf8_encode ([dollar] ++ content ++ [star] ++ ck ++ [cr; lf])).
Proof.
  intros G E K Hk D Gd L R He Bn Wv. pose proof (parse_given _ _ _ _ _ E) as (? & ? & ? & ? & ? & _ & Vm & _). apply valid_mode_iff in Vm.
  destruct (standard_facts _ _ _ _ _ Hk Vm D) as (O & Ct & Kd & Rs).
  assert (wants_msgid v' = true -> has_key talker NMEA_TALKERS = true /\ known_id ud msgid = true) as Wv'.
  { intros W. split; [apply Wv, W|]. unfold known_id. rewrite Hk. reflexivity. }
  assert (forall n, In n (reserved msgid) -> ~ In n (map fst (m_attrs x))) as Rs'.
  { intros n In In'. pose proof O as (W & _). destruct (C13_decoded _ _ _ _ _ _ _ _ _ _ _ G E K D W) as (sl' & L' & Dc).
    rewrite (PropsTruncate.decode_names _ _ _ Dc) in In'. apply (Rs sl' n (layout_expands _ _ _ _ _ L') In). revert In'. apply In_firstn. }
  destruct (C98_rebuilt clk m content ck talker msgid fields mode v ud x d sl hp v' gs) as (y & Y & _ & _ & _ & A & P); try assumption; [apply Kd|].
  exists y. split; [exact Y|]. split; [exact A|]. split; [exact P|]. intros -> Ck.
  destruct (C98_sentence clk m content ck talker msgid fields mode v ud x d sl hp v') as (y' & Y' & Q); try assumption; [apply Kd|].
  rewrite Y in Y'. injection Y' as <-. exact Q.
Qed.

(* what the conditions exclude *)
Theorem C98_refuted :
  (* south latitude zero: written as north; no hemisphere: one is added *)
  (exists x y, parse (MStr (u "$GNGLL,0000.00000,S,00000.00000,E,120000.00,A,A*00")) 0 0 [] = Ok (Some x)
     /\ NMEAMessage noon (u "GN") (u "GLL") 0 false 0 [] None None (m_attrs x) = Ok y
     /\ m_payload y = [u "0000.00000"; u "N"; u "00000.00000"; u "E"; u "120000.00"; u "A"; u "A"])
  /\ (exists x y, parse (MStr (u "$GNGLL,,,,,120000.00,V,N*00")) 0 0 [] = Ok (Some x)
     /\ NMEAMessage noon (u "GN") (u "GLL") 0 false 0 [] None None (m_attrs x) = Ok y
     /\ m_payload y = [[]; u "N"; []; u "E"; u "120000.00"; u "V"; u "N"])
  (* fields that are missing at the end: added with nominal values *)
  /\ (exists x y, parse (MStr (u "$GNGLL,5301.00000,N*00")) 0 0 [] = Ok (Some x)
     /\ NMEAMessage noon (u "GN") (u "GLL") 0 false 0 [] None None (m_attrs x) = Ok y
     /\ m_payload y = [u "5301.00000"; u "N"; []; u "E"; u "123456.78"; []; []])
  (* a group name with an underscore *)
  /\ (exists x, parse (MStr (u "$PQTMSENMSG,2,1,1,5*00")) 0 0 [] = Ok (Some x)
     /\ NMEAMessage noon (u "P") (u "QTMSENMSG") 0 false 0 [] None None (m_attrs x) = Raise NMEATypeError).
Proof.
  split; [|split; [|split]]; [eexists; eexists; (split; [vm_compute; reflexivity|]); (split; [vm_compute; reflexivity|]); vm_compute; reflexivity ..|].
  eexists. split; [vm_compute; reflexivity|]. vm_compute. reflexivity.
Qed.

Definition gll_text := u "$GNGLL,5327.0431,S,00214.41396,W,223232.0,A,A*6E".
Definition gll_slots : list slot := [(u "lat", u "LA"); (u "NS", u "LAD"); (u "lon", u "LN"); (u "EW", u "LND"); (u "time", u "TM"); (u "status", u "ST"); (u "posMode", u "ST")].
Definition gll_fields := [u "5327.0431"; u "S"; u "00214.41396"; u "W"; u "223232.0"; u "A"; u "A"].
Example C98_example :
  exists x y, parse (MStr gll_text) 0 0 [] = Ok (Some x)
    /\ layout (int_attr (m_attrs x)) 7 0 (map (fun s => (fst s, ASingle (snd s))) gll_slots) gll_slots
    /\ definition_for 0 [] (u "GLL") gll_fields = Some (map (fun s => (fst s, ASingle (snd s))) gll_slots)
    /\ all_rewritten false gll_slots gll_fields [u "5327.04310"; u "S"; u "00214.41396"; u "W"; u "223232.00"; u "A"; u "A"]
    /\ hemispheres_agree (m_attrs x) gll_slots gll_fields
    /\ NMEAMessage noon (u "GN") (u "GLL") 0 false 0 [] None None (m_attrs x) = Ok y
    /\ serialize y = Ok (u "$GNGLL,5327.04310,S,00214.41396,W,223232.00,A,A*73" ++ [13%N; 10%N]).
Proof.
  eexists. eexists. split; [vm_compute; reflexivity|]. split; [repeat constructor|]. split; [vm_compute; reflexivity|]. split; [|split; [|split; [vm_compute; reflexivity|vm_compute; reflexivity]]].
  - apply ar_cons; [|apply ar_cons; [|apply ar_cons; [|apply ar_cons; [|apply ar_cons; [|apply ar_cons; [|apply ar_cons; [|apply ar_nil]]]]]]].
    + pose proof (rw_position false (u "LA") 2 4 1 53 270431 ltac:(left; reflexivity) ltac:(cbn; lia) ltac:(cbn; lia) eq_refl) as Q. vm_compute in Q. vm_compute. exact Q.
    + apply rw_text. cbn. tauto.
    + pose proof (rw_position false (u "LN") 3 5 0 2 1441396 ltac:(right; left; reflexivity) ltac:(cbn; lia) ltac:(cbn; lia) eq_refl) as Q. vm_compute in Q. vm_compute. exact Q.
    + apply rw_text. cbn. tauto.
    + pose proof (rw_time_decimals false 22 32 32 1 0 ltac:(lia) ltac:(lia) ltac:(lia) ltac:(lia) ltac:(cbn; lia)) as Q. vm_compute in Q. vm_compute. exact Q.
    + apply rw_text. cbn. tauto.
    + apply rw_text. cbn. tauto.
  - intros pos ty0 hty neg other i j ty h Ia Lij Ni Nj.
    assert (j < 7)%nat as Lj by (change 7%nat with (length gll_slots); apply nth_error_Some; congruence).
    destruct Ia as [Ia|[Ia|[]]]; injection Ia as <- <- <- <- <-.
    + assert (j = 1)%nat as -> by (do 7 (destruct j as [|j]; [try reflexivity; vm_compute in Nj; discriminate|]); lia).
      assert (i = 0)%nat as -> by lia. vm_compute in Ni. injection Ni as <-. split; [left; reflexivity|]. eexists. split; [vm_compute; reflexivity|]. vm_compute. reflexivity.
    + assert (j = 3)%nat as -> by (do 7 (destruct j as [|j]; [try reflexivity; vm_compute in Nj; discriminate|]); lia).
      assert (i = 2)%nat as -> by (do 3 (destruct i as [|i]; [try reflexivity; vm_compute in Ni; discriminate|]); lia).
      vm_compute in Ni. injection Ni as <-. split; [right; left; reflexivity|]. eexists. split; [vm_compute; reflexivity|]. vm_compute. reflexivity.
Qed.
