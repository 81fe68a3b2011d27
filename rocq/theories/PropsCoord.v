(* Theorems about decimal and coordinate fields: C47, C48, C49, C51. *)
From Coq Require Import Reals Lia Lra.
From Flocq Require Import Core BinarySingleNaN.
From Verif Require Import Message BaseLemmas TextLemmas NumLemmas TimeSpec TimeProofs CoordSpec FloatProofs DecimalProofs CoordProofs.
Local Open Scope Z_scope.
(* [rval x] is the real number of a finite float, [fdata x] says that x is a finite
   binary64 number, [binary64 x] that x is one or an infinity or NaN. *)

(* ------------------------------------------------------------------ C51 *)
Theorem C51_round_trip x hp : binary64 x ->
  exists s, val2str (VFloat x) (u "DE") hp = Ok s /\ str2val s (u "DE") = Ok (VFloat x).
Proof.
  intros V. exists (str_of_float x). split; [reflexivity|]. pose proof (float_text_round_trip x V) as R.
  unfold str2val. change (text_type (u "DE")) with false. change (str_eqb (u "DE") ty_HX) with false. change (str_eqb (u "DE") ty_DE) with true. cbv iota.
  destruct (str_of_float x) as [|c s] eqn:E.
  - exfalso. assert (exists y, float_of_str [] = Ok y) as [y Y] by (eexists; exact R). vm_compute in Y. discriminate Y.
  - rewrite R. reflexivity.
Qed.
(* so two different floats never print the same *)
Corollary C51_injective x y hp s : binary64 x -> binary64 y ->
  val2str (VFloat x) (u "DE") hp = Ok s -> val2str (VFloat y) (u "DE") hp = Ok s -> x = y.
Proof.
  intros Vx Vy Hx Hy. destruct (C51_round_trip x hp Vx) as (s1 & A1 & B1). destruct (C51_round_trip y hp Vy) as (s2 & A2 & B2).
  rewrite Hx in A1. rewrite Hy in A2. assert (s1 = s2) by congruence. subst s2. congruence.
Qed.
(* the text of a finite float has the shape of a decimal numeral *)
Theorem C51_plain x hp s : fdata x -> val2str (VFloat x) (u "DE") hp = Ok s ->
  Forall (fun c => (48 <= c <= 57)%N \/ In c (u "+-.e")) s.
Proof.
  intros [V F] H. change (Ok (str_of_float x) = Ok s) in H. assert (s = str_of_float x) as -> by congruence. destruct x as [b|b| |b m e]; try discriminate.
  - destruct b; cbn [str_of_float]; vm_compute; repeat (apply Forall_cons; [try (left; split; discriminate); right; cbn; tauto|]); apply Forall_nil.
  - destruct (float_text_reads b m e V) as (_ & t & -> & Ft & _).
    assert (Forall (fun c => (48 <= c <= 57)%N \/ In c (u "+-.e")) t) as G.
    { eapply Forall_impl; [|exact Ft]. unfold numeral_char. intros c C. cbn. lia. }
    destruct b; [|exact G]. apply Forall_cons; [right; cbn; tauto|exact G].
Qed.
Example C51_example : let x := f_of_dec true 1 (-1) in
  binary64 x /\ val2str (VFloat x) (u "DE") false = Ok (u "-0.1") /\ str2val (u "-0.1") (u "DE") = Ok (VFloat x).
Proof. vm_compute. repeat split. Qed.
Example C51_example_exp : let x := f_of_dec false 6022 20 in
  binary64 x /\ val2str (VFloat x) (u "DE") false = Ok (u "6.022e+23") /\ str2val (u "6.022e+23") (u "DE") = Ok (VFloat x).
Proof. vm_compute. repeat split. Qed.

(* ------------------------------------------------------------------ C47 *)
(* degrees as 2 or 3 digits, then minutes as 2 digits, a point and 5 or 7 decimals;
   the printed position is within half a unit of the last minute decimal (and
   1e-12 degrees) of |x| *)
Definition coordinate_text (w k : nat) (degrees minutes : Z) : pystr :=
  numeral_text w degrees ++ numeral_text 2 (minutes / 10 ^ Z.of_nat k) ++ u "." ++ numeral_text k minutes.
Definition coordinate_value (k : nat) (degrees minutes : Z) : R :=
  (IZR degrees + IZR minutes / (60 * IZR (10 ^ Z.of_nat k)))%R.
Theorem C47_latitude x (hp : bool) k : fdata x -> (Rabs (rval x) < 100)%R -> k = (if hp then 7%nat else 5%nat) ->
  exists d m, val2str (VFloat x) (u "LA") hp = Ok (coordinate_text 2 k d m)
    /\ 0 <= d < 100 /\ 0 <= m <= 60 * 10 ^ Z.of_nat k
    /\ (Rabs (coordinate_value k d m - Rabs (rval x)) <= / 2 / (60 * IZR (10 ^ Z.of_nat k)) + / 1000000000000)%R.
Proof.
  intros D B ->. destruct (ddd2dmm_correct x ty_LA hp D) as (q & n & Q & N & E & A); [exact B|].
  exists q, n. unfold coordinate_value. rewrite <- pow10_IZR by lia. split; [exact E|]. split; [exact Q|]. split; [exact N|exact A].
Qed.
Theorem C47_longitude x (hp : bool) k : fdata x -> (Rabs (rval x) < 1000)%R -> k = (if hp then 7%nat else 5%nat) ->
  exists d m, val2str (VFloat x) (u "LN") hp = Ok (coordinate_text 3 k d m)
    /\ 0 <= d < 1000 /\ 0 <= m <= 60 * 10 ^ Z.of_nat k
    /\ (Rabs (coordinate_value k d m - Rabs (rval x)) <= / 2 / (60 * IZR (10 ^ Z.of_nat k)) + / 1000000000000)%R.
Proof.
  intros D B ->. destruct (ddd2dmm_correct x ty_LN hp D) as (q & n & Q & N & E & A); [exact B|].
  exists q, n. unfold coordinate_value. rewrite <- pow10_IZR by lia. split; [exact E|]. split; [exact Q|]. split; [exact N|exact A].
Qed.
(* the width is fixed *)
Theorem C47_width w k d m : length (coordinate_text w k d m) = (w + 2 + 1 + k)%nat.
Proof. unfold coordinate_text. rewrite !app_length, !numeral_text_length. cbn [length u]. change (length (u ".")) with 1%nat. lia. Qed.
(* whole degrees *)
Theorem C47_integer z (hp : bool) k w : 0 <= z < 10 ^ Z.of_nat w -> k = (if hp then 7%nat else 5%nat) ->
  (w = 2%nat -> val2str (VInt z) (u "LA") hp = Ok (coordinate_text 2 k z 0) /\ val2str (VInt (- z)) (u "LA") hp = Ok (coordinate_text 2 k z 0))
  /\ (w = 3%nat -> val2str (VInt z) (u "LN") hp = Ok (coordinate_text 3 k z 0) /\ val2str (VInt (- z)) (u "LN") hp = Ok (coordinate_text 3 k z 0)).
Proof.
  intros B ->.
  assert (forall att, 0 <= z < 10 ^ Z.of_nat (degree_digits att) -> (degree_digits att = 2%nat \/ degree_digits att = 3%nat) ->
    ddd2dmm_int z att hp = Ok (coordinate_text (degree_digits att) (decimals hp) z 0)) as G.
  { intros att A W. unfold ddd2dmm_int. cbv zeta. rewrite Z.abs_eq by lia. rewrite Z.div_mul, Z.mod_mul, Z.add_0_r by lia.
    assert (z < 1000) as L by (destruct W as [W|W]; rewrite W in A; cbn in A; lia).
    rewrite f_of_Z_int by lia. cbn [bind]. rewrite dmm_text_eq. destruct (f_int (z * 100) ltac:(lia)) as (D & V & S).
    replace (z * 100 <? 0) with false in S by (symmetry; apply Z.ltb_ge; lia).
    destruct (fmt_fixed_correct (decimals hp) _ D S) as (n & Nn & -> & NE). rewrite V, pow10_IZR, <- mult_IZR in NE by lia.
    assert (n = z * 100 * 10 ^ Z.of_nat (decimals hp)) as ->.
    { assert (forall a b, (Rabs (IZR a - IZR b) <= / 2)%R -> a = b) as I; [|apply I; exact NE].
      intros a b H. apply Z.le_antisymm; [eapply half_le; [exact H|apply Rle_refl]|eapply half_ge; [exact H|apply Rle_refl]]. }
    set (k := decimals hp) in *. assert (1 <= k)%nat as K by (unfold k; destruct hp; cbn; lia).
    assert (0 < 10 ^ Z.of_nat k) as P by (apply Z.pow_pos_nonneg; lia).
    rewrite fixed_numeral; [|lia|exact K|].
    - f_equal. unfold coordinate_text. rewrite Z.div_0_l by lia. rewrite Z.div_mul by lia.
      rewrite (numeral_split_at (degree_digits att) 2 (z * 100) z 0) by (cbn; lia). rewrite <- app_assoc. f_equal. f_equal. f_equal.
      rewrite <- (numeral_mod k (z * 100 * _)) by lia. rewrite Z.mod_mul by lia. reflexivity.
    - rewrite !Nat2Z.inj_add, !Z.pow_add_r by lia. change (10 ^ Z.of_nat 2) with 100. nia. }
  assert (forall att, ddd2dmm_int (- z) att hp = ddd2dmm_int z att hp) as O by (intros att; unfold ddd2dmm_int; rewrite Z.abs_opp; reflexivity).
  split; intros ->.
  - change (val2str (VInt z) (u "LA") hp) with (ddd2dmm_int z ty_LA hp). change (val2str (VInt (- z)) (u "LA") hp) with (ddd2dmm_int (- z) ty_LA hp).
    rewrite O. split; (apply (G ty_LA); [exact B|left; reflexivity]).
  - change (val2str (VInt z) (u "LN") hp) with (ddd2dmm_int z ty_LN hp). change (val2str (VInt (- z)) (u "LN") hp) with (ddd2dmm_int (- z) ty_LN hp).
    rewrite O. split; (apply (G ty_LN); [exact B|right; reflexivity]).
Qed.
(* True is one degree and False none; a value that is not a finite number is '' *)
Theorem C47_boolean (b hp : bool) k : k = (if hp then 7%nat else 5%nat) ->
  val2str (VBool b) (u "LA") hp = Ok (coordinate_text 2 k (if b then 1 else 0) 0)
  /\ val2str (VBool b) (u "LN") hp = Ok (coordinate_text 3 k (if b then 1 else 0) 0).
Proof. intros ->. destruct b, hp; split; vm_compute; reflexivity. Qed.
Theorem C47_not_a_number v (hp : bool) att : In att [u "LA"; u "LN"] ->
  match v with VFloat x => is_fin x = false | VInt _ | VBool _ => False | _ => True end ->
  val2str v att hp = Ok [].
Proof.
  intros A H. assert (val2str v att hp = ddd2dmm v att hp) as -> by (destruct A as [<-|[<-|[]]]; destruct v; reflexivity).
  destruct v as [s|z|x|b| |d|t|d t]; try contradiction; try reflexivity.
  destruct x as [s|s| |s m e]; try discriminate; [destruct s|]; reflexivity.
Qed.
(* the minutes can be printed as 60.00000 *)
Theorem C47_minutes_below_60_refuted : exists x, fdata x /\ (Rabs (rval x) < 53)%R
  /\ val2str (VFloat x) (u "LA") false = Ok (u "5260.00000").
Proof.
  exists (f_of_dec false 5299999999 (-8)).
  assert (fdata (f_of_dec false 5299999999 (-8))) as D by (split; vm_compute; reflexivity).
  split; [exact D|]. split; [|vm_compute; reflexivity].
  assert (fdata (f_norm 53 0)) as D53 by (split; vm_compute; reflexivity).
  assert (fltb (f_of_dec false 5299999999 (-8)) (f_norm 53 0) = true) as L by (vm_compute; reflexivity).
  rewrite fltb_correct in L by assumption. destruct (f_int 53 ltac:(lia)) as (_ & V53 & _). rewrite V53 in L.
  destruct (Rlt_bool_spec (rval (f_of_dec false 5299999999 (-8))) 53) as [H|]; [|discriminate L].
  rewrite Rabs_pos_eq; [exact H|]. apply fdata_nonneg; [exact D|vm_compute; reflexivity].
Qed.
Example C47_example : let x := f_of_dec true 51477928 (-6) in
  fdata x /\ val2str (VFloat x) (u "LA") false = Ok (u "5128.67568") /\ val2str (VFloat x) (u "LN") true = Ok (u "05128.6756800").
Proof. vm_compute. repeat split. Qed.

(* ------------------------------------------------------------------ C49 *)
(* never an exception: an empty string or a number *)
Theorem C49_total s : str2val s (u "LA") = Ok (VStr []) \/ exists y, str2val s (u "LA") = Ok (VFloat y).
Proof.
  change (str2val s (u "LA")) with (Ok (dmm2ddd s)). unfold dmm2ddd. destruct (find_char 46 s) as [dp|]; [|left; reflexivity].
  destruct (dp <? 4)%nat; [left; reflexivity|]. destruct (float_of_str _) as [d|]; [|left; reflexivity]. destruct (float_of_str _) as [m|]; [|left; reflexivity].
  right. eexists. reflexivity.
Qed.
Theorem C49_longitude s : str2val s (u "LN") = str2val s (u "LA").
Proof. reflexivity. Qed.
(* a '.' at index 4 or more splits the text; otherwise the result is '' *)
Theorem C49_parts d m r : ~ In 46%N (d ++ m) -> length m = 2%nat -> (2 <= length d)%nat ->
  str2val (d ++ m ++ u "." ++ r) (u "LA") =
  Ok (match float_of_str d, float_of_str (m ++ u "." ++ r) with
      | Ok a, Ok b => VFloat (fround 10 (fadd (fabs a) (fdiv b f60)))
      | _, _ => VStr []
      end).
Proof.
  intros ND M D. change (str2val (d ++ m ++ u "." ++ r) (u "LA")) with (Ok (dmm2ddd (d ++ m ++ u "." ++ r))). f_equal. unfold dmm2ddd.
  change (u "." ++ r) with (46%N :: r). rewrite app_assoc. rewrite find_char_app by exact ND. rewrite app_length, M.
  replace (length d + 2 <? 4)%nat with false by (symmetry; apply Nat.ltb_ge; lia). replace (length d + 2 - 2)%nat with (length d) by lia.
  rewrite <- app_assoc. rewrite firstn_app, skipn_app, Nat.sub_diag, firstn_all, skipn_all. cbn [firstn skipn app]. rewrite app_nil_r. reflexivity.
Qed.
Theorem C49_no_point s : (forall a r, s = a ++ u "." ++ r -> ~ In 46%N a -> (length a < 4)%nat) -> str2val s (u "LA") = Ok (VStr []).
Proof.
  intros H. change (str2val s (u "LA")) with (Ok (dmm2ddd s)). f_equal. unfold dmm2ddd.
  assert (forall t i, find_char 46 t = Some i -> exists a r, t = a ++ 46%N :: r /\ ~ In 46%N a /\ length a = i) as G.
  { induction t as [|c t IH]; intros i; cbn [find_char]; [discriminate|]. destruct (N.eqb_spec c 46) as [->|Nc].
    - intros E. assert (i = 0%nat) as -> by congruence. exists [], t. split; [reflexivity|]. split; [intros []|reflexivity].
    - destruct (find_char 46 t) as [j|] eqn:E; cbn [option_map]; [|discriminate]. intros Ei. assert (i = S j) as -> by congruence.
      destruct (IH j eq_refl) as (a & r & -> & Na & La). exists (c :: a), r. split; [reflexivity|]. split; [intros [Q|Q]; [congruence|contradiction]|cbn; lia]. }
  destruct (find_char 46 s) as [i|] eqn:E; [|reflexivity]. destruct (G s i E) as (a & r & -> & Na & La). specialize (H a r eq_refl Na).
  replace (i <? 4)%nat with true by (symmetry; apply Nat.ltb_lt; lia). reflexivity.
Qed.
(* digits: the value is degrees + minutes / 60 to within 1e-10, and not negative *)
Theorem C49_value dd mm ff : digit_text dd -> digit_text mm -> digit_text ff -> (2 <= length dd)%nat -> length mm = 2%nat -> number dd <= 100000 ->
  exists y, str2val (dd ++ mm ++ u "." ++ ff) (u "LA") = Ok (VFloat y) /\ fdata y /\ (0 <= rval y)%R
  /\ (Rabs (rval y - (IZR (number dd) + IZR (number (mm ++ ff)) / (60 * IZR (10 ^ Z.of_nat (length ff))))) <= / 10000000000)%R.
Proof.
  intros A B C D E F. destruct (dmm2ddd_digits dd mm ff A B C D E F) as (y & Ey & Dy & Sy & By). exists y.
  split; [exact (f_equal Ok Ey)|]. split; [exact Dy|]. split; [apply fdata_nonneg; assumption|]. rewrite <- pow10_IZR by lia.
  eapply Rle_trans; [exact By|]. lra.
Qed.
(* a sign inside the minutes gives a negative result *)
Theorem C49_unsigned_refuted : exists y, str2val (u "00-1.5") (u "LA") = Ok (VFloat y) /\ fdata y /\ (rval y < 0)%R.
Proof.
  eexists. split; [vm_compute; reflexivity|]. split; [split; vm_compute; reflexivity|].
  cbn [rval SF2R]. apply Flocq.Core.Float_prop.F2R_lt_0. reflexivity.
Qed.
Example C49_example : digit_text (u "51") /\ digit_text (u "28") /\ digit_text (u "67568")
  /\ str2val (u "5128.67568") (u "LA") = Ok (VFloat (f_of_dec false 51477928 (-6))).
Proof. split; [|split; [|split]]; try (unfold digit_text; vm_compute; repeat (constructor; [split; discriminate|]); constructor). Qed.
Example C49_examples_empty : str2val (u "123.4") (u "LA") = Ok (VStr []) /\ str2val (u "5128,67568") (u "LA") = Ok (VStr []) /\ str2val (u "5x28.67568") (u "LA") = Ok (VStr [])
  /\ str2val [] (u "LA") = Ok (VStr []).
Proof. vm_compute. repeat split. Qed.

(* ------------------------------------------------------------------ C48 *)
Lemma coordinate_back w k d m : 0 <= d < 10 ^ Z.of_nat w -> (w = 2 \/ w = 3)%nat -> 0 <= m <= 60 * 10 ^ Z.of_nat k ->
  exists y, dmm2ddd (coordinate_text w k d m) = VFloat y /\ fdata y /\ sign_of y = false
  /\ (Rabs (rval y - coordinate_value k d m) <= 7 / 100000000000)%R.
Proof.
  intros D W M. assert (0 < 10 ^ Z.of_nat k) as P by (apply Z.pow_pos_nonneg; lia).
  assert (10 ^ Z.of_nat w <= 1000) as L by (destruct W as [->| ->]; cbn; lia).
  destruct (dmm2ddd_digits (numeral_text w d) (numeral_text 2 (m / 10 ^ Z.of_nat k)) (numeral_text k m)) as (y & E & Dy & Sy & By); try apply numeral_digit_text; try rewrite numeral_text_length; try lia.
  - rewrite numeral_number, Z.mod_small by lia. lia.
  - exists y. split; [exact E|]. split; [exact Dy|]. split; [exact Sy|]. rewrite numeral_text_length in By.
    assert (number (numeral_text 2 (m / 10 ^ Z.of_nat k) ++ numeral_text k m) = m) as Nm.
    { rewrite <- numeral_text_split by lia. rewrite numeral_number by lia. apply Z.mod_small. rewrite Nat2Z.inj_add, Z.pow_add_r by lia. change (10 ^ Z.of_nat 2) with 100. lia. }
    rewrite Nm, numeral_number, Z.mod_small in By by lia. unfold coordinate_value. rewrite <- pow10_IZR by lia. exact By.
Qed.
Lemma round_trip_error (y c a e : R) : (Rabs (y - c) <= 7 / 100000000000)%R -> (Rabs (c - a) <= e + / 1000000000000)%R -> (Rabs (y - a) <= e + / 10000000000)%R.
Proof. intros H1 H2. replace (y - a)%R with ((y - c) + (c - a))%R by lra. eapply Rle_trans; [apply Rabs_triang|]. lra. Qed.
Theorem C48_latitude x (hp : bool) : fdata x -> (Rabs (rval x) < 100)%R ->
  exists s y, val2str (VFloat x) (u "LA") hp = Ok s /\ str2val s (u "LA") = Ok (VFloat y) /\ fdata y /\ (0 <= rval y)%R
  /\ (Rabs (rval y - Rabs (rval x)) <= / 2 / (60 * (if hp then 10000000 else 100000)) + / 10000000000)%R.
Proof.
  intros D B. destruct (C47_latitude x hp _ D B eq_refl) as (d & m & E & Bd & Bm & A).
  set (k := if hp then 7%nat else 5%nat) in *. destruct (coordinate_back 2 k d m) as (y & Ey & Dy & Sy & By); [exact Bd|left; reflexivity|exact Bm|].
  exists (coordinate_text 2 k d m), y. split; [exact E|]. split; [exact (f_equal Ok Ey)|]. split; [exact Dy|]. split; [apply fdata_nonneg; assumption|].
  pose proof (round_trip_error _ _ _ _ By A) as R. destruct hp; exact R.
Qed.
Theorem C48_longitude x (hp : bool) : fdata x -> (Rabs (rval x) < 1000)%R ->
  exists s y, val2str (VFloat x) (u "LN") hp = Ok s /\ str2val s (u "LN") = Ok (VFloat y) /\ fdata y /\ (0 <= rval y)%R
  /\ (Rabs (rval y - Rabs (rval x)) <= / 2 / (60 * (if hp then 10000000 else 100000)) + / 10000000000)%R.
Proof.
  intros D B. destruct (C47_longitude x hp _ D B eq_refl) as (d & m & E & Bd & Bm & A).
  set (k := if hp then 7%nat else 5%nat) in *. destruct (coordinate_back 3 k d m) as (y & Ey & Dy & Sy & By); [exact Bd|right; reflexivity|exact Bm|].
  exists (coordinate_text 3 k d m), y. split; [exact E|]. split; [exact (f_equal Ok Ey)|]. split; [exact Dy|]. split; [apply fdata_nonneg; assumption|].
  pose proof (round_trip_error _ _ _ _ By A) as R. destruct hp; exact R.
Qed.
Example C48_example : let x := f_of_dec true 123456789012 (-9) in
  fdata x /\ val2str (VFloat x) (u "LN") false = Ok (u "12327.40734") /\ str2val (u "12327.40734") (u "LN") = Ok (VFloat (f_of_dec false 123456789 (-6))).
Proof. vm_compute. repeat split. Qed.
