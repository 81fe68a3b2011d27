(* Theorems about knots2spd in real numbers: C61 (the value of the result,
   whole numbers, bools, infinities and values which are not numbers). *)
From Coq Require Import Reals Lia Lra Psatz.
From Flocq Require Import Core Operations BinarySingleNaN.
From Verif Require Import Message BaseLemmas TextLemmas FloatProofs DecimalProofs FloatErr PropsHelpers.
Local Open Scope R_scope.

(* one knot in each unit, as the documented conversion constants *)
Definition speed_factors : list (pystr * R) :=
  [ (u "MS", 5144447324 / 10000000000); (u "FS", 168781084 / 100000000);
    (u "MPH", 115078 / 100000); (u "KMPH", 1852001 / 1000000) ].

Lemma factor_data m d q (E : IZR (Z.of_N m) * pow10 d = q) : 0 <= q <= 2 -> approx (f_of_dec false m d) q (q * u53 + tiny).
Proof.
  intros Q. eapply (approx_nearest _ _ _ q 0 q); [apply f_of_dec_correct| | | |].
  - cbn [signR]. rewrite E, Rminus_diag_eq, Rabs_R0 by reflexivity. lra.
  - rewrite Rabs_pos_eq; lra.
  - unfold big. lra.
  - unfold u53, tiny. lra.
Qed.
Lemma factors name q : In (name, q) speed_factors -> exists f, In (name, f) speed_units /\ 1 / 2 <= q <= 2 /\ approx f q (q * u53 + tiny).
Proof.
  intros H. unfold speed_factors in H. cbn [In] in H.
  destruct H as [H|[H|[H|[H|[]]]]]; injection H as <- <-; eexists;
    (split; [unfold speed_units; cbn [In]; eauto 6|]); (split; [lra|]).
  all: apply factor_data; [|lra]; unfold pow10; cbn [Z.of_N]; simpl; lra.
Qed.

Lemma speed_mul k f q : fdata k -> Rabs (rval k) <= 100000000000000000000000000000 -> 1 / 2 <= q <= 2 -> approx f q (q * u53 + tiny) ->
  fdata (fmul k f) /\ Rabs (rval (fmul k f) - rval k * q)
    <= Rabs (rval k) * q * (3 / 10000000000000000) + / 1000000000000000000000000000000.
Proof.
  intros F B Q A. set (K := Rabs (rval k)) in *. assert (0 <= K) by apply Rabs_pos.
  assert (0 <= K * q) by (apply Rmult_le_pos; lra). assert (K * q <= K * 2) by (apply Rmult_le_compat_l; lra).
  assert (K * (1 / 2) <= K * q) by (apply Rmult_le_compat_l; lra).
  apply (approx_mul k f (rval k) q 0 (q * u53 + tiny) K q).
  - apply approx_exact, F.
  - exact A.
  - apply Rle_refl.
  - rewrite Rabs_pos_eq; lra.
  - replace (K * (q * u53 + tiny)) with (K * q * u53 + K * tiny) by ring. rewrite !Rmult_0_l. unfold u53, tiny, big in *. lra.
  - replace (K * (q * u53 + tiny)) with (K * q * u53 + K * tiny) by ring. rewrite !Rmult_0_l. unfold u53, tiny, big in *. lra.
Qed.

(* a finite speed: the result is the speed times the factor, to within the
   rounding of two binary64 operations *)
Theorem C61_value k unit name q : In (name, q) speed_factors -> ascii_text unit -> same_text unit name ->
  fdata k -> Rabs (rval k) <= 100000000000000000000000000000 ->
  exists y, knots2spd (VFloat k) unit = Ok y /\ fdata y
    /\ Rabs (rval y - rval k * q) <= Rabs (rval k) * q * (3 / 10000000000000000) + / 1000000000000000000000000000000.
Proof.
  intros H A S F B. destruct (factors _ _ H) as (f & I & Q & Af). exists (fmul k f).
  split; [apply (C61_factor _ _ name); assumption|]. apply speed_mul; assumption.
Qed.
(* a whole number of knots *)
Theorem C61_value_whole z unit name q : In (name, q) speed_factors -> ascii_text unit -> same_text unit name -> (Z.abs z <= 2 ^ 53)%Z ->
  exists y, knots2spd (VInt z) unit = Ok y /\ fdata y
    /\ Rabs (rval y - IZR z * q) <= Rabs (IZR z) * q * (3 / 10000000000000000) + / 1000000000000000000000000000000.
Proof.
  intros H A S B. destruct (factors _ _ H) as (f & I & Q & Af). destruct (f_int z B) as (F & V & _). exists (fmul (f_norm z 0) f).
  split; [apply (C61_integer _ _ _ name); [assumption..|apply f_of_Z_int, B]|]. rewrite <- V. apply speed_mul; try assumption.
  rewrite V, <- abs_IZR. apply Rle_trans with (IZR (2 ^ 53)); [apply IZR_le, B|]. lra.
Qed.
(* an int beyond the largest float *)
Theorem C61_value_too_large z unit name q : In (name, q) speed_factors -> ascii_text unit -> same_text unit name -> (2 ^ 1024 <= Z.abs z)%Z ->
  knots2spd (VInt z) unit = Raise OverflowError.
Proof.
  intros H A S B. destruct (factors _ _ H) as (f & I & Q & Af). destruct (unit_facts _ _ I) as (An & Un & L). unfold knots2spd.
  rewrite upper_ascii_text by exact A. apply same_text_upper in S; [|assumption|exact An]. rewrite S, Un, L. unfold f_of_Z.
  pose proof (f_norm_correct z 0) as [_ N]. rewrite IZR_F2R in N.
  rewrite Rlt_bool_false in N; [rewrite N; reflexivity|].
  apply abs_round_ge_generic; [typeclasses eauto..| |].
  - apply generic_format_bpow. vm_compute. discriminate.
  - rewrite <- abs_IZR. unfold huge. change femax with 1024%Z. rewrite <- (IZR_Zpower radix2 1024) by discriminate. apply IZR_le. exact B.
Qed.
(* True is one knot and False none *)
Theorem C61_boolean b unit : knots2spd (VBool b) unit = knots2spd (VInt (if b then 1 else 0)) unit.
Proof. unfold knots2spd. destruct (lookup (str_upper unit) KNOTSCONV); [|reflexivity]. destruct b; reflexivity. Qed.
(* infinite speeds stay infinite, NaN stays NaN *)
Theorem C61_not_finite s unit name q : In (name, q) speed_factors -> ascii_text unit -> same_text unit name ->
  knots2spd (VFloat (S754_infinity s)) unit = Ok (S754_infinity s) /\ knots2spd (VFloat S754_nan) unit = Ok S754_nan.
Proof.
  intros H A S. destruct (factors _ _ H) as (f & I & Q & Af).
  rewrite !(C61_factor _ _ name f) by assumption. split; [|destruct f; reflexivity]. f_equal.
  assert (sign_of f = false /\ is_zero f = false /\ is_fin f = true) as (S1 & S2 & S3).
  { clear - I. unfold speed_units in I. cbn [In] in I. destruct I as [I|[I|[I|[I|[]]]]]; apply (f_equal snd) in I; cbn [snd] in I; subst f; vm_compute; repeat split. }
  destruct f as [t|t| |t m e]; try discriminate. cbn in S1. subst t. destruct s; reflexivity.
Qed.
(* a value which is not a number *)
Theorem C61_not_a_number v unit name q : In (name, q) speed_factors -> ascii_text unit -> same_text unit name ->
  (forall x, v <> VFloat x) -> (forall z, v <> VInt z) -> (forall b, v <> VBool b) -> knots2spd v unit = Raise TypeError.
Proof.
  intros H A S V1 V2 V3. destruct (factors _ _ H) as (f & I & Q & Af). destruct (unit_facts _ _ I) as (An & Un & L). unfold knots2spd.
  rewrite upper_ascii_text by exact A. apply same_text_upper in S; [|assumption|exact An]. rewrite S, Un, L.
  destruct v; try reflexivity; exfalso; [eapply V2|eapply V1|eapply V3]; reflexivity.
Qed.
Example C61_value_example : exists k, fdata k /\ rval k = 21 / 2 /\ Rabs (rval k) <= 100000000000000000000000000000
  /\ In (u "MPH", 115078 / 100000) speed_factors /\ same_text (u "mPh") (u "MPH") /\ ascii_text (u "mPh")
  /\ knots2spd (VFloat k) (u "mPh") = Ok (S754_finite false 6802231247680862 (-49)).
Proof.
  exists (f_of_dec false 105 (-1)). replace (f_of_dec false 105 (-1)) with (S754_finite false 5910974510923776 (-49)) by (vm_compute; reflexivity).
  assert (rval (S754_finite false 5910974510923776 (-49)) = 21 / 2) as E.
  { unfold rval, SF2R, F2R. cbn [Fnum Fexp cond_Zopp]. change (bpow radix2 (-49)) with (/ 562949953421312). lra. }
  rewrite E. split; [split; reflexivity|]. split; [reflexivity|]. split; [rewrite Rabs_pos_eq; lra|].
  split; [unfold speed_factors; cbn [In]; auto|]. split; [|split].
  - repeat (apply Forall2_cons; [unfold same_letter; vm_compute; intuition (try discriminate)|]); apply Forall2_nil.
  - repeat constructor.
  - vm_compute. reflexivity.
Qed.
