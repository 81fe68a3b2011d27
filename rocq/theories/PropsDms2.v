(* C69 for every float: deg2dms and deg2dmm never raise, and what they print has minutes below 60 and seconds up to 60 however
   large the angle *)
From Coq Require Import Reals Lia Lra.
From Flocq Require Import Core BinarySingleNaN.
From Verif Require Import Helpers BaseLemmas TextLemmas NumLemmas TimeSpec TimeProofs CoordSpec FloatProofs DecimalProofs CoordProofs DmsProofs PropsDms.
Local Open Scope Z_scope.

Lemma ffloor_any x : fdata x -> fdata (ffloor x) /\ rval (ffloor x) = IZR (Zfloor (rval x)).
Proof.
  intros D. destruct x as [s|s| |s m e] eqn:Ex; try (destruct D as [_ F]; discriminate F).
  - apply ffloor_correct; [exact D|]. cbn [rval SF2R]. rewrite Rabs_R0. apply (IZR_le 0). lia.
  - destruct (Z.leb_spec 0 e) as [E|E].
    + cbn [ffloor]. replace (0 <=? e) with true by (symmetry; apply Z.leb_le; exact E). split; [exact D|]. cbn [rval SF2R]. rewrite F2R_nonneg, Zfloor_IZR by exact E. reflexivity.
    + apply ffloor_correct; [exact D|]. cbn [rval SF2R]. rewrite <- F2R_Zabs. replace (Z.abs (cond_Zopp s (Z.pos m))) with (Z.pos m) by (destruct s; reflexivity).
      destruct D as [V _]. destruct (bounded_facts m e V) as (M & _ & _).
      rewrite F2R_neg by exact E. assert (1 <= 2 ^ (- e)) as P by (pose proof (Z.pow_pos_nonneg 2 (- e)); lia).
      apply IZR_le in P. assert (IZR (Z.pos m) <= IZR (2 ^ 53))%R as M' by (apply IZR_le; lia). assert (0 < IZR (Z.pos m))%R by (apply (IZR_lt 0); lia).
      apply Rle_trans with (IZR (Z.pos m)); [|exact M']. unfold Rdiv. rewrite <- (Rmult_1_r (IZR (Z.pos m))) at 2. apply Rmult_le_compat_l; [lra|].
      rewrite <- Rinv_1. apply Rinv_le; lra.
Qed.
Lemma fdata_split x : fdata x -> rval x = IZR (Zfloor (rval x)) \/ (Rabs (rval x) <= IZR (2 ^ 53))%R.
Proof.
  intros D. destruct x as [s|s| |s m e]; try (destruct D as [_ F]; discriminate F).
  - left. cbn [rval SF2R]. rewrite Zfloor_IZR. reflexivity.
  - destruct (Z.leb_spec 0 e) as [E|E].
    + left. cbn [rval SF2R]. rewrite F2R_nonneg, Zfloor_IZR by exact E. reflexivity.
    + right. cbn [rval SF2R]. rewrite <- F2R_Zabs. replace (Z.abs (cond_Zopp s (Z.pos m))) with (Z.pos m) by (destruct s; reflexivity).
      destruct D as [V _]. destruct (bounded_facts m e V) as (M & _ & _).
      rewrite F2R_neg by exact E. assert (1 <= 2 ^ (- e)) as P by (pose proof (Z.pow_pos_nonneg 2 (- e)); lia).
      apply IZR_le in P. assert (IZR (Z.pos m) <= IZR (2 ^ 53))%R as M' by (apply IZR_le; lia). assert (0 < IZR (Z.pos m))%R by (apply (IZR_lt 0); lia).
      apply Rle_trans with (IZR (Z.pos m)); [|exact M']. unfold Rdiv. rewrite <- (Rmult_1_r (IZR (Z.pos m))) at 2. apply Rmult_le_compat_l; [lra|].
      rewrite <- Rinv_1. apply Rinv_le; lra.
Qed.
Lemma rnd_fdata x : fdata x -> rnd (rval x) = rval x.
Proof. intros D. apply rnd_format, fdata_format, D. Qed.

(* divmod by 60 of any non-negative float: a whole number and a rest below 60 *)
Lemma fdivmod60_any x : fdata x -> sign_of x = false ->
  let '(dv, md) := fdivmod x f60 in
  exists q, sign_of dv = false /\ fdata dv /\ rval dv = IZR q /\ 0 <= q
    /\ fdata md /\ sign_of md = false /\ rval md = (rval x - 60 * IZR (Zfloor (rval x / 60)))%R /\ (0 <= rval md < 60)%R.
Proof.
  intros D S. destruct (Rlt_or_le (rval x) (IZR (2 ^ 53))) as [B|B].
  { pose proof (fdivmod60 x _ D S B eq_refl) as H. destruct (fdivmod x f60) as [dv md]. destruct H as (H1 & H2 & H3 & H4 & H5 & H6 & H7 & H8).
    exists (Zfloor (rval x / 60)). auto 10. }
  destruct (ffmod60 x D S) as (D1 & S1 & V1 & B1). destruct f60_data as (D60 & V60 & S60). pose proof (fdata_huge x D) as Hh. pose proof (fdata_nonneg x D S) as X0.
  rewrite Rabs_pos_eq in Hh by exact X0.
  unfold fdivmod. cbv zeta. set (md := ffmod x f60) in *. set (dv := fdiv (fsub x md) f60).
  assert (64 <= IZR (2 ^ 53))%R as B64 by (apply (IZR_le 64); lia).
  assert (fdata (fsub x md) /\ (0 <= rval (fsub x md) <= rval x)%R) as (DS & VS).
  { destruct (fsub_correct x md D D1) as (s & N).
    assert (0 <= rnd (rval x - rval md) <= rval x)%R as R.
    { split; [rewrite <- rnd_0; apply rnd_le; lra|]. apply Rle_trans with (rnd (rval x)); [apply rnd_le; lra|rewrite (rnd_fdata x D); lra]. }
    apply nearest_fdata in N; [|rewrite Rabs_pos_eq by lra; lra]. destruct N as (N1 & N2 & _). rewrite N2. split; [exact N1|exact R]. }
  assert (fdata dv /\ (0 <= rval dv <= rval x)%R) as (DV & VV).
  { destruct DS as [DS1 DS2]. destruct D60 as [D61 D62].
    pose proof (fdiv_correct (fsub x md) f60 DS1 D61 DS2 D62 eq_refl) as N. rewrite V60 in N.
    assert (0 <= rnd (rval (fsub x md) / 60) <= rval x)%R as R.
    { split; [rewrite <- rnd_0; apply rnd_le; lra|]. apply Rle_trans with (rnd (rval x)); [apply rnd_le; lra|rewrite (rnd_fdata x D); lra]. }
    apply nearest_fdata in N; [|rewrite Rabs_pos_eq by lra; lra]. destruct N as (N1 & N2 & _). unfold dv. rewrite N2. split; [exact N1|exact R]. }
  assert (exists md', (if is_zero md then (copysign0 f60, dv) else if Bool.eqb (fltb f60 fzero) (fltb md fzero) then (md, dv) else (fadd md f60, fsub dv fone)) = (md', dv)
     /\ fdata md' /\ sign_of md' = false /\ rval md' = rval md) as (md' & -> & DM & SM & VM).
  { destruct (is_zero md) eqn:Z0.
    - exists (copysign0 f60). apply (fdata_zero md D1) in Z0. rewrite Z0. split; [reflexivity|]. split; [split; reflexivity|split; reflexivity].
    - exists md. replace (fltb f60 fzero) with false by reflexivity.
      rewrite fltb_correct by (exact D1 || (split; reflexivity)). change (rval fzero) with 0%R. rewrite Rlt_bool_false by lra. cbn [Bool.eqb].
      split; [reflexivity|]. split; [exact D1|]. split; [exact S1|reflexivity]. }
  rewrite V1 in VM. destruct (is_zero dv) eqn:Z0.
  - exists 0. split.
    { cbn [copysign0 sign_of]. destruct D as [D1' D2']. destruct D60 as [D61 D62]. destruct (fdiv_correct x f60 D1' D61 D2' D62 eq_refl) as [_ N].
      rewrite S, S60 in N. cbn [xorb] in N. destruct (Rlt_bool _ _); [apply N|rewrite N; reflexivity]. }
    split; [split; reflexivity|]. split; [cbn [copysign0 rval SF2R]; reflexivity|]. split; [lia|].
    split; [exact DM|]. split; [exact SM|]. split; [exact VM|]. lra.
  - assert (0 < rval dv)%R as P by (assert (rval dv <> 0)%R by (intros E; apply (fdata_zero dv DV) in E; congruence); lra).
    destruct (ffloor_any dv DV) as (DF & VF). set (n := Zfloor (rval dv)) in *.
    assert (0 <= n) as N0 by (apply Zfloor_lub; lra). pose proof (Zfloor_lb (rval dv)) as LB. pose proof (Zfloor_ub (rval dv)) as UB. fold n in LB, UB.
    destruct (fsub_correct dv (ffloor dv) DV DF) as (s & N). rewrite VF in N.
    assert (fdata fhalf /\ rval fhalf = (/ 2)%R) as (DH & VH).
    { split; [split; reflexivity|]. change fhalf with (S754_finite false 4503599627370496 (-53)). cbn [rval SF2R cond_Zopp]. unfold F2R. cbn [Fnum Fexp]. change (bpow radix2 (-53)) with (/ 9007199254740992)%R. lra. }
    apply nearest_fdata in N; [|apply rnd_lt_huge with 1; [rewrite Rabs_pos_eq by lra; lra|lia]]. destruct N as (N1 & N2 & _).
    destruct (fltb fhalf (fsub dv (ffloor dv))) eqn:Fl.
    + rewrite fltb_correct in Fl by assumption. rewrite VH, N2 in Fl.
      assert (IZR n <> rval dv) as Ne.
      { intros E. rewrite E, Rminus_diag_eq, rnd_0, Rlt_bool_false in Fl by (reflexivity || lra). discriminate Fl. }
      destruct (fdata_split dv DV) as [E|E]; [elim Ne; symmetry; exact E|]. rewrite Rabs_pos_eq in E by lra.
      assert (n < 2 ^ 53) as NB by (apply lt_IZR; lra).
      destruct fone_data as (DO & VO & SO). destruct (fadd_correct (ffloor dv) fone DF DO) as (s' & N'). rewrite VF, VO, <- plus_IZR in N'.
      apply nearest_fdata in N'; rewrite rnd_format in N' || rewrite rnd_format; try (apply int_format; lia).
      * destruct N' as (A1 & A2 & _). exists (n + 1). split; [apply sign_pos; [exact A1|rewrite A2; apply (IZR_lt 0); lia]|].
        split; [exact A1|]. split; [exact A2|]. split; [lia|]. split; [exact DM|]. split; [exact SM|]. split; [exact VM|lra].
      * rewrite Rabs_pos_eq by (apply IZR_le; lia). eapply Rle_lt_trans; [apply (IZR_le (n + 1) (2 ^ 53)); lia|]. rewrite <- bpow_IZR by lia. apply huge_big. lia.
    + exists n. split.
      { clear - DV DF VF P N0. destruct (ffloor dv) as [s|s| |s m e] eqn:Ff; try (destruct DF as [_ F]; discriminate F).
        - destruct dv as [s'|s'| |s' m' e']; try (destruct DV as [_ F]; discriminate F); [cbn [rval SF2R] in P; lra|].
          assert (s' = false) as -> by (apply (sign_pos _ DV) in P; exact P). cbn [ffloor] in Ff. destruct (0 <=? e') eqn:Le; [discriminate Ff|]. apply Z.leb_gt in Le.
          pose proof (normalize_correct (Z.pos m' / 2 ^ - e') 0 false) as Nn. rewrite Ff in Nn. destruct Nn as [_ Nn].
          destruct (Rlt_bool _ _); [|discriminate Nn]. destruct Nn as (_ & _ & Sg). cbn [sign_of] in *. rewrite Sg.
          destruct ((Z.pos m' / 2 ^ (- e')) =? 0); [reflexivity|]. apply Z.ltb_ge. apply Z.div_pos; [lia|apply Z.pow_pos_nonneg; lia].
        - destruct s; [|reflexivity]. exfalso. assert (rval (S754_finite true m e) < 0)%R as Ng by (cbn [rval SF2R cond_Zopp]; apply F2R_lt_0; cbn; lia).
          rewrite VF in Ng. apply (lt_IZR _ 0) in Ng. lia. }
      split; [exact DF|]. split; [exact VF|]. split; [exact N0|]. split; [exact DM|]. split; [exact SM|]. split; [exact VM|lra].
Qed.

Lemma str_of_whole x q : fdata x -> rval x = IZR q -> 0 <= q -> str_of_Z q = Ok (dec_of_N (Z.to_N q)).
Proof.
  intros D V Q. assert (q < 10 ^ 4300) as B.
  { pose proof (fdata_huge x D) as H. rewrite V, Rabs_pos_eq in H by (apply IZR_le; exact Q). unfold huge in H. rewrite bpow_IZR in H by (vm_compute; discriminate). apply lt_IZR in H.
    apply Z.lt_trans with (2 ^ femax); [exact H|]. vm_compute. reflexivity. }
  rewrite str_of_Z_ok by (rewrite Z.abs_eq by exact Q; exact B). replace (q <? 0) with false by (symmetry; apply Z.ltb_ge; exact Q).
  do 2 f_equal. destruct q; [reflexivity|reflexivity|lia].
Qed.
(* |x| times 60 or 3600: a float, or too large *)
Lemma scaled x z : fdata x -> 1 <= z <= 3600 ->
  let y := fmul (fabs x) (f_norm z 0) in
  (fdata y /\ sign_of y = false) \/ (y = S754_infinity false /\ (IZR (2 ^ 1012) < Rabs (rval x))%R).
Proof.
  intros [V F] Hz y. destruct (fabs_correct x V) as (Va & Ra & Fa & Sa).
  destruct (f_int z ltac:(cbn; lia)) as ([Vz Fz] & Rz & Sz).
  pose proof (fmul_correct (fabs x) (f_norm z 0) Va Vz (eq_trans Fa F) Fz) as [N1 N2]. fold y in N1, N2. rewrite Sa, Sz, Ra, Rz in N2.
  replace (z <? 0) with false in N2 by (symmetry; apply Z.ltb_ge; lia). cbn [xorb] in N2.
  destruct (Rlt_bool_spec (Rabs (rnd (Rabs (rval x) * IZR z))) huge) as [L|L].
  - left. destruct N2 as (A & B & C). split; [split; assumption|exact C].
  - right. split; [exact N2|]. destruct (Rlt_or_le (IZR (2 ^ 1012)) (Rabs (rval x))) as [H|H]; [exact H|exfalso].
    assert (0 <= Rabs (rval x))%R as P by apply Rabs_pos. assert (1 <= IZR z <= 3600)%R as Hz' by (destruct Hz as [Z1 Z2]; apply IZR_le in Z1, Z2; lra).
    assert (Rabs (rnd (Rabs (rval x) * IZR z)) <= F2R (Float radix2 3600 1012))%R as B.
    { apply rnd_bound; [apply small_format; lia|]. rewrite Rabs_pos_eq by (apply Rmult_le_pos; lra). unfold F2R. cbn [Fnum Fexp].
      rewrite bpow_IZR by lia. rewrite Rmult_comm. apply Rmult_le_compat; lra. }
    apply (Rlt_irrefl huge). eapply Rle_lt_trans; [exact L|]. eapply Rle_lt_trans; [exact B|]. unfold huge. rewrite bpow_IZR by (vm_compute; discriminate).
    unfold F2R. cbn [Fnum Fexp]. rewrite bpow_IZR by lia. rewrite <- mult_IZR. apply IZR_lt. vm_compute. reflexivity.
Qed.

(* every finite float: whole degrees, whole minutes below 60, seconds with five decimals up to 60, hemisphere - or '' if the angle is so large (over
   10^304) that its seconds are not a float *)
Theorem C69_every_dms x att : fdata x ->
  (exists d m s k h, deg2dms (VFloat x) att = Ok (dec_of_N d ++ [176%N] ++ dec_of_N m ++ [8242%N] ++ str_of_float s ++ [8243%N] ++ h)
    /\ hemisphere att (rval x) h /\ (m < 60)%N /\ fdata s /\ (0 <= rval s <= 60)%R /\ 0 <= k <= 6000000 /\ rval s = rnd (IZR k * pow10 (-5)))
  \/ (deg2dms (VFloat x) att = Ok [] /\ (IZR (2 ^ 1012) < Rabs (rval x))%R).
Proof.
  intros D. unfold deg2dms. change f3600 with (f_norm 3600 0). destruct (scaled x 3600 D ltac:(lia)) as [(D1 & S1)|(E & B)].
  - left. set (y := fmul (fabs x) (f_norm 3600 0)) in *. pose proof (fdivmod60_any y D1 S1) as M1. destruct (fdivmod y f60) as [mi se].
    destruct M1 as (q & Sq & Dq & Vq & Q0 & Ds & Ss & _ & Bs). pose proof (fdivmod60_any mi Dq Sq) as M2. destruct (fdivmod mi f60) as [dv mm].
    destruct M2 as (d & Sd & Dd & Vd & Dd0 & Dm & Sm & Vm & Bm). set (m := q - 60 * Zfloor (rval mi / 60)).
    assert (rval mm = IZR m) as Vm' by (unfold m; rewrite Vm, Vq, minus_IZR, mult_IZR; reflexivity).
    rewrite Vm' in Bm. destruct Bm as [M1 M2]. apply le_IZR in M1. apply lt_IZR in M2.
    rewrite (int_of_float_correct dv) by apply Dd. rewrite Vd, Ztrunc_IZR. cbn [bind catch_value]. rewrite (str_of_whole dv d Dd Vd Dd0). cbn [bind].
    rewrite (int_of_float_correct mm) by apply Dm. rewrite Vm', Ztrunc_IZR. cbn [bind]. rewrite (str_of_whole mm m Dm Vm' M1). cbn [bind].
    destruct (fround_pos 5 se 60 ltac:(lia) Ds Ss ltac:(lra) ltac:(lia)) as (k & Kb & Ke & DF & SF & VF & BF).
    exists (Z.to_N d), (Z.to_N m), (fround 5 se), k, (hemi (Rlt_bool (rval x) 0) att). split; [rewrite fneg_correct by exact D; reflexivity|].
    split; [apply hemisphere_hemi|]. split; [lia|]. split; [exact DF|]. split; [exact BF|]. split; [exact Kb|exact VF].
  - right. rewrite E. split; [vm_compute; reflexivity|exact B].
Qed.
Theorem C69_every_dmm x att : fdata x ->
  (exists d s k h, deg2dmm (VFloat x) att = Ok (dec_of_N d ++ [176%N] ++ str_of_float s ++ [8242%N] ++ h)
    /\ hemisphere att (rval x) h /\ fdata s /\ (0 <= rval s <= 60)%R /\ 0 <= k <= 600000000 /\ rval s = rnd (IZR k * pow10 (-7)))
  \/ (deg2dmm (VFloat x) att = Ok [] /\ (IZR (2 ^ 1012) < Rabs (rval x))%R).
Proof.
  intros D. unfold deg2dmm. pose proof (scaled x 60 D ltac:(lia)) as SC. change (f_norm 60 0) with f60 in SC. destruct SC as [(D1 & S1)|(E & B)].
  - left. set (y := fmul (fabs x) f60) in *. pose proof (fdivmod60_any y D1 S1) as M1. destruct (fdivmod y f60) as [dv se].
    destruct M1 as (q & Sq & Dq & Vq & Q0 & Ds & Ss & _ & Bs).
    rewrite (int_of_float_correct dv) by apply Dq. rewrite Vq, Ztrunc_IZR. cbn [bind catch_value]. rewrite (str_of_whole dv q Dq Vq Q0). cbn [bind].
    destruct (fround_pos 7 se 60 ltac:(lia) Ds Ss ltac:(lra) ltac:(lia)) as (k & Kb & Ke & DF & SF & VF & BF).
    exists (Z.to_N q), (fround 7 se), k, (hemi (Rlt_bool (rval x) 0) att). split; [rewrite fneg_correct by exact D; reflexivity|].
    split; [apply hemisphere_hemi|]. split; [exact DF|]. split; [exact BF|]. split; [exact Kb|exact VF].
  - right. rewrite E. split; [vm_compute; reflexivity|exact B].
Qed.
Lemma catch_total r : (forall e, r = Raise e -> e = ValueError \/ e = TypeError) -> exists t, catch_value r = Ok t.
Proof. intros H. destruct r as [t|e]; [exists t; reflexivity|]. destruct (H e eq_refl) as [-> | ->]; exists []; reflexivity. Qed.
Lemma str_of_Z_exc z e : str_of_Z z = Raise e -> e = ValueError.
Proof. unfold str_of_Z. cbv zeta. destruct (_ <? _)%N; congruence. Qed.
(* neither ever raises *)
Theorem C69_total v att : match v with VFloat x => binary64 x | _ => True end ->
  (exists t, deg2dms v att = Ok t) /\ (exists t, deg2dmm v att = Ok t).
Proof.
  assert (forall z, (exists t, deg2dms_int z att = Ok t) /\ (exists t, deg2dmm_int z att = Ok t)) as Int.
  { intros z. unfold deg2dms_int, deg2dmm_int. cbv zeta. split; apply catch_total; intros e H; left.
    - destruct (str_of_Z (Z.abs z * 3600 / 60 / 60)) as [a|e1] eqn:E1; cbn [bind] in H; [|injection H as <-; exact (str_of_Z_exc _ _ E1)].
      destruct (str_of_Z ((Z.abs z * 3600 / 60) mod 60)) as [b|e1] eqn:E2; cbn [bind] in H; [|injection H as <-; exact (str_of_Z_exc _ _ E2)].
      destruct (str_of_Z ((Z.abs z * 3600) mod 60)) as [c|e1] eqn:E3; cbn [bind] in H; [discriminate H|injection H as <-; exact (str_of_Z_exc _ _ E3)].
    - destruct (str_of_Z (Z.abs z * 60 / 60)) as [a|e1] eqn:E1; cbn [bind] in H; [|injection H as <-; exact (str_of_Z_exc _ _ E1)].
      destruct (str_of_Z ((Z.abs z * 60) mod 60)) as [b|e1] eqn:E2; cbn [bind] in H; [discriminate H|injection H as <-; exact (str_of_Z_exc _ _ E2)]. }
  intros H. destruct v as [s|z|x|b| |d|t|d t]; try (split; exists []; reflexivity).
  - exact (Int z).
  - destruct (is_fin x) eqn:F.
    + assert (fdata x) as D by (split; assumption). split.
      * destruct (C69_every_dms x att D) as [(d & m & s & k & h & E & _)|(E & _)]; eexists; exact E.
      * destruct (C69_every_dmm x att D) as [(d & s & k & h & E & _)|(E & _)]; eexists; exact E.
    + destruct (C69_not_finite (VFloat x) att F) as [A B]. split; eexists; eassumption.
  - exact (Int (val_of_bool b)).
Qed.
(* an angle that large, and a merely large one *)
Example C69_large_example :
  deg2dms (VFloat (f_of_dec false 1 305)) (u "LA") = Ok [] /\ fdata (f_of_dec false 1 305)
  /\ deg2dms (VFloat (f_of_dec true 1 20)) (u "LN") = Ok (u "100000000000000000000" ++ [176%N] ++ u "0" ++ [8242%N] ++ u "44.0" ++ [8243%N] ++ u "W").
Proof. split; [vm_compute; reflexivity|]. split; [split; vm_compute; reflexivity|]. vm_compute. reflexivity. Qed.
