(* Error analysis of the binary64 geodesy, part 1: the C library, haversine. *)
From Coq Require Import Reals Lia Lra Psatz.
From Flocq Require Import Core BinarySingleNaN.
From Verif Require Import PyFloat FloatProofs PiBounds FloatErr FGeo FGeoSpec LibmExact GeoSpec Geo GeoProofs EcefProofs EcefAccuracy.
Local Open Scope R_scope.

(* ---------------------------------------------------- faithful results *)
Lemma ulp_rel r : ulp radix2 fexp64 r <= Rabs r * (2 * u53) + tiny.
Proof.
  change fexp64 with (FLT_exp (-1074) 53).
  assert (bpow radix2 (-1074) <= tiny) as T.
  { apply Rle_trans with (bpow radix2 (-100)); [apply bpow_le; lia|].
    unfold tiny. change (bpow radix2 (-100)) with (/ 1267650600228229401496703205376). lra. }
  destruct (Rle_or_lt (bpow radix2 (-1074 + 53 - 1)) (Rabs r)) as [H|H].
  - pose proof (ulp_FLT_le radix2 (-1074) 53 r H) as U.
    change (bpow radix2 (1 - 53)) with (/ 4503599627370496) in U. unfold u53, tiny in *. lra.
  - rewrite ulp_FLT_small; [|reflexivity|].
    + pose proof (Rabs_pos r). unfold u53 in *. lra.
    + eapply Rlt_trans; [exact H|]. apply bpow_lt. lia.
Qed.
Lemma faithful_approx x r M e : faithful x r -> Rabs r <= M -> M * (2 * u53) + tiny <= e -> approx x r e.
Proof.
  intros [F H] B E. split; [exact F|]. pose proof (ulp_rel r) as U.
  assert (Rabs r * (2 * u53) <= M * (2 * u53)) by (apply Rmult_le_compat_r; [unfold u53; lra|exact B]). lra.
Qed.
Lemma faithful_unit x r : faithful x r -> Rabs r <= 1 -> Rabs (rval x) <= 1.
Proof.
  intros [F H] B. apply Rnot_lt_le. intros C.
  assert (format64 (Rabs (rval x))) as G by (apply generic_format_abs, fdata_format, F).
  assert (format64 1) as G1 by (apply (int_format 1); lia).
  pose proof (succ_le_lt radix2 fexp64 1 (Rabs (rval x)) G1 G C) as S1.
  rewrite succ_eq_pos in S1 by lra.
  assert (ulp radix2 fexp64 r <= ulp radix2 fexp64 1) as U.
  { apply ulp_le; [apply valid_fexp64|apply mono_fexp64|]. rewrite (Rabs_pos_eq 1) by lra. exact B. }
  pose proof (Rabs_triang_inv (rval x) r). lra.
Qed.
Lemma faithful_pos x r : faithful x r -> 0 <= r -> 0 <= rval x.
Proof.
  intros [F H] P. apply Rnot_lt_le. intros C.
  destruct (Rle_or_lt (bpow radix2 (-1074 + 53 - 1)) (Rabs r)) as [K|K].
  - pose proof (ulp_FLT_le radix2 (-1074) 53 r K) as U. change (FLT_exp (-1074) 53) with fexp64 in U.
    rewrite Rabs_pos_eq in U by exact P. change (bpow radix2 (1 - 53)) with (/ 4503599627370496) in U.
    apply Rabs_lt_inv in H. lra.
  - assert (ulp radix2 fexp64 r = bpow radix2 (-1074)) as U.
    { change fexp64 with (FLT_exp (-1074) 53). apply ulp_FLT_small; [reflexivity|]. eapply Rlt_trans; [exact K|]. apply bpow_lt. lia. }
    rewrite U in H. apply Rabs_lt_inv in H.
    pose proof (fdata_format _ F) as G. 
    assert (bpow radix2 (-1074) <= Rabs (rval x)) as L.
    { rewrite <- (ulp_FLT_0 radix2 (-1074) 53). change (FLT_exp (-1074) 53) with fexp64.
      rewrite <- (succ_0 radix2 fexp64). apply succ_le_lt; [apply valid_fexp64|apply generic_format_0|apply generic_format_abs, G|].
      apply Rabs_pos_lt. lra. }
    rewrite Rabs_left in L by exact C. lra.
Qed.

(* ------------------------------------------------ Lipschitz sine, cosine *)
Lemma sin_lip a b : Rabs (sin a - sin b) <= Rabs (a - b).
Proof.
  replace (sin a - sin b) with (2 * (cos ((a + b) / 2) * sin ((a - b) / 2))) by (pose proof (form4 a b); lra).
  rewrite !Rabs_mult, (Rabs_pos_eq 2) by lra.
  pose proof (sin_abs ((a - b) / 2)) as S1. pose proof (Rabs_pos (sin ((a - b) / 2))).
  assert (Rabs (cos ((a + b) / 2)) <= 1) by (apply Rabs_le, COS_bound).
  assert (Rabs ((a - b) / 2) = Rabs (a - b) / 2) as E
    by (unfold Rdiv; rewrite Rabs_mult, (Rabs_pos_eq (/ 2)); lra).
  assert (Rabs (cos ((a + b) / 2)) * Rabs (sin ((a - b) / 2)) <= 1 * Rabs (sin ((a - b) / 2)))
    by (apply Rmult_le_compat_r; assumption).
  lra.
Qed.
Lemma cos_lip a b : Rabs (cos a - cos b) <= Rabs (a - b).
Proof.
  rewrite <- !sin_shift. eapply Rle_trans; [apply sin_lip|]. 
  replace (PI / 2 - a - (PI / 2 - b)) with (- (a - b)) by ring. rewrite Rabs_Ropp. lra.
Qed.

Definition eps1 : R := 223 / 1000000000000000000.   (* above 2^-52 *)
Lemma approx_sin L x r e e' : libm_ok L -> approx x r e -> e + eps1 <= e' -> approx (l_sin L x) (sin r) e' /\ math1 (l_sin L) x = Ok (l_sin L x).
Proof.
  intros K [F X] E. pose proof (sin_ok L K x F) as S1. split; [|apply math1_ok; apply S1].
  assert (approx (l_sin L x) (sin (rval x)) eps1) as [G D].
  { eapply (faithful_approx _ _ 1); [exact S1|apply Rabs_le, SIN_bound|unfold eps1; num]. }
  split; [exact G|]. pose proof (sin_lip (rval x) r).
  replace (rval (l_sin L x) - sin r) with ((rval (l_sin L x) - sin (rval x)) + (sin (rval x) - sin r)) by ring.
  eapply Rle_trans; [apply Rabs_triang|]. lra.
Qed.
Lemma approx_cos L x r e e' : libm_ok L -> approx x r e -> e + eps1 <= e' -> approx (l_cos L x) (cos r) e' /\ math1 (l_cos L) x = Ok (l_cos L x).
Proof.
  intros K [F X] E. pose proof (cos_ok L K x F) as S1. split; [|apply math1_ok; apply S1].
  assert (approx (l_cos L x) (cos (rval x)) eps1) as [G D].
  { eapply (faithful_approx _ _ 1); [exact S1|apply Rabs_le, COS_bound|unfold eps1; num]. }
  split; [exact G|]. pose proof (cos_lip (rval x) r).
  replace (rval (l_cos L x) - cos r) with ((rval (l_cos L x) - cos (rval x)) + (cos (rval x) - cos r)) by ring.
  eapply Rle_trans; [apply Rabs_triang|]. lra.
Qed.
Lemma cos_unit L x : libm_ok L -> fdata x -> Rabs (rval (l_cos L x)) <= 1.
Proof. intros K F. eapply faithful_unit; [apply cos_ok; assumption|apply Rabs_le, COS_bound]. Qed.
Lemma sin_unit L x : libm_ok L -> fdata x -> Rabs (rval (l_sin L x)) <= 1.
Proof. intros K F. eapply faithful_unit; [apply sin_ok; assumption|apply Rabs_le, SIN_bound]. Qed.

(* ------------------------------------------------------- radian measure *)
Lemma lat_rad x : latitude x -> approx (deg2rad x) (radians (rval x)) (43 / 100000000000000000).
Proof.
  intros [F B]. replace (radians (rval x)) with (rval x * PI / 180) by (unfold radians; field).
  apply approx_deg2rad with 90; try num; [exact F|apply Rabs_le; lra].
Qed.
Lemma lon_rad x : longitude x -> approx (deg2rad x) (radians (rval x)) (85 / 100000000000000000).
Proof.
  intros [F B]. replace (radians (rval x)) with (rval x * PI / 180) by (unfold radians; field).
  apply approx_deg2rad with 180; try num; [exact F|apply Rabs_le; lra].
Qed.
(* the radians of a latitude do not pass pi/2 *)
Lemma rval_180 : rval f180 = 180. Proof. destruct (f_int 180) as (_ & V & _); [lia|exact V]. Qed.
Lemma deg2rad_val x : fdata x -> Rabs (rval x) <= 1000 -> rval (deg2rad x) = rnd (rnd (rval x * rval py_pi) / 180).
Proof.
  intros F B. pose proof py_pi_data as [PV PF]. destruct F as [V F].
  pose proof (fmul_correct x py_pi V PV F PF) as N. apply nearest_fdata in N as (F1 & V1 & _).
  - unfold deg2rad. destruct F1 as [F1 F1'].
    pose proof (fdiv_correct (fmul x py_pi) f180 F1 eq_refl F1' eq_refl eq_refl) as N.
    rewrite rval_180, V1 in N. apply nearest_fdata in N as (_ & V2 & _); [exact V2|].
    assert (Rabs (rnd (rval x * rval py_pi)) <= IZR 4000) as R1.
    { apply rnd_bound; [apply int_format; lia|]. rewrite Rabs_mult, (Rabs_pos_eq (rval py_pi)) by (rewrite py_pi_val; lra).
      apply Rle_trans with (1000 * 4); [|lra]. apply Rmult_le_compat; try apply Rabs_pos; rewrite ?py_pi_val; lra. }
    apply rnd_lt_huge with 4000%Z; [|lia]. unfold Rdiv. rewrite Rabs_mult, (Rabs_pos_eq (/ 180)) by lra. lra.
  - apply rnd_lt_huge with 4000%Z; [|lia]. rewrite Rabs_mult, (Rabs_pos_eq (rval py_pi)) by (rewrite py_pi_val; lra).
    apply Rle_trans with (1000 * 4); [|lra]. apply Rmult_le_compat; try apply Rabs_pos; rewrite ?py_pi_val; lra.
Qed.
Lemma deg2rad_mono x y : fdata x -> fdata y -> Rabs (rval x) <= 1000 -> Rabs (rval y) <= 1000 ->
  rval x <= rval y -> rval (deg2rad x) <= rval (deg2rad y).
Proof.
  intros Fx Fy Bx By H. rewrite !deg2rad_val by assumption. apply rnd_le. unfold Rdiv. apply Rmult_le_compat_r; [lra|].
  apply rnd_le. apply Rmult_le_compat_r; [rewrite py_pi_val; lra|exact H].
Qed.
Lemma lat_rad_pi2 x : latitude x -> - (rval py_pi / 2) <= rval (deg2rad x) <= rval py_pi / 2.
Proof.
  intros [F B]. rewrite py_pi_val.
  destruct (f_int 90) as (F90 & V90 & _); [lia|]. destruct (f_int (-90)) as (F91 & V91 & _); [lia|].
  pose proof (deg2rad_mono x (f_norm 90 0) F F90) as M1. rewrite V90 in M1.
  pose proof (deg2rad_mono (f_norm (-90) 0) x F91 F) as M2. rewrite V91 in M2.
  replace (deg2rad (f_norm 90 0)) with (S754_finite false 7074237752028440 (-52)) in M1 by (vm_compute; reflexivity).
  replace (deg2rad (f_norm (-90) 0)) with (S754_finite true 7074237752028440 (-52)) in M2 by (vm_compute; reflexivity).
  unfold rval at 4 in M1. unfold rval at 3 in M2. cbn [SF2R cond_Zopp] in M1, M2. rewrite F2R_neg in M1, M2 by lia.
  change (IZR (2 ^ - (-52))) with 4503599627370496 in M1, M2.
  assert (Rabs (rval x) <= 1000) by (apply Rabs_le; lra).
  split.
  - eapply Rle_trans; [|apply M2; try assumption; try lra; apply Rabs_le; lra]. cbn [Z.opp]. lra.
  - eapply Rle_trans; [apply M1; try assumption; try lra; apply Rabs_le; lra|]. lra.
Qed.
Lemma lat_rad_half x : latitude x -> - (PI / 2) <= rval (deg2rad x) <= PI / 2.
Proof. intros H. pose proof (lat_rad_pi2 x H). pose proof py_pi_lt. lra. Qed.
Lemma cos_lat_pos L x : libm_ok L -> latitude x -> 0 <= rval (l_cos L (deg2rad x)).
Proof.
  intros K H. pose proof (lat_rad_half x H) as B. apply faithful_pos with (cos (rval (deg2rad x))).
  - apply cos_ok; [exact K|]. apply (lat_rad x H).
  - apply cos_ge_0; lra.
Qed.

(* ------------------------------------------------------------- haversine *)
Lemma radians_bound x d : - d <= x <= d -> Rabs (radians x) <= d * (PI / 180).
Proof.
  intros H. unfold radians. rewrite Rabs_mult. pose proof PI_RGT_0. rewrite (Rabs_pos_eq (PI / 180)) by lra.
  apply Rmult_le_compat_r; [lra|apply Rabs_le; lra].
Qed.
Lemma abs_sub_le a b A B M : Rabs a <= A -> Rabs b <= B -> A + B <= M -> Rabs (a - b) <= M.
Proof. intros HA HB H. eapply Rle_trans; [apply Rabs_triang|]. rewrite Rabs_Ropp. lra. Qed.
Lemma cos_abs a : Rabs (cos a) <= 1. Proof. apply Rabs_le, COS_bound. Qed.
Lemma sin_abs1 a : Rabs (sin a) <= 1. Proof. apply Rabs_le, SIN_bound. Qed.

Lemma nearest_val s r x : nearest s r x -> fdata x -> rval x = rnd r.
Proof. intros [_ N] [_ F]. destruct (Rlt_bool _ _); [apply N|]. rewrite N in F. discriminate. Qed.
Lemma fmul_val x y : fdata x -> fdata y -> fdata (fmul x y) -> rval (fmul x y) = rnd (rval x * rval y).
Proof. intros [Vx Fx] [Vy Fy] F. eapply nearest_val; [apply fmul_correct; assumption|exact F]. Qed.
Lemma fsub_val x y : fdata x -> fdata y -> fdata (fsub x y) -> rval (fsub x y) = rnd (rval x - rval y).
Proof. intros Fx Fy F. destruct (fsub_correct x y Fx Fy) as [s N]. eapply nearest_val; [exact N|exact F]. Qed.
Lemma fadd_val x y : fdata x -> fdata y -> fdata (fadd x y) -> rval (fadd x y) = rnd (rval x + rval y).
Proof. intros Fx Fy F. destruct (fadd_correct x y Fx Fy) as [s N]. eapply nearest_val; [exact N|exact F]. Qed.
Lemma rnd_pos r : 0 <= r -> 0 <= rnd r.
Proof. intros H. rewrite <- rnd_0. apply rnd_le, H. Qed.
Lemma rnd_le_1 r : r <= 1 -> rnd r <= 1.
Proof. intros H. rewrite <- (rnd_format 1) by (apply (int_format 1); lia). apply rnd_le, H. Qed.
Lemma cos2_bound a b : 0 <= 1 - cos (a - b) <= 2.
Proof. pose proof (COS_bound (a - b)). lra. Qed.

Lemma hav_cosine L lat1 lon1 lat2 lon2 : libm_ok L ->
  latitude lat1 -> longitude lon1 -> latitude lat2 -> longitude lon2 ->
  exists c, fhav_cosine L lat1 lon1 lat2 lon2 = Ok c /\ rval c <= 1 /\
    approx c (dot (sphere_point (rval lat1) (rval lon1)) (sphere_point (rval lat2) (rval lon2))) (1 / 100000000000000).
Proof.
  intros K P1 M1 P2 M2. pose proof pi_bounds as PB.
  pose proof (lat_rad lat1 P1) as A1. pose proof (lon_rad lon1 M1) as B1.
  pose proof (lat_rad lat2 P2) as A2. pose proof (lon_rad lon2 M2) as B2.
  pose proof (radians_bound _ 90 (proj2 P1)) as RA1. pose proof (radians_bound _ 180 (proj2 M1)) as RB1.
  pose proof (radians_bound _ 90 (proj2 P2)) as RA2. pose proof (radians_bound _ 180 (proj2 M2)) as RB2.
  set (p1 := radians (rval lat1)) in *. set (p2 := radians (rval lat2)) in *.
  set (l1 := radians (rval lon1)) in *. set (l2 := radians (rval lon2)) in *.
  assert (approx (fsub (deg2rad lat2) (deg2rad lat1)) (p2 - p1) (122 / 100000000000000000)) as D.
  { eapply approx_sub with (M := 3141593 / 1000000); [exact A2|exact A1| | |]; try num.
    eapply abs_sub_le; [exact RA2|exact RA1|lra]. }
  assert (approx (fsub (deg2rad lon2) (deg2rad lon1)) (l2 - l1) (241 / 100000000000000000)) as DL.
  { eapply approx_sub with (M := 6283186 / 1000000); [exact B2|exact B1| | |]; try num.
    eapply abs_sub_le; [exact RB2|exact RB1|lra]. }
  destruct (approx_cos L _ _ _ (145 / 100000000000000000) K D) as [CD CDo]; [unfold eps1; lra|].
  destruct (approx_cos L _ _ _ (66 / 100000000000000000) K A1) as [C1 C1o]; [unfold eps1; lra|].
  destruct (approx_cos L _ _ _ (66 / 100000000000000000) K A2) as [C2 C2o]; [unfold eps1; lra|].
  destruct (approx_cos L _ _ _ (264 / 100000000000000000) K DL) as [CL CLo]; [unfold eps1; lra|].
  unfold fhav_cosine. rewrite CDo, C1o, C2o, CLo. cbn [bind].
  eexists. split; [reflexivity|].
  assert (approx (fmul (l_cos L (deg2rad lat1)) (l_cos L (deg2rad lat2))) (cos p1 * cos p2) (144 / 100000000000000000)) as X1.
  { eapply approx_mul with (A := 1) (B := 1); [exact C1|exact C2|apply cos_abs|apply cos_abs| |]; num. }
  assert (approx (fsub fone (l_cos L (fsub (deg2rad lon2) (deg2rad lon1)))) (1 - cos (l2 - l1)) (287 / 100000000000000000)) as X2.
  { eapply approx_sub with (M := 2); [apply approx_one|exact CL| | |]; try num.
    pose proof (COS_bound (l2 - l1)). apply Rabs_le; lra. }
  assert (approx (fmul (fmul (l_cos L (deg2rad lat1)) (l_cos L (deg2rad lat2))) (fsub fone (l_cos L (fsub (deg2rad lon2) (deg2rad lon1)))))
            (cos p1 * cos p2 * (1 - cos (l2 - l1))) (600 / 100000000000000000)) as X3.
  { eapply approx_mul with (A := 1) (B := 2); [exact X1|exact X2| | | |]; try num.
    - rewrite Rabs_mult. rewrite <- (Rmult_1_r 1). apply Rmult_le_compat; try apply Rabs_pos; apply cos_abs.
    - pose proof (COS_bound (l2 - l1)). apply Rabs_le; lra. }
  set (c1 := l_cos L (deg2rad lat1)) in *. set (c2 := l_cos L (deg2rad lat2)) in *.
  set (cl := l_cos L (fsub (deg2rad lon2) (deg2rad lon1))) in *. set (cd := l_cos L (fsub (deg2rad lat2) (deg2rad lat1))) in *.
  assert (approx (fsub cd (fmul (fmul c1 c2) (fsub fone cl)))
            (dot (sphere_point (rval lat1) (rval lon1)) (sphere_point (rval lat2) (rval lon2))) (1 / 100000000000000)) as X4.
  { replace (dot _ _) with (cos (p2 - p1) - cos p1 * cos p2 * (1 - cos (l2 - l1))).
    - eapply approx_sub with (M := 3); [exact CD|exact X3| | |]; try num.
      apply abs_sub_le with (A := 1) (B := 2); [apply cos_abs| |lra].
      rewrite !Rabs_mult. replace 2 with (1 * 1 * 2) by ring.
      apply Rmult_le_compat; [apply Rmult_le_pos; apply Rabs_pos|apply Rabs_pos| |].
      + apply Rmult_le_compat; try apply Rabs_pos; apply cos_abs.
      + pose proof (cos2_bound l2 l1). rewrite Rabs_pos_eq; lra.
    - rewrite dot_points. reflexivity. }
  split; [|exact X4].
  rewrite fsub_val by (apply CD || apply X3 || apply X4). apply rnd_le_1.
  assert (0 <= rval (fmul (fmul c1 c2) (fsub fone cl))) as Y3.
  { rewrite fmul_val by (apply X1 || apply X2 || apply X3). apply rnd_pos, Rmult_le_pos.
    - rewrite fmul_val by (apply C1 || apply C2 || apply X1). apply rnd_pos, Rmult_le_pos; apply cos_lat_pos; assumption.
    - rewrite fsub_val by (apply approx_one || apply CL || apply X2). apply rnd_pos. rewrite rval_one.
      pose proof (cos_unit L _ K (proj1 DL)) as U2. apply Rabs_le_inv in U2. unfold cl. lra. }
  pose proof (cos_unit L _ K (proj1 D)) as U1. apply Rabs_le_inv in U1. unfold cd. lra.
Qed.

(* ------------------------------------------------------- angles and acos *)
Lemma angle_gap_half a b : 0 <= b <= a -> a <= PI ->
  let h := (a - b) / 2 in 0 <= h <= PI / 2 /\ cos b - cos a = 2 * (sin ((a + b) / 2) * sin h) /\ h <= (a + b) / 2 <= PI - h.
Proof. intros B A h. unfold h. repeat split; try lra. rewrite form2. replace ((b - a) / 2) with (- ((a - b) / 2)) by field. rewrite sin_neg. replace ((b + a) / 2) with ((a + b) / 2) by field. ring. Qed.
(* the sine of an angle at least u away from 0 and pi *)
Lemma sin_far x u : 0 <= u <= PI / 2 -> u <= x <= PI - u -> sin u <= sin x.
Proof.
  intros U X. destruct (Rle_or_lt x (PI / 2)) as [H|H].
  - apply sin_incr_1; lra.
  - rewrite <- (sin_PI_x x). apply sin_incr_1; lra.
Qed.
Lemma angle_gap_le a b d k : 0 <= b <= a -> a <= PI -> Rabs (cos a - cos b) <= d -> 0 < k <= 1 -> d < 2 * ((k - k * k * k / 6) * (k - k * k * k / 6)) ->
  a - b <= 2 * k.
Proof.
  intros B A D K H. destruct (angle_gap_half a b B A) as (Hh & E & M). set (h := (a - b) / 2) in *.
  destruct (Rle_or_lt h k) as [?|C]; [unfold h in *; lra|exfalso].
  pose proof PI2_3_2. 
  assert (sin k <= sin h) as S1 by (apply sin_incr_1; lra).
  assert (sin k <= sin ((a + b) / 2)) as S2 by (apply sin_far; lra).
  pose proof (sin_low k ltac:(lra)) as S3.
  assert (0 < k - k * k * k / 6) as S4 by nra.
  rewrite Rabs_minus_sym, E in D. pose proof (Rle_abs (2 * (sin ((a + b) / 2) * sin h))).
  assert ((k - k * k * k / 6) * (k - k * k * k / 6) <= sin ((a + b) / 2) * sin h) by (apply Rmult_le_compat; lra).
  lra.
Qed.
Lemma angle_gap a b d k : 0 <= a <= PI -> 0 <= b <= PI -> Rabs (cos a - cos b) <= d -> 0 < k <= 1 -> d < 2 * ((k - k * k * k / 6) * (k - k * k * k / 6)) ->
  Rabs (a - b) <= 2 * k.
Proof.
  intros A B D K H. destruct (Rle_or_lt b a).
  - rewrite Rabs_pos_eq by lra. apply angle_gap_le with d; try assumption; lra.
  - rewrite Rabs_left by lra. rewrite Rabs_minus_sym in D. pose proof (angle_gap_le b a d k); lra.
Qed.
(* ... better away from coincident and antipodal points *)
Lemma angle_gap_far a b d u k : 0 <= a <= PI -> 0 <= b <= PI -> 2 * u <= a <= PI - 2 * u -> 0 < u <= 1 -> Rabs (cos a - cos b) <= d -> 0 < k <= 1 ->
  d < 2 * ((u - u * u * u / 6) * (k - k * k * k / 6)) -> Rabs (a - b) <= 2 * k.
Proof.
  intros A B U U1 D K H. destruct (Rle_or_lt (Rabs (a - b)) (2 * k)) as [?|C]; [assumption|exfalso].
  set (h := Rabs (a - b) / 2). pose proof PI2_3_2.
  assert (h <= PI / 2) as HH by (unfold h; assert (Rabs (a - b) <= PI) by (apply Rabs_le; lra); lra).
  assert (Rabs (cos a - cos b) = 2 * (sin ((a + b) / 2) * sin h)) as E.
  { assert (0 <= sin h) by (pose proof (Rabs_pos (a - b)); apply sin_ge_0; unfold h in *; lra).
    assert (0 <= sin ((a + b) / 2)) by (apply sin_ge_0; lra).
    rewrite form2, !Rabs_mult. rewrite (Rabs_left (-2)), (Rabs_pos_eq (sin ((a + b) / 2))) by lra.
    replace (Rabs (sin ((a - b) / 2))) with (sin h); [ring|].
    unfold h. destruct (Rle_or_lt 0 (a - b)).
    - rewrite (Rabs_pos_eq (a - b)) by lra. rewrite Rabs_pos_eq; [reflexivity|apply sin_ge_0; lra].
    - rewrite (Rabs_left (a - b)) by lra. replace (- (a - b) / 2) with (- ((a - b) / 2)) by field. rewrite sin_neg.
      rewrite Rabs_left; [reflexivity|]. replace ((a - b) / 2) with (- ((b - a) / 2)) by field. rewrite sin_neg.
      assert (0 < sin ((b - a) / 2)) by (apply sin_gt_0; lra). lra. }
  rewrite E in D.
  assert (sin k <= sin h) as S1 by (apply sin_incr_1; unfold h in *; lra).
  assert (sin u <= sin ((a + b) / 2)) as S2 by (apply sin_far; lra).
  pose proof (sin_low k ltac:(lra)) as S3. pose proof (sin_low u ltac:(lra)) as S4.
  assert (0 < k - k * k * k / 6) by nra. assert (0 < u - u * u * u / 6) by nra.
  assert ((u - u * u * u / 6) * (k - k * k * k / 6) <= sin ((a + b) / 2) * sin h) by (apply Rmult_le_compat; lra).
  lra.
Qed.


(* everything about the result, from the float cosine *)
Lemma hav_result L lat1 lon1 lat2 lon2 radius t : libm_ok L ->
  latitude lat1 -> longitude lon1 -> latitude lat2 -> longitude lon2 -> sphere_radius radius ->
  angle_between (rval lat1) (rval lon1) (rval lat2) (rval lon2) t ->
  (exists d t', fhaversine L lat1 lon1 lat2 lon2 radius = Ok d /\ fdata d /\ 0 <= rval d /\
     0 <= t' <= PI /\ Rabs (cos t - cos t') <= 1 / 100000000000000 /\
     Rabs (rval d - rval radius * t') <= rval radius * (2 / 1000000000000000)) \/
  (fhaversine L lat1 lon1 lat2 lon2 radius = Raise ValueError /\ cos t <= -1 + 1 / 100000000000000).
Proof.
  intros K P1 M1 P2 M2 R [T E]. destruct (hav_cosine L lat1 lon1 lat2 lon2 K P1 M1 P2 M2) as (c & C & LE & A).
  unfold fhaversine. rewrite C. cbn [bind]. rewrite <- E in A. destruct A as [FC A].
  destruct (Rle_or_lt (-1) (rval c)) as [G|G].
  - left. pose proof (acos_ok L K c FC (conj G LE)) as Q.
    pose proof (acos_bound (rval c)) as AB. pose proof pi_bounds as PB.
    rewrite math1_ok by apply Q. cbn [bind].
    assert (approx (l_acos L c) (acos (rval c)) (7 / 10000000000000000)) as QA.
    { eapply (faithful_approx _ _ (3141593 / 1000000)); [exact Q|apply Rabs_le; lra|num]. }
    destruct R as [FR R].
    assert (approx (fmul radius (l_acos L c)) (rval radius * acos (rval c)) (rval radius * (2 / 1000000000000000))) as X.
    { eapply approx_mul with (A := rval radius) (B := 3141593 / 1000000); [apply approx_exact, FR|exact QA| | | |]; try num.
      - rewrite Rabs_pos_eq; lra.
      - apply Rabs_le; lra. }
    exists (fmul radius (l_acos L c)), (acos (rval c)).
    split; [reflexivity|]. split; [apply X|]. split; [|split; [exact AB|split]].
    + rewrite fmul_val by (exact FR || apply QA || apply X). apply rnd_pos, Rmult_le_pos; [lra|].
      apply (faithful_pos _ _ Q). lra.
    + rewrite cos_acos by lra. rewrite Rabs_minus_sym. exact A.
    + apply X.
  - right. pose proof (acos_dom L K c FC (or_introl G)) as Q. unfold math1. rewrite Q. destruct FC as [_ FC].
    destruct c; try discriminate; cbn [is_nan is_inf is_fin negb andb bind]; (split; [reflexivity|]);
      apply Rabs_le_inv in A; lra.
Qed.
Lemma angle_close t t' : 0 <= t <= PI -> 0 <= t' <= PI -> Rabs (cos t - cos t') <= 1 / 100000000000000 -> Rabs (t - t') <= 1416 / 10000000000.
Proof.
  intros A B D. replace (1416 / 10000000000) with (2 * (708 / 10000000000)) by field.
  apply angle_gap with (1 / 100000000000000); try assumption; lra.
Qed.
Lemma angle_near_pi t : 0 <= t <= PI -> cos t <= -1 + 1 / 100000000000000 -> PI - t <= 1416 / 10000000000.
Proof.
  intros A B. pose proof (angle_close PI t ltac:(lra) A) as C. rewrite cos_PI in C. pose proof (COS_bound t).
  assert (Rabs (PI - t) <= 1416 / 10000000000) as D by (apply C; apply Rabs_le; lra). apply Rabs_le_inv in D. lra.
Qed.
