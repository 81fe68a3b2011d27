(* Degree/minute/second text: deg2dmm, deg2dms, dms2deg. *)
From Coq Require Import Reals Lia Lra.
From Flocq Require Import Core BinarySingleNaN.
From Verif Require Import Helpers BaseLemmas TextLemmas NumLemmas TimeSpec TimeProofs CoordSpec FloatProofs DecimalProofs CoordProofs.
Local Open Scope Z_scope.

(* --------------------------------------------- floats printed without exponent *)
Definition point_text (s : pystr) : Prop :=
  exists ip fp, Forall digit ip /\ Forall digit fp /\ ip <> [] /\ s = map dec_char ip ++ 46%N :: map dec_char fp.
Lemma repeat_digits k : Forall digit (repeat 0%N k).
Proof. apply Forall_forall. intros x Hx. apply repeat_spec in Hx. subst. unfold digit. lia. Qed.
Lemma map_repeat0 k : map dec_char (repeat 0%N k) = repeat 48%N k.
Proof. induction k as [|k IH]; [reflexivity|]. cbn [repeat map]. rewrite IH. reflexivity. Qed.
Lemma repr_text_point ds pt : Forall digit ds -> ds <> [] -> -4 < pt <= 16 -> point_text (repr_text ds pt).
Proof.
  intros F NE P. unfold repr_text. cbv zeta. set (n := Z.of_nat (length ds)).
  replace ((pt <=? -4) || (16 <? pt)) with false by (symmetry; apply orb_false_iff; split; [apply Z.leb_gt|apply Z.ltb_ge]; lia).
  destruct (Z.leb_spec pt 0) as [L|L]; [|destruct (Z.leb_spec n pt) as [L2|L2]].
  - exists [0%N], (repeat 0%N (Z.to_nat (- pt)) ++ ds). split; [constructor; [unfold digit; lia|constructor]|].
    split; [apply Forall_app; split; [apply repeat_digits|exact F]|]. split; [discriminate|]. rewrite map_app, map_repeat0. reflexivity.
  - exists (ds ++ repeat 0%N (Z.to_nat (pt - n))), [0%N]. split; [apply Forall_app; split; [exact F|apply repeat_digits]|].
    split; [constructor; [unfold digit; lia|constructor]|]. split; [destruct ds; [congruence|discriminate]|]. rewrite map_app, map_repeat0, <- app_assoc. reflexivity.
  - exists (firstn (Z.to_nat pt) ds), (skipn (Z.to_nat pt) ds). rewrite <- (firstn_skipn (Z.to_nat pt) ds) in F. apply Forall_app in F as [F1 F2].
    split; [exact F1|]. split; [exact F2|]. split; [destruct (Z.to_nat pt) eqn:E; [lia|destruct ds; [congruence|discriminate]]|].
    rewrite <- firstn_map, <- skipn_map. reflexivity.
Qed.
Definition tenth_milli : fl := f_of_dec false 1 (-4).
Lemma pow10_lt a b : (pow10 a < pow10 b)%R -> a < b.
Proof. intros H. apply Z.nle_gt. intros L. apply pow10_le in L. lra. Qed.
Lemma print_point x : fdata x -> sign_of x = false -> is_zero x = true \/ (rnd (pow10 (-4)) <= rval x)%R -> (rval x < 1000000)%R -> point_text (str_of_float x).
Proof.
  intros D S H B. destruct D as [V F]. destruct x as [s|s| |s m e]; try discriminate; cbn [sign_of] in S; subst s.
  - exists [0%N], [0%N]. split; [|split; [|split; [discriminate|reflexivity]]]; (constructor; [unfold digit; lia|constructor]).
  - destruct H as [H|H]; [discriminate H|]. set (x := S754_finite false m e) in *.
    pose proof (f_of_dec_correct false 1 (-4)) as T. cbn [signR] in T. change (IZR (Z.of_N 1)) with 1%R in T. rewrite Rmult_1_l in T.
    assert (0 < pow10 (-4) <= 1)%R as P4 by (split; [apply pow10_pos|change 1%R with (pow10 0); apply pow10_le; lia]).
    apply nearest_fdata in T; [|apply rnd_lt_huge with 1; [rewrite Rabs_pos_eq; lra|lia]]. destruct T as (DT & VT & ST).
    destruct (Rle_lt_or_eq_dec _ _ H) as [G|G].
    + destruct (shortest_some m e V) as (d & ex & SH & R). cbn [str_of_float x]. rewrite SH.
      set (ds := N_digits 10 d). destruct (strip_zeros_split ds) as (k & E).
      assert (Forall digit ds) as Fd by (eapply Forall_impl; [|apply (N_digits_lt 10); lia]; intros a Ha; exact Ha).
      assert (Forall digit (strip_zeros ds)) as Fs by (rewrite E in Fd; apply Forall_app in Fd as [Fd' _]; exact Fd').
      assert (0 < d)%N as D0.
      { destruct (N.eq_0_gt_0_cases d) as [->|]; [|assumption]. cbn [f_of_dec] in R. discriminate R. }
      assert (strip_zeros ds <> []) as NE.
      { intros H0. rewrite H0 in E. cbn [app] in E. assert (digits_val 10 ds = 0%N) as Z0 by (rewrite E, <- (app_nil_r (repeat 0%N k)), digits_val_zeros; reflexivity).
        unfold ds in Z0. rewrite N_digits_val in Z0 by lia. lia. }
      apply repr_text_point; [exact Fs|exact NE|].
      destruct (ndigits_bounds d D0) as (N1 & NL & NU). unfold ndigits in *. fold ds in N1, NL, NU. set (n := Z.of_nat (length ds)) in *.
      pose proof (f_of_dec_correct false d ex) as C. cbn [signR] in C. rewrite R in C. fold x in C.
      assert (rval x = rnd (IZR (Z.of_N d) * pow10 ex)) as VX.
      { destruct C as [_ C]. destruct (Rlt_bool _ _); [apply C|discriminate C]. }
      apply IZR_le in NL. apply IZR_lt in NU. rewrite <- pow10_IZR in NL, NU by lia.
      pose proof (pow10_pos ex) as PX. split.
      * apply Z.nle_gt. intros L. assert (IZR (Z.of_N d) * pow10 ex <= pow10 (-4))%R as LE.
        { apply Rle_trans with (pow10 n * pow10 ex)%R; [apply Rmult_le_compat_r; lra|]. rewrite <- pow10_add. apply pow10_le. lia. }
        apply rnd_le in LE. rewrite <- VX in LE. lra.
      * apply Z.nlt_ge. intros L. assert (pow10 6 <= IZR (Z.of_N d) * pow10 ex)%R as LE.
        { apply Rle_trans with (pow10 (n - 1) * pow10 ex)%R; [|apply Rmult_le_compat_r; lra]. rewrite <- pow10_add. apply pow10_le. lia. }
        rewrite pow10_IZR in LE by lia. change (IZR (10 ^ 6)) with 1000000%R in LE. apply rnd_le in LE. rewrite <- VX, rnd_format in LE by (apply (int_format 1000000); lia). lra.
    + assert (x = tenth_milli) as ->.
      { apply fdata_inj; [split; [exact V|exact F]|exact DT|unfold tenth_milli; rewrite VT; symmetry; exact G|unfold tenth_milli; rewrite ST; reflexivity]. }
      exists [0%N], [0%N; 0%N; 0%N; 1%N]. split; [|split; [|split; [discriminate|vm_compute; reflexivity]]]; repeat (constructor; [unfold digit; lia|]); constructor.
Qed.
(* round(x, k) of a number below 100 prints without exponent unless it is between 0 and 1e-4 *)
Definition tiny (x : fl) : Prop := (0 < rval x < rnd (pow10 (-4)))%R.

(* ------------------------------------------------------------- dms2deg text *)
Definition num_text (s : pystr) : Prop := s <> [] /\ Forall (fun c => (48 <= c <= 57)%N \/ c = 46%N) s.
Lemma point_num s : point_text s -> num_text s.
Proof.
  intros (ip & fp & F1 & F2 & NE & ->). split; [destruct ip; [congruence|discriminate]|].
  apply Forall_app. split; [|constructor; [right; reflexivity|]]; (apply Forall_map; eapply Forall_impl; [|eassumption]; unfold digit, dec_char; intros; left; lia).
Qed.
Lemma dec_num n : num_text (dec_of_N n).
Proof. split; [apply dec_of_N_nonempty|]. eapply Forall_impl; [|apply dec_of_N_ascii]. intros; left; assumption. Qed.
Lemma class_num c : (48 <= c <= 57)%N \/ c = 46%N -> dms_class c = true.
Proof.
  intros H. assert (In c [46; 48; 49; 50; 51; 52; 53; 54; 55; 56; 57]%N) as I by (cbn; lia).
  assert (forallb dms_class [46; 48; 49; 50; 51; 52; 53; 54; 55; 56; 57]%N = true) as G by (vm_compute; reflexivity).
  rewrite forallb_forall in G. apply G, I.
Qed.
Lemma dms_run_num s c r : num_text s -> dms_class c = false -> dms_run (s ++ c :: r) = (s, c :: r).
Proof.
  intros [_ F] C. induction F as [|a s A _ IH]; cbn [app dms_run].
  - rewrite C. reflexivity.
  - rewrite class_num by exact A. rewrite IH. reflexivity.
Qed.
Lemma dms_group_num s c r : num_text s -> dms_class c = false -> dms_group (s ++ c :: r) = Some r.
Proof. intros N C. unfold dms_group. rewrite dms_run_num by assumption. destruct N as [NE _]. destruct s; [congruence|reflexivity]. Qed.
Lemma dms_split_num s c r n acc : Forall (fun c => (48 <= c <= 57)%N \/ c = 46%N) s -> dms_class c = false ->
  dms_split (S n) acc (s ++ c :: r) = (rev acc ++ s) :: dms_split n [] r.
Proof.
  intros F C. revert acc. induction F as [|a s A _ IH]; intros acc; cbn [app dms_split].
  - rewrite C, app_nil_r. reflexivity.
  - rewrite class_num by exact A. change (dms_split (S n) (a :: acc) (s ++ c :: r) = (rev acc ++ a :: s) :: dms_split n [] r). rewrite IH. cbn [rev]. rewrite <- app_assoc. reflexivity.
Qed.
Lemma hemi_facts neg att : exists h, hemi neg att = [h] /\ In h (u "NSEW") /\ dms_class h = false /\ ((h =? 83) || (h =? 87))%N = neg.
Proof. unfold hemi. destruct neg, (str_eqb att ty_LA); eexists; (split; [reflexivity|]); (split; [cbn; tauto|]); (split; vm_compute; reflexivity). Qed.
Lemma num_not c s : num_text s -> (c < 46 \/ 57 < c)%N -> ~ In c s.
Proof. intros [_ F] H I. rewrite Forall_forall in F. specialize (F _ I). cbn in F. lia. Qed.
Lemma memc_app c a b : memc c (a ++ b) = memc c a || memc c b.
Proof. unfold memc. apply existsb_app. Qed.
Lemma Forall_not_in (c : N) s : ~ In c s -> Forall (fun x => x <> c) s.
Proof. intros H. apply Forall_forall. intros x I ->. contradiction. Qed.
Definition f3600' : fl := f_norm 3600 0.
(* three parts *)
Lemma dms2deg_three s1 s2 s3 neg att rd : num_text s1 -> num_text s2 -> num_text s3 ->
  dms2deg (s1 ++ s_deg ++ s2 ++ s_min ++ s3 ++ s_sec ++ hemi neg att) rd =
  (let! a := float_of_str s1 in let! b := float_of_str s2 in let! c := float_of_str s3 in
   Ok (fround rd (fmul (fadd (fadd (fadd fzero (fdiv a (f_norm 1 0))) (fdiv b f60)) (fdiv c f3600)) (if neg then f_norm (-1) 0 else fone)))).
Proof.
  intros N1 N2 N3. destruct (hemi_facts neg att) as (h & -> & Hh & Ch & Hn).
  assert (~ In 32%N (s1 ++ s_deg ++ s2 ++ s_min ++ s3 ++ s_sec ++ [h])) as NS.
  { rewrite !in_app_iff. unfold s_deg, s_min, s_sec. pose proof (num_not 32 s1 N1 ltac:(lia)). pose proof (num_not 32 s2 N2 ltac:(lia)). pose proof (num_not 32 s3 N3 ltac:(lia)). cbn [In].
    intros HH. cbn in Hh. intuition lia. }
  unfold dms2deg. cbv zeta. rewrite remove_none by (apply Forall_not_in, NS).
  assert (dms_class 176 = false) as C1 by (vm_compute; reflexivity). assert (dms_class 8242 = false) as C2 by (vm_compute; reflexivity). assert (dms_class 8243 = false) as C3 by (vm_compute; reflexivity).
  assert (s1 ++ s_deg ++ s2 ++ s_min ++ s3 ++ s_sec ++ [h] = s1 ++ 176%N :: s2 ++ 8242%N :: s3 ++ 8243%N :: [h]) as -> by reflexivity.
  unfold dms_match. rewrite !dms_group_num by assumption.
  assert (dms_tail [h] = true) as -> by (unfold dms_tail; replace (memc h (u "NSEW")) with true by (symmetry; apply memc_iff, Hh); reflexivity).
  rewrite !dms_split_num by (assumption || apply N1 || apply N2 || apply N3). cbn [rev app].
  assert (memc 83 (s1 ++ 176%N :: s2 ++ 8242%N :: s3 ++ [8243%N; h]) || memc 87 (s1 ++ 176%N :: s2 ++ 8242%N :: s3 ++ [8243%N; h]) = neg) as ->.
  { rewrite <- Hn. assert (forall c, (57 < c < 128)%N -> memc c (s1 ++ 176%N :: s2 ++ 8242%N :: s3 ++ [8243%N; h]) = (h =? c)%N) as G.
    { intros c Hc. destruct (memc c _) eqn:E.
      - symmetry. apply N.eqb_eq. apply memc_iff in E. repeat (rewrite in_app_iff in E || cbn [In] in E).
        pose proof (num_not c s1 N1 ltac:(lia)). pose proof (num_not c s2 N2 ltac:(lia)). pose proof (num_not c s3 N3 ltac:(lia)). intuition lia.
      - symmetry. apply N.eqb_neq. intros ->. apply memc_false in E. apply E. repeat (rewrite in_app_iff || cbn [In]). tauto. }
    rewrite !G by lia. reflexivity. }
  destruct s1 as [|c1 s1']; [destruct N1; congruence|]. destruct s2 as [|c2 s2']; [destruct N2; congruence|]. destruct s3 as [|c3 s3']; [destruct N3; congruence|].
  cbn [dms_split rev app dms_sum]. destruct (float_of_str (c1 :: s1')); [|reflexivity]. cbn [bind]. destruct (float_of_str (c2 :: s2')); [|reflexivity]. cbn [bind].
  destruct (float_of_str (c3 :: s3')); [|reflexivity]. cbn [bind]. reflexivity.
Qed.
(* two parts *)
Lemma dms2deg_two s1 s2 neg att rd : num_text s1 -> num_text s2 ->
  dms2deg (s1 ++ s_deg ++ s2 ++ s_min ++ hemi neg att) rd =
  (let! a := float_of_str s1 in let! b := float_of_str s2 in
   Ok (fround rd (fmul (fadd (fadd (fadd fzero (fdiv a (f_norm 1 0))) (fdiv b f60)) fzero) (if neg then f_norm (-1) 0 else fone)))).
Proof.
  intros N1 N2. destruct (hemi_facts neg att) as (h & -> & Hh & Ch & Hn).
  assert (~ In 32%N (s1 ++ s_deg ++ s2 ++ s_min ++ [h])) as NS.
  { rewrite !in_app_iff. unfold s_deg, s_min. pose proof (num_not 32 s1 N1 ltac:(lia)). pose proof (num_not 32 s2 N2 ltac:(lia)). cbn [In].
    intros HH. cbn in Hh. intuition lia. }
  unfold dms2deg. cbv zeta. rewrite remove_none by (apply Forall_not_in, NS).
  assert (dms_class 176 = false) as C1 by (vm_compute; reflexivity). assert (dms_class 8242 = false) as C2 by (vm_compute; reflexivity).
  assert (s1 ++ s_deg ++ s2 ++ s_min ++ [h] = s1 ++ 176%N :: s2 ++ 8242%N :: [h]) as -> by reflexivity.
  unfold dms_match. rewrite !dms_group_num by assumption.
  assert (dms_group [h] = None) as -> by (unfold dms_group; cbn [dms_run]; rewrite Ch; reflexivity).
  assert (dms_tail [h] = true) as -> by (unfold dms_tail; replace (memc h (u "NSEW")) with true by (symmetry; apply memc_iff, Hh); reflexivity).
  rewrite !dms_split_num by (assumption || apply N1 || apply N2). cbn [rev app].
  assert (memc 83 (s1 ++ 176%N :: s2 ++ [8242%N; h]) || memc 87 (s1 ++ 176%N :: s2 ++ [8242%N; h]) = neg) as ->.
  { rewrite <- Hn. assert (forall c, (57 < c < 128)%N -> memc c (s1 ++ 176%N :: s2 ++ [8242%N; h]) = (h =? c)%N) as G.
    { intros c Hc. destruct (memc c _) eqn:E.
      - symmetry. apply N.eqb_eq. apply memc_iff in E. repeat (rewrite in_app_iff in E || cbn [In] in E).
        pose proof (num_not c s1 N1 ltac:(lia)). pose proof (num_not c s2 N2 ltac:(lia)). intuition lia.
      - symmetry. apply N.eqb_neq. intros ->. apply memc_false in E. apply E. repeat (rewrite in_app_iff || cbn [In]). tauto. }
    rewrite !G by lia. reflexivity. }
  assert (dms_split 1 [] [h] = [[]; []]) as -> by (cbn [dms_split]; rewrite Ch; reflexivity).
  destruct s1 as [|c1 s1']; [destruct N1; congruence|]. destruct s2 as [|c2 s2']; [destruct N2; congruence|].
  cbn [dms_sum]. destruct (float_of_str (c1 :: s1')); [|reflexivity]. cbn [bind]. destruct (float_of_str (c2 :: s2')); [|reflexivity]. cbn [bind]. reflexivity.
Qed.

(* --------------------------------------------------------- printing degrees *)
Lemma fround_pos k x b : (1 <= k <= 20)%nat -> fdata x -> sign_of x = false -> (rval x <= IZR b)%R -> 0 <= b <= 1000 ->
  exists n, 0 <= n <= b * 10 ^ Z.of_nat k /\ (Rabs (IZR n - rval x * pow10 (Z.of_nat k)) <= / 2)%R
  /\ fdata (fround k x) /\ sign_of (fround k x) = false /\ rval (fround k x) = rnd (IZR n * pow10 (- Z.of_nat k))
  /\ (0 <= rval (fround k x) <= IZR b)%R.
Proof.
  intros K D S B Hb. destruct (fround_correct k x D) as (n & s & N0 & E & N & ->). rewrite S in N. cbn [signR] in N.
  pose proof (fdata_nonneg x D S) as X0. rewrite (Rabs_pos_eq (rval x)) in E by exact X0.
  set (p := pow10 (Z.of_nat k)) in *. assert (p = IZR (10 ^ Z.of_nat k)) as PP by (apply pow10_IZR; lia).
  assert (0 < p)%R as Pp by apply pow10_pos.
  assert (n <= b * 10 ^ Z.of_nat k) as NU by (eapply half_le; [exact E|]; rewrite mult_IZR, <- PP; apply Rmult_le_compat_r; lra).
  assert (0 <= IZR n * pow10 (- Z.of_nat k) <= IZR b)%R as V.
  { rewrite pow10_neg. fold p. apply IZR_le in N0, NU. rewrite mult_IZR, <- PP in NU. assert (0 < / p)%R by (apply Rinv_0_lt_compat; exact Pp).
    split; [apply Rmult_le_pos; lra|]. apply Rmult_le_reg_r with p; [exact Pp|]. rewrite Rmult_assoc, Rinv_l by lra. lra. }
  assert (0 <= rnd (IZR n * pow10 (- Z.of_nat k)) <= IZR b)%R as R.
  { split; [rewrite <- rnd_0; apply rnd_le; lra|]. rewrite <- (rnd_format (IZR b)) by (apply int_format; lia). apply rnd_le; lra. }
  exists n. split; [lia|]. split; [exact E|].
  apply nearest_fdata in N; [|apply rnd_lt_huge with b; [rewrite Rabs_pos_eq by lra; lra|lia]]. destruct N as (D1 & V1 & S1).
  split; [exact D1|]. split; [exact S1|]. split; [exact V1|]. rewrite V1. exact R.
Qed.
Lemma str_of_small z : 0 <= z <= 1000000 -> str_of_Z z = Ok (dec_of_N (Z.to_N z)).
Proof.
  intros H. unfold str_of_Z. replace (Z.abs_N z) with (Z.to_N z) by lia.
  assert (int_max_str_digits <? lenN (dec_of_N (Z.to_N z)) = false)%N as L.
  { apply N.ltb_ge. unfold lenN, dec_of_N. rewrite map_length. assert (length (N_digits 10 (Z.to_N z)) <= 7)%nat by (apply N_digits_length_le; [lia|change (10 ^ N.of_nat 7)%N with 10000000%N; lia]).
    unfold int_max_str_digits. lia. }
  cbv zeta. rewrite L. replace (z <? 0) with false by (symmetry; apply Z.ltb_ge; lia). reflexivity.
Qed.
Lemma fneg_correct x : fdata x -> fltb x fzero = Rlt_bool (rval x) 0.
Proof. intros D. rewrite fltb_correct by (exact D || (split; reflexivity)). reflexivity. Qed.
Lemma hemi_neg (b : bool) att : hemi b att = if b then (if str_eqb att ty_LA then u "S" else u "W") else (if str_eqb att ty_LA then u "N" else u "E").
Proof. reflexivity. Qed.

Lemma deg2dms_correct x att : fdata x -> (Rabs (rval x) <= 1000)%R ->
  exists d m s k, deg2dms (VFloat x) att = Ok (dec_of_N (Z.to_N d) ++ s_deg ++ dec_of_N (Z.to_N m) ++ s_min ++ str_of_float s ++ s_sec ++ hemi (Rlt_bool (rval x) 0) att)
  /\ 0 <= d <= 1000 /\ 0 <= m < 60 /\ fdata s /\ sign_of s = false /\ (0 <= rval s <= 60)%R /\ 0 <= k <= 6000000 /\ rval s = rnd (IZR k * pow10 (-5))
  /\ (Rabs (IZR d + IZR m / 60 + rval s / 3600 - Rabs (rval x)) <= / 2 / 360000000 + / 1000000000000)%R.
Proof.
  intros D B. destruct D as [V F]. destruct (fabs_correct x V) as (Va & Ra & Fa & Sa).
  destruct (f_int 3600 ltac:(cbn; lia)) as ([V36 F36] & R36 & S36). fold f3600 in V36, F36, R36, S36.
  pose proof (fmul_correct (fabs x) f3600 Va V36 (eq_trans Fa F) F36) as N. rewrite Sa, S36, Ra, R36 in N. cbn [xorb] in N. change (3600 <? 0) with false in N.
  set (a := Rabs (rval x)) in *. assert (0 <= a)%R as A0 by apply Rabs_pos.
  assert (0 <= rnd (a * 3600) <= 3600000)%R as RB.
  { split; [rewrite <- rnd_0; apply rnd_le; lra|]. rewrite <- (rnd_format 3600000) by (apply (int_format 3600000); lia). apply rnd_le; lra. }
  pose proof (rnd_err 22 (a * 3600) ltac:(lia)) as E1. rewrite Rabs_pos_eq in E1 by lra. specialize (E1 ltac:(change (bpow radix2 22) with 4194304%R; lra)).
  change (bpow radix2 (22 - 54)) with (/ 4294967296)%R in E1.
  apply nearest_fdata in N; [|apply rnd_lt_huge with 3600000; [rewrite Rabs_pos_eq by lra; lra|lia]]. destruct N as (D1 & V1 & S1).
  set (y := fmul (fabs x) f3600) in *. rewrite <- V1 in *.
  assert (rval y < IZR (2 ^ 53))%R as BY by (eapply Rle_lt_trans; [apply RB|]; apply (IZR_lt 3600000); lia).
  pose proof (fdivmod60 y _ D1 S1 BY eq_refl) as M1. set (q := Zfloor (rval y / 60)) in M1. unfold deg2dms. fold y.
  destruct (fdivmod y f60) as [mi se]. destruct M1 as (SM & DM & VM & DS & SS & VS & BS & Q0).
  assert (IZR q <= 60000)%R as QB by (pose proof (Zfloor_lb (rval y / 60)) as LB; fold q in LB; lra).
  assert (rval mi < IZR (2 ^ 53))%R as BY2 by (rewrite VM; eapply Rle_lt_trans; [exact QB|]; apply (IZR_lt 60000); lia).
  pose proof (fdivmod60 mi _ DM SM BY2 eq_refl) as M2. set (d := Zfloor (rval mi / 60)) in M2.
  destruct (fdivmod mi f60) as [dv mm]. destruct M2 as (_ & DD & VD & DMM & SMM & VMM & BMM & D0).
  assert (IZR d <= 1000)%R as DB by (pose proof (Zfloor_lb (rval mi / 60)) as LB; fold d in LB; rewrite VM in LB; lra).
  assert (rval mm = IZR (q - 60 * d)) as VM2 by (rewrite VMM, VM, minus_IZR, mult_IZR; reflexivity).
  rewrite VM2 in BMM. destruct BMM as [BM1 BM2]. apply le_IZR in BM1. apply lt_IZR in BM2.
  assert (d <= 1000) as DB' by (apply le_IZR; exact DB).
  destruct DD as [DD1 DD2]. destruct DMM as [DM1 DM2].
  rewrite (int_of_float_correct dv) by exact DD2. rewrite VD, Ztrunc_IZR. cbn [bind catch_value].
  rewrite str_of_small by lia. cbn [bind]. rewrite (int_of_float_correct mm) by exact DM2. rewrite VM2, Ztrunc_IZR. cbn [bind].
  rewrite str_of_small by lia. cbn [bind].
  destruct (fround_pos 5 se 60 ltac:(lia) DS SS ltac:(lra) ltac:(lia)) as (k & Kb & Ke & DF & SF & VF & BF).
  exists d, (q - 60 * d), (fround 5 se), k. split.
  { rewrite fneg_correct by (split; assumption). reflexivity. }
  split; [lia|]. split; [lia|]. split; [exact DF|]. split; [exact SF|]. split; [exact BF|]. split; [exact Kb|]. split; [exact VF|].
  change (Z.of_nat 5) with 5 in *. rewrite VF.
  assert (pow10 5 = 100000)%R as P5 by (apply (pow10_IZR 5); lia). rewrite P5 in Ke. change (-5) with (- (5)) in *. rewrite pow10_neg, P5 in *.
  set (r := (IZR k * / 100000)%R) in *.
  assert (0 <= r <= 60)%R as RR. { unfold r. destruct Kb as [K1 K2]. apply IZR_le in K1, K2. change (IZR (60 * 10 ^ 5)) with 6000000%R in K2. lra. }
  pose proof (rnd_err 6 r ltac:(lia)) as E2. rewrite Rabs_pos_eq in E2 by lra. specialize (E2 ltac:(change (bpow radix2 6) with 64%R; lra)).
  change (bpow radix2 (6 - 54)) with (/ 281474976710656)%R in E2.
  rewrite minus_IZR, mult_IZR. apply Rabs_le. apply Rabs_le_inv in E1, E2, Ke. unfold r in *. lra.
Qed.
Lemma deg2dmm_correct x att : fdata x -> (Rabs (rval x) < 1000)%R ->
  exists d s k, deg2dmm (VFloat x) att = Ok (dec_of_N (Z.to_N d) ++ s_deg ++ str_of_float s ++ s_min ++ hemi (Rlt_bool (rval x) 0) att)
  /\ 0 <= d < 1000 /\ fdata s /\ sign_of s = false /\ (0 <= rval s <= 60)%R /\ 0 <= k <= 600000000 /\ rval s = rnd (IZR k * pow10 (-7))
  /\ (Rabs (IZR d + rval s / 60 - Rabs (rval x)) <= / 2 / 600000000 + / 1000000000000)%R.
Proof.
  intros D B. destruct (times60 x D B) as (D1 & S1 & V1 & E1 & L1 & _). set (y := fmul (fabs x) f60) in *.
  assert (rval y < IZR (2 ^ 53))%R as BY by (eapply Rlt_trans; [exact L1|]; apply (IZR_lt 60000); lia).
  pose proof (fdivmod60 y _ D1 S1 BY eq_refl) as M. set (d := Zfloor (rval y / 60)) in M. unfold deg2dmm. fold y.
  destruct (fdivmod y f60) as [dv md]. destruct M as (_ & DV & VV & DM & SM & VM & BM & Q0).
  assert (d < 1000) as DB by (apply lt_IZR; pose proof (Zfloor_lb (rval y / 60)) as LB; fold d in LB; lra).
  destruct DV as [DV1 DV2]. rewrite (int_of_float_correct dv) by exact DV2. rewrite VV, Ztrunc_IZR. cbn [bind catch_value]. rewrite str_of_small by lia. cbn [bind].
  destruct (fround_pos 7 md 60 ltac:(lia) DM SM ltac:(lra) ltac:(lia)) as (k & Kb & Ke & DF & SF & VF & BF).
  exists d, (fround 7 md), k. split; [rewrite fneg_correct by exact D; reflexivity|].
  split; [lia|]. split; [exact DF|]. split; [exact SF|]. split; [exact BF|]. split; [exact Kb|]. split; [exact VF|].
  change (Z.of_nat 7) with 7 in *. rewrite VF.
  assert (pow10 7 = 10000000)%R as P7 by (apply (pow10_IZR 7); lia). rewrite P7 in Ke. change (-7) with (- (7)) in *. rewrite pow10_neg, P7 in *.
  set (r := (IZR k * / 10000000)%R) in *. set (a := Rabs (rval x)) in *.
  assert (0 <= r <= 60)%R as RR. { unfold r. destruct Kb as [K1 K2]. apply IZR_le in K1, K2. change (IZR (60 * 10 ^ 7)) with 600000000%R in K2. lra. }
  pose proof (rnd_err 6 r ltac:(lia)) as E2. rewrite Rabs_pos_eq in E2 by lra. specialize (E2 ltac:(change (bpow radix2 6) with 64%R; lra)).
  change (bpow radix2 (6 - 54)) with (/ 281474976710656)%R in E2. change (bpow radix2 (-38)) with (/ 274877906944)%R in E1.
  apply Rabs_le. apply Rabs_le_inv in E1, E2, Ke. unfold r in *. lra.
Qed.

(* ------------------------------------------------------------- reading back *)
(* a sum of the parts, as a real number *)
Lemma float_of_dec n : (n <= 1000)%N -> exists x, float_of_str (dec_of_N n) = Ok x /\ fdata x /\ sign_of x = false /\ rval x = IZR (Z.of_N n).
Proof.
  intros H. exists (f_of_dec false n 0). assert (Forall digit (N_digits 10 n)) as F by (eapply Forall_impl; [|apply (N_digits_lt 10); lia]; intros a Ha; exact Ha).
  split.
  - unfold dec_of_N. rewrite float_of_int_digits; [rewrite N_digits_val by lia; reflexivity|exact F|]. pose proof (dec_of_N_nonempty n) as NE. intros E. unfold dec_of_N in NE. rewrite E in NE. apply NE. reflexivity.
  - pose proof (f_of_dec_correct false n 0) as N. cbn [signR] in N. change (pow10 0) with 1%R in N. rewrite Rmult_1_r in N.
    rewrite <- (rnd_format (IZR (Z.of_N n))) by (apply int_format; lia). apply nearest_fdata in N; [|apply rnd_lt_huge with 1000; [rewrite Rabs_pos_eq by (apply IZR_le; lia); apply IZR_le; lia|lia]].
    destruct N as (N1 & N2 & N3). split; [exact N1|]. split; [exact N3|exact N2].
Qed.
(* quotient and sum of small non-negative floats, with their errors *)
Lemma quot_small x y c k : fdata x -> sign_of x = false -> fdata y -> sign_of y = false -> is_zero y = false -> (0 < rval y)%R ->
  (rval x / rval y <= IZR c)%R -> c <= 2 ^ 53 -> (IZR c < bpow radix2 k)%R -> -1021 <= k ->
  fdata (fdiv x y) /\ sign_of (fdiv x y) = false /\ (0 <= rval (fdiv x y) <= IZR c)%R /\ (Rabs (rval (fdiv x y) - rval x / rval y) <= bpow radix2 (k - 54))%R.
Proof.
  intros Dx Sx Dy Sy Zy Py B C K K0. pose proof (fdata_nonneg x Dx Sx) as X0. destruct Dx as [Vx Fx], Dy as [Vy Fy].
  pose proof (fdiv_correct x y Vx Vy Fx Fy Zy) as N. rewrite Sx, Sy in N. cbn [xorb] in N. set (r := (rval x / rval y)%R) in *.
  assert (0 <= r)%R as R0 by (unfold r, Rdiv; apply Rmult_le_pos; [exact X0|apply Rlt_le, Rinv_0_lt_compat, Py]).
  assert (0 <= c) as C0 by (apply le_IZR; lra).
  assert (0 <= rnd r <= IZR c)%R as RR.
  { split; [rewrite <- rnd_0; apply rnd_le; lra|]. rewrite <- (rnd_format (IZR c)) by (apply int_format; lia). apply rnd_le; lra. }
  apply nearest_fdata in N; [|apply rnd_lt_huge with c; [rewrite Rabs_pos_eq by lra; exact B|exact C]]. destruct N as (N1 & N2 & N3).
  split; [exact N1|]. split; [exact N3|]. rewrite N2. split; [exact RR|]. apply rnd_err; [exact K0|]. rewrite Rabs_pos_eq by lra. lra.
Qed.
Lemma sum_small x y c k : fdata x -> sign_of x = false -> fdata y -> sign_of y = false ->
  (rval x + rval y <= IZR c)%R -> c <= 2 ^ 53 -> (IZR c < bpow radix2 k)%R -> -1021 <= k ->
  fdata (fadd x y) /\ sign_of (fadd x y) = false /\ (0 <= rval (fadd x y) <= IZR c)%R /\ (Rabs (rval (fadd x y) - (rval x + rval y)) <= bpow radix2 (k - 54))%R.
Proof.
  intros Dx Sx Dy Sy B C K K0. pose proof (fdata_nonneg x Dx Sx) as X0. pose proof (fdata_nonneg y Dy Sy) as Y0.
  pose proof (fadd_sign x y Dx Dy Sx Sy) as SA. destruct (fadd_correct x y Dx Dy) as (s & N). set (r := (rval x + rval y)%R) in *.
  assert (0 <= c) as C0 by (apply le_IZR; unfold r in B; lra).
  assert (0 <= rnd r <= IZR c)%R as RR.
  { split; [rewrite <- rnd_0; apply rnd_le; unfold r; lra|]. rewrite <- (rnd_format (IZR c)) by (apply int_format; lia). apply rnd_le; lra. }
  assert (0 <= r)%R as R0 by (unfold r; lra).
  apply nearest_fdata in N; [|apply rnd_lt_huge with c; [rewrite Rabs_pos_eq by exact R0; exact B|exact C]]. destruct N as (N1 & N2 & _).
  split; [exact N1|]. split; [exact SA|]. rewrite N2. split; [exact RR|]. apply rnd_err; [exact K0|]. rewrite Rabs_pos_eq by exact R0. lra.
Qed.
Lemma fadd_zero_l x : fdata x -> rval (fadd fzero x) = rval x.
Proof. intros [V F]. destruct x as [s|s| |s m e]; try discriminate; [|reflexivity]. destruct s; reflexivity. Qed.
Lemma fadd_zero_r x : fdata x -> sign_of x = false -> fadd x fzero = x.
Proof. intros [V F] S. destruct x as [s|s| |s m e]; try discriminate; [|reflexivity]. cbn [sign_of] in S. subst. reflexivity. Qed.
Lemma times_sign x (neg : bool) : fdata x -> sign_of x = false -> (rval x <= 10000)%R ->
  fdata (fmul x (if neg then f_norm (-1) 0 else fone)) /\ rval (fmul x (if neg then f_norm (-1) 0 else fone)) = signR neg (rval x).
Proof.
  intros D S B. pose proof (fdata_nonneg x D S) as X0. pose proof (fdata_format x D) as Fm.
  assert (fdata (if neg then f_norm (-1) 0 else fone) /\ rval (if neg then f_norm (-1) 0 else fone) = signR neg 1) as (Dy & Vy).
  { destruct neg; [destruct (f_int (-1) ltac:(cbn; lia)) as (A1 & A2 & _)|destruct (f_int 1 ltac:(cbn; lia)) as (A1 & A2 & _)]; (split; [exact A1|]); cbn [signR]; [rewrite A2; lra|exact A2]. }
  destruct D as [V F], Dy as [Vy' Fy]. pose proof (fmul_correct x _ V Vy' F Fy) as N. rewrite Vy in N.
  replace (rval x * signR neg 1)%R with (signR neg (rval x)) in N by (destruct neg; cbn [signR]; lra).
  assert (format64 (signR neg (rval x))) as FS by (destruct neg; cbn [signR]; [apply generic_format_opp|]; exact Fm).
  apply nearest_fdata in N; [|rewrite rnd_format by exact FS; rewrite signR_abs; apply fdata_huge; split; assumption].
  destruct N as (N1 & N2 & _). rewrite rnd_format in N2 by exact FS. split; [exact N1|exact N2].
Qed.
Lemma final_round x (neg : bool) : fdata x -> sign_of x = false -> (rval x <= 2000)%R ->
  fdata (fround 7 (fmul x (if neg then f_norm (-1) 0 else fone)))
  /\ (Rabs (rval (fround 7 (fmul x (if neg then f_norm (-1) 0 else fone))) - signR neg (rval x)) <= / 2 / 10000000 + / 1000000000000)%R.
Proof.
  intros D S B. pose proof (fdata_nonneg x D S) as X0. destruct (times_sign x neg D S ltac:(lra)) as (D1 & V1).
  destruct (fround_err 7 _ 12 ltac:(lia) D1 ltac:(lia)) as (D2 & _ & E); [rewrite V1, signR_abs, Rabs_pos_eq by exact X0; change (bpow radix2 12) with 4096%R; lra|].
  split; [exact D2|]. rewrite V1 in E. eapply Rle_trans; [exact E|]. rewrite pow10_neg.
  change (Z.of_nat 7) with 7. assert (pow10 7 = 10000000)%R as -> by (apply (pow10_IZR 7); lia).
  change (bpow radix2 (12 - 54)) with (/ 4398046511104)%R. lra.
Qed.
Lemma f_one_facts : fdata (f_norm 1 0) /\ rval (f_norm 1 0) = 1%R /\ sign_of (f_norm 1 0) = false.
Proof. apply (f_int 1). cbn. lia. Qed.
Lemma dms_read (d m : N) s neg att : (d <= 1000)%N -> (m < 60)%N -> fdata s -> sign_of s = false -> (0 <= rval s <= 60)%R -> point_text (str_of_float s) ->
  exists y, dms2deg (dec_of_N d ++ s_deg ++ dec_of_N m ++ s_min ++ str_of_float s ++ s_sec ++ hemi neg att) 7 = Ok y /\ fdata y
  /\ (Rabs (rval y - signR neg (IZR (Z.of_N d) + IZR (Z.of_N m) / 60 + rval s / 3600)) <= / 2 / 10000000 + 2 / 1000000000000)%R.
Proof.
  intros Hd Hm Ds Ss Bs Ps. rewrite dms2deg_three by (apply dec_num || apply point_num, Ps).
  destruct (float_of_dec d Hd) as (a & -> & Da & Sa & Va). destruct (float_of_dec m ltac:(lia)) as (b & -> & Db & Sb & Vb).
  rewrite float_text_round_trip by apply Ds. cbn [bind].
  destruct f_one_facts as (D1 & V1 & S1). destruct f60_data as (D60 & V60 & S60).
  destruct (f_int 3600 ltac:(cbn; lia)) as (D36 & V36 & S36). fold f3600 in D36, V36, S36.
  assert (0 <= IZR (Z.of_N d) <= 1000)%R as Bd by (split; [apply IZR_le|apply IZR_le]; lia).
  assert (0 <= IZR (Z.of_N m) <= 60)%R as Bm by (split; [apply IZR_le|apply IZR_le]; lia).
  destruct (quot_small a (f_norm 1 0) 1000 10 Da Sa D1 S1 eq_refl) as (Q1 & Q2 & Q3 & Q4); try lia; try (rewrite ?V1, ?Va; change (bpow radix2 10) with 1024%R; lra).
  assert (rval (fdiv a (f_norm 1 0)) = IZR (Z.of_N d)) as VQ.
  { destruct Da as [Da1 Da2], D1 as [D11 D12]. pose proof (fdiv_correct a (f_norm 1 0) Da1 D11 Da2 D12 eq_refl) as N. rewrite Va, V1, Rdiv_1 in N || (rewrite Va, V1 in N; unfold Rdiv in N; rewrite Rinv_1, Rmult_1_r in N).
    apply nearest_fdata in N; [|apply rnd_lt_huge with 1000; [rewrite Rabs_pos_eq; lra|lia]]. destruct N as (_ & N & _). rewrite N. apply rnd_format, int_format. lia. }
  set (p := fadd fzero (fdiv a (f_norm 1 0))) in *.
  assert (fdata p /\ sign_of p = false /\ rval p = IZR (Z.of_N d)) as (Dp & Sp & Vp).
  { assert (fdata fzero) as Dz by (split; reflexivity). destruct (sum_small fzero (fdiv a (f_norm 1 0)) 1000 10 Dz eq_refl Q1 Q2) as (P1 & P2 & _); try lia; try (rewrite ?VQ; change (rval fzero) with 0%R; change (bpow radix2 10) with 1024%R; lra).
    split; [exact P1|]. split; [exact P2|]. unfold p. rewrite fadd_zero_l by exact Q1. exact VQ. }
  destruct (quot_small b f60 1 1 Db Sb D60 S60 eq_refl) as (R1 & R2 & R3 & R4); try lia; try (rewrite ?V60, ?Vb; change (bpow radix2 1) with 2%R; lra).
  destruct (sum_small p (fdiv b f60) 1001 10 Dp Sp R1 R2) as (T1 & T2 & T3 & T4); try lia; try (rewrite ?Vp; change (bpow radix2 10) with 1024%R; lra).
  destruct (quot_small s f3600 1 1 Ds Ss D36 S36 eq_refl) as (U1 & U2 & U3 & U4); try lia; try (rewrite ?V36; change (bpow radix2 1) with 2%R; lra).
  destruct (sum_small (fadd p (fdiv b f60)) (fdiv s f3600) 1002 10 T1 T2 U1 U2) as (W1 & W2 & W3 & W4); try lia; try (change (bpow radix2 10) with 1024%R; lra).
  destruct (final_round _ neg W1 W2 ltac:(lra)) as (Z1 & Z2).
  eexists. split; [reflexivity|]. split; [exact Z1|].
  rewrite V60, Vb in R4. rewrite Vp in T4. rewrite V36 in U4.
  change (bpow radix2 (10 - 54)) with (/ 17592186044416)%R in *. change (bpow radix2 (1 - 54)) with (/ 9007199254740992)%R in *.
  set (w := rval (fadd (fadd p (fdiv b f60)) (fdiv s f3600))) in *. apply Rabs_le_inv in R4, T4, U4, W4, Z2. apply Rabs_le. destruct neg; cbn [signR] in *; lra.
Qed.
Lemma dmm_read (d : N) s neg att : (d <= 1000)%N -> fdata s -> sign_of s = false -> (0 <= rval s <= 60)%R -> point_text (str_of_float s) ->
  exists y, dms2deg (dec_of_N d ++ s_deg ++ str_of_float s ++ s_min ++ hemi neg att) 7 = Ok y /\ fdata y
  /\ (Rabs (rval y - signR neg (IZR (Z.of_N d) + rval s / 60)) <= / 2 / 10000000 + 2 / 1000000000000)%R.
Proof.
  intros Hd Ds Ss Bs Ps. rewrite dms2deg_two by (apply dec_num || apply point_num, Ps).
  destruct (float_of_dec d Hd) as (a & -> & Da & Sa & Va).
  rewrite float_text_round_trip by apply Ds. cbn [bind].
  destruct f_one_facts as (D1 & V1 & S1). destruct f60_data as (D60 & V60 & S60).
  assert (0 <= IZR (Z.of_N d) <= 1000)%R as Bd by (split; [apply IZR_le|apply IZR_le]; lia).
  destruct (quot_small a (f_norm 1 0) 1000 10 Da Sa D1 S1 eq_refl) as (Q1 & Q2 & Q3 & Q4); try lia; try (rewrite ?V1, ?Va; change (bpow radix2 10) with 1024%R; lra).
  assert (rval (fdiv a (f_norm 1 0)) = IZR (Z.of_N d)) as VQ.
  { destruct Da as [Da1 Da2], D1 as [D11 D12]. pose proof (fdiv_correct a (f_norm 1 0) Da1 D11 Da2 D12 eq_refl) as N. rewrite Va, V1 in N; unfold Rdiv in N; rewrite Rinv_1, Rmult_1_r in N.
    apply nearest_fdata in N; [|apply rnd_lt_huge with 1000; [rewrite Rabs_pos_eq; lra|lia]]. destruct N as (_ & N & _). rewrite N. apply rnd_format, int_format. lia. }
  set (p := fadd fzero (fdiv a (f_norm 1 0))) in *.
  assert (fdata p /\ sign_of p = false /\ rval p = IZR (Z.of_N d)) as (Dp & Sp & Vp).
  { assert (fdata fzero) as Dz by (split; reflexivity). destruct (sum_small fzero (fdiv a (f_norm 1 0)) 1000 10 Dz eq_refl Q1 Q2) as (P1 & P2 & _); try lia; try (rewrite ?VQ; change (rval fzero) with 0%R; change (bpow radix2 10) with 1024%R; lra).
    split; [exact P1|]. split; [exact P2|]. unfold p. rewrite fadd_zero_l by exact Q1. exact VQ. }
  destruct (quot_small s f60 1 1 Ds Ss D60 S60 eq_refl) as (R1 & R2 & R3 & R4); try lia; try (rewrite ?V60; change (bpow radix2 1) with 2%R; lra).
  destruct (sum_small p (fdiv s f60) 1001 10 Dp Sp R1 R2) as (T1 & T2 & T3 & T4); try lia; try (rewrite ?Vp; change (bpow radix2 10) with 1024%R; lra).
  rewrite (fadd_zero_r _ T1 T2).
  destruct (final_round _ neg T1 T2 ltac:(lra)) as (Z1 & Z2).
  eexists. split; [reflexivity|]. split; [exact Z1|].
  rewrite V60 in R4. rewrite Vp in T4.
  change (bpow radix2 (10 - 54)) with (/ 17592186044416)%R in *. change (bpow radix2 (1 - 54)) with (/ 9007199254740992)%R in *.
  set (w := rval (fadd p (fdiv s f60))) in *. apply Rabs_le_inv in R4, T4, Z2. apply Rabs_le. destruct neg; cbn [signR] in *; lra.
Qed.
(* the printed part has no exponent unless it is positive and below 1e-4 *)
Lemma part_point s k j : fdata s -> sign_of s = false -> (rval s <= 60)%R -> 4 <= j -> rval s = rnd (IZR k * pow10 (- j)) -> k = 0 \/ 10 ^ (j - 4) <= k -> point_text (str_of_float s).
Proof.
  intros D S B J V K. apply print_point; [exact D|exact S| |lra]. destruct K as [->|K].
  - left. apply fdata_zero; [exact D|]. rewrite V, Rmult_0_l. apply rnd_0.
  - right. rewrite V. apply rnd_le. replace (-4) with ((j - 4) + - j) by lia. rewrite pow10_add. apply Rmult_le_compat_r; [apply Rlt_le, pow10_pos|].
    rewrite pow10_IZR by lia. apply IZR_le, K.
Qed.
