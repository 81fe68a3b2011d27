(* Theorems about position text: C66, C69. *)
From Coq Require Import Reals Lia Lra.
From Flocq Require Import Core BinarySingleNaN.
From Verif Require Import Helpers BaseLemmas TextLemmas NumLemmas TimeSpec TimeProofs CoordSpec FloatProofs DecimalProofs CoordProofs DmsProofs.
Local Open Scope Z_scope.

(* ------------------------------------------------------------------ C69 *)
(* h is the hemisphere letter of x *)
Definition hemisphere (att : pystr) (r : R) (h : pystr) : Prop :=
  ((r < 0)%R -> h = if str_eqb att (u "LA") then u "S" else u "W")
  /\ ((0 <= r)%R -> h = if str_eqb att (u "LA") then u "N" else u "E").
Lemma hemisphere_hemi att r : hemisphere att r (hemi (Rlt_bool r 0) att).
Proof. split; intros H; [rewrite Rlt_bool_true by exact H|rewrite Rlt_bool_false by exact H]; reflexivity. Qed.

(* d degrees, m < 60 minutes, at most 60 seconds (rounded to 5 decimals); the
   printed position is within half a unit of the last decimal of |x| *)
Theorem C69_dms x att : fdata x -> (Rabs (rval x) <= 1000)%R ->
  exists d m s k h, deg2dms (VFloat x) att = Ok (dec_of_N d ++ [176%N] ++ dec_of_N m ++ [8242%N] ++ str_of_float s ++ [8243%N] ++ h)
  /\ hemisphere att (rval x) h /\ (m < 60)%N /\ fdata s /\ (0 <= rval s <= 60)%R
  /\ (* s is the float nearest to k / 10^5 *) 0 <= k <= 6000000 /\ rval s = rnd (IZR k * pow10 (-5))
  /\ (Rabs (IZR (Z.of_N d) + IZR (Z.of_N m) / 60 + rval s / 3600 - Rabs (rval x)) <= / 2 / 360000000 + / 1000000000000)%R.
Proof.
  intros D B. destruct (deg2dms_correct x att D B) as (d & m & s & k & E & Hd & Hm & Ds & Ss & Bs & Hk & Vs & A).
  exists (Z.to_N d), (Z.to_N m), s, k, (hemi (Rlt_bool (rval x) 0) att). split; [exact E|]. split; [apply hemisphere_hemi|]. split; [lia|]. split; [exact Ds|].
  split; [exact Bs|]. split; [exact Hk|]. split; [exact Vs|]. rewrite !Z2N.id by lia. exact A.
Qed.
Theorem C69_dmm x att : fdata x -> (Rabs (rval x) < 1000)%R ->
  exists d s k h, deg2dmm (VFloat x) att = Ok (dec_of_N d ++ [176%N] ++ str_of_float s ++ [8242%N] ++ h)
  /\ hemisphere att (rval x) h /\ (d < 1000)%N /\ fdata s /\ (0 <= rval s <= 60)%R
  /\ 0 <= k <= 600000000 /\ rval s = rnd (IZR k * pow10 (-7))
  /\ (Rabs (IZR (Z.of_N d) + rval s / 60 - Rabs (rval x)) <= / 2 / 600000000 + / 1000000000000)%R.
Proof.
  intros D B. destruct (deg2dmm_correct x att D B) as (d & s & k & E & Hd & Ds & Ss & Bs & Hk & Vs & A).
  exists (Z.to_N d), s, k, (hemi (Rlt_bool (rval x) 0) att). split; [exact E|]. split; [apply hemisphere_hemi|]. split; [lia|]. split; [exact Ds|].
  split; [exact Bs|]. split; [exact Hk|]. split; [exact Vs|]. rewrite !Z2N.id by lia. exact A.
Qed.
(* whole degrees *)
Theorem C69_integer z att : Z.abs z <= 1000000 ->
  exists h, hemisphere att (IZR z) h
  /\ deg2dms (VInt z) att = Ok (dec_of_N (Z.abs_N z) ++ [176%N] ++ u "0" ++ [8242%N] ++ u "0" ++ [8243%N] ++ h)
  /\ deg2dmm (VInt z) att = Ok (dec_of_N (Z.abs_N z) ++ [176%N] ++ u "0" ++ [8242%N] ++ h).
Proof.
  intros B. exists (hemi (z <? 0) att). split.
  { split; intros H; [apply lt_IZR in H; replace (z <? 0) with true by (symmetry; apply Z.ltb_lt; exact H)|apply le_IZR in H; replace (z <? 0) with false by (symmetry; apply Z.ltb_ge; exact H)]; reflexivity. }
  split.
  - unfold deg2dms, deg2dms_int. cbv zeta.
    replace (Z.abs z * 3600 / 60) with (Z.abs z * 60) by (replace (Z.abs z * 3600) with (Z.abs z * 60 * 60) by lia; rewrite Z.div_mul by lia; reflexivity).
    replace ((Z.abs z * 3600) mod 60) with 0 by (replace (Z.abs z * 3600) with (Z.abs z * 60 * 60) by lia; rewrite Z.mod_mul by lia; reflexivity).
    rewrite Z.div_mul, Z.mod_mul by lia. rewrite str_of_small by lia. replace (Z.to_N (Z.abs z)) with (Z.abs_N z) by lia. reflexivity.
  - unfold deg2dmm, deg2dmm_int. cbv zeta. rewrite Z.div_mul, Z.mod_mul by lia. rewrite str_of_small by lia. replace (Z.to_N (Z.abs z)) with (Z.abs_N z) by lia. reflexivity.
Qed.
(* True is one degree, False none *)
Theorem C69_boolean b att : exists h, hemisphere att 0 h
  /\ deg2dms (VBool b) att = Ok ((if b then u "1" else u "0") ++ [176%N] ++ u "0" ++ [8242%N] ++ u "0" ++ [8243%N] ++ h)
  /\ deg2dmm (VBool b) att = Ok ((if b then u "1" else u "0") ++ [176%N] ++ u "0" ++ [8242%N] ++ h).
Proof.
  exists (hemi false att). split; [split; intros H; [exfalso; revert H; apply Rlt_irrefl|reflexivity]|].
  destruct b; split; cbn [deg2dms deg2dmm val_of_bool]; unfold deg2dms_int, deg2dmm_int; vm_compute; reflexivity.
Qed.
(* latlon2dmm and latlon2dms are the latitude text and the longitude text *)
Theorem C69_pair lat lon : (forall a b, latlon2dms lat lon = Ok (a, b) <-> deg2dms lat (u "LA") = Ok a /\ deg2dms lon (u "LN") = Ok b)
  /\ (forall a b, latlon2dmm lat lon = Ok (a, b) <-> deg2dmm lat (u "LA") = Ok a /\ deg2dmm lon (u "LN") = Ok b).
Proof.
  unfold latlon2dms, latlon2dmm, ty_LA, ty_LN. split; intros a b.
  - destruct (deg2dms lat (u "LA")) as [x|e], (deg2dms lon (u "LN")) as [y|e']; cbn [bind]; split; intros H; try discriminate H; try (destruct H; discriminate); [injection H as -> ->; split; reflexivity|destruct H as [H1 H2]; injection H1 as ->; injection H2 as ->; reflexivity].
  - destruct (deg2dmm lat (u "LA")) as [x|e], (deg2dmm lon (u "LN")) as [y|e']; cbn [bind]; split; intros H; try discriminate H; try (destruct H; discriminate); [injection H as -> ->; split; reflexivity|destruct H as [H1 H2]; injection H1 as ->; injection H2 as ->; reflexivity].
Qed.
(* infinities, NaN and things that are not numbers give '' *)
Theorem C69_not_finite v att : match v with VFloat x => is_fin x = false | VInt _ | VBool _ => False | _ => True end ->
  deg2dms v att = Ok [] /\ deg2dmm v att = Ok [].
Proof.
  destruct v as [s|z|x|b| |d|t|d t]; intros H; try contradiction; try (split; reflexivity).
  destruct x as [s|s| |s m e]; try discriminate; [destruct s|]; split; reflexivity.
Qed.
(* dms2deg inverts deg2dms within half a unit of 1e-7 (plus the printing error),
   unless the printed seconds are 1e-05 to 9e-05: then dms2deg raises ValueError *)
Lemma small_seconds s k : fdata s -> sign_of s = false -> 1 <= k <= 9 -> rval s = rnd (IZR k * pow10 (-5)) -> str_of_float s = [Z.to_N (48 + k)] ++ u "e-05".
Proof.
  intros D S K V. assert (s = f_of_dec false (Z.to_N k) (-5)) as ->.
  { pose proof (f_of_dec_correct false (Z.to_N k) (-5)) as N. cbn [signR] in N. rewrite Z2N.id in N by lia.
    assert (0 < pow10 (-5) <= 1)%R as P by (split; [apply pow10_pos|change 1%R with (pow10 0); apply pow10_le; lia]).
    assert (1 <= IZR k <= 9)%R as K' by (split; apply IZR_le; lia).
    apply nearest_fdata in N; [|apply rnd_lt_huge with 9; [rewrite Rabs_pos_eq; nra|lia]]. destruct N as (N1 & N2 & N3).
    apply fdata_inj; [exact D|exact N1|congruence|congruence]. }
  assert (forallb (fun j => str_eqb (str_of_float (f_of_dec false (Z.to_N j) (-5))) ([Z.to_N (48 + j)] ++ u "e-05")) [1;2;3;4;5;6;7;8;9] = true) as G by (vm_compute; reflexivity).
  rewrite forallb_forall in G. apply str_eqb_eq. apply G. cbn. lia.
Qed.
Lemma dms_fails s1 s2 p r : num_text s1 -> num_text s2 -> num_text p -> ~ In 32%N r ->
  dms2deg (s1 ++ [176%N] ++ s2 ++ [8242%N] ++ p ++ 101%N :: 45%N :: r) 7 = Raise ValueError.
Proof.
  intros N1 N2 N3 Hr. unfold dms2deg. cbv zeta. rewrite remove_none.
  - assert (dms_class 176 = false) as C1 by (vm_compute; reflexivity). assert (dms_class 8242 = false) as C2 by (vm_compute; reflexivity). assert (dms_class 101 = false) as C3 by (vm_compute; reflexivity).
    assert (s1 ++ [176%N] ++ s2 ++ [8242%N] ++ p ++ 101%N :: 45%N :: r = s1 ++ 176%N :: s2 ++ 8242%N :: p ++ 101%N :: 45%N :: r) as -> by reflexivity.
    unfold dms_match. rewrite !dms_group_num by assumption.
    assert (dms_tail (45%N :: r) = false) as -> by (destruct r; reflexivity). reflexivity.
  - apply Forall_not_in. rewrite !in_app_iff. cbn [In]. pose proof (num_not 32 s1 N1 ltac:(lia)). pose proof (num_not 32 s2 N2 ltac:(lia)). pose proof (num_not 32 p N3 ltac:(lia)). intuition lia.
Qed.
Theorem C69_inverse_dms x att : fdata x -> (Rabs (rval x) <= 1000)%R ->
  exists text d m k, deg2dms (VFloat x) att = Ok text
  /\ 0 <= k <= 6000000 /\ (Rabs (IZR d + IZR m / 60 + IZR k / 360000000 - Rabs (rval x)) <= / 2 / 360000000 + 2 / 1000000000000)%R
  /\ (1 <= k <= 9 -> dms2deg text 7 = Raise ValueError)
  /\ (k = 0 \/ 10 <= k -> exists y, dms2deg text 7 = Ok y /\ fdata y
      /\ (Rabs (rval y - rval x) <= / 2 / 10000000 + / 2 / 360000000 + / 100000000000)%R).
Proof.
  intros D B. destruct (deg2dms_correct x att D B) as (d & m & s & k & E & Hd & Hm & Ds & Ss & Bs & Hk & Vs & A).
  exists (dec_of_N (Z.to_N d) ++ s_deg ++ dec_of_N (Z.to_N m) ++ s_min ++ str_of_float s ++ s_sec ++ hemi (Rlt_bool (rval x) 0) att), d, m, k.
  split; [exact E|]. split; [exact Hk|]. split; [|split].
  - assert (pow10 (-5) = / 100000)%R as P5 by (change (-5) with (- (5)); rewrite pow10_neg; f_equal; apply (pow10_IZR 5); lia). rewrite P5 in Vs.
    assert (0 <= IZR k <= 6000000)%R as K' by (split; apply IZR_le; lia).
    pose proof (rnd_err 6 (IZR k * / 100000) ltac:(lia)) as RE. rewrite Rabs_pos_eq in RE by lra. specialize (RE ltac:(change (bpow radix2 6) with 64%R; lra)).
    change (bpow radix2 (6 - 54)) with (/ 281474976710656)%R in RE. rewrite <- Vs in RE. apply Rabs_le_inv in RE, A. apply Rabs_le. lra.
  - intros K. rewrite (small_seconds s k Ds Ss K Vs). pose proof (hemi_facts (Rlt_bool (rval x) 0) att) as (h & -> & Hh & _).
    apply (dms_fails (dec_of_N (Z.to_N d)) (dec_of_N (Z.to_N m)) [Z.to_N (48 + k)] (u "05" ++ s_sec ++ [h])); try apply dec_num.
    + split; [discriminate|]. constructor; [left; lia|constructor].
    + cbn. cbn in Hh. intros Q. intuition lia.
  - intros K. pose proof (part_point s k 5 Ds Ss ltac:(lra) ltac:(lia) Vs) as P. specialize (P ltac:(change (10 ^ (5 - 4)) with 10; lia)).
    destruct (dms_read (Z.to_N d) (Z.to_N m) s (Rlt_bool (rval x) 0) att ltac:(lia) ltac:(lia) Ds Ss Bs P) as (y & Ey & Dy & By).
    exists y. split; [exact Ey|]. split; [exact Dy|]. rewrite !Z2N.id in By by lia.
    assert (rval x = signR (Rlt_bool (rval x) 0) (Rabs (rval x))) as SX.
    { destruct (Rlt_bool_spec (rval x) 0) as [L|L]; cbn [signR]; [rewrite Rabs_left by exact L; lra|rewrite Rabs_pos_eq by exact L; reflexivity]. }
    rewrite SX at 1. set (a := Rabs (rval x)) in *. destruct (Rlt_bool (rval x) 0); cbn [signR] in *; apply Rabs_le_inv in A, By; apply Rabs_le; lra.
Qed.
(* the same for deg2dmm: minutes between 0 and 1e-4 are printed with an exponent *)
Lemma small_minutes s k : fdata s -> sign_of s = false -> 1 <= k <= 999 -> rval s = rnd (IZR k * pow10 (-7)) ->
  exists p r, str_of_float s = p ++ 101%N :: 45%N :: r /\ num_text p /\ ~ In 32%N r.
Proof.
  intros D S K V. assert (s = f_of_dec false (Z.to_N k) (-7)) as ->.
  { pose proof (f_of_dec_correct false (Z.to_N k) (-7)) as N. cbn [signR] in N. rewrite Z2N.id in N by lia.
    assert (0 < pow10 (-7) <= 1)%R as P by (split; [apply pow10_pos|change 1%R with (pow10 0); apply pow10_le; lia]).
    assert (1 <= IZR k <= 999)%R as K' by (split; apply IZR_le; lia).
    apply nearest_fdata in N; [|apply rnd_lt_huge with 999; [rewrite Rabs_pos_eq; nra|lia]]. destruct N as (N1 & N2 & N3).
    apply fdata_inj; [exact D|exact N1|congruence|congruence]. }
  set (ok := fun t : pystr => match split_first 101 t with Some (p, c :: r) => (c =? 45)%N && negb (str_eqb p []) && forallb (fun c => ((48 <=? c) && (c <=? 57) || (c =? 46))%N) p && negb (memc 32 r) | _ => false end).
  assert (forallb (fun j => ok (str_of_float (f_of_dec false (N.of_nat j) (-7)))) (seq 1 999) = true) as G by (vm_compute; reflexivity).
  rewrite forallb_forall in G. specialize (G (Z.to_nat k)). replace (N.of_nat (Z.to_nat k)) with (Z.to_N k) in G by lia.
  specialize (G ltac:(apply in_seq; lia)). unfold ok in G. clear ok.
  destruct (split_first 101 (str_of_float (f_of_dec false (Z.to_N k) (-7)))) as [[p r]|] eqn:E; [|discriminate].
  destruct r as [|c r]; [discriminate|]. apply andb_prop in G as [G G3]. apply andb_prop in G as [G G2]. apply andb_prop in G as [G0 G1]. apply N.eqb_eq in G0. subst c. exists p, r. apply split_first_Some in E as [E _]. split; [exact E|]. split.
  - split; [intros ->; discriminate G1|]. rewrite forallb_forall in G2. apply Forall_forall. intros c Hc. specialize (G2 c Hc). apply orb_prop in G2 as [G2|G2].
    + apply andb_prop in G2 as [A1 A2]. apply N.leb_le in A1, A2. left. lia.
    + apply N.eqb_eq in G2. right. exact G2.
  - apply memc_false. destruct (memc 32 r); [discriminate G3|reflexivity].
Qed.
Lemma dmm_fails s1 p r : num_text s1 -> num_text p -> ~ In 32%N r ->
  dms2deg (s1 ++ [176%N] ++ p ++ 101%N :: 45%N :: r) 7 = Raise ValueError.
Proof.
  intros N1 N3 Hr. unfold dms2deg. cbv zeta. rewrite remove_none.
  - assert (dms_class 176 = false) as C1 by (vm_compute; reflexivity). assert (dms_class 101 = false) as C3 by (vm_compute; reflexivity).
    assert (s1 ++ [176%N] ++ p ++ 101%N :: 45%N :: r = s1 ++ 176%N :: p ++ 101%N :: 45%N :: r) as -> by reflexivity.
    unfold dms_match. rewrite !dms_group_num by assumption.
    assert (dms_class 45 = false) as C4 by (vm_compute; reflexivity). unfold dms_group. cbn [dms_run]. rewrite C4.
    assert (dms_tail (45%N :: r) = false) as -> by (destruct r; reflexivity). reflexivity.
  - apply Forall_not_in. rewrite !in_app_iff. cbn [In]. pose proof (num_not 32 s1 N1 ltac:(lia)). pose proof (num_not 32 p N3 ltac:(lia)). intuition lia.
Qed.
Theorem C69_inverse_dmm x att : fdata x -> (Rabs (rval x) < 1000)%R ->
  exists text d k, deg2dmm (VFloat x) att = Ok text
  /\ 0 <= k <= 600000000 /\ (Rabs (IZR d + IZR k / 600000000 - Rabs (rval x)) <= / 2 / 600000000 + 2 / 1000000000000)%R
  /\ (1 <= k <= 999 -> dms2deg text 7 = Raise ValueError)
  /\ (k = 0 \/ 1000 <= k -> exists y, dms2deg text 7 = Ok y /\ fdata y
      /\ (Rabs (rval y - rval x) <= / 2 / 10000000 + / 2 / 600000000 + / 100000000000)%R).
Proof.
  intros D B. destruct (deg2dmm_correct x att D B) as (d & s & k & E & Hd & Ds & Ss & Bs & Hk & Vs & A).
  exists (dec_of_N (Z.to_N d) ++ s_deg ++ str_of_float s ++ s_min ++ hemi (Rlt_bool (rval x) 0) att), d, k.
  split; [exact E|]. split; [exact Hk|]. split; [|split].
  - assert (pow10 (-7) = / 10000000)%R as P5 by (change (-7) with (- (7)); rewrite pow10_neg; f_equal; apply (pow10_IZR 7); lia). rewrite P5 in Vs.
    assert (0 <= IZR k <= 600000000)%R as K' by (split; apply IZR_le; lia).
    pose proof (rnd_err 6 (IZR k * / 10000000) ltac:(lia)) as RE. rewrite Rabs_pos_eq in RE by lra. specialize (RE ltac:(change (bpow radix2 6) with 64%R; lra)).
    change (bpow radix2 (6 - 54)) with (/ 281474976710656)%R in RE. rewrite <- Vs in RE. apply Rabs_le_inv in RE, A. apply Rabs_le. lra.
  - intros K. destruct (small_minutes s k Ds Ss K Vs) as (p & r & -> & Np & Nr). pose proof (hemi_facts (Rlt_bool (rval x) 0) att) as (h & -> & Hh & _).
    assert (dec_of_N (Z.to_N d) ++ s_deg ++ (p ++ 101%N :: 45%N :: r) ++ s_min ++ [h] = dec_of_N (Z.to_N d) ++ [176%N] ++ p ++ 101%N :: 45%N :: (r ++ s_min ++ [h])) as -> by (rewrite <- app_assoc; reflexivity).
    apply dmm_fails; [apply dec_num|exact Np|]. rewrite !in_app_iff. cbn. cbn in Hh. intros Q. intuition lia.
  - intros K. pose proof (part_point s k 7 Ds Ss ltac:(lra) ltac:(lia) Vs) as P. specialize (P ltac:(change (10 ^ (7 - 4)) with 1000; lia)).
    destruct (dmm_read (Z.to_N d) s (Rlt_bool (rval x) 0) att ltac:(lia) Ds Ss Bs P) as (y & Ey & Dy & By).
    exists y. split; [exact Ey|]. split; [exact Dy|]. rewrite !Z2N.id in By by lia.
    assert (rval x = signR (Rlt_bool (rval x) 0) (Rabs (rval x))) as SX.
    { destruct (Rlt_bool_spec (rval x) 0) as [L|L]; cbn [signR]; [rewrite Rabs_left by exact L; lra|rewrite Rabs_pos_eq by exact L; reflexivity]. }
    rewrite SX at 1. set (a := Rabs (rval x)) in *. destruct (Rlt_bool (rval x) 0); cbn [signR] in *; apply Rabs_le_inv in A, By; apply Rabs_le; lra.
Qed.
(* seconds can be printed as 60.0, and small angles do not read back *)
Theorem C69_seconds_below_60_refuted : exists x, fdata x /\ deg2dms (VFloat x) (u "LA") = Ok (u "51" ++ [176%N] ++ u "59" ++ [8242%N] ++ u "60.0" ++ [8243%N] ++ u "N").
Proof. exists (f_of_dec false 51999999999999 (-12)). split; [split; vm_compute; reflexivity|vm_compute; reflexivity]. Qed.
Theorem C69_inverse_refuted : exists x text, fdata x /\ deg2dms (VFloat x) (u "LA") = Ok text /\ dms2deg text 7 = Raise ValueError.
Proof.
  exists (f_of_dec false 1 (-8)), (u "0" ++ [176%N] ++ u "0" ++ [8242%N] ++ u "4e-05" ++ [8243%N] ++ u "N").
  split; [split; vm_compute; reflexivity|]. split; vm_compute; reflexivity.
Qed.
(* text that does not have the form is refused *)
Example C69_example : let x := f_of_dec true 51346 (-3) in
  fdata x /\ deg2dms (VFloat x) (u "LA") = Ok (u "51" ++ [176%N] ++ u "20" ++ [8242%N] ++ u "45.6" ++ [8243%N] ++ u "S")
  /\ deg2dmm (VFloat x) (u "LN") = Ok (u "51" ++ [176%N] ++ u "20.76" ++ [8242%N] ++ u "W")
  /\ dms2deg (u "51" ++ [176%N] ++ u "20" ++ [8242%N] ++ u "45.6" ++ [8243%N] ++ u "S") 7 = Ok x
  /\ dms2deg (u "51" ++ [176%N] ++ u "20.76" ++ [8242%N] ++ u "W") 7 = Ok x
  /\ dms2deg (u "51") 7 = Raise ValueError.
Proof. vm_compute. repeat split. Qed.

(* ------------------------------------------------------------------ C66 *)
(* numbers, the text that Python prints for them, their sign and magnitude *)
Definition number_neg (v : pyval) : Prop :=
  match v with VInt z => (z < 0)%Z | VFloat x => (rval x < 0)%R | _ => False end.
Definition number_ok (v : pyval) : Prop :=
  match v with VInt z => Z.abs z < 10 ^ 4300 | VFloat x => fdata x | _ => False end.
Definition magnitude (v : pyval) : pyval :=
  match v with VInt z => VInt (Z.abs z) | VFloat x => VFloat (fabs x) | _ => v end.
Definition sign_text (v : pyval) (s : pystr) : Prop := (number_neg v -> s = u "-") /\ (~ number_neg v -> s = u "+").
(* s is an unsigned numeral that reads as v *)
Definition reads_as (s : pystr) (v : pyval) : Prop :=
  match v with VInt z => int_of_str s = Ok z | VFloat x => float_of_str s = Ok x | _ => False end.
Definition unsigned (s : pystr) : Prop := match s with c :: _ => (48 <= c <= 57)%N | [] => False end.

Lemma number_neg_ok v : number_ok v -> exists b, num_neg v = Ok b /\ sign_text v (iso_sign b).
Proof.
  destruct v as [s|z|x|b| |d|t|d t]; cbn [number_ok]; try contradiction; intros H.
  - exists (z <? 0). split; [reflexivity|]. unfold sign_text, number_neg. destruct (Z.ltb_spec z 0); split; intros Q; try reflexivity; lia.
  - exists (fltb x fzero). split; [reflexivity|]. rewrite fneg_correct by exact H. unfold sign_text, number_neg. destruct (Rlt_bool_spec (rval x) 0); split; intros Q; try reflexivity; lra.
Qed.
Lemma dec_unsigned n : unsigned (dec_of_N n).
Proof. pose proof (dec_of_N_ascii n) as F. pose proof (dec_of_N_nonempty n) as NE. destruct (dec_of_N n) as [|c s]; [congruence|]. inversion F; subst. assumption. Qed.
Lemma str_of_Z_ok z : Z.abs z < 10 ^ 4300 -> str_of_Z z = Ok (if z <? 0 then 45%N :: dec_of_N (Z.abs_N z) else dec_of_N (Z.abs_N z)).
Proof.
  intros H. unfold str_of_Z. cbv zeta. replace (int_max_str_digits <? lenN (dec_of_N (Z.abs_N z)))%N with false; [reflexivity|]. symmetry.
  apply N.ltb_ge. unfold lenN, dec_of_N. rewrite map_length. assert (length (N_digits 10 (Z.abs_N z)) <= S (N.to_nat 4299))%nat as L.
  { apply N_digits_length_le; [lia|]. replace (N.of_nat (S (N.to_nat 4299))) with 4300%N by lia. apply N2Z.inj_lt. rewrite N2Z.inj_abs_N, N2Z.inj_pow. exact H. }
  unfold int_max_str_digits. lia.
Qed.
Lemma float_unsigned x : fdata x -> sign_of x = false -> unsigned (str_of_float x).
Proof.
  intros [V F] S. destruct x as [s|s| |s m e]; try discriminate; cbn [sign_of] in S; subst s; [cbn; lia|].
  destruct (float_text_reads false m e V) as (_ & t & -> & _ & H). exact H.
Qed.
Lemma magnitude_text v : number_ok v -> exists s, str_of_val (num_abs v) = Ok s /\ reads_as s (magnitude v) /\ unsigned s.
Proof.
  destruct v as [s|z|x|b| |d|t|d t]; cbn [number_ok]; try contradiction; intros H.
  - exists (dec_of_N (Z.abs_N z)). cbn [num_abs str_of_val magnitude reads_as].
    assert (str_of_Z (Z.abs z) = Ok (dec_of_N (Z.abs_N z))) as E.
    { rewrite str_of_Z_ok by (rewrite Z.abs_eq by lia; exact H). replace (Z.abs z <? 0) with false by (symmetry; apply Z.ltb_ge; lia). do 2 f_equal. lia. }
    split; [exact E|]. split; [apply int_of_str_of_Z; exact E|apply dec_unsigned].
  - exists (str_of_float (fabs x)). cbn [num_abs str_of_val magnitude reads_as]. destruct H as [V F]. destruct (fabs_correct x V) as (V' & _ & F' & S').
    split; [reflexivity|]. split; [apply float_text_round_trip, V'|]. apply float_unsigned; [split; [exact V'|congruence]|exact S'].
Qed.
Lemma value_text v : number_ok v -> exists s, str_of_val v = Ok s /\ reads_as s v.
Proof.
  destruct v as [s|z|x|b| |d|t|d t]; cbn [number_ok]; try contradiction; intros H.
  - cbn [str_of_val reads_as]. pose proof (str_of_Z_ok z H) as E. eexists. split; [exact E|]. apply int_of_str_of_Z. exact E.
  - exists (str_of_float x). split; [reflexivity|]. apply float_text_round_trip, H.
Qed.
(* sign and magnitude of latitude and longitude; the altitude follows its sign
   with its own sign again *)
Theorem C66_text lat lon alt crs : number_ok lat -> number_ok lon -> number_ok alt ->
  exists sa a sb b sc c, llh2iso6709 lat lon alt crs = Ok (sa ++ a ++ sb ++ b ++ sc ++ c ++ u "CRS" ++ crs ++ u "/")
  /\ sign_text lat sa /\ reads_as a (magnitude lat) /\ unsigned a
  /\ sign_text lon sb /\ reads_as b (magnitude lon) /\ unsigned b
  /\ sign_text alt sc /\ reads_as c alt.
Proof.
  intros H1 H2 H3. destruct (number_neg_ok lat H1) as (ba & Ea & Sa). destruct (number_neg_ok lon H2) as (bb & Eb & Sb). destruct (number_neg_ok alt H3) as (bc & Ec & Sc).
  destruct (magnitude_text lat H1) as (a & Ta & Ra & Ua). destruct (magnitude_text lon H2) as (b & Tb & Rb & Ub). destruct (value_text alt H3) as (c & Tc & Rc).
  exists (iso_sign ba), a, (iso_sign bb), b, (iso_sign bc), c. unfold llh2iso6709. rewrite Ea, Eb, Ec. cbn [bind]. rewrite Ta, Tb, Tc. cbn [bind].
  split; [reflexivity|]. repeat (split; [assumption|]). assumption.
Qed.
(* a non-negative altitude is an unsigned numeral too *)
Theorem C66_altitude lat lon alt crs : number_ok lat -> number_ok lon -> number_ok alt ->
  match alt with VInt z => 0 <= z | VFloat x => sign_of x = false | _ => False end ->
  exists p c, llh2iso6709 lat lon alt crs = Ok (p ++ u "+" ++ c ++ u "CRS" ++ crs ++ u "/") /\ reads_as c alt /\ unsigned c.
Proof.
  intros H1 H2 H3 P. destruct (number_neg_ok lat H1) as (ba & Ea & Sa). destruct (number_neg_ok lon H2) as (bb & Eb & Sb).
  destruct (magnitude_text lat H1) as (a & Ta & Ra & Ua). destruct (magnitude_text lon H2) as (b & Tb & Rb & Ub).
  assert (exists c, num_neg alt = Ok false /\ str_of_val alt = Ok c /\ reads_as c alt /\ unsigned c) as (c & Ec & Tc & Rc & Uc).
  { destruct alt as [s|z|x|b0| |d|t|d t]; try contradiction; cbn [number_ok] in H3.
    - exists (dec_of_N (Z.abs_N z)). cbn [num_neg str_of_val reads_as]. pose proof (str_of_Z_ok z H3) as E. replace (z <? 0) with false in * by (symmetry; apply Z.ltb_ge; exact P).
      split; [reflexivity|]. split; [exact E|]. split; [apply int_of_str_of_Z; exact E|apply dec_unsigned].
    - exists (str_of_float x). cbn [num_neg str_of_val reads_as]. rewrite fneg_correct by exact H3. rewrite Rlt_bool_false by (apply fdata_nonneg; assumption).
      split; [reflexivity|]. split; [reflexivity|]. split; [apply float_text_round_trip, H3|apply float_unsigned; assumption]. }
  exists (iso_sign ba ++ a ++ iso_sign bb ++ b), c. unfold llh2iso6709. rewrite Ea, Eb, Ec. cbn [bind]. rewrite Ta, Tb, Tc. cbn [bind].
  split; [|split; assumption]. rewrite <- !app_assoc. reflexivity.
Qed.
(* a negative altitude is printed with two signs *)
Theorem C66_negative_altitude_refuted : exists alt, number_ok alt /\
  llh2iso6709 (VFloat (f_of_dec false 275916 (-4))) (VFloat (f_of_dec true 86564 (-3))) alt (u "WGS_84") = Ok (u "+27.5916-86.564--5.0CRSWGS_84/").
Proof. exists (VFloat (f_norm (-5) 0)). split; [split; vm_compute; reflexivity|vm_compute; reflexivity]. Qed.
(* a bool prints as 1 or 0 in the two coordinates and as True or False in the altitude *)
Theorem C66_boolean p q r crs :
  let n (b : bool) := if b then u "1" else u "0" in
  llh2iso6709 (VBool p) (VBool q) (VBool r) crs
    = Ok (u "+" ++ n p ++ u "+" ++ n q ++ u "+" ++ (if r then u "True" else u "False") ++ u "CRS" ++ crs ++ u "/").
Proof. cbv zeta. destruct p, q, r; reflexivity. Qed.
(* other arguments are a TypeError *)
Theorem C66_type lat lon alt crs : (exists v, In v [lat; lon; alt] /\ match v with VInt _ | VFloat _ | VBool _ => False | _ => True end) ->
  llh2iso6709 lat lon alt crs = Raise TypeError.
Proof.
  intros (v & I & H). unfold llh2iso6709.
  assert (forall w, (exists b, num_neg w = Ok b) \/ num_neg w = Raise TypeError) as G by (intros [| | | | | | |]; cbn; eauto).
  assert (num_neg v = Raise TypeError) as Ev by (destruct v; try contradiction; reflexivity).
  destruct I as [->|[->|[->|[]]]].
  - rewrite Ev. reflexivity.
  - destruct (G lat) as [[b ->]| ->]; [|reflexivity]. cbn [bind]. rewrite Ev. reflexivity.
  - destruct (G lat) as [[b ->]| ->]; [|reflexivity]. cbn [bind]. destruct (G lon) as [[b' ->]| ->]; [|reflexivity]. cbn [bind]. rewrite Ev. reflexivity.
Qed.
Example C66_example : let lat := VFloat (f_of_dec false 275916 (-4)) in let lon := VFloat (f_of_dec false 86564 (-3)) in
  number_ok lat /\ number_ok lon /\ llh2iso6709 lat lon (VInt 8850) (u "WGS_84") = Ok (u "+27.5916+86.564+8850CRSWGS_84/").
Proof. split; [split; vm_compute; reflexivity|]. split; [split; vm_compute; reflexivity|vm_compute; reflexivity]. Qed.
