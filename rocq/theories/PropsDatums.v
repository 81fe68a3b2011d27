(* C100: converting to another datum and back (examples/datums.py and examples/utilities.py). *)
From Coq Require Import Reals Lia Lra Psatz ZArith List Bool.
From Flocq Require Import Core BinarySingleNaN.
From Verif Require Import PyBase PyFloat FloatProofs PiBounds FloatErr FGeo FGeoSpec LibmExact GeoSpec Geo GeoProofs EcefProofs PropsEcef2 FGeoProofs FGeoProofs2 FGeoProofs3 FGeoProofs4 PropsFGeo PropsFGeo3 PropsFGeo4 Datums.
Import ListNotations.
Local Open Scope R_scope.

(* ------------------------------------------ positions close in coordinates *)
Lemma abs_comb u v c A B : Rabs u <= A -> Rabs v <= B -> Rabs c <= 1 -> Rabs (u * c + v) <= A + B.
Proof.
  intros U V C. eapply Rle_trans; [apply Rabs_triang|]. apply Rplus_le_compat; [|exact V].
  rewrite <- (Rmult_1_r A). apply mul_abs_le; assumption.
Qed.
Lemma radians_small t e : Rabs t <= e -> Rabs (radians t) <= e * (17454 / 1000000).
Proof.
  intros H. unfold radians. pose proof pi_bounds as PB. apply mul_abs_le; [exact H|]. rewrite Rabs_pos_eq; lra.
Qed.
Lemma radians_minus s t : radians s - radians t = radians (s - t). Proof. unfold radians. ring. Qed.
Lemma prod_lip c c' l l' a b : Rabs c' <= 1 -> Rabs l <= 1 -> Rabs (c' - c) <= a -> Rabs (l' - l) <= b -> Rabs (c' * l' - c * l) <= a + b.
Proof.
  intros C Lb A B. replace (c' * l' - c * l) with ((c' - c) * l + c' * (l' - l)) by ring.
  apply abs_comb; [exact A| |exact Lb]. rewrite <- (Rmult_1_l b). apply mul_abs_le; assumption.
Qed.

Lemma position_lip a F lat lon h lat' lon' h' q q' : 6300000 <= a <= 6400000 -> 0 < F <= 345 / 100000 -> -200000 <= h ->
  geodetic_position a (a * (1 - F)) lat lon h q -> geodetic_position a (a * (1 - F)) lat' lon' h' q' ->
  Rabs (lat' - lat) <= 18 / 1000000000 -> Rabs (lon' - lon) <= 1 / 10000000000000 -> Rabs (h' - h) <= 15 / 10000 ->
  let e := 152 / 100000 + 315 / 1000000000000 * (a * (10036 / 10000) + h) in
  let '(x, y, z) := q in let '(x', y', z') := q' in
  Rabs (x' - x) <= e /\ Rabs (y' - y) <= e /\ Rabs (z' - z) <= e.
Proof.
  intros A BF H P P' DL DN DH e.
  rewrite (position_eq a F lat lon h q ltac:(lra) ltac:(lra) P), (position_eq a F lat' lon' h' q' ltac:(lra) ltac:(lra) P').
  cbv zeta. assert (0 < F * (2 - F) <= 69 / 10000) as E by (split; [apply Rmult_lt_0_compat; lra|nra]).
  set (e2 := F * (2 - F)) in *. set (p := radians lat). set (p' := radians lat'). set (l := radians lon). set (l' := radians lon').
  pose proof (radians_small _ _ DL) as Dp. rewrite <- radians_minus in Dp. fold p p' in Dp.
  pose proof (radians_small _ _ DN) as Dl. rewrite <- radians_minus in Dl. fold l l' in Dl.
  pose proof (inv_q_lip e2 p p' E) as Q. cbv zeta in Q.
  pose proof (q_low e2 (sin p) (cos p) E (sc1 p)) as QL. pose proof (inv_q _ QL) as QI.
  unfold Rdiv at 1 2 3 4 5 6.
  set (i := / sqrt (1 - e2 * (sin p * sin p))) in *. set (i' := / sqrt (1 - e2 * (sin p' * sin p'))) in *.
  assert (Rabs (a * i' - a * i) <= 15 / 1000000) as DNn.
  { replace (a * i' - a * i) with (a * (i' - i)) by ring. eapply Rle_trans; [apply mul_abs_le with (A := 6400000) (B := 71 / 10000 * (18 / 1000000000 * (17454 / 1000000)))|lra].
    - rewrite Rabs_pos_eq; lra.
    - lra. }
  assert (a <= a * i <= a * (10036 / 10000)) as Ni.
  { split; [rewrite <- (Rmult_1_r a) at 1|]; apply Rmult_le_compat_l; lra. }
  set (N := a * i) in *. set (N' := a * i') in *.
  assert (Rabs ((N' + h') - (N + h)) <= 1515 / 1000000) as D1.
  { replace (N' + h' - (N + h)) with ((N' - N) + (h' - h)) by ring. eapply Rle_trans; [apply Rabs_triang|]. lra. }
  pose proof (cos_lip p' p) as Cp. pose proof (sin_lip p' p) as Sp. pose proof (cos_lip l' l) as Cl. pose proof (sin_lip l' l) as Sl.
  assert (0 <= N + h) as N0 by lra.
  assert (forall c0 c1 v0 v1, Rabs c1 <= 1 -> Rabs v1 <= 1 -> Rabs v0 <= 1 ->
    Rabs (c1 - c0) <= Rabs (p' - p) -> Rabs (v1 - v0) <= Rabs (l' - l) ->
    Rabs ((N' + h') * c1 * v1 - (N + h) * c0 * v0) <= e) as G.
  { intros c0 c1 v0 v1 B1 B2 B3 A1 A2.
    replace ((N' + h') * c1 * v1 - (N + h) * c0 * v0) with ((N' + h' - (N + h)) * (c1 * v1) + (N + h) * (c1 * v1 - c0 * v0)) by ring.
    pose proof (prod_lip c0 c1 v0 v1 _ _ B1 B3 A1 A2) as PL.
    eapply Rle_trans; [apply abs_comb with (A := 1515 / 1000000) (B := (a * (10036 / 10000) + h) * (3145 / 10000000000000))| ].
    - exact D1.
    - apply mul_abs_le; [rewrite Rabs_pos_eq; lra|]. lra.
    - replace 1 with (1 * 1) by ring. apply mul_abs_le; assumption.
    - unfold e. lra. }
  split; [apply G; try apply cos_abs; assumption|]. split; [apply G; try apply cos_abs; try apply sin_abs1; assumption|].
  replace (((1 - e2) * N' + h') * sin p' - ((1 - e2) * N + h) * sin p)
    with (((1 - e2) * (N' - N) + (h' - h)) * sin p' + ((1 - e2) * N + h) * (sin p' - sin p)) by ring.
  assert (0 <= (1 - e2) * N <= N) as Z0.
  { split; [apply Rmult_le_pos; lra|]. rewrite <- (Rmult_1_l N) at 2. apply Rmult_le_compat_r; lra. }
  assert (a * (9931 / 10000) <= (1 - e2) * N) as Z1.
  { rewrite Rmult_comm. apply Rmult_le_compat; lra. }
  eapply Rle_trans; [apply abs_comb with (A := 1515 / 1000000) (B := (a * (10036 / 10000) + h) * (3145 / 10000000000000))| ].
  - eapply Rle_trans; [apply Rabs_triang|]. assert (Rabs ((1 - e2) * (N' - N)) <= 1 * (15 / 1000000)); [|lra].
    apply mul_abs_le; [rewrite Rabs_pos_eq; lra|exact DNn].
  - apply mul_abs_le; [rewrite Rabs_pos_eq; lra|]. lra.
  - apply sin_abs1.
  - unfold e. lra.
Qed.

(* From ECEF coordinates to a position and back: every coordinate returns within
   6e-10 of the distance from the centre of the Earth (4 mm on its surface) *)
Theorem C100_ecef_round_trip : forall L x y z a f, libm_ok L -> fdata x -> fdata y -> fdata z -> geodetic_datum a f -> rval f <= 1000 ->
  rval a - 150000 <= centre_distance (reals3 (x, y, z)) <= 10 ^ 10 ->
  exists lat lon h p, fecef2llh L x y z a f = Ok (lat, lon, h) /\ fllh2ecef L lat lon h a f = Ok p /\
    within (6 / 10 ^ 10 * centre_distance (reals3 (x, y, z))) p (reals3 (x, y, z)).
Proof.
  intros L x y z a f K FX FY FZ D BF2 B.
  destruct (C81_position L x y z a f K FX FY FZ D BF2 B) as (lat & lon & h & lat' & lon' & h' & L0 & M0 & H0 & P & E & F1 & F2 & F3 & DL & DH & DN).
  replace (10 ^ 10) with 10000000000 in * by ring. replace (10 ^ 9) with 1000000000 in DL by ring.
  replace (10 ^ 13) with 10000000000000 in DN by ring. replace (10 ^ 4) with 10000 in DH by ring.
  destruct D as (FA & BA & FF & BF) eqn:HD. clear HD. destruct (ecc_result f FF BF) as (_ & BF1 & _).
  set (R := centre_distance _) in *.
  destruct (position_distance (rval a) (rval f) lat lon h _ BA BF L0 ltac:(lra) P) as (RD & _ & _). fold R in RD.
  pose proof (Rabs_le_inv _ _ DL) as DL'. pose proof (Rabs_le_inv _ _ DN) as DN'. pose proof (Rabs_le_inv _ _ DH) as DH'.
  assert (Rabs (rval h') <= 200001 + (R - 6000000)) as HB by (apply Rabs_le; lra).
  destruct (llh2ecef_near L lat' lon' h' a f K) as (x' & y' & z' & E' & AX & AY & AZ); try assumption.
  - replace (radians (rval lat')) with (rval lat' * PI / 180) by (unfold radians; field).
    apply approx_deg2rad with 91; try num; [exact F1|apply Rabs_le; lra].
  - replace (radians (rval lon')) with (rval lon' * PI / 180) by (unfold radians; field).
    apply approx_deg2rad with (1804 / 10); try num; [exact F2|apply Rabs_le; lra].
  - lra.
  - exists lat', lon', h', (x', y', z'). split; [exact E|]. split; [exact E'|].
    destruct (position_exists (rval a) (1 / rval f) (rval lat') (rval lon') (rval h') ltac:(lra) BF1) as (q' & P').
    assert (0 < 1 / rval f) as Fp by (apply Rdiv_lt_0_compat; lra).
    pose proof (position_lip (rval a) (1 / rval f) lat lon h (rval lat') (rval lon') (rval h') _ q' BA ltac:(lra) ltac:(lra) P P' DL DN DH) as G.
    rewrite (position_eq (rval a) (1 / rval f) (rval lat') (rval lon') (rval h') q' ltac:(lra) BF1 P') in G. cbv zeta in G, AX, AY, AZ. unfold reals3 in G.
    set (e1 := 152 / 100000 + _) in G. set (e3 := (6430000 + _) * _) in *.
    assert (e1 + e3 <= 6 / 10000000000 * R) as EB by (unfold e1, e3; lra).
    destruct G as (GX & GY & GZ). destruct AX as [AX0 AX], AY as [AY0 AY], AZ as [AZ0 AZ].
    unfold within, reals3. fold R.
    repeat split; try apply AX0; try apply AY0; try apply AZ0.
    + match type of GX with Rabs (?m - _) <= _ => replace (rval x' - rval x) with ((rval x' - m) + (m - rval x)) by ring end.
      eapply Rle_trans; [apply Rabs_triang|lra].
    + match type of GY with Rabs (?m - _) <= _ => replace (rval y' - rval y) with ((rval y' - m) + (m - rval y)) by ring end.
      eapply Rle_trans; [apply Rabs_triang|lra].
    + match type of GZ with Rabs (?m - _) <= _ => replace (rval z' - rval z) with ((rval z' - m) + (m - rval z)) by ring end.
      eapply Rle_trans; [apply Rabs_triang|lra].
Qed.

(* ------------------------------------------------------ the listed datums *)
(* lo <= x <= hi, decided on the representation: x = m 2^e with e <= 0 *)
Definition between (lo hi : Z) (x : fl) : bool :=
  match x with
  | S754_finite false m e => (e <=? 0)%Z && (lo * 2 ^ (- e) <=? Zpos m)%Z && (Zpos m <=? hi * 2 ^ (- e))%Z
  | _ => false
  end.
Lemma between_ok lo hi x : between lo hi x = true -> IZR lo <= rval x <= IZR hi.
Proof.
  destruct x as [s|s| |s m e]; try discriminate. destruct s; [discriminate|]. cbn [between].
  rewrite !andb_true_iff, !Z.leb_le. intros [[E A] B]. unfold rval, SF2R. cbn [cond_Zopp].
  unfold F2R. cbn [Fnum Fexp]. pose proof (bpow_gt_0 radix2 (- e)) as W.
  assert (bpow radix2 e * bpow radix2 (- e) = 1) as I by (rewrite <- bpow_plus; replace (e + - e)%Z with 0%Z by lia; reflexivity).
  assert (IZR (2 ^ (- e)) = bpow radix2 (- e)) as V by (change 2%Z with (radix_val radix2); apply IZR_Zpower; lia).
  apply IZR_le in A. apply IZR_le in B. rewrite mult_IZR, V in A, B.
  pose proof (bpow_gt_0 radix2 e) as W'.
  apply (Rmult_le_compat_r (bpow radix2 e)) in A; [|lra]. apply (Rmult_le_compat_r (bpow radix2 e)) in B; [|lra].
  rewrite Rmult_assoc, (Rmult_comm (bpow radix2 (- e))), I, Rmult_1_r in A, B. split; assumption.
Qed.
Definition fdatab (x : fl) : bool := valid_binary fprec femax x && is_fin x.
Lemma fdatab_ok x : fdatab x = true -> fdata x.
Proof. unfold fdatab. rewrite andb_true_iff. exact (fun H => H). Qed.
Definition datumb (d : datum) : bool :=
  fdatab (d_a d) && between 6377000 6379000 (d_a d) && fdatab (d_f d) && between 293 301 (d_f d) &&
  (Z.abs (d_dx d) <=? 1300)%Z && (Z.abs (d_dy d) <=? 1300)%Z && (Z.abs (d_dz d) <=? 1300)%Z.
Lemma all_datums : forallb datumb DATUMS = true.
Proof. vm_compute. reflexivity. Qed.
Lemma listed d : In d DATUMS -> fdata (d_a d) /\ 6377000 <= rval (d_a d) <= 6379000 /\ fdata (d_f d) /\ 293 <= rval (d_f d) <= 301 /\
  (Z.abs (d_dx d) <= 1300)%Z /\ (Z.abs (d_dy d) <= 1300)%Z /\ (Z.abs (d_dz d) <= 1300)%Z.
Proof.
  intros H. pose proof (proj1 (forallb_forall _ _) all_datums d H) as Q. unfold datumb in Q. rewrite !andb_true_iff, !Z.leb_le in Q.
  destruct Q as ((((((A & B) & C) & D) & X) & Y) & W). apply fdatab_ok in A, C. apply between_ok in B, D.
  split; [exact A|]. split; [exact B|]. split; [exact C|]. split; [exact D|]. split; [exact X|]. split; assumption.
Qed.

(* every datum of examples/datums.py has an ellipsoid C80 and C81 apply to *)
Theorem C100_listed : forall d, In d DATUMS -> geodetic_datum (d_a d) (d_f d) /\ rval (d_f d) <= 1000.
Proof.
  intros d H. destruct (listed d H) as (A & B & C & D & _). split; [|lra]. split; [exact A|]. split; [lra|]. split; [exact C|lra].
Qed.
(* one of them is the default of the package *)
Theorem C100_default : In (mkdatum f_SMAJ_AXIS f_FLATTENING 0 0 0) DATUMS /\ length DATUMS = 124%nat.
Proof.
  split; [|reflexivity]. 
  assert (nth 121 DATUMS (mkdatum fzero fzero 0 0 0) = mkdatum f_SMAJ_AXIS f_FLATTENING 0 0 0) as <- by (vm_compute; reflexivity).
  apply nth_In. vm_compute. lia.
Qed.
(* and each of them gives a radius in kilometres for haversine and area *)
Theorem C100_radius : forall d, In d DATUMS ->
  fdivide (d_a d) (f_norm 1000 0) = Ok (fdiv (d_a d) (f_norm 1000 0)) /\ sphere_radius (fdiv (d_a d) (f_norm 1000 0)) /\
  Rabs (rval (fdiv (d_a d) (f_norm 1000 0)) - rval (d_a d) / 1000) <= 1 / 10 ^ 12.
Proof.
  intros d H. destruct (listed d H) as (A & B & _). replace (10 ^ 12) with 1000000000000 by ring.
  split; [reflexivity|].
  destruct (approx_div (d_a d) (f_norm 1000 0) (rval (d_a d)) 1000 0 0 6379000 1000 6379 (1 / 1000000000000) (approx_exact _ A)) as [X _]; try num.
  - apply (approx_int 1000). lia.
  - rewrite Rabs_pos_eq; lra.
  - rewrite Rabs_pos_eq; lra.
  - pose proof (approx_bounds _ _ _ X) as Q. split; [|exact (proj2 X)]. split; [exact (proj1 X)|]. lra.
Qed.

(* ------------------------------------------------------------ and back *)
Lemma centre_le3 u v w r : 0 <= r -> u * u + v * v + w * w <= r * r -> sqrt (u * u + v * v + w * w) <= r.
Proof. intros R0 H. rewrite <- (sqrt_square r R0). apply sqrt_le_1_alt, H. Qed.
Lemma dot_cauchy (p q : vec) : dot p q <= sqrt (dot p p) * sqrt (dot q q).
Proof.
  destruct p as [[a b] c], q as [[d e] f]. unfold dot.
  set (P := a * a + b * b + c * c). set (Q := d * d + e * e + f * f).
  assert (0 <= P) by (unfold P; pose proof (sq_nonneg a); pose proof (sq_nonneg b); pose proof (sq_nonneg c); lra).
  assert (0 <= Q) by (unfold Q; pose proof (sq_nonneg d); pose proof (sq_nonneg e); pose proof (sq_nonneg f); lra).
  rewrite <- sqrt_mult by assumption. destruct (Rle_dec 0 (a * d + b * e + c * f)) as [N|N].
  - rewrite <- (sqrt_square (a * d + b * e + c * f)) by exact N. apply sqrt_le_1_alt. unfold P, Q.
    pose proof (sq_nonneg (a * e - b * d)). pose proof (sq_nonneg (a * f - c * d)). pose proof (sq_nonneg (b * f - c * e)). lra.
  - pose proof (sqrt_pos (P * Q)). lra.
Qed.
Lemma centre_triangle p q : centre_distance (vadd p q) <= centre_distance p + centre_distance q.
Proof.
  unfold centre_distance. pose proof (dot_cauchy p q) as C. pose proof (sqrt_pos (dot p p)) as A. pose proof (sqrt_pos (dot q q)) as B.
  assert (0 <= dot p p) as PP by (destruct p as [[a b] c]; unfold dot; pose proof (sq_nonneg a); pose proof (sq_nonneg b); pose proof (sq_nonneg c); lra).
  assert (0 <= dot q q) as QQ by (destruct q as [[a b] c]; unfold dot; pose proof (sq_nonneg a); pose proof (sq_nonneg b); pose proof (sq_nonneg c); lra).
  pose proof (sqrt_sqrt _ PP) as P2. pose proof (sqrt_sqrt _ QQ) as Q2.
  rewrite <- (sqrt_square (sqrt (dot p p) + sqrt (dot q q))) by lra. apply sqrt_le_1_alt.
  replace (dot (vadd p q) (vadd p q)) with (dot p p + 2 * dot p q + dot q q) by (destruct p as [[a b] c], q as [[d e] f]; unfold dot, vadd; ring).
  lra.
Qed.
Lemma centre_small u v w r : 0 <= r -> Rabs u <= r -> Rabs v <= r -> Rabs w <= r -> centre_distance (u, v, w) <= 2 * r.
Proof.
  intros R0 U V W. unfold centre_distance, dot. apply centre_le3; [lra|].
  assert (forall t, Rabs t <= r -> t * t <= r * r) as G.
  { intros t T. rewrite <- (Rabs_pos_eq (t * t)) by apply sq_nonneg. apply mul_abs_le; exact T. }
  pose proof (G u U). pose proof (G v V). pose proof (G w W). pose proof (sq_nonneg r). lra.
Qed.
Lemma centre_coord u v w : Rabs u <= centre_distance (u, v, w) /\ Rabs v <= centre_distance (u, v, w) /\ Rabs w <= centre_distance (u, v, w).
Proof.
  unfold centre_distance, dot. pose proof (sq_nonneg u). pose proof (sq_nonneg v). pose proof (sq_nonneg w).
  repeat split; rewrite <- sqrt_Rsqr_abs; apply sqrt_le_1_alt; unfold Rsqr; lra.
Qed.

(* the conversion of examples/utilities.py to any datum of examples/datums.py
   and back: it never fails, and every coordinate returns within 6.2e-10 of the
   distance from the centre (4 mm on the surface of the Earth) *)
Theorem C100_transform : forall L d x y z, libm_ok L -> In d DATUMS -> fdata x -> fdata y -> fdata z ->
  6240000 <= centre_distance (reals3 (x, y, z)) <= 10 ^ 9 ->
  exists lat lon h p, to_datum L d x y z = Ok (lat, lon, h) /\ from_datum L d lat lon h = Ok p /\
    within (62 / 10 ^ 11 * centre_distance (reals3 (x, y, z))) p (reals3 (x, y, z)).
Proof.
  intros L d x y z K I FX FY FZ B. replace (10 ^ 9) with 1000000000 in B by ring. replace (10 ^ 11) with 100000000000 by ring.
  destruct (listed d I) as (FA & BA & FF & BF & BX & BY & BZ). destruct (C100_listed d I) as [D F1].
  unfold to_datum, from_datum. set (dx := f_norm (d_dx d) 0). set (dy := f_norm (d_dy d) 0). set (dz := f_norm (d_dz d) 0).
  pose proof (approx_int (d_dx d) ltac:(lia)) as AX. pose proof (approx_int (d_dy d) ltac:(lia)) as AY. pose proof (approx_int (d_dz d) ltac:(lia)) as AZ.
  fold dx in AX. fold dy in AY. fold dz in AZ.
  assert (forall k, (Z.abs k <= 1300)%Z -> Rabs (IZR k) <= 1300) as IB by (intros k H; rewrite <- abs_IZR; apply IZR_le, H).
  apply IB in BX. apply IB in BY. apply IB in BZ.
  destruct (centre_coord (rval x) (rval y) (rval z)) as (CX & CY & CZ). set (R := centre_distance (reals3 (x, y, z))) in *.
  change (centre_distance (rval x, rval y, rval z)) with R in CX, CY, CZ.
  assert (forall c k, fdata c -> Rabs (rval c) <= R -> approx k (rval k) 0 -> Rabs (rval k) <= 1300 ->
    approx (fsub c k) (rval c - rval k) (12 / 100000000000000000 * R)) as SB.
  { intros c k FC BC AK BK. eapply approx_sub with (M := R + 1300); [apply approx_exact, FC|exact AK| | |]; try num.
    eapply Rle_trans; [apply abs_sub_le with (A := R) (B := 1300); try eassumption; apply Rle_refl|lra]. }
  assert (forall k v, approx k v 0 -> rval k = v) as EX0 by (intros k v A0; pose proof (approx_bounds _ _ _ A0); lra).
  pose proof (EX0 _ _ AX) as VX. pose proof (EX0 _ _ AY) as VY. pose proof (EX0 _ _ AZ) as VZ. rewrite <- VX in AX, BX. rewrite <- VY in AY, BY. rewrite <- VZ in AZ, BZ.
  pose proof (SB x dx FX CX AX BX) as SX. pose proof (SB y dy FY CY AY BY) as SY. pose proof (SB z dz FZ CZ AZ BZ) as SZ.
  set (x1 := fsub x dx) in *. set (y1 := fsub y dy) in *. set (z1 := fsub z dz) in *. clearbody x1 y1 z1. change spec_float with fl in x1, y1, z1.
  assert (R - 2602 <= centre_distance (reals3 (x1, y1, z1)) <= R + 2602) as B1.
  { assert (forall c k c1, approx c1 (rval c - rval k) (12 / 100000000000000000 * R) -> Rabs (rval k) <= 1300 -> Rabs (rval c1 - rval c) <= 1301) as DD.
    { intros c k c1 [_ A1] A2. replace (rval c1 - rval c) with ((rval c1 - (rval c - rval k)) - rval k) by ring.
      eapply Rle_trans; [apply abs_sub_le with (A := 12 / 100000000000000000 * R) (B := 1300); try eassumption; apply Rle_refl|lra]. }
    pose proof (DD _ _ _ SX BX) as DX. pose proof (DD _ _ _ SY BY) as DY. pose proof (DD _ _ _ SZ BZ) as DZ.
    split.
    - pose proof (centre_triangle (reals3 (x1, y1, z1)) (rval x - rval x1, rval y - rval y1, rval z - rval z1)) as T.
      replace (vadd (reals3 (x1, y1, z1)) (rval x - rval x1, rval y - rval y1, rval z - rval z1)) with (reals3 (x, y, z)) in T
        by (unfold reals3, vadd; f_equal; [f_equal|]; ring).
      fold R in T. pose proof (centre_small (rval x - rval x1) (rval y - rval y1) (rval z - rval z1) 1301 ltac:(lra)
        ltac:(rewrite Rabs_minus_sym; exact DX) ltac:(rewrite Rabs_minus_sym; exact DY) ltac:(rewrite Rabs_minus_sym; exact DZ)). lra.
    - pose proof (centre_triangle (reals3 (x, y, z)) (rval x1 - rval x, rval y1 - rval y, rval z1 - rval z)) as T.
      replace (vadd (reals3 (x, y, z)) (rval x1 - rval x, rval y1 - rval y, rval z1 - rval z)) with (reals3 (x1, y1, z1)) in T
        by (unfold reals3, vadd; f_equal; [f_equal|]; ring).
      fold R in T. pose proof (centre_small (rval x1 - rval x) (rval y1 - rval y) (rval z1 - rval z) 1301 ltac:(lra) DX DY DZ). lra. }
  destruct (C100_ecef_round_trip L x1 y1 z1 (d_a d) (d_f d) K (proj1 SX) (proj1 SY) (proj1 SZ) D F1) as (lat & lon & h & p & E & E' & W).
  { replace (10 ^ 10) with 10000000000 by ring. lra. }
  destruct p as [[x2 y2] z2]. exists lat, lon, h, (fadd x2 dx, fadd y2 dy, fadd z2 dz). split; [exact E|].
  rewrite E'. split; [reflexivity|].
  replace (10 ^ 10) with 10000000000 in W by ring. set (R1 := centre_distance (reals3 (x1, y1, z1))) in *.
  unfold within, reals3 in W |- *. fold R. destruct W as (W1 & W2 & W3).
  assert (forall c k c1 c2, fdata c -> Rabs (rval c) <= R -> approx k (rval k) 0 -> Rabs (rval k) <= 1300 ->
    approx c1 (rval c - rval k) (12 / 100000000000000000 * R) -> fdata c2 /\ Rabs (rval c2 - rval c1) <= 6 / 10000000000 * R1 ->
    fdata (fadd c2 k) /\ Rabs (rval (fadd c2 k) - rval c) <= 62 / 100000000000 * R) as G.
  { intros c k c1 c2 FC BC AK BK A1 [F2 A2].
    assert (approx c2 (rval c - rval k) (601 / 1000000000000 * R)) as A3.
    { split; [exact F2|]. replace (rval c2 - (rval c - rval k)) with ((rval c2 - rval c1) + (rval c1 - (rval c - rval k))) by ring.
      eapply Rle_trans; [apply Rabs_triang|]. destruct A1 as [_ A1]. lra. }
    replace (rval c) with (rval c - rval k + rval k) by ring.
    eapply approx_add with (M := R); [exact A3|exact AK| | |]; try num.
    replace (rval c - rval k + rval k) with (rval c) by ring. exact BC. }
  split; [exact (G x dx x1 x2 FX CX AX BX SX W1)|]. split; [exact (G y dy y1 y2 FY CY AY BY SY W2)|exact (G z dz z1 z2 FZ CZ AZ BZ SZ W3)].
Qed.

(* the hypotheses are met: a point 1000 m above 0N 0E and the first datum listed *)
Theorem C100_example :
  exists d lat lon h p, In d DATUMS /\ d_dx d = (-166)%Z /\
    to_datum exact_libm d (f_norm 6379137 0) (f_norm 0 0) (f_norm 0 0) = Ok (lat, lon, h) /\
    from_datum exact_libm d lat lon h = Ok p /\ within (4 / 10 ^ 3) p (6379137, 0, 0).
Proof.
  exists (nth 0 DATUMS (mkdatum fzero fzero 0 0 0)).
  assert (In (nth 0 DATUMS (mkdatum fzero fzero 0 0 0)) DATUMS) as I by (apply nth_In; vm_compute; lia).
  assert (reals3 (f_norm 6379137 0, f_norm 0 0, f_norm 0 0) = (6379137, 0, 0)) as V by (unfold reals3; rewrite (val_int 6379137), (val_int 0) by lia; reflexivity).
  assert (centre_distance (6379137, 0, 0) = 6379137) as C.
  { unfold centre_distance, dot. replace (6379137 * 6379137 + 0 * 0 + 0 * 0) with (6379137 * 6379137) by ring. apply sqrt_square. lra. }
  assert (fdata (f_norm 6379137 0) /\ fdata (f_norm 0 0)) as [F F0] by (split; apply fdatab_ok; vm_compute; reflexivity).
  destruct (C100_transform exact_libm _ (f_norm 6379137 0) (f_norm 0 0) (f_norm 0 0) exact_libm_ok I F F0 F0) as (lat & lon & h & p & E & E' & W).
  - rewrite V, C. replace (10 ^ 9) with 1000000000 by ring. lra.
  - exists lat, lon, h, p. split; [exact I|]. split; [reflexivity|]. split; [exact E|]. split; [exact E'|].
    rewrite V, C in W. eapply within_weaken; [exact W|]. replace (10 ^ 11) with 100000000000 by ring. replace (10 ^ 3) with 1000 by ring. lra.
Qed.
