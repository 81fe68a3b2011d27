(* Reading a field and writing it again. *)
From Coq Require Import Reals Lia Lra.
From Flocq Require Import Core BinarySingleNaN.
From Verif Require Import Message BaseLemmas TextLemmas NumLemmas Spec TimeSpec TimeProofs CoordSpec FloatProofs DecimalProofs CoordProofs
  DecimalShort ValueSpec RewriteSpec PropsCoord.
Local Open Scope Z_scope.

Lemma map_dec_repeat k : map dec_char (repeat 0%N k) = repeat 48%N k.
Proof. induction k as [|k IH]; [reflexivity|cbn [repeat map]; rewrite IH; reflexivity]. Qed.
Lemma last_map_dec l : l <> [] -> last (map dec_char l) 0%N = dec_char (last l 0%N).
Proof. intros NE. destruct l as [|d l] using rev_ind; [congruence|]. rewrite map_app. cbn [map]. rewrite !last_last. reflexivity. Qed.
Lemma leading_zeros l : exists j ds, l = repeat 0%N j ++ ds /\ (ds = [] \/ hd 0%N ds <> 0%N).
Proof.
  induction l as [|d l (j & ds & -> & H)]; [exists 0%nat, []; split; [reflexivity|left; reflexivity]|].
  destruct (N.eq_dec d 0) as [->|Nd]; [exists (S j), ds; split; [reflexivity|exact H]|].
  exists 0%nat, (d :: repeat 0%N j ++ ds). split; [reflexivity|right; exact Nd].
Qed.
Lemma last_repeat0 j : last (repeat 0%N j) 0%N = 0%N.
Proof. induction j as [|j IH]; [reflexivity|]. cbn [repeat last]. destruct (repeat 0%N j) eqn:E; [reflexivity|exact IH]. Qed.
Lemma last_app_ne {A} (a b : list A) x : b <> [] -> last (a ++ b) x = last b x.
Proof. intros H. destruct b as [|c b] using rev_ind; [congruence|]. rewrite app_assoc, !last_last. reflexivity. Qed.
Lemma Forall_digit_app a b : Forall digit (a ++ b) <-> Forall digit a /\ Forall digit b.
Proof. apply Forall_app. Qed.

Lemma plain_decimal_text neg ip fp x : plain_decimal ip fp -> nearest neg (decimal_value neg ip fp) x ->
  str_of_float x = minus_sign neg ++ ip ++ u "." ++ fp.
Proof.
  intros (D1 & D2 & N1 & N2 & Ln & H1 & H2 & H3) N.
  destruct (digit_text_list _ D1) as (li & -> & Fi & _ & _). destruct (digit_text_list _ D2) as (lf & -> & Ff & _ & _).
  assert (li <> []) as N1' by (intros ->; apply N1; reflexivity). assert (lf <> []) as N2' by (intros ->; apply N2; reflexivity).
  unfold decimal_value in N. rewrite map_length in N. rewrite <- map_app in N, Ln. rewrite map_length in Ln.
  unfold number in N. rewrite number_acc_digits in N by (apply Forall_app; split; assumption). rewrite Z.mul_0_l, Z.add_0_l in N.
  assert (forall ds q, Forall digit ds -> (IZR (Z.of_N (digits_val 10 (li ++ lf))) / IZR (10 ^ Z.of_nat (length lf)) = IZR (Z.of_N (digits_val 10 ds)) * pow10 q)%R ->
     hd 0%N ds <> 0%N -> last ds 0%N <> 0%N -> (length ds <= 15)%nat -> -15 <= q + Z.of_nat (length ds) <= 15 ->
     str_of_float x = minus_sign neg ++ repr_text ds (q + Z.of_nat (length ds))) as G.
  { intros ds q Fd E A1 A2 A3 A4. rewrite E in N. rewrite (repr_short neg ds (q + Z.of_nat (length ds)) x Fd A1 A2 A3 A4).
    - destruct neg; reflexivity.
    - replace (q + Z.of_nat (length ds) - Z.of_nat (length ds)) with q by lia. exact N. }
  assert (forall a k, (IZR (Z.of_N a) / IZR (10 ^ Z.of_nat k) = IZR (Z.of_N a) * pow10 (- Z.of_nat k))%R) as Dv.
  { intros a k. rewrite pow10_neg, pow10_IZR by lia. reflexivity. }
  assert ((forall c, hd 0%N (map dec_char c) = 48%N <-> c <> [] /\ hd 0%N c = 0%N)) as Hd.
  { intros [|c l]; cbn [map hd]; [split; [discriminate|intros [[] _]; reflexivity]|]. unfold dec_char. split; [intros Q; split; [discriminate|lia]|intros [_ Q]; lia]. }
  assert (forall l, map dec_char l = u "0" -> l = [0%N]) as One.
  { intros [|c [|c' l]] Q; try discriminate. injection Q as Q. unfold dec_char in Q. f_equal. lia. }
  assert (last lf 0%N = 0%N -> lf = [0%N]) as L2.
  { intros Q. apply One, H2. rewrite last_map_dec by exact N2'. rewrite Q. reflexivity. }
  assert (hd 0%N li = 0%N -> li = [0%N]) as L1.
  { intros Q. apply One, H1. apply Hd. split; assumption. }
  destruct (N.eq_dec (hd 0%N li) 0) as [Q1|Q1].
  - rewrite (L1 Q1) in *. clear L1 Q1. specialize (H3 eq_refl). change (map dec_char [0%N] ++ u "." ++ map dec_char lf) with (u "0." ++ map dec_char lf).
    destruct (N.eq_dec (last lf 0%N) 0) as [Q2|Q2].
    + rewrite (L2 Q2) in *. assert (x = S754_zero neg) as ->.
      { eapply nearest_unique; [exact N|]. replace (with_minusR neg _) with 0%R; [apply nearest_zero|].
        change (digits_val 10 ([0%N] ++ [0%N])) with 0%N. change (Z.of_N 0) with 0. unfold with_minusR, Rdiv. rewrite Rmult_0_l. destruct neg; [rewrite Ropp_0|]; reflexivity. }
      destruct neg; vm_compute; reflexivity.
    + destruct (leading_zeros lf) as (j & ds & -> & [->|Hds]).
      { rewrite app_nil_r, last_repeat0 in Q2. contradiction. }
      assert (ds <> []) as Nd by (intros ->; apply Hds; reflexivity).
      rewrite last_app_ne in Q2 by exact Nd. apply Forall_app in Ff as [_ Fd].
      rewrite !app_length, repeat_length in Ln. cbn [length] in Ln.
      assert (j <= 3)%nat as J.
      { destruct (Nat.le_gt_cases j 3) as [|Gt]; [assumption|exfalso]. apply H3. replace j with (4 + (j - 4))%nat by lia.
        rewrite repeat_app, <- app_assoc. reflexivity. }
      rewrite (G ds (- Z.of_nat (j + length ds)) Fd); try assumption; try lia.
      * f_equal. rewrite map_app, map_dec_repeat. replace (- Z.of_nat (j + length ds) + Z.of_nat (length ds)) with (- Z.of_nat j) by lia.
        unfold repr_text. cbn zeta. destruct (Z.leb_spec (- Z.of_nat j) (-4)), (Z.ltb_spec 16 (- Z.of_nat j)); try lia. cbn [orb].
        destruct (Z.leb_spec (- Z.of_nat j) 0); [|lia]. rewrite Z.opp_involutive, Nat2Z.id. reflexivity.
      * rewrite app_length, repeat_length. rewrite Dv. rewrite app_assoc.
        change ([0%N] ++ repeat 0%N j) with (repeat 0%N (S j)). rewrite digits_val_zeros. reflexivity.
  - destruct (N.eq_dec (last lf 0%N) 0) as [Q2|Q2].
    + rewrite (L2 Q2) in *. rewrite app_length in Ln. cbn [length] in Ln. destruct (strip_zeros_split li) as (k & E). set (ds := strip_zeros li) in *.
      assert (ds <> []) as Nd by (intros Z0; rewrite Z0 in E; rewrite E in Q1; destruct k; apply Q1; reflexivity).
      assert (last ds 0%N <> 0%N) as Ld.
      { unfold ds, strip_zeros. assert (forall l, hd 0%N (lstrip_if (N.eqb 0) l) <> 0%N \/ lstrip_if (N.eqb 0) l = []) as St.
        { induction l as [|c l IH]; [right; reflexivity|]. cbn [lstrip_if]. destruct (N.eqb_spec 0 c) as [|Nc]; [exact IH|left; cbn [hd]; congruence]. }
        destruct (St (rev li)) as [S1|S1].
        - destruct (lstrip_if (N.eqb 0) (rev li)) as [|c l]; [contradiction S1; reflexivity|]. cbn [rev]. rewrite last_last. exact S1.
        - exfalso. apply Nd. unfold ds, strip_zeros. rewrite S1. reflexivity. }
      assert (hd 0%N ds <> 0%N) as Hd1 by (destruct ds; [congruence|]; rewrite E in Q1; exact Q1).
      rewrite E in Fi. apply Forall_app in Fi as [Fd _]. assert (length li = length ds + k)%nat as Ll by (rewrite E, app_length, repeat_length; reflexivity).
      rewrite (G ds (Z.of_nat k) Fd); try assumption; try lia.
      * f_equal. unfold repr_text. cbn zeta. set (pt := Z.of_nat k + _).
        destruct (Z.leb_spec pt (-4)), (Z.ltb_spec 16 pt); unfold pt in *; try lia. cbn [orb].
        destruct (Z.leb_spec (Z.of_nat k + Z.of_nat (length ds)) 0); [destruct ds; [congruence|cbn [length] in *; lia]|].
        destruct (Z.leb_spec (Z.of_nat (length ds)) (Z.of_nat k + Z.of_nat (length ds))); [|lia].
        replace (Z.to_nat (Z.of_nat k + Z.of_nat (length ds) - Z.of_nat (length ds))) with k by lia.
        transitivity (map dec_char (ds ++ repeat 0%N k) ++ u ".0"); [rewrite map_app, map_dec_repeat, <- app_assoc; reflexivity|rewrite <- E; reflexivity].
      * rewrite digits_val_app2. change (digits_val 10 [0%N]) with 0%N. rewrite N.add_0_r. change (lenN [0%N]) with 1%N.
        rewrite E, digits_val_trailing. rewrite N2Z.inj_mul, mult_IZR, IZR_pow10_mul. change (Z.of_N (10 ^ 1)) with 10. change (10 ^ Z.of_nat (length [0%N])) with 10. field.
    + assert (last (li ++ lf) 0%N <> 0%N) as Ld by (rewrite last_app_ne by exact N2'; exact Q2).
      assert (hd 0%N (li ++ lf) <> 0%N) as Hd1 by (destruct li; [congruence|exact Q1]).
      assert (1 <= length li /\ 1 <= length lf)%nat as [I1 I2] by (destruct li, lf; try congruence; cbn [length]; lia).
      rewrite app_length in Ln. rewrite (G (li ++ lf) (- Z.of_nat (length lf))); try assumption; rewrite ?app_length; try lia.
      * f_equal. replace (- Z.of_nat (length lf) + Z.of_nat (length li + length lf)) with (Z.of_nat (length li)) by lia.
        unfold repr_text. cbn zeta. rewrite app_length. set (pt := Z.of_nat (length li)).
        destruct (Z.leb_spec pt (-4)), (Z.ltb_spec 16 pt); unfold pt in *; try lia. cbn [orb].
        destruct (Z.leb_spec (Z.of_nat (length li)) 0); [lia|]. destruct (Z.leb_spec (Z.of_nat (length li + length lf)) (Z.of_nat (length li))); [lia|].
        rewrite Nat2Z.id. rewrite map_app, firstn_app, skipn_app, map_length, Nat.sub_diag.
        rewrite firstn_all2, skipn_all2 by (rewrite map_length; lia). cbn [firstn skipn app]. rewrite app_nil_r. reflexivity.
      * apply Forall_app. split; assumption.
      * apply Dv.
Qed.

(* -------------------------------------------------------------- positions *)
Definition whole_degree (d : N) : fl := fround 10 (fadd (fabs (f_of_dec false d 0)) (fdiv (S754_zero false) f60)).
Definition whole_ok (w : nat) (att : pystr) (n : nat) : bool :=
  forallb (fun i => forallb (fun hp => match ddd2dmm_float (whole_degree (N.of_nat i)) att hp with
      | Ok s => str_eqb s (degrees_text w (if hp then 7%nat else 5%nat) (Z.of_nat i) 0) | Raise _ => false end) [true; false]) (seq 0 n).
Lemma whole_latitude : whole_ok 2 ty_LA 100 = true.
Proof. vm_compute. reflexivity. Qed.
Lemma whole_longitude : whole_ok 3 ty_LN 1000 = true.
Proof. vm_compute. reflexivity. Qed.
Lemma numeral_zero j : numeral_text j 0 = repeat 48%N j.
Proof.
  induction j as [|j IH]; [reflexivity|]. cbn [numeral_text]. change (0 / 10) with 0. rewrite IH. change (Z.to_N _) with 48%N.
  clear IH. induction j as [|j IH]; [reflexivity|]. cbn [repeat app]. rewrite IH. reflexivity.
Qed.
Lemma read_whole w j d : (w = 2 \/ w = 3)%nat -> 0 <= d < 10 ^ Z.of_nat w -> dmm2ddd (degrees_text w j d 0) = VFloat (whole_degree (Z.to_N d)).
Proof.
  intros W D. assert (2 <= w)%nat as W2 by lia.
  pose proof (C49_parts (numeral_text w d) (numeral_text 2 (0 / 10 ^ Z.of_nat j)) (numeral_text j 0)) as P.
  rewrite !numeral_text_length in P. unfold degrees_text.
  assert (str2val (numeral_text w d ++ numeral_text 2 (0 / 10 ^ Z.of_nat j) ++ u "." ++ numeral_text j 0) (u "LA") = Ok (VFloat (whole_degree (Z.to_N d)))) as R.
  { rewrite P; [|intros I; apply (digit_text_no_dot (numeral_text w d ++ numeral_text 2 (0 / 10 ^ Z.of_nat j))); [apply Forall_app; split; apply numeral_digit_text|exact I]|reflexivity|exact W2].
    clear P. destruct (digit_text_list (numeral_text w d) (numeral_digit_text w d)) as (l1 & E1 & F1 & N1 & V1).
    destruct (digit_text_list (numeral_text j 0) (numeral_digit_text j 0)) as (l3 & E3 & F3 & N3 & V3).
    rewrite numeral_number, Z.mod_small in V1 by lia. rewrite numeral_number, Z.mod_0_l in V3 by (try apply Z.pow_nonzero; lia).
    rewrite Z.div_0_l by (apply Z.pow_nonzero; lia). rewrite E1, E3. change (numeral_text 2 0) with (map dec_char [0%N; 0%N]).
    rewrite float_of_int_digits; [|exact F1|intros ->; rewrite numeral_text_length in N1; cbn in N1; lia].
    change (u "." ++ map dec_char l3) with (46%N :: map dec_char l3).
    rewrite float_of_point_digits; [|repeat (constructor; [unfold digit; lia|]); constructor|exact F3|discriminate].
    rewrite digits_val_app2. change (digits_val 10 [0%N; 0%N]) with 0%N. rewrite N.mul_0_l, N.add_0_l.
    replace (digits_val 10 l3) with 0%N by lia. replace (digits_val 10 l1) with (Z.to_N d) by lia. reflexivity. }
  change (Ok (dmm2ddd (numeral_text w d ++ numeral_text 2 (0 / 10 ^ Z.of_nat j) ++ u "." ++ numeral_text j 0)) = Ok (VFloat (whole_degree (Z.to_N d)))) in R.
  congruence.
Qed.
Lemma write_whole w att d (hp : bool) : In (att, w) position_digits -> 0 <= d < 10 ^ Z.of_nat w ->
  ddd2dmm_float (whole_degree (Z.to_N d)) att hp = Ok (degrees_text w (if hp then 7%nat else 5%nat) d 0).
Proof.
  assert (forall n, whole_ok w att n = true -> 0 <= d < Z.of_nat n -> ddd2dmm_float (whole_degree (Z.to_N d)) att hp = Ok (degrees_text w (if hp then 7%nat else 5%nat) d 0)) as G.
  { intros n H D. unfold whole_ok in H. rewrite forallb_forall in H. specialize (H (Z.to_nat d)). rewrite forallb_forall in H.
    assert (In hp [true; false]) as Ih by (destruct hp; cbn; tauto). specialize (H ltac:(apply in_seq; lia) hp Ih).
    rewrite Z_nat_N, Z2Nat.id in H by lia. destruct (ddd2dmm_float _ _ _) as [s|]; [|discriminate H]. apply str_eqb_eq in H. congruence. }
  intros I D. destruct I as [I|[I|[]]]; injection I as <- <-.
  - apply (G 100%nat whole_latitude). exact D.
  - apply (G 1000%nat whole_longitude). exact D.
Qed.
Lemma degrees_pad w j z d m : 0 <= m -> degrees_text w (j + z) d (m * 10 ^ Z.of_nat z) = degrees_text w j d m ++ repeat 48%N z.
Proof.
  intros M. unfold degrees_text. rewrite <- !app_assoc. f_equal. assert (0 < 10 ^ Z.of_nat z) as P by (apply Z.pow_pos_nonneg; lia).
  assert (0 < 10 ^ Z.of_nat j) as P' by (apply Z.pow_pos_nonneg; lia).
  rewrite Nat2Z.inj_add, Z.pow_add_r, Z.div_mul_cancel_r by lia. f_equal. f_equal.
  rewrite (numeral_split_at j z (m * 10 ^ Z.of_nat z) m 0) by lia. rewrite numeral_zero. reflexivity.
Qed.
Lemma position_rewritten (hp : bool) att w j z d m : In (att, w) position_digits -> 0 <= d < 10 ^ Z.of_nat w -> 0 <= m < 60 * 10 ^ Z.of_nat j ->
  (j + z = if hp then 7 else 5)%nat ->
  exists y, dmm2ddd (degrees_text w j d m) = VFloat y /\ ddd2dmm_float y att hp = Ok (degrees_text w j d m ++ repeat 48%N z).
Proof.
  intros I D M J. assert (w = 2 \/ w = 3)%nat as W by (destruct I as [I|[I|[]]]; injection I as _ <-; lia).
  destruct (Z.eq_dec m 0) as [->|M0].
  { exists (whole_degree (Z.to_N d)). split; [apply read_whole; assumption|]. rewrite (write_whole w) by assumption. rewrite <- J.
    f_equal. rewrite <- (degrees_pad w j z d 0) by lia. reflexivity. }
  assert (0 < 10 ^ Z.of_nat j) as Pj by (apply Z.pow_pos_nonneg; lia). assert (0 < 10 ^ Z.of_nat z) as Pz by (apply Z.pow_pos_nonneg; lia).
  destruct (coordinate_back w j d m D W ltac:(lia)) as (y & Ey & Dy & Sy & By). exists y. split; [exact Ey|].
  set (k := if hp then 7%nat else 5%nat) in *. assert (10 ^ Z.of_nat k = 10 ^ Z.of_nat j * 10 ^ Z.of_nat z) as Ek by (rewrite <- J, Nat2Z.inj_add, Z.pow_add_r by lia; reflexivity).
  assert (1 <= 10 ^ Z.of_nat k <= 10000000) as Bk by (unfold k; destruct hp; cbn; lia).
  set (T := 10 ^ Z.of_nat k) in *. set (n0 := m * 10 ^ Z.of_nat z) in *.
  assert (0 < n0 < 60 * T) as N0 by (unfold n0; nia).
  assert (coordinate_value j d m = IZR d + IZR n0 / (60 * IZR T))%R as Cv.
  { unfold coordinate_value, n0. rewrite Ek, !mult_IZR. apply IZR_lt in Pj, Pz. field. lra. }
  rewrite Cv in By. assert (1 <= IZR T <= 10000000)%R as BT by (split; apply IZR_le; lia).
  assert (1 <= IZR n0 <= 60 * IZR T - 1)%R as Bn by (rewrite <- mult_IZR, <- minus_IZR; split; apply IZR_le; lia).
  pose proof (fdata_nonneg _ Dy Sy) as Y0.
  set (c := (IZR n0 / (60 * IZR T))%R) in *. assert (c * (60 * IZR T) = IZR n0)%R as Hc by (unfold c; field; lra).
  assert (c <= 1 - / 600000000)%R as C1.
  { apply Rmult_le_reg_r with (60 * IZR T)%R; [lra|]. rewrite Hc. nra. }
  assert (Rabs (rval y) < IZR (10 ^ Z.of_nat (degree_digits att)))%R as BY.
  { assert (degree_digits att = w) as -> by (destruct I as [I|[I|[]]]; injection I as <- <-; reflexivity).
    rewrite Rabs_pos_eq by exact Y0. assert (IZR d <= IZR (10 ^ Z.of_nat w) - 1)%R by (rewrite <- minus_IZR; apply IZR_le; lia).
    apply Rabs_le_inv in By. lra. }
  destruct (ddd2dmm_correct y att hp Dy BY) as (q & n & Q & Nn & E & A).
  assert (ddd2dmm_float y att hp = Ok (degrees_text w k q n)) as E'.
  { assert (degree_digits att = w) as Wd by (destruct I as [I|[I|[]]]; injection I as <- <-; reflexivity).
    assert (decimals hp = k) as Kd by (destruct hp; reflexivity). rewrite <- Wd, <- Kd. exact E. }
  rewrite E'. assert (decimals hp = k) as Kd by (destruct hp; reflexivity). rewrite Kd in *. fold T in Nn. rewrite pow10_IZR in A by lia. fold T in A.
  rewrite (Rabs_pos_eq (rval y)) in A by exact Y0.
  assert (q * (60 * T) + n = d * (60 * T) + n0) as Eq.
  { apply IZR_close. rewrite !plus_IZR, !mult_IZR. change (IZR 60) with 60%R.
    set (t := (60 * IZR T)%R) in *. assert (60 <= t <= 600000000)%R as Bt by (unfold t; lra).
    set (b := (IZR n / t)%R) in *. assert (b * t = IZR n)%R as Hb by (unfold b; field; lra).
    replace (IZR q * t + IZR n - (IZR d * t + IZR n0))%R with (((IZR q + b - rval y) + (rval y - (IZR d + c))) * t)%R by (rewrite <- Hc, <- Hb; ring).
    rewrite Rabs_mult, (Rabs_pos_eq t) by lra.
    assert (Rabs (IZR q + b - rval y + (rval y - (IZR d + c))) <= / 2 / t + / 1000000000000 + 7 / 100000000000)%R as Tr.
    { eapply Rle_trans; [apply Rabs_triang|]. lra. }
    apply Rle_lt_trans with ((/ 2 / t + / 1000000000000 + 7 / 100000000000) * t)%R; [apply Rmult_le_compat_r; lra|].
    replace ((/ 2 / t + / 1000000000000 + 7 / 100000000000) * t)%R with (/ 2 + 71 / 1000000000000 * t)%R by (field; lra). lra. }
  assert (q = d /\ n = n0) as [-> ->].
  { clearbody T n0. clear - Eq Nn N0. set (t := 60 * T) in *. assert ((q - d) * t = n0 - n) as E by lia.
    assert (q - d = 0) as Z0.
    { destruct (Z.lt_trichotomy (q - d) 0) as [L|[L|L]]; [exfalso|exact L|exfalso].
      - assert ((q - d) * t <= (-1) * t) by (apply Z.mul_le_mono_nonneg_r; lia). lia.
      - assert (1 * t <= (q - d) * t) by (apply Z.mul_le_mono_nonneg_r; lia). lia. }
    rewrite Z0 in E. lia. }
  rewrite <- J. unfold n0. rewrite degrees_pad by lia. reflexivity.
Qed.
