(* Proofs about times and dates. *)
From Verif Require Import Helpers BaseLemmas TextLemmas NumLemmas TimeSpec.
Local Open Scope Z_scope.

(* ------------------------------------------------------------ numerals *)
Lemma numeral_text_0 w : numeral_text w 0 = repeat 48%N w.
Proof.
  induction w as [|w IH]; [reflexivity|]. cbn [numeral_text].
  change (0 / 10) with 0. change (Z.to_N (48 + 0 mod 10)) with 48%N. rewrite IH.
  rewrite <- repeat_cons. reflexivity.
Qed.
Lemma zfill_snoc w s c : s <> [] -> zfill (S w) (s ++ [c]) = zfill w s ++ [c].
Proof.
  intros N. unfold zfill. rewrite app_length. cbn [length]. rewrite Nat.add_1_r, Nat.sub_succ, app_assoc. reflexivity.
Qed.
Lemma pad_numeral w : forall z, (1 <= w)%nat -> 0 <= z < 10 ^ Z.of_nat w -> pad w z = numeral_text w z.
Proof.
  induction w as [|w IH]; intros z H Hz; [lia|]. clear H. cbn [numeral_text].
  destruct (Z.ltb_spec z 10) as [L|L].
  - rewrite Z.div_small, Z.mod_small by lia. rewrite numeral_text_0.
    unfold pad, dec_of_N. rewrite N_digits_small by lia. unfold zfill. cbn [map length].
    replace (S w - 1)%nat with w by lia. f_equal. f_equal. unfold dec_char. lia.
  - assert (w <> 0%nat) as W by (intros ->; cbn in Hz; lia).
    assert (pad (S w) z = pad w (z / 10) ++ [Z.to_N (48 + z mod 10)]) as ->.
    { unfold pad. rewrite <- zfill_snoc by apply dec_of_N_nonempty. f_equal.
      unfold dec_of_N. rewrite (Z.div_mod z 10) at 1 by lia.
      pose proof (Z.mod_pos_bound z 10 ltac:(lia)). pose proof (Z.div_str_pos z 10 ltac:(lia)).
      replace (Z.to_N (10 * (z / 10) + z mod 10)) with (Z.to_N (z / 10) * 10 + Z.to_N (z mod 10))%N by lia.
      rewrite N_digits_snoc by lia. rewrite map_app. cbn [map]. f_equal. f_equal. unfold dec_char. lia. }
    f_equal. apply IH; [lia|]. split; [apply Z.div_pos; lia|].
    apply Z.div_lt_upper_bound; [lia|]. rewrite Nat2Z.inj_succ, Z.pow_succ_r in Hz by lia. lia.
Qed.
Lemma numeral_text_length w z : length (numeral_text w z) = w.
Proof. revert z. induction w as [|w IH]; intros z; [reflexivity|]. cbn. rewrite app_length, IH. cbn. lia. Qed.
Lemma numeral_text_split a b z : 0 <= z ->
  numeral_text (a + b) z = numeral_text a (z / 10 ^ Z.of_nat b) ++ numeral_text b z.
Proof.
  intros Hz. revert z Hz. induction b as [|b IH]; intros z Hz.
  - rewrite Nat.add_0_r. cbn [numeral_text]. change (Z.of_nat 0) with 0. rewrite Z.pow_0_r, Z.div_1_r, app_nil_r. reflexivity.
  - rewrite Nat.add_succ_r. cbn [numeral_text]. rewrite IH by (apply Z.div_pos; lia). rewrite app_assoc. f_equal. f_equal.
    rewrite Nat2Z.inj_succ, Z.pow_succ_r by lia. f_equal. rewrite Z.div_div by lia. f_equal.
Qed.
Lemma numeral_cons w z : 0 <= z ->
  numeral_text (S w) z = Z.to_N (48 + (z / 10 ^ Z.of_nat w) mod 10) :: numeral_text w z.
Proof. intros Hz. change (S w) with (1 + w)%nat. rewrite numeral_text_split by exact Hz. reflexivity. Qed.
Lemma numeral_mod w z : 0 <= z -> numeral_text w (z mod 10 ^ Z.of_nat w) = numeral_text w z.
Proof.
  revert z. induction w as [|w IH]; intros z Hz; [reflexivity|]. cbn [numeral_text].
  rewrite Nat2Z.inj_succ, Z.pow_succ_r by lia.
  assert (0 < 10 ^ Z.of_nat w) by (apply Z.pow_pos_nonneg; lia).
  rewrite Z.rem_mul_r by lia. rewrite (Z.mul_comm 10), Z.div_add by lia.
  rewrite (Z.div_small (z mod 10)) by (apply Z.mod_pos_bound; lia). rewrite Z.add_0_l.
  rewrite IH by (apply Z.div_pos; lia). f_equal. f_equal. f_equal. f_equal.
  rewrite Z.mod_add by lia. apply Z.mod_mod. lia.
Qed.

(* ----------------------------------------------------------- matching *)
Definition dch (a : Z) : N := Z.to_N (48 + a).
Lemma numeral2 z : 0 <= z < 100 -> numeral_text 2 z = [dch (z / 10); dch (z mod 10)].
Proof.
  intros H. cbn [numeral_text app]. unfold dch. rewrite (Z.mod_small (z / 10)); [reflexivity|].
  split; [apply Z.div_pos; lia|apply Z.div_lt_upper_bound; lia].
Qed.

Lemma digit_cases a : 0 <= a < 10 ->
  a = 0 \/ a = 1 \/ a = 2 \/ a = 3 \/ a = 4 \/ a = 5 \/ a = 6 \/ a = 7 \/ a = 8 \/ a = 9.
Proof. lia. Qed.
Ltac digit a H := destruct (digit_cases a H) as [->|[->|[->|[->|[->|[->|[->|[->|[->| ->]]]]]]]]].

Definition starts {A} (x : A) (l : list A) : Prop := exists tl, l = x :: tl.

Lemma dg_dch a r : 0 <= a < 10 -> dg (dch a :: r) = [(a, r)].
Proof. intros H. digit a H; reflexivity. Qed.
Lemma ar_dch x y a r : 0 <= a < 10 -> ar x y (dch a :: r) = if (x <=? a) && (a <=? y) then [(a, r)] else [].
Proof. intros H. digit a H; reflexivity. Qed.

Ltac two_digits a b :=
  let Ha := fresh in let Hb := fresh in let H := fresh in
  intros Ha Hb H; digit a Ha; digit b Hb; try lia; eexists; reflexivity.
Lemma re_H_ok a b r : 0 <= a < 10 -> 0 <= b < 10 -> 10 * a + b <= 23 ->
  starts (10 * a + b, r) (re_H (dch a :: dch b :: r)).
Proof. two_digits a b. Qed.
Lemma re_M_ok a b r : 0 <= a < 10 -> 0 <= b < 10 -> 10 * a + b <= 59 ->
  starts (10 * a + b, r) (re_M (dch a :: dch b :: r)).
Proof. two_digits a b. Qed.
Lemma re_S_ok a b r : 0 <= a < 10 -> 0 <= b < 10 -> 10 * a + b <= 61 ->
  starts (10 * a + b, r) (re_S (dch a :: dch b :: r)).
Proof. two_digits a b. Qed.
Lemma re_d_ok a b r : 0 <= a < 10 -> 0 <= b < 10 -> 1 <= 10 * a + b <= 31 ->
  starts (10 * a + b, r) (re_d (dch a :: dch b :: r)).
Proof. two_digits a b. Qed.
Lemma re_m_ok a b r : 0 <= a < 10 -> 0 <= b < 10 -> 1 <= 10 * a + b <= 12 ->
  starts (10 * a + b, r) (re_m (dch a :: dch b :: r)).
Proof. two_digits a b. Qed.
Lemma re_y2_ok a b r : 0 <= a < 10 -> 0 <= b < 10 -> re_y2 (dch a :: dch b :: r) = [(10 * a + b, r)].
Proof. intros Ha Hb. unfold re_y2, two. rewrite dg_dch by exact Ha. cbn [flat_map]. rewrite dg_dch by exact Hb. reflexivity. Qed.
Lemma re_Y_ok a b c d r : 0 <= a < 10 -> 0 <= b < 10 -> 0 <= c < 10 -> 0 <= d < 10 ->
  re_Y (dch a :: dch b :: dch c :: dch d :: r) = [(100 * (10 * a + b) + (10 * c + d), r)].
Proof.
  intros Ha Hb Hc Hd. unfold re_Y. change (two dg dg) with re_y2. rewrite re_y2_ok by assumption. cbn [flat_map].
  rewrite re_y2_ok by assumption. reflexivity.
Qed.

Lemma div_mod_digits z n : 0 <= z < 10 * n -> n = 10 -> 0 <= z / 10 < 10 /\ 0 <= z mod 10 < 10 /\ 10 * (z / 10) + z mod 10 = z.
Proof.
  intros H ->. split; [split; [apply Z.div_pos; lia|apply Z.div_lt_upper_bound; lia]|].
  split; [apply Z.mod_pos_bound; lia|]. rewrite <- Z.div_mod by lia. reflexivity.
Qed.

Lemma on_numeral (p : pystr -> matches) z lo hi r :
  0 <= lo -> hi < 100 -> lo <= z <= hi ->
  (forall a b r, 0 <= a < 10 -> 0 <= b < 10 -> lo <= 10 * a + b <= hi -> starts (10 * a + b, r) (p (dch a :: dch b :: r))) ->
  starts (z, r) (p (numeral_text 2 z ++ r)).
Proof.
  intros L Hh H P. rewrite numeral2 by lia. cbn [app].
  destruct (div_mod_digits z 10 ltac:(lia) eq_refl) as (D1 & D2 & D3).
  rewrite <- D3 at 1. apply P; [exact D1|exact D2|lia].
Qed.

Lemma re_seq_starts p l s v r vs r' :
  starts (v, r) (p s) -> starts (vs, r') (re_seq l r) -> starts (v :: vs, r') (re_seq (p :: l) s).
Proof.
  intros [t1 E1] [t2 E2]. cbn [re_seq]. rewrite E1. cbn [flat_map]. rewrite E2. cbn [map app].
  eexists. reflexivity.
Qed.
Lemma re_match_starts l s vs : starts (vs, []) (re_seq l s) -> re_match l s = Some vs.
Proof. intros [t E]. unfold re_match. rewrite E. reflexivity. Qed.

(* the fraction *)
Lemma re_f_aux_ok n : forall w k acc z, (1 <= w <= n)%nat -> 0 <= z < 10 ^ Z.of_nat w -> 0 <= acc -> Z.of_nat w <= k ->
  starts ((acc * 10 ^ Z.of_nat w + z) * 10 ^ (k - Z.of_nat w), []) (re_f_aux n k acc (numeral_text w z)).
Proof.
  induction n as [|n IH]; intros w k acc z W Z0 A K; [lia|].
  destruct w as [|w]; [lia|]. rewrite numeral_cons by lia.
  assert (0 < 10 ^ Z.of_nat w) as Pw by (apply Z.pow_pos_nonneg; lia).
  rewrite Nat2Z.inj_succ, Z.pow_succ_r in Z0 by lia.
  set (q := z / 10 ^ Z.of_nat w). assert (0 <= q < 10) as Hq.
  { unfold q. split; [apply Z.div_pos; lia|apply Z.div_lt_upper_bound; lia]. }
  rewrite (Z.mod_small q) by exact Hq. change (Z.to_N (48 + q)) with (dch q).
  cbn [re_f_aux]. rewrite ar_dch by exact Hq.
  replace ((0 <=? q) && (q <=? 9)) with true by (symmetry; apply andb_true_iff; split; apply Z.leb_le; lia).
  cbn [flat_map]. rewrite app_nil_r.
  destruct w as [|w].
  - cbn [numeral_text]. assert (re_f_aux n (k - 1) (10 * acc + q) [] = []) as -> by (destruct n; reflexivity).
    cbn [app]. eexists. f_equal. f_equal. change (Z.of_nat 1) with 1. unfold q. rewrite Z.pow_0_r, Z.div_1_r. lia.
  - rewrite <- (numeral_mod (S w) z) by lia.
    destruct (IH (S w) (k - 1) (10 * acc + q) (z mod 10 ^ Z.of_nat (S w))) as [tl E].
    + lia.
    + apply Z.mod_pos_bound. exact Pw.
    + lia.
    + lia.
    + rewrite E. cbn [app]. eexists. f_equal. f_equal.
      rewrite (Nat2Z.inj_succ (S w)). rewrite Z.pow_succ_r by lia.
      replace (k - 1 - Z.of_nat (S w)) with (k - Z.succ (Z.of_nat (S w))) by lia. f_equal.
      rewrite (Z.div_mod z (10 ^ Z.of_nat (S w))) at 2 by lia. fold q. ring.
Qed.

Lemma strptime_time_ok h m s w f :
  0 <= h < 24 -> 0 <= m < 60 -> 0 <= s < 60 -> (1 <= w <= 6)%nat -> 0 <= f < 10 ^ Z.of_nat w ->
  strptime_time (numeral_text 2 h ++ numeral_text 2 m ++ numeral_text 2 s ++ [46%N] ++ numeral_text w f)
  = Some (mktime h m s (f * 10 ^ (6 - Z.of_nat w))).
Proof.
  intros Hh Hm Hs Hw Hf. unfold strptime_time.
  assert (re_match [re_H; re_M; re_S; re_dot; re_f]
    (numeral_text 2 h ++ numeral_text 2 m ++ numeral_text 2 s ++ [46%N] ++ numeral_text w f)
    = Some [h; m; s; 0; f * 10 ^ (6 - Z.of_nat w)]) as ->.
  { apply re_match_starts.
    eapply re_seq_starts; [eapply (on_numeral re_H h 0 23); [lia|lia|lia|]; intros; apply re_H_ok; lia|].
    eapply re_seq_starts; [eapply (on_numeral re_M m 0 59); [lia|lia|lia|]; intros; apply re_M_ok; lia|].
    eapply re_seq_starts; [eapply (on_numeral re_S s 0 59); [lia|lia|lia|]; intros; apply re_S_ok; lia|].
    eapply re_seq_starts; [exists []; reflexivity|].
    eapply re_seq_starts; [|exists []; reflexivity].
    unfold re_f. pose proof (re_f_aux_ok 6 w 6 0 f Hw Hf ltac:(lia) ltac:(lia)) as H. rewrite Z.mul_0_l, Z.add_0_l in H. exact H. }
  assert (0 < 10 ^ (6 - Z.of_nat w)) as P by (apply Z.pow_pos_nonneg; lia).
  assert (10 ^ Z.of_nat w * 10 ^ (6 - Z.of_nat w) = 1000000) as Q
    by (rewrite <- Z.pow_add_r by lia; replace (Z.of_nat w + (6 - Z.of_nat w)) with 6 by lia; reflexivity).
  assert (0 <= f * 10 ^ (6 - Z.of_nat w) <= 999999) as B by nia.
  unfold valid_time. cbn [t_hour t_min t_sec t_us].
  replace ((0 <=? h) && (h <=? 23) && (0 <=? m) && (m <=? 59) && (0 <=? s) && (s <=? 59)
           && (0 <=? f * 10 ^ (6 - Z.of_nat w)) && (f * 10 ^ (6 - Z.of_nat w) <=? 999999)) with true; [reflexivity|].
  symmetry. rewrite !andb_true_iff, !Z.leb_le. lia.
Qed.

Lemma valid_time_iff t : valid_time t = true <-> time_of_day t.
Proof. unfold valid_time, time_of_day. rewrite !andb_true_iff, !Z.leb_le. lia. Qed.

Lemma is_leap_iff y : is_leap y = true <-> leap_year y.
Proof.
  unfold is_leap, leap_year. rewrite andb_true_iff, orb_true_iff, negb_true_iff, !Z.eqb_eq, Z.eqb_neq.
  split; [tauto|]. intros [[A B]|H]; [tauto|]. split; [|tauto].
  apply Z.mod_divide in H as [k ->]; [|lia]. apply Z.mod_divide; [lia|]. exists (k * 100). ring.
Qed.
Lemma valid_date_iff d : valid_date d = true <-> calendar_date d.
Proof.
  unfold valid_date, calendar_date. rewrite !andb_true_iff, !Z.leb_le.
  set (y := d_year d). set (m := d_month d). set (dd := d_day d).
  assert (forall n, 1 <= m <= 12 -> month_length y m n <-> n = days_in_month y m) as E.
  { intros n Hm. unfold month_length, days_in_month.
    assert (m = 1 \/ m = 2 \/ m = 3 \/ m = 4 \/ m = 5 \/ m = 6 \/ m = 7 \/ m = 8 \/ m = 9 \/ m = 10 \/ m = 11 \/ m = 12)
      as C by lia.
    assert (~ leap_year y <-> is_leap y = false) as NL.
    { rewrite <- is_leap_iff. destruct (is_leap y); split; congruence. }
    destruct C as [->|[->|[->|[->|[->|[->|[->|[->|[->|[->|[->| ->]]]]]]]]]]]; cbn [Z.eqb Pos.eqb orb In];
      try (split; [intros [[_ H]|[[H1 H]|[H _]]]; [exact H|decompose [or] H1; try discriminate; contradiction|discriminate]
                  |intros ->; left; split; [tauto|reflexivity]]);
      try (split; [intros [[H1 H]|[[_ H]|[H _]]]; [decompose [or] H1; try discriminate; contradiction|exact H|discriminate]
                  |intros ->; right; left; split; [tauto|reflexivity]]).
    split.
    - intros [[H1 _]|[[H1 _]|[_ [[L ->]|[L ->]]]]]; try (decompose [or] H1; try discriminate; contradiction).
      + apply is_leap_iff in L. rewrite L. reflexivity.
      + apply NL in L. rewrite L. reflexivity.
    - intros ->. right. right. split; [reflexivity|]. destruct (is_leap y) eqn:L.
      + left. split; [apply is_leap_iff, L|reflexivity].
      + right. split; [apply NL; reflexivity|reflexivity]. }
  assert (forall n, month_length y m n -> 1 <= m <= 12) as M.
  { intros n [[H _]|[[H _]|[-> _]]]; [| |lia]; cbn [In] in H; lia. }
  split.
  - intros (((((A1 & A2) & A3) & A4) & A5) & A6). split; [lia|]. exists (days_in_month y m). split; [apply E; lia|lia].
  - intros (A & n & Hn & B). pose proof (M n Hn) as Hm. apply E in Hn; [|exact Hm]. subst n. lia.
Qed.

(* ------------------------------------------------------------- dates *)
Lemma firstn_numeral k a z : 0 <= z -> firstn k (numeral_text (k + a) z) = numeral_text k (z / 10 ^ Z.of_nat a).
Proof.
  intros H. rewrite numeral_text_split by exact H.
  rewrite firstn_app, numeral_text_length, Nat.sub_diag. cbn [firstn]. rewrite app_nil_r.
  rewrite <- (numeral_text_length k (z / 10 ^ Z.of_nat a)) at 1. apply firstn_all.
Qed.

Lemma year2_window y : 1969 <= y <= 2068 -> year2 (y mod 100) = y.
Proof.
  intros H. unfold year2.
  destruct (Z.ltb_spec y 2000) as [L|L].
  - assert (y mod 100 = y - 1900) as -> by (symmetry; apply (Z.mod_unique_pos _ _ 19); lia).
    destruct (Z.leb_spec (y - 1900) 68); lia.
  - assert (y mod 100 = y - 2000) as -> by (symmetry; apply (Z.mod_unique_pos _ _ 20); lia).
    destruct (Z.leb_spec (y - 2000) 68); lia.
Qed.

Lemma calendar_ranges d : calendar_date d -> 1 <= d_month d <= 12 /\ 1 <= d_day d <= 31.
Proof.
  intros (_ & n & [[H ->]|[[H ->]|[H [[_ ->]|[_ ->]]]]] & B); cbn [In] in H; lia.
Qed.

Lemma numeral4 y : 0 <= y < 10000 ->
  numeral_text 4 y = [dch (y / 1000); dch (y / 100 mod 10); dch (y / 10 mod 10); dch (y mod 10)].
Proof.
  intros H. cbn [numeral_text app]. unfold dch. rewrite !Z.div_div by lia.
  rewrite (Z.mod_small (y / (10 * 10 * 10))); [reflexivity|].
  split; [apply Z.div_pos; lia|apply Z.div_lt_upper_bound; lia].
Qed.
Lemma dec_year y : 1000 <= y <= 9999 -> dec_of_N (Z.to_N y) = numeral_text 4 y.
Proof.
  intros H. rewrite <- (pad_numeral 4 y) by (cbn; lia). unfold pad, zfill.
  assert (length (dec_of_N (Z.to_N y)) = 4%nat) as L.
  { unfold dec_of_N. rewrite map_length.
    assert (length (N_digits 10 (Z.to_N y)) <= 4)%nat by (apply N_digits_length_le; cbn; lia).
    assert (~ (length (N_digits 10 (Z.to_N y)) <= 3)%nat); [|lia].
    intros Q. apply N_digits_length_ge in Q; cbn in Q; lia. }
  rewrite L. reflexivity.
Qed.

Definition years_of (f : dform) (y : Z) : Prop := match f with FDTL => 1000 <= y <= 9999 | _ => 1969 <= y <= 2068 end.

Lemma strptime_date_ok f d :
  calendar_date d -> years_of f (d_year d) -> strptime_date f (strftime_date f d) = Some d.
Proof.
  intros C Y. destruct (calendar_ranges d C) as [Hm Hd]. apply valid_date_iff in C.
  destruct d as [y m dd]. cbn [d_year d_month d_day] in *.
  assert (0 <= y mod 100 < 100) as Hy by (apply Z.mod_pos_bound; lia).
  assert (forall r, starts (dd, r) (re_d (numeral_text 2 dd ++ r))) as Rd
    by (intros r; apply (on_numeral re_d dd 1 31); [lia|lia|lia|]; intros; apply re_d_ok; lia).
  assert (forall r, starts (m, r) (re_m (numeral_text 2 m ++ r))) as Rm
    by (intros r; apply (on_numeral re_m m 1 12); [lia|lia|lia|]; intros; apply re_m_ok; lia).
  assert (starts (y mod 100, []) (re_y2 (numeral_text 2 (y mod 100)))) as Ry.
  { rewrite <- (app_nil_r (numeral_text 2 _)). apply (on_numeral re_y2 (y mod 100) 0 99); [lia|lia|lia|].
    intros. rewrite re_y2_ok by lia. eexists. reflexivity. }
  unfold strptime_date, strftime_date. cbn [d_year d_month d_day].
  destruct f; cbn [years_of] in Y; rewrite ?(pad_numeral 2) by (cbn; lia).
  - assert (re_match [re_d; re_m; re_y2] (numeral_text 2 dd ++ numeral_text 2 m ++ numeral_text 2 (y mod 100))
      = Some [dd; m; y mod 100]) as ->.
    { apply re_match_starts. eapply re_seq_starts; [apply Rd|]. eapply re_seq_starts; [apply Rm|].
      eapply re_seq_starts; [exact Ry|]. exists []. reflexivity. }
    rewrite year2_window by exact Y. rewrite C. reflexivity.
  - rewrite dec_year by lia.
    assert (re_match [re_d; re_m; re_Y] (numeral_text 2 dd ++ numeral_text 2 m ++ numeral_text 4 y)
      = Some [dd; m; y]) as ->.
    { apply re_match_starts. eapply re_seq_starts; [apply Rd|]. eapply re_seq_starts; [apply Rm|].
      eapply (re_seq_starts _ _ _ y []); [|exists []; reflexivity]. rewrite numeral4 by lia.
      assert (forall a, 0 <= a mod 10 < 10) as M10 by (intros; apply Z.mod_pos_bound; lia).
      assert (0 <= y / 1000 < 10) by (split; [apply Z.div_pos; lia|apply Z.div_lt_upper_bound; lia]).
      rewrite re_Y_ok; try apply M10; try assumption. eexists. f_equal. f_equal.
      rewrite (Z.div_mod y 10) at 1 by lia.
      rewrite (Z.div_mod (y / 10) 10) at 1 by lia. rewrite Z.div_div by lia. change (10 * 10) with 100.
      rewrite (Z.div_mod (y / 100) 10) at 1 by lia. rewrite Z.div_div by lia. change (100 * 10) with 1000. lia. }
    rewrite C. reflexivity.
  - assert (re_match [re_m; re_d; re_y2] (numeral_text 2 m ++ numeral_text 2 dd ++ numeral_text 2 (y mod 100))
      = Some [m; dd; y mod 100]) as ->.
    { apply re_match_starts. eapply re_seq_starts; [apply Rm|]. eapply re_seq_starts; [apply Rd|].
      eapply re_seq_starts; [exact Ry|]. exists []. reflexivity. }
    rewrite year2_window by exact Y. rewrite C. reflexivity.
Qed.
