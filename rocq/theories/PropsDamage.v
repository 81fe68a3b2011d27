(* C94: damage to a stream *)
From Coq Require Import Lia.
From Verif Require Import Message Reader BaseLemmas Spec ParseProofs ReaderSpec ReaderProofs PropsParse PropsReader PropsSession PropsPort PropsConcat.
Local Open Scope nat_scope.

(* number of line feeds *)
Definition line_ends (s : bytes) : nat := count_occ N.eq_dec s lf.
(* the items as the application sees them *)
Definition seen (items : list (bytes * option msg)) : list entry := map (fun i => Got (fst i) (snd i)) items.

(* ------------------------------------------------------------------ lemmas *)
Lemma line_ends_app a b : line_ends (a ++ b) = line_ends a + line_ends b.
Proof. apply count_occ_app. Qed.
Lemma line_ends_none a : line_ends a = 0 <-> ~ In lf a.
Proof. symmetry. apply count_occ_not_In. Qed.
Lemma line_ends_lf : line_ends [lf] = 1.
Proof. reflexivity. Qed.
Lemma line_ends_line raw : line_shape raw -> line_ends raw = 1.
Proof.
  intros (c & body & -> & Sc & N). assert (c <> lf) as Nc.
  { intros ->. apply hdr_second_iff in Sc. vm_compute in Sc. discriminate. }
  change (dollar :: c :: body ++ [lf]) with ([dollar] ++ [c] ++ body ++ [lf]). rewrite !line_ends_app.
  apply line_ends_none in N. rewrite N, line_ends_lf. replace (line_ends [c]) with 0; [reflexivity|]. symmetry. apply line_ends_none. cbn. tauto.
Qed.
(* every item takes a line end *)
Lemma items_lines cfg s ts : tokens [lf] s ts -> forall hs, happens cfg ts hs -> forall quit h,
  length (gots (flat_map (noted quit h) hs)) <= line_ends s.
Proof.
  assert (forall e quit h l, gots (noted quit h (Problem e) ++ l) = gots l) as Pr.
  { intros e quit h l. unfold noted. destruct (reaction quit h e); reflexivity. }
  intros T. induction T as [|b s ts Nb T IH| |c s ts Nc T IH|c Sc|c s line rest ts Sc F E T IH|c s line rest ts Sc F Ne Nl T IH]; intros hs H quit h.
  - inversion H; subst. cbn. lia.
  - specialize (IH hs H quit h). change (b :: s) with ([b] ++ s). rewrite line_ends_app. lia.
  - inversion H; subst. cbn. lia.
  - change (dollar :: c :: s) with ([dollar; c] ++ s). rewrite line_ends_app. inversion H; subst; cbn [flat_map].
    + rewrite Pr. specialize (IH _ ltac:(eassumption) quit h). lia.
    + specialize (IH _ ltac:(eassumption) quit h). lia.
  - inversion H; subst. cbn. lia.
  - destruct F as (-> & _). destruct E as (body & ->). change (dollar :: c :: (body ++ [lf]) ++ rest) with ([dollar; c] ++ (body ++ [lf]) ++ rest).
    rewrite !line_ends_app, line_ends_lf. inversion H; subst; cbn [flat_map]; rewrite ?Pr; specialize (IH _ ltac:(eassumption) quit h); cbn; fold (gots (flat_map (noted quit h) hs0)); unfold gots in *; lia.
  - destruct F as (-> & _). change (dollar :: c :: line ++ rest) with ([dollar; c] ++ line ++ rest). rewrite !line_ends_app.
    inversion H; subst; cbn [flat_map]; rewrite ?Pr; specialize (IH _ ltac:(eassumption) quit h); lia.
Qed.
Lemma session_lines cfg n fuel s l ev r : length s < fuel -> length s < n ->
  fsession cfg n fuel s = Some (l, ev, r) -> length (gots l) <= line_ends s.
Proof.
  intros L1 L2 E. destruct (tokens_total [lf] s ltac:(discriminate)) as (ts & Tk). destruct (happens_total cfg ts) as (hs & Hp).
  destruct (C76_file cfg n fuel s ts hs Tk Hp L1 L2) as (ev' & E' & _). rewrite E' in E. injection E as <- _ _. eapply items_lines; eassumption.
Qed.
Lemma Forall_firstn {A} (P : A -> Prop) i l : Forall P l -> Forall P (firstn i l).
Proof. intros F. revert i. induction F as [|x l H F IH]; intros [|i]; cbn; constructor; auto. Qed.
Lemma Forall_skipn {A} (P : A -> Prop) i l : Forall P l -> Forall P (skipn i l).
Proof. intros F. revert i. induction F as [|x l H F IH]; intros [|i]; cbn; auto. Qed.
Lemma concat_ends lines : Forall line_shape lines -> line_ends (concat lines) = length lines.
Proof. induction 1 as [|l ls H F IH]; [reflexivity|]. cbn [concat length]. rewrite line_ends_app, IH, (line_ends_line l H). reflexivity. Qed.
Lemma line_split raw a b : line_shape raw -> raw = a ++ b -> b <> [] -> ~ In lf a.
Proof.
  intros Sh E Nb I. pose proof (line_ends_line raw Sh) as C. destruct Sh as (c & body & E' & _). rewrite E in *. clear E.
  destruct (exists_last Nb) as (b' & z & ->). rewrite app_assoc in E'. change (dollar :: c :: body ++ [lf]) with ((dollar :: c :: body) ++ [lf]) in E'.
  apply app_inj_tail in E' as [_ Ez]. subst z. rewrite !line_ends_app, line_ends_lf in C. assert (line_ends a = 0) as X by lia. apply line_ends_none in X. contradiction.
Qed.
(* the whole lines before a place *)
Lemma before_place lines : Forall line_shape lines -> forall p q, concat lines = p ++ q ->
  exists k a, p = concat (firstn k lines) ++ a /\ ~ In lf a /\ k <= length lines /\ concat (skipn k lines) = a ++ q.
Proof.
  induction 1 as [|l ls H F IH]; intros p q E.
  - exists 0, []. cbn in E. symmetry in E. apply app_eq_nil in E as [-> ->]. cbn. repeat split; auto.
  - cbn [concat] in E. destruct (le_lt_dec (length l) (length p)) as [L|L].
    + assert (exists p', p = l ++ p') as (p' & ->).
      { exists (skipn (length l) p). rewrite <- (firstn_skipn (length l) p) at 1. f_equal.
        assert (firstn (length l) (l ++ concat ls) = firstn (length l) (p ++ q)) as X by (rewrite E; reflexivity).
        rewrite firstn_app, firstn_all, Nat.sub_diag, firstn_O, app_nil_r in X. rewrite firstn_app in X.
        replace (length l - length p) with 0 in X by lia. rewrite firstn_O, app_nil_r in X. congruence. }
      rewrite <- app_assoc in E. apply app_inv_head in E. destruct (IH _ _ E) as (k & a & -> & Na & Lk & Ek).
      exists (S k), a. cbn [firstn concat skipn length]. rewrite app_assoc. repeat split; [exact Na|lia|exact Ek].
    + exists 0, p. cbn [firstn concat skipn app]. repeat split; [|lia|exact E].
      assert (exists r, l = p ++ r) as (r & ->).
      { exists (skipn (length p) l). rewrite <- (firstn_skipn (length p) l) at 1. f_equal.
        assert (firstn (length p) (l ++ concat ls) = firstn (length p) (p ++ q)) as X by (rewrite E; reflexivity).
        rewrite firstn_app in X. replace (length p - length l) with 0 in X by lia. rewrite firstn_O, app_nil_r in X.
        rewrite firstn_app, firstn_all, Nat.sub_diag, firstn_O, app_nil_r in X. congruence. }
      apply (line_split _ p r H eq_refl). intros ->. rewrite app_nil_r in L. lia.
Qed.
(* a place after a line end is between two lines *)
Lemma after_end lines w q : Forall line_shape lines -> concat lines = (w ++ [lf]) ++ q ->
  exists j, w ++ [lf] = concat (firstn j lines) /\ q = concat (skipn j lines) /\ j = line_ends (w ++ [lf]).
Proof.
  intros F E. destruct (before_place lines F _ _ E) as (k & a & Ew & Na & Lk & Ek).
  destruct a as [|z a] using rev_ind.
  - rewrite app_nil_r in Ew. exists k. split; [exact Ew|]. split; [symmetry; exact Ek|]. rewrite Ew, concat_ends by (apply Forall_firstn, F).
    rewrite firstn_length. lia.
  - rewrite app_assoc in Ew. apply app_inj_tail in Ew as [_ <-]. exfalso. apply Na. apply in_or_app. right. left. reflexivity.
Qed.
Lemma first_end q : ~ In lf q \/ exists b r, q = (b ++ [lf]) ++ r /\ ~ In lf b.
Proof.
  induction q as [|c q IH]; [left; intros []|]. destruct (N.eq_dec c lf) as [->|N]; [right; exists [], q; split; [reflexivity|intros []]|].
  destruct IH as [I|(b & r & -> & Nb)]; [left; intros [X|X]; [congruence|exact (I X)]|]. right. exists (c :: b), r. split; [reflexivity|].
  intros [X|X]; [congruence|exact (Nb X)].
Qed.
Lemma lines_only_concat lines : Forall line_shape lines -> lines_only (concat lines).
Proof.
  induction 1 as [|l ls (c & body & -> & _) F IH]; [left; reflexivity|]. right. cbn [concat]. destruct IH as [->|(b & ->)].
  - exists (dollar :: c :: body). rewrite app_nil_r. reflexivity.
  - exists ((dollar :: c :: body ++ [lf]) ++ b). rewrite <- app_assoc. reflexivity.
Qed.
Lemma session_sentences cfg n fuel lines ms : Forall line_shape lines -> Forall2 (parses cfg) lines ms ->
  length (concat lines) < fuel -> length (concat lines) < n ->
  fsession cfg n fuel (concat lines) = Some (seen (combine lines ms), [], []).
Proof.
  intros F P L1 L2. apply loop_session. replace (concat lines) with (interleave (map (fun _ => []) lines) lines ++ []) in *.
  - apply C27_all_delivered; try assumption; [apply map_length| |intros []]. apply Forall_map, Forall_forall. intros x _ [].
  - rewrite app_nil_r. clear. induction lines as [|l ls IH]; [reflexivity|]. cbn [map interleave concat]. rewrite IH. reflexivity.
Qed.

(* ------------------------------------------------------------------ C94 *)
(* Whatever happens to some lines of a stream (up to and including their line end), the
   application sees of the lines before and after what it would have seen. *)
Theorem C94_local cfg n fuel before x y after :
  lines_only before -> lines_only x -> lines_only y ->
  length (before ++ x ++ after) < fuel -> length (before ++ x ++ after) < n ->
  length (before ++ y ++ after) < fuel -> length (before ++ y ++ after) < n ->
  exists l1 ev1 lx evx ly evy l2 ev2,
    fsession cfg n fuel (before ++ x ++ after) = Some (l1 ++ lx ++ l2, ev1 ++ evx ++ ev2, [])
    /\ fsession cfg n fuel (before ++ y ++ after) = Some (l1 ++ ly ++ l2, ev1 ++ evy ++ ev2, [])
    /\ fsession cfg n fuel before = Some (l1, ev1, []) /\ fsession cfg n fuel after = Some (l2, ev2, [])
    /\ fsession cfg n fuel x = Some (lx, evx, []) /\ fsession cfg n fuel y = Some (ly, evy, []).
Proof.
  intros B X Y A1 A2 A3 A4.
  destruct (C90_two cfg n fuel before (x ++ after) B A1 A2) as (l1 & ev1 & lr & er & E1 & E2 & E).
  destruct (C90_two cfg n fuel before (y ++ after) B A3 A4) as (l1' & ev1' & lr' & er' & E1' & E2' & E').
  rewrite app_length in A1, A2, A3, A4.
  destruct (C90_two cfg n fuel x after X ltac:(lia) ltac:(lia)) as (lx & evx & l2 & ev2 & F1 & F2 & F).
  destruct (C90_two cfg n fuel y after Y ltac:(lia) ltac:(lia)) as (ly & evy & l2' & ev2' & F1' & F2' & F').
  rewrite E1 in E1'. injection E1' as <- <-. rewrite F2 in F2'. injection F2' as <- <-.
  rewrite F in E2. injection E2 as <- <-. rewrite F' in E2'. injection E2' as <- <-.
  exists l1, ev1, lx, evx, ly, evy, l2, ev2. auto 10.
Qed.

(* A file of sentences in which the bytes [x], anywhere, are replaced by the bytes [y] (so one
   of them may be empty: bytes inserted or lost).  Of the sentences, all those that end before the damage and
   all those that begin after the first line end behind it are delivered as before, in order; lost
   are at most one more than the line ends in [x], added at most one more than those in [y]. *)
Theorem C94_sentences cfg n fuel lines ms p x y q :
  Forall line_shape lines -> Forall2 (parses cfg) lines ms -> concat lines = p ++ x ++ q ->
  length (p ++ x ++ q) < fuel -> length (p ++ x ++ q) < n -> length (p ++ y ++ q) < fuel -> length (p ++ y ++ q) < n ->
  exists k j mid ev,
    fsession cfg n fuel (p ++ y ++ q)
      = Some (seen (firstn k (combine lines ms)) ++ mid ++ seen (skipn (k + j) (combine lines ms)), ev, [])
    /\ j <= line_ends x + 1 /\ length (gots mid) <= line_ends y + 1
    /\ (exists a, p = concat (firstn k lines) ++ a /\ ~ In lf a)
    /\ (concat (skipn (k + j) lines) = [] \/ exists b, q = b ++ [lf] ++ concat (skipn (k + j) lines) /\ ~ In lf b).
Proof.
  intros F P E A1 A2 A3 A4.
  destruct (before_place lines F p (x ++ q) E) as (k & a & -> & Na & Lk & Ek).
  assert (length ms = length lines) as Lm by (clear - P; induction P; cbn; congruence).
  assert (forall l m, Forall2 (parses cfg) l m -> forall i, Forall2 (parses cfg) (firstn i l) (firstn i m) /\ Forall2 (parses cfg) (skipn i l) (skipn i m)) as Sp.
  { clear. induction 1 as [|l m ls ms H F IH]; intros [|i]; cbn; split; auto; [constructor; [exact H|apply IH]|apply IH]. }
  assert (forall i (l : list bytes) (m : list (option msg)), combine (firstn i l) (firstn i m) = firstn i (combine l m)) as C1.
  { clear. induction i as [|i IH]; intros [|a l] [|b m]; cbn; try reflexivity. rewrite IH. reflexivity. }
  assert (forall i (l : list bytes) (m : list (option msg)), length l = length m -> combine (skipn i l) (skipn i m) = skipn i (combine l m)) as C2.
  { clear. induction i as [|i IH]; intros [|a l] [|b m] L; cbn in L |- *; try reflexivity; try discriminate. apply IH. lia. }
  rewrite !app_length in A1, A2, A3, A4.
  assert (fsession cfg n fuel (concat (firstn k lines)) = Some (seen (firstn k (combine lines ms)), [], [])) as S1.
  { rewrite <- C1. apply session_sentences; [apply Forall_firstn, F|apply Sp, P| |]; lia. }
  assert (lines_only (concat (firstn k lines))) as O1 by (apply lines_only_concat, Forall_firstn, F).
  assert (forall w tail l ev, length w + length tail + length (concat (firstn k lines)) < fuel -> length w + length tail + length (concat (firstn k lines)) < n ->
     fsession cfg n fuel w = Some (l, ev, []) -> lines_only w \/ tail = [] ->
     forall l2, fsession cfg n fuel tail = Some (l2, [], []) ->
     exists ev', fsession cfg n fuel (concat (firstn k lines) ++ w ++ tail) = Some (seen (firstn k (combine lines ms)) ++ l ++ l2, ev', [])) as Glue.
  { intros w tail l ev B1 B2 Ew Ow l2 E2.
    destruct (C90_two cfg n fuel (concat (firstn k lines)) (w ++ tail) O1 ltac:(rewrite !app_length; lia) ltac:(rewrite !app_length; lia)) as (m1 & v1 & m2 & v2 & X1 & X2 & X3).
    rewrite S1 in X1. injection X1 as <- <-. rewrite X3. destruct Ow as [Ow| ->].
    - destruct (C90_two cfg n fuel w tail Ow ltac:(rewrite !app_length; lia) ltac:(rewrite !app_length; lia)) as (n1 & w1 & n2 & w2 & Y1 & Y2 & Y3).
      rewrite Ew in Y1. injection Y1 as <- <-. rewrite E2 in Y2. injection Y2 as <- <-. rewrite Y3 in X2. injection X2 as <- <-. eexists. reflexivity.
    - rewrite app_nil_r in X2. rewrite Ew in X2. injection X2 as <- <-. destruct (fsession_total cfg n fuel [] ltac:(cbn [length]; lia) ltac:(cbn [length]; lia)) as (z & vz & Z1 & Z2).
      destruct (file_runs_nil _ _ _ _ Z2 eq_refl) as [-> ->]. rewrite Z1 in E2. injection E2 as <-. rewrite app_nil_r. eexists. reflexivity. }
  destruct (first_end q) as [Nq|(b & r & -> & Nb)].
  - (* the damage reaches into the last line *)
    destruct (fsession_total cfg n fuel (a ++ y ++ q) ltac:(rewrite !app_length; lia) ltac:(rewrite !app_length; lia)) as (mid & ev & Em & _).
    exists k, (length lines - k), mid.
    replace (k + (length lines - k)) with (length lines) by lia.
    rewrite (skipn_all2 (combine lines ms)) by (rewrite combine_length; lia).
    destruct (fsession_total cfg n fuel [] ltac:(cbn [length]; lia) ltac:(cbn [length]; lia)) as (z & vz & Z1 & Z2). destruct (file_runs_nil _ _ _ _ Z2 eq_refl) as [-> ->].
    destruct (Glue (a ++ y ++ q) [] mid ev ltac:(rewrite !app_length; cbn [length]; lia) ltac:(rewrite !app_length; cbn [length]; lia) Em (or_intror eq_refl) [] Z1) as (ev' & E').
    exists ev'. rewrite app_nil_r in E'. rewrite <- app_assoc. split; [exact E'|]. split.
    { pose proof (concat_ends (skipn k lines) (Forall_skipn _ _ _ F)) as C. rewrite Ek, !line_ends_app, skipn_length in C.
      apply line_ends_none in Na. apply line_ends_none in Nq. lia. }
    split.
    { apply session_lines in Em; [|rewrite !app_length; lia|rewrite !app_length; lia]. rewrite !line_ends_app in Em.
      apply line_ends_none in Na. apply line_ends_none in Nq. lia. }
    split; [exists a; auto|]. left. rewrite skipn_all. reflexivity.
  - (* the line in which the damage ends, [a ++ y ++ b ++ [lf]], and the lines behind it *)
    destruct (after_end (skipn k lines) (a ++ x ++ b) r) as (j & Ej & Er & Hj); [apply Forall_skipn, F|rewrite Ek, <- !app_assoc; reflexivity|].
    assert (line_ends (a ++ x ++ b) = line_ends x) as Hx.
    { rewrite !line_ends_app. apply line_ends_none in Na. apply line_ends_none in Nb. lia. }
    assert (r = concat (skipn (k + j) lines)) as Er'.
    { rewrite Er. f_equal. rewrite Nat.add_comm. clear. revert k. induction lines as [|l ls IH]; intros [|k]; cbn; rewrite ?skipn_nil, ?Nat.add_0_r; try reflexivity; try apply IH.
      rewrite Nat.add_succ_r. cbn. apply IH. }
    rewrite !app_length in A1, A2, A3, A4.
    destruct (fsession_total cfg n fuel (a ++ y ++ b ++ [lf]) ltac:(rewrite !app_length; lia) ltac:(rewrite !app_length; lia)) as (mid & ev & Em & _).
    exists k, j, mid.
    assert (fsession cfg n fuel r = Some (seen (skipn (k + j) (combine lines ms)), [], [])) as S2.
    { rewrite Er', <- C2 by lia. apply session_sentences; [apply Forall_skipn, F|apply Sp, P| |]; rewrite <- Er'; lia. }
    destruct (Glue (a ++ y ++ b ++ [lf]) r mid ev ltac:(rewrite !app_length; lia) ltac:(rewrite !app_length; lia) Em) with (l2 := seen (skipn (k + j) (combine lines ms))) as (ev' & E').
    { left. right. exists (a ++ y ++ b). rewrite <- !app_assoc. reflexivity. }
    { exact S2. }
    exists ev'. repeat rewrite <- app_assoc in E'. repeat rewrite <- app_assoc. split; [exact E'|]. split; [rewrite line_ends_app, line_ends_lf, Hx in Hj; lia|]. split.
    { apply session_lines in Em; [|rewrite !app_length; lia|rewrite !app_length; lia]. rewrite !line_ends_app, line_ends_lf in Em.
      apply line_ends_none in Na. apply line_ends_none in Nb. lia. }
    split; [exists a; auto|]. right. exists b. rewrite <- Er'. auto.
Qed.
(* one byte replaced by another: one sentence lost, or two if the byte ended a line *)
Corollary C94_one_byte cfg n fuel lines ms p c d q :
  Forall line_shape lines -> Forall2 (parses cfg) lines ms -> concat lines = p ++ c :: q ->
  length (p ++ c :: q) < fuel -> length (p ++ c :: q) < n ->
  exists k j mid ev,
    fsession cfg n fuel (p ++ d :: q)
      = Some (seen (firstn k (combine lines ms)) ++ mid ++ seen (skipn (k + j) (combine lines ms)), ev, [])
    /\ j <= (if N.eq_dec c lf then 2 else 1) /\ length (gots mid) <= (if N.eq_dec d lf then 2 else 1).
Proof.
  intros F P E L1 L2. destruct (C94_sentences cfg n fuel lines ms p [c] [d] q F P E) as (k & j & mid & ev & H1 & H2 & H3 & _); try (cbn [app]; rewrite app_length in *; cbn [length] in *; lia).
  exists k, j, mid, ev. split; [exact H1|]. unfold line_ends in H2, H3. cbn [count_occ] in H2, H3.
  destruct (N.eq_dec c lf), (N.eq_dec d lf); lia.
Qed.
(* bytes lost: at most one sentence more than the line ends among them; bytes inserted: at most one sentence *)
Corollary C94_dropped cfg n fuel lines ms p x q :
  Forall line_shape lines -> Forall2 (parses cfg) lines ms -> concat lines = p ++ x ++ q ->
  length (p ++ x ++ q) < fuel -> length (p ++ x ++ q) < n ->
  exists k j mid ev,
    fsession cfg n fuel (p ++ q)
      = Some (seen (firstn k (combine lines ms)) ++ mid ++ seen (skipn (k + j) (combine lines ms)), ev, [])
    /\ j <= line_ends x + 1 /\ length (gots mid) <= 1.
Proof.
  intros F P E L1 L2. destruct (C94_sentences cfg n fuel lines ms p x [] q F P E L1 L2) as (k & j & mid & ev & H1 & H2 & H3 & _); try (cbn [app]; rewrite !app_length in *; lia).
  exists k, j, mid, ev. auto.
Qed.
Corollary C94_inserted cfg n fuel lines ms p y q :
  Forall line_shape lines -> Forall2 (parses cfg) lines ms -> concat lines = p ++ q ->
  length (p ++ y ++ q) < fuel -> length (p ++ y ++ q) < n ->
  exists k j mid ev,
    fsession cfg n fuel (p ++ y ++ q)
      = Some (seen (firstn k (combine lines ms)) ++ mid ++ seen (skipn (k + j) (combine lines ms)), ev, [])
    /\ j <= 1 /\ length (gots mid) <= line_ends y + 1.
Proof.
  intros F P E L1 L2. destruct (C94_sentences cfg n fuel lines ms p [] y q F P E) as (k & j & mid & ev & H1 & H2 & H3 & _); try (cbn [app]; rewrite !app_length in *; lia).
  exists k, j, mid, ev. auto.
Qed.

(* With checksum validation the damaged sentence is not taken for another one: a byte of the
   content (behind the first) of one of the sentences, of ASCII, replaced by any other byte but LF.
   The messages delivered are those of the other sentences. *)
Definition messages (l : list entry) : list msg :=
  flat_map (fun e => match e with Got _ (Some m) => [m] | _ => [] end) l.
Theorem C94_detected cfg n fuel ls1 ms1 a c b ck ls2 ms2 d :
  let raw k := [dollar] ++ (a ++ k :: b) ++ [star] ++ ck ++ [cr; lf] in
  wants_checksum (r_validate cfg) = true ->
  Forall line_shape ls1 -> Forall2 (parses cfg) ls1 ms1 -> Forall line_shape ls2 -> Forall2 (parses cfg) ls2 ms2 ->
  line_shape (raw c) -> frame (raw c) (a ++ c :: b) ck -> is_checksum (a ++ c :: b) (str_upper ck) ->
  Forall (fun k => (k < 128)%N) (raw c) ->
  a <> [] -> d <> c -> d <> lf -> (d < 256)%N ->
  length (concat ls1 ++ raw d ++ concat ls2) < fuel -> length (concat ls1 ++ raw d ++ concat ls2) < n ->
  exists mid ev,
    fsession cfg n fuel (concat ls1 ++ raw d ++ concat ls2)
      = Some (seen (combine ls1 ms1) ++ mid ++ seen (combine ls2 ms2), ev, [])
    /\ messages mid = [] /\ length mid <= 1.
Proof.
  intros raw Wc F1 P1 F2 P2 Sh Fr Ck As Na Nd Nl Ld L1 L2.
  assert (line_shape (raw d)) as Sh'.
  { destruct Sh as (c2 & body & E & Sc & Nb). unfold raw in *. destruct a as [|a0 a]; [congruence|]. cbn [app] in E |- *. injection E as Ec Eb. subst c2.
    exists a0, (a ++ (d :: b) ++ [star] ++ ck ++ [cr]). split.
    { f_equal. f_equal. repeat (rewrite <- app_assoc; cbn [app]). reflexivity. }
    split; [exact Sc|]. intros I.
    assert (body = a ++ (c :: b) ++ [star] ++ ck ++ [cr]) as Eb'.
    { apply (app_inv_tail [lf]). rewrite <- Eb. repeat (rewrite <- app_assoc; cbn [app]). reflexivity. }
    apply Nb. rewrite Eb'. apply in_app_or in I as [I|I]; apply in_or_app; [left; exact I|right]. cbn in I |- *. destruct I as [I|I]; [congruence|right; exact I]. }
  assert (lines_only (raw d)) as Ho.
  { destruct Sh' as (c2 & body & -> & _). right. exists (dollar :: c2 :: body). reflexivity. }
  assert (forall x, parse (MBytes (raw d)) (r_mode cfg) (r_validate cfg) (r_userdefined cfg) <> Ok (Some x)) as Np.
  { intros x. apply (C02_byte_substitution [dollar] a c b ck [cr; lf] d); try assumption; [repeat constructor; vm_compute; tauto|repeat constructor; vm_compute; tauto|left; exact Na]. }
  rewrite !app_length in L1, L2.
  assert (tokens [lf] (raw d) [Line (raw d)]) as Tk.
  { pose proof (tokens_line (raw d) [] [] Sh' (tok_end _)) as T. rewrite app_nil_r in T. exact T. }
  destruct (happens_total cfg [Line (raw d)]) as (hs & Hp).
  destruct (C76_file cfg n fuel (raw d) _ hs Tk Hp ltac:(lia) ltac:(lia)) as (ev & Em & _).
  destruct (C90_two cfg n fuel (concat ls1) (raw d ++ concat ls2) (lines_only_concat _ F1) ltac:(rewrite !app_length; lia) ltac:(rewrite !app_length; lia)) as (l1 & ev1 & l2 & ev2 & X1 & X2 & X3).
  destruct (C90_two cfg n fuel (raw d) (concat ls2) Ho ltac:(rewrite !app_length; lia) ltac:(rewrite !app_length; lia)) as (l3 & ev3 & l4 & ev4 & Y1 & Y2 & Y3).
  rewrite (session_sentences cfg n fuel ls1 ms1 F1 P1) in X1 by lia. injection X1 as <- <-.
  rewrite (session_sentences cfg n fuel ls2 ms2 F2 P2) in Y2 by lia. injection Y2 as <- <-.
  rewrite Em in Y1. injection Y1 as <- <-. rewrite Y3 in X2. injection X2 as <- <-.
  eexists. eexists. split; [exact X3|].
  inversion Hp as [|r0 m0 ts0 hs0 Pm Hn|r0 e0 ts0 hs0 Pm Pe Hn|r0 e0 ts0 hs0 Pm Pe Hn| | |]; subst; inversion Hn; subst; cbn [flat_map noted].
  - destruct m0 as [x|]; [exfalso; exact (Np x Pm)|]. split; [reflexivity|cbn; lia].
  - destruct (reaction _ _ e0); split; cbn; lia || reflexivity.
  - split; [reflexivity|cbn; lia].
Qed.

Example C94_example :
  let raw k := [dollar] ++ (u "GNGLL,5" ++ k :: u "27.04319,S,00214.41396,E,223232.00,A,A") ++ [star] ++ u "68" ++ [cr; lf] in
  Forall line_shape [ex_line; raw 51%N] /\ raw 51%N = ex_line /\ (exists m, parses (ex_cfg 1) ex_line (Some m))
  /\ wants_checksum (r_validate (ex_cfg 1)) = true
  /\ frame (raw 51%N) (u "GNGLL,5" ++ 51%N :: u "27.04319,S,00214.41396,E,223232.00,A,A") (u "68")
  /\ is_checksum (u "GNGLL,5" ++ 51%N :: u "27.04319,S,00214.41396,E,223232.00,A,A") (str_upper (u "68"))
  /\ raws (fiterate (ex_cfg 1) 300 300 (concat [ex_line] ++ raw 52%N ++ concat [ex_line])) = [ex_line; ex_line].
Proof.
  cbv beta zeta. assert (([dollar] ++ (u "GNGLL,5" ++ 51%N :: u "27.04319,S,00214.41396,E,223232.00,A,A") ++ [star] ++ u "68" ++ [cr; lf]) = ex_line) as E by (vm_compute; reflexivity).
  rewrite E. destruct C27_example as (Sh & _ & P).
  split; [constructor; [exact Sh|constructor; [exact Sh|constructor]]|]. split; [reflexivity|]. split; [exact P|]. split; [vm_compute; reflexivity|].
  split; [|split; [apply is_checksum_iff; vm_compute; reflexivity|vm_compute; reflexivity]].
  exists [dollar], [cr; lf]. split; [symmetry; exact E|]. split; [repeat constructor|].
  split; [constructor; [right; left; reflexivity|constructor; [right; right; reflexivity|constructor]]|].
  split.
  { intros I. assert (existsb (N.eqb star) (u "GNGLL,5" ++ 51%N :: u "27.04319,S,00214.41396,E,223232.00,A,A") = true) as X by (apply existsb_exists; exists star; split; [exact I|reflexivity]).
    vm_compute in X. discriminate. }
  split; intros c r H.
  - injection H as <- _. intros [X|[X|X]]; discriminate.
  - change (u "68") with ([54%N] ++ [56%N]) in H. apply app_inj_tail in H as [_ <-]. intros [X|[X|X]]; discriminate.
Qed.
(* one byte, but a line end: two of the three sentences are lost *)
Theorem C94_line_end_refuted :
  raws (fiterate (ex_cfg 1) 300 300 (ex_line ++ ex_line ++ ex_line)) = [ex_line; ex_line; ex_line]
  /\ raws (fiterate (ex_cfg 1) 300 300 (removelast ex_line ++ [0%N] ++ ex_line ++ ex_line)) = [ex_line].
Proof. split; vm_compute; reflexivity. Qed.
