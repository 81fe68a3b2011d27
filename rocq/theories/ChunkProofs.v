(* dechunk *)
From Verif Require Import Message Reader Socket BaseLemmas TextLemmas NumLemmas Spec ReaderSpec ReaderProofs SocketSpec SocketProofs PropsReader.
From Coq Require Import Lia.
Local Open Scope Z_scope.

(* ---------------------------------------------------- decompression *)
Lemma decompress_inflated z enc a d : decompress z enc a = d <-> inflated z enc a d.
Proof.
  assert (inflated z enc a (decompress z enc a)) as K.
  { unfold decompress. cbv beta iota zeta. change ENCODE_GZIP with (2 ^ 1). change ENCODE_COMPRESS with (2 ^ 2). change ENCODE_DEFLATE with (2 ^ 3).
    rewrite (flag_bit enc 1), (flag_bit enc 2), (flag_bit enc 3), !negb_involutive by lia. cbn [andb].
    destruct (Z.testbit enc 1) eqn:B1.
    - destruct (z_gzip z a) as [b|] eqn:E1; cbn [andb].
      + destruct (Z.testbit enc 2) eqn:B2.
        * destruct (z_zlib z b) as [c|] eqn:E2; cbn [andb].
          -- destruct (Z.testbit enc 3) eqn:B3.
             ++ destruct (z_raw z c) as [d'|] eqn:E3; cbn [fst].
                ** apply (inflated_steps z enc a b c d'); auto.
                ** apply (inflated_raw z enc a b c); auto.
             ++ cbn [fst]. apply (inflated_steps z enc a b c c); auto.
          -- cbn [fst]. apply (inflated_zlib z enc a b); auto.
        * destruct (Z.testbit enc 3) eqn:B3.
          -- destruct (z_raw z b) as [d'|] eqn:E3; cbn [fst].
             ++ apply (inflated_steps z enc a b b d'); auto.
             ++ apply (inflated_raw z enc a b b); auto.
          -- cbn [fst]. apply (inflated_steps z enc a b b b); auto.
      + cbn [fst]. apply inflated_gzip; assumption.
    - cbn [andb]. destruct (Z.testbit enc 2) eqn:B2.
        * destruct (z_zlib z a) as [c|] eqn:E2; cbn [andb].
          -- destruct (Z.testbit enc 3) eqn:B3.
             ++ destruct (z_raw z c) as [d'|] eqn:E3; cbn [fst].
                ** apply (inflated_steps z enc a a c d'); auto.
                ** apply (inflated_raw z enc a a c); auto.
             ++ cbn [fst]. apply (inflated_steps z enc a a c c); auto.
          -- cbn [fst]. apply (inflated_zlib z enc a a); auto.
        * destruct (Z.testbit enc 3) eqn:B3.
          -- destruct (z_raw z a) as [d'|] eqn:E3; cbn [fst].
             ++ apply (inflated_steps z enc a a a d'); auto.
             ++ apply (inflated_raw z enc a a a); auto.
          -- cbn [fst]. apply (inflated_steps z enc a a a a); auto. }
  assert (forall x y, inflated z enc a x -> inflated z enc a y -> x = y) as F.
  { intros x y H1 H2.
    destruct H1; destruct H2;
      repeat match goal with H : _ \/ _ |- _ => destruct H as [[? ?]|[? ?]] end; subst; try congruence;
      repeat match goal with A : ?p = Some ?x, B : ?p = Some ?y |- _ => assert (y = x) by congruence; subst; clear B end; congruence. }
  split; [intros <-; exact K|]. intros H. exact (F _ _ K H).
Qed.

(* ----------------------------------------------------------- sizes *)
Lemma nth_error_app_end {A} (l : list A) x : nth_error (l ++ [x]) (length l) = Some x.
Proof. rewrite nth_error_app2, Nat.sub_diag by lia. reflexivity. Qed.

Lemma hex_digit_is_iff c v : hex_digit_is c v -> hex_digit c = Some v /\ c <> 95%N /\ c_isspace c = false /\ c <> 45%N /\ c <> 43%N /\ c <> lf /\ c <> cr
  /\ c <> 120%N /\ c <> 88%N.
Proof.
  intros (L & H).
  assert (N.to_nat v < 16)%nat as L' by lia.
  assert (v = N.of_nat (N.to_nat v)) as Ev by lia. rewrite Ev. clear Ev L.
  remember (N.to_nat v) as n. clear Heqn v.
  assert (forallb (fun i => match nth_error (u "0123456789ABCDEF") i, nth_error (u "0123456789abcdef") i with
     | Some a, Some b =>
       let t c := match hex_digit c with Some x => N.eqb x (N.of_nat i) | None => false end
          && negb (N.eqb c 95) && negb (c_isspace c) && negb (N.eqb c 45) && negb (N.eqb c 43) && negb (N.eqb c lf) && negb (N.eqb c cr)
          && negb (N.eqb c 120) && negb (N.eqb c 88) in t a && t b
     | _, _ => false end) (seq 0 16) = true) as A by (vm_compute; reflexivity).
  rewrite forallb_forall in A. specialize (A n ltac:(apply in_seq; lia)).
  destruct (nth_error (u "0123456789ABCDEF") n) as [a|]; [|discriminate].
  destruct (nth_error (u "0123456789abcdef") n) as [b|]; [|discriminate].
  apply andb_true_iff in A as [A B].
  assert ((match hex_digit c with Some x => N.eqb x (N.of_nat n) | None => false end
          && negb (N.eqb c 95) && negb (c_isspace c) && negb (N.eqb c 45) && negb (N.eqb c 43) && negb (N.eqb c lf) && negb (N.eqb c cr)
          && negb (N.eqb c 120) && negb (N.eqb c 88)) = true) as K
    by (destruct H as [H|H]; injection H as <-; assumption).
  clear A B H. repeat rewrite andb_true_iff in K. rewrite !negb_true_iff, !N.eqb_neq in K.
  destruct K as ((((((((K & ?) & ?) & ?) & ?) & ?) & ?) & ?) & ?). repeat (split; [|first [assumption|repeat split; assumption]]).
  destruct (hex_digit c); [|discriminate]. apply N.eqb_eq in K. congruence.
Qed.

Lemma hex_number_inv s n : hex_number s n ->
  s <> [] /\ exists vs, Forall2 hex_digit_is s vs /\ digits_val 16 vs = n.
Proof.
  induction 1 as [c v H|s n c v H (IH1 & vs & IH2 & IH3) Hd].
  - split; [discriminate|]. exists [v]. split; [constructor; [exact H|constructor]|]. unfold digits_val. cbn [fold_left]. lia.
  - split; [destruct s; discriminate|]. exists (vs ++ [v]). split; [apply Forall2_app; [exact IH2|constructor; [exact Hd|constructor]]|].
    unfold digits_val in *. rewrite fold_left_app, IH3. reflexivity.
Qed.

Lemma us_digits_ok s vs need : Forall2 hex_digit_is s vs -> (need = true -> s <> []) -> us_digits hex_digit need s = Some vs.
Proof.
  intros H. revert need. induction H as [|c v s vs H F IH]; intros need N.
  - destruct need; [exfalso; apply N; reflexivity|reflexivity].
  - apply hex_digit_is_iff in H as (H1 & H2 & _). cbn. apply N.eqb_neq in H2. rewrite H2, H1, IH by discriminate. reflexivity.
Qed.

Lemma rev_nonspace s vs : Forall2 hex_digit_is s vs -> s <> [] ->
  strip_if c_isspace (s ++ [cr; lf]) = s.
Proof.
  intros H N. unfold strip_if.
  assert (Forall (fun c => c_isspace c = false) s) as Sp.
  { clear N. induction H as [|c v s vs H F IH]; [constructor|]. constructor; [apply hex_digit_is_iff in H; tauto|exact IH]. }
  assert (lstrip_if c_isspace (s ++ [cr; lf]) = s ++ [cr; lf]) as ->.
  { destruct s as [|c s]; [contradiction|]. inversion Sp as [|? ? H1 _]; subst. cbn. rewrite H1. reflexivity. }
  unfold rstrip_if. rewrite rev_app_distr. cbn [rev app]. cbn [lstrip_if].
  change (c_isspace lf) with true. change (c_isspace cr) with true. cbn iota.
  assert (lstrip_if c_isspace (rev s) = rev s) as ->; [|apply rev_involutive].
  apply Forall_rev in Sp. destruct (rev s) as [|c r]; [reflexivity|]. inversion Sp as [|? ? H1 _]; subst. cbn. rewrite H1. reflexivity.
Qed.

Lemma int16_size s n : hex_number s n -> int16_of_bytes (s ++ [cr; lf]) = Ok (Z.of_N n).
Proof.
  intros H. destruct (hex_number_inv s n H) as (N & vs & F & <-).
  unfold int16_of_bytes. rewrite (rev_nonspace s vs F N).
  assert (split_sign s = (false, s)) as ->.
  { destruct F as [|c v s vs Hc F]; [contradiction|]. apply hex_digit_is_iff in Hc as (_ & _ & _ & A & B & _).
    unfold split_sign. apply N.eqb_neq in A, B. rewrite A, B. reflexivity. }
  cbv beta iota zeta.
  transitivity (match us_digits hex_digit true s with Some l => Ok (signed false (digits_val 16 l)) | None => Raise ValueError end).
  { destruct F as [|c v s vs Hc F]; [reflexivity|]. destruct F as [|c2 v2 s vs Hc2 F]; [reflexivity|].
    apply hex_digit_is_iff in Hc2 as (_ & _ & _ & _ & _ & _ & _ & A & B). apply N.eqb_neq in A, B. rewrite A, B, andb_false_r. reflexivity. }
  rewrite (us_digits_ok s vs true F) by (intros _; exact N). reflexivity.
Qed.

Lemma hex_no_lf s n : hex_number s n -> ~ In lf s /\ ~ In cr s.
Proof.
  intros H. destruct (hex_number_inv s n H) as (_ & vs & F & _). clear H. induction F as [|c v s vs Hc F (I1 & I2)]; [cbn; tauto|].
  apply hex_digit_is_iff in Hc. cbn. split; intros [E|E]; [subst; tauto|tauto|subst; tauto|tauto].
Qed.

(* ----------------------------------------------------------- readline *)
Lemma readline_at a b : ~ In lf a -> cut_line (a ++ lf :: b) = (a ++ [lf], b).
Proof.
  intros N. pose proof (cut_line_spec (a ++ lf :: b)) as F.
  rewrite (proj2 (split_first_Some c_lf (a ++ lf :: b) a b) (conj eq_refl N)) in F. exact F.
Qed.
Lemma readline_none a : ~ In lf a -> cut_line a = (a, []).
Proof.
  intros N. pose proof (cut_line_spec a) as F. rewrite (proj2 (split_first_None c_lf a) N) in F. exact F.
Qed.
Lemma readline_split s line rest : cut_line s = (line, rest) -> s = line ++ rest.
Proof.
  pose proof (cut_line_spec s) as F. destruct (split_first c_lf s) as [[a b]|] eqn:E; rewrite F; intros H; injection H as <- <-.
  - apply split_first_Some in E as [-> _]. rewrite <- app_assoc. reflexivity.
  - rewrite app_nil_r. reflexivity.
Qed.

(* --------------------------------------------------------------- loop *)
Lemma dechunk_total z enc fuel : forall s acc, (length s < fuel)%nat -> exists r, dechunk_loop fuel z enc s acc = Some r.
Proof.
  induction fuel as [|f IH]; intros s acc L; [lia|]. cbn [dechunk_loop].
  destruct (cut_line s) as [line s1] eqn:E. pose proof (readline_split _ _ _ E) as Es.
  destruct (ends_crlf line) eqn:Ec; cbn [negb]; [|eauto].
  apply ends_crlf_iff in Ec as (b & ->).
  destruct (int16_of_bytes (b ++ [cr; lf])) as [n|]; [|eauto]. destruct (n =? 0); [eauto|].
  unfold bytesio_read. destruct ((n <? ssize_min) || (ssize_max <? n)); [eauto|]. destruct (n <? 0) eqn:En; cbn.
  - destruct (negb (Z.of_nat (length s1) =? n)); [eauto|]. apply IH. rewrite Es, !app_length in L. cbn in *. lia.
  - destruct (negb (Z.of_nat (length (firstn (Z.to_nat n) s1)) =? n)); [eauto|].
    destruct (cut_line (skipn (Z.to_nat n) s1)) as [l2 s3] eqn:E3. apply readline_split in E3.
    apply IH. assert (length (skipn (Z.to_nat n) s1) = length (l2 ++ s3)) as Q by (rewrite E3; reflexivity).
    rewrite skipn_length, app_length in Q. rewrite Es, !app_length in L. cbn in L. lia.
Qed.

(* a round that raises: a size that does not fit *)
Definition huge (n : Z) : Prop := n < - 2 ^ 63 \/ 2 ^ 63 <= n.
Lemma bytesio_read_raise n s e : bytesio_read n s = Raise e -> e = OverflowError /\ huge n.
Proof.
  unfold bytesio_read, huge, ssize_min, ssize_max. destruct (Z.ltb_spec n (- 2 ^ 63)) as [L|L]; cbn [orb].
  - intros X. injection X as <-. auto.
  - destruct (Z.ltb_spec (2 ^ 63 - 1) n) as [L2|L2]; [intros X; injection X as <-; split; [reflexivity|right; lia]|].
    destruct (n <? 0); discriminate.
Qed.
Lemma bytesio_read_huge n s : huge n -> bytesio_read n s = Raise OverflowError.
Proof.
  unfold bytesio_read, huge, ssize_min, ssize_max. intros [H|H].
  - destruct (Z.ltb_spec n (- 2 ^ 63)); [reflexivity|lia].
  - destruct (Z.ltb_spec n (- 2 ^ 63)); [reflexivity|]. destruct (Z.ltb_spec (2 ^ 63 - 1) n); [reflexivity|lia].
Qed.
Lemma bytesio_read_ok n s : 0 <= n < 2 ^ 63 -> bytesio_read n s = Ok (firstn (Z.to_nat n) s, skipn (Z.to_nat n) s).
Proof.
  unfold bytesio_read, ssize_min, ssize_max. intros H.
  destruct (Z.ltb_spec n (- 2 ^ 63)); [lia|]. destruct (Z.ltb_spec (2 ^ 63 - 1) n); [lia|]. destruct (Z.ltb_spec n 0); [lia|reflexivity].
Qed.

Lemma dechunk_raise z enc fuel : forall s acc e, dechunk_loop fuel z enc s acc = Some (Raise e) ->
  e = OverflowError /\ exists a line b n, s = a ++ line ++ [cr; lf] ++ b /\ int16_of_bytes (line ++ [cr; lf]) = Ok n /\ huge n.
Proof.
  induction fuel as [|f IH]; intros s acc e H; [discriminate|]. cbn [dechunk_loop] in H.
  destruct (cut_line s) as [line s1] eqn:E. pose proof (readline_split _ _ _ E) as Es.
  destruct (ends_crlf line) eqn:Ec; cbn [negb] in H; [|discriminate].
  apply ends_crlf_iff in Ec as (b & ->).
  destruct (int16_of_bytes (b ++ [cr; lf])) as [n|] eqn:En; [|discriminate]. destruct (n =? 0); [discriminate|].
  destruct (bytesio_read n s1) as [[chunk s2]|e'] eqn:Eb.
  - destruct (negb _); [discriminate|]. destruct (cut_line s2) as [l2 s3] eqn:E3. apply readline_split in E3.
    apply IH in H as (-> & a & line & c & m & -> & Hm). split; [reflexivity|].
    exists ((b ++ [cr; lf]) ++ chunk ++ l2 ++ a), line, c, m. split; [|exact Hm].
    assert (s1 = chunk ++ s2) as X.
    { unfold bytesio_read in Eb. destruct ((n <? ssize_min) || (ssize_max <? n)); [discriminate|].
      destruct (n <? 0); injection Eb as <- <-; [rewrite app_nil_r; reflexivity|symmetry; apply firstn_skipn]. }
    rewrite Es, X, E3, <- !app_assoc. reflexivity.
  - injection H as <-. apply bytesio_read_raise in Eb as (-> & Hn). split; [reflexivity|].
    exists [], b, s1, n. split; [rewrite Es, <- app_assoc; reflexivity|]. auto.
Qed.

Lemma dechunk_mono z enc fuel : forall s acc r fuel', dechunk_loop fuel z enc s acc = Some r -> (fuel <= fuel')%nat ->
  dechunk_loop fuel' z enc s acc = Some r.
Proof.
  induction fuel as [|f IH]; intros s acc r fuel' H L; [discriminate|]. destruct fuel' as [|f']; [lia|].
  cbn [dechunk_loop] in *. destruct (cut_line s) as [line s1]. destruct (negb (ends_crlf line)); [exact H|].
  destruct (int16_of_bytes line) as [n|]; [|exact H]. destruct (n =? 0); [exact H|].
  destruct (bytesio_read n s1) as [[chunk s2]|]; [|exact H]. destruct (negb _); [exact H|].
  destruct (cut_line s2) as [l2 s3]. apply IH; [exact H|lia].
Qed.

(* putting decoded bytes in front of a result *)
Definition prepend (acc : bytes) (r : option (result (bytes * bytes))) : option (result (bytes * bytes)) :=
  match r with Some (Ok (c, p)) => Some (Ok (acc ++ c, p)) | other => other end.
Lemma prepend_prepend a b r : prepend a (prepend b r) = prepend (a ++ b) r.
Proof. destruct r as [[[c p]|e]|]; try reflexivity. cbn. rewrite app_assoc. reflexivity. Qed.

Lemma dechunk_acc z enc fuel : forall s acc,
  dechunk_loop fuel z enc s acc = prepend acc (dechunk_loop fuel z enc s []).
Proof.
  induction fuel as [|f IH]; intros s acc; [reflexivity|]. cbn [dechunk_loop].
  destruct (cut_line s) as [line s1]. destruct (negb (ends_crlf line)); [cbn; rewrite app_nil_r; reflexivity|].
  destruct (int16_of_bytes line) as [n|]; [|cbn; rewrite app_nil_r; reflexivity]. destruct (n =? 0); [cbn; rewrite app_nil_r; reflexivity|].
  destruct (bytesio_read n s1) as [[chunk s2]|]; [|reflexivity]. destruct (negb _); [cbn; rewrite app_nil_r; reflexivity|].
  destruct (cut_line s2) as [l2 s3]. rewrite IH. rewrite (IH s3 ([] ++ _)). rewrite prepend_prepend. reflexivity.
Qed.

Lemma dechunk_fuel z enc s fuel : (length s < fuel)%nat -> dechunk_loop fuel z enc s [] = dechunk z enc s.
Proof.
  intros L. unfold dechunk. destruct (dechunk_total z enc (S (length s)) s [] ltac:(lia)) as (r & E).
  rewrite E. apply (dechunk_mono _ _ _ _ _ _ _ E). lia.
Qed.

Lemma chunk_head_line c rest : chunk_ok c ->
  cut_line (fst c ++ [cr; lf] ++ rest) = (fst c ++ [cr; lf], rest).
Proof.
  intros (_ & H & _). apply hex_no_lf in H as (N & _).
  replace (fst c ++ [cr; lf] ++ rest) with ((fst c ++ [cr]) ++ lf :: rest) by (rewrite <- app_assoc; reflexivity).
  rewrite readline_at.
  - rewrite <- app_assoc. reflexivity.
  - rewrite in_app_iff. cbn. intros [I|[I|[]]]; [exact (N I)|discriminate].
Qed.

Lemma dechunk_chunk z enc c s : chunk_ok c ->
  dechunk z enc (chunk_text c ++ s)
  = prepend (decompress z enc (snd c)) (dechunk z enc s).
Proof.
  intros H. unfold dechunk at 1. cbn [dechunk_loop]. unfold chunk_text, chunk_head. rewrite <- !app_assoc.
  rewrite chunk_head_line by exact H.
  assert (ends_crlf (fst c ++ [cr; lf]) = true) as -> by (apply ends_crlf_iff; eexists; reflexivity). cbn [negb].
  destruct H as (N & H & Hb). rewrite (int16_size _ _ H).
  destruct (Z.eqb_spec (Z.of_N (N.of_nat (length (snd c)))) 0) as [E|_]; [destruct (snd c); [contradiction|cbn in E; lia]|].
  rewrite bytesio_read_ok by lia.
  replace (Z.to_nat (Z.of_N (N.of_nat (length (snd c))))) with (length (snd c)) by lia.
  rewrite firstn_app, firstn_all, Nat.sub_diag, skipn_app, skipn_all, Nat.sub_diag. cbn [firstn skipn app]. rewrite app_nil_r.
  replace (Z.of_nat (length (snd c)) =? Z.of_N (N.of_nat (length (snd c)))) with true by (symmetry; apply Z.eqb_eq; lia). cbn [negb].
  change (cr :: lf :: s) with ([cr] ++ lf :: s). rewrite readline_at by (cbn; intros [X|[]]; discriminate).
  rewrite dechunk_acc, dechunk_fuel; [reflexivity|]. repeat (rewrite ?app_length; cbn [length]). lia.
Qed.

Definition inflate_all (z : zlib) (enc : Z) (cs : list chunk) : bytes := flat_map (fun c => decompress z enc (snd c)) cs.

Lemma dechunk_chunks z enc cs s : Forall chunk_ok cs ->
  dechunk z enc (flat_map chunk_text cs ++ s)
  = prepend (inflate_all z enc cs) (dechunk z enc s).
Proof.
  induction 1 as [|c cs H F IH]; [cbn [flat_map app]; unfold inflate_all; destruct (dechunk z enc s) as [[[x p]|e]|]; reflexivity|].
  cbn [flat_map]. rewrite <- app_assoc, dechunk_chunk, IH by exact H. apply prepend_prepend.
Qed.

(* a chunk that has not arrived completely *)
Lemma app_prefix {A} (a b c d : list A) : a ++ b = c ++ d -> (length a <= length c)%nat -> exists x, c = a ++ x /\ b = x ++ d.
Proof.
  intros E L. destruct (prefix_cases _ _ _ _ E) as [(x & -> & ->)|(x & -> & ->)]; [|exists x; auto].
  rewrite app_length in L. destruct x; [|cbn in L; lia]. exists []. rewrite !app_nil_r. auto.
Qed.

Lemma dechunk_fragment z enc c q r : chunk_ok c -> chunk_head c = q ++ r -> r <> [] -> dechunk z enc q = Some (Ok ([], q)).
Proof.
  intros H E N. pose proof H as (Nc & Hx & Hb). pose proof (hex_no_lf _ _ Hx) as (Nl & _).
  unfold chunk_head in E. symmetry in E.
  destruct (le_lt_dec (length q) (length (fst c ++ [cr]))) as [L|L].
  - assert (~ In lf q) as Nq.
    { replace (fst c ++ [cr; lf] ++ snd c) with ((fst c ++ [cr]) ++ lf :: snd c) in E by (rewrite <- app_assoc; reflexivity).
      destruct (app_prefix _ _ _ _ E L) as (x & X & _). intros I.
      assert (In lf (fst c ++ [cr])) as I2 by (rewrite X; apply in_app_iff; auto).
      rewrite in_app_iff in I2. cbn in I2. destruct I2 as [I2|[I2|[]]]; [exact (Nl I2)|discriminate]. }
    unfold dechunk. cbn [dechunk_loop]. rewrite (readline_none q Nq).
    destruct (ends_crlf q) eqn:Ec; [|reflexivity]. exfalso. apply Nq. apply ends_crlf_iff in Ec as (b & ->).
    rewrite in_app_iff. cbn. auto.
  - replace (fst c ++ [cr; lf] ++ snd c) with ((fst c ++ [cr; lf]) ++ snd c) in E by (rewrite <- app_assoc; reflexivity).
    destruct (app_prefix _ _ _ _ (eq_sym E)) as (d & -> & Ed); [rewrite !app_length in *; cbn in *; lia|].
    unfold dechunk. cbn [dechunk_loop]. rewrite <- app_assoc. rewrite chunk_head_line by exact H.
    assert (ends_crlf (fst c ++ [cr; lf]) = true) as -> by (apply ends_crlf_iff; eexists; reflexivity). cbn [negb].
    rewrite (int16_size _ _ Hx).
    assert (length (snd c) = length d + length r)%nat as Ln by (rewrite Ed, app_length; reflexivity).
    assert (length r <> 0)%nat as Lr by (destruct r; [contradiction|discriminate]).
    destruct (Z.eqb_spec (Z.of_N (N.of_nat (length (snd c)))) 0) as [E0|_]; [lia|].
    rewrite bytesio_read_ok by lia.
    rewrite firstn_all2 by lia.
    destruct (Z.eqb_spec (Z.of_nat (length d)) (Z.of_N (N.of_nat (length (snd c))))) as [X|_]; [lia|].
    cbn [negb]. rewrite <- app_assoc. reflexivity.
Qed.

(* the end of the encoded stream: nothing, or a chunk of size 0 *)
Definition last_chunk : bytes := [48%N; cr; lf; cr; lf].
Definition ending (e : bytes) : Prop := e = [] \/ e = last_chunk.

(* where a prefix of an encoded stream ends *)
Lemma prefix_of_stream cs : forall e s r,
  Forall chunk_ok cs -> s ++ r = flat_map chunk_text cs ++ e ->
  (exists c1 c2 q, cs = c1 ++ c2 /\ s = flat_map chunk_text c1 ++ q
     /\ exists c x, hd_error c2 = Some c /\ chunk_head c = q ++ x /\ x <> [])
  \/ bad_cut cs s
  \/ (exists q, s = flat_map chunk_text cs ++ q /\ q ++ r = e).
Proof.
  induction cs as [|c cs IH]; intros e s r F E.
  - right; right. exists s. split; [reflexivity|exact E].
  - inversion F as [|? ? Hc F']; subst. cbn [flat_map] in E. rewrite <- app_assoc in E.
    destruct (le_lt_dec (length (chunk_text c)) (length s)) as [L|L].
    + destruct (app_prefix _ _ _ _ (eq_sym E) L) as (s' & -> & E').
      destruct (IH e s' r F' (eq_sym E')) as [(c1 & c2 & q & -> & -> & H)|[(c1 & c0 & c2 & -> & H)|(q & -> & H)]].
      * left. exists (c :: c1), c2, q. split; [reflexivity|]. split; [cbn; rewrite app_assoc; reflexivity|exact H].
      * right; left. exists (c :: c1), c0, c2. split; [reflexivity|]. cbn [flat_map]. rewrite <- !app_assoc.
        destruct H as [->| ->]; auto.
      * right; right. exists q. split; [cbn; rewrite app_assoc; reflexivity|exact H].
    + destruct (app_prefix _ _ _ _ E) as (x & X & _); [lia|].
      unfold chunk_text in X, L. rewrite app_length in L. cbn in L.
      destruct (le_lt_dec (length (chunk_head c)) (length s)) as [L2|L2].
      * right; left. destruct (app_prefix _ _ _ _ X L2) as (y & -> & Y). exists [], c, cs. split; [reflexivity|]. cbn [flat_map app].
        rewrite app_length in L. destruct y as [|y1 [|y2 y]]; cbn in L; try lia.
        -- left. apply app_nil_r.
        -- right. cbn in Y. injection Y as <- Y. reflexivity.
      * left. exists [], (c :: cs), s. split; [reflexivity|]. split; [reflexivity|].
        destruct (app_prefix _ _ _ _ (eq_sym X) (Nat.lt_le_incl _ _ L2)) as (y & Y & _). exists c, y. split; [reflexivity|].
        split; [exact Y|]. intros ->. rewrite app_nil_r in Y. rewrite Y in L2. lia.
Qed.

(* after the size line of the last chunk nothing more is delivered *)
Definition tail_state (p w : bytes) : Prop :=
  (p = [] /\ (w = [cr; lf] \/ w = [lf] \/ w = [])) \/ (p = [cr] /\ w = [lf]) \/ (p = [lf] /\ w = []).

(* no segment makes dechunk raise *)
Fixpoint clean (z : zlib) (enc : Z) (p : bytes) (l : list recv_result) : Prop :=
  match l with
  | [] => True
  | RError :: r | RData [] :: r => clean z enc p r
  | RData d :: r => (exists x, dechunk z enc (p ++ d) = Some (Ok x)) /\ clean z enc (snd (arrive z enc p d)) r
  end.
Lemma clean_not_raised z enc e used rest : forall p, clean z enc p (used ++ rest) -> ~ raised_on z enc p e used.
Proof.
  induction used as [|r used IH]; intros p C (Bt & u0 & d & E & Nd & De).
  - destruct u0; discriminate.
  - destruct u0 as [|r0 u0]; cbn [app] in E; injection E as -> E.
    + destruct d as [|x d]; [contradiction|]. subst used. cbn [app clean] in C. destruct C as ((y & C) & _). cbn [received snd] in De. congruence.
    + assert (clean z enc (snd (received z enc p [r0])) (used ++ rest)) as C'.
      { destruct r0 as [[|x d0]|]; cbn [app clean] in C; try exact C. cbn [received]. destruct (arrive z enc p (x :: d0)) as [b1 p1]. exact (proj2 C). }
      apply (IH _ C'). split; [exact Bt|]. exists u0, d. split; [exact E|]. split; [exact Nd|].
      change (r0 :: u0) with ([r0] ++ u0) in De. rewrite received_app in De. destruct (received z enc p [r0]) as [b1 p1]. cbn [snd].
      destruct (received z enc p1 u0) as [b2 p2]. exact De.
Qed.

Lemma tail_received z enc segs : Z.testbit enc 0 = true -> forall p,
  Forall (fun d => d <> []) segs -> tail_state p (concat segs) -> fst (received z enc p (map RData segs)) = [] /\ clean z enc p (map RData segs).
Proof.
  intros B. induction segs as [|d segs IH]; intros p F T; [split; [reflexivity|exact I]|].
  inversion F as [|? ? Nd F']; subst. cbn [map received concat clean] in *. destruct d as [|x d]; [contradiction|].
  assert (exists p', dechunk z enc (p ++ x :: d) = Some (Ok ([], p')) /\ tail_state p' (concat segs)) as (p' & E0 & T').
  { unfold tail_state in T. cbn [app] in T.
    destruct T as [(-> & [T|[T|T]])|[(-> & T)|(-> & T)]]; try discriminate.
    - injection T as -> T. destruct d as [|y d].
      + exists [cr]. split; [reflexivity|]. right. left. split; [reflexivity|exact T].
      + cbn in T. injection T as -> T. apply app_eq_nil in T as [-> ->]. exists []. split; [reflexivity|]. left. auto.
    - injection T as -> T. apply app_eq_nil in T as [-> T]. exists [lf]. split; [reflexivity|]. right. right. auto.
    - injection T as -> T. apply app_eq_nil in T as [-> T]. exists []. split; [reflexivity|]. left. auto. }
  assert (arrive z enc p (x :: d) = ([], p')) as E by (unfold arrive; rewrite B, E0; reflexivity).
  rewrite E. destruct (IH p' F' T') as (I1 & I2). cbn [snd]. split; [|eauto]. destruct (received z enc p' (map RData segs)). exact I1.
Qed.

(* the state between segments: the partial chunk [q], what is still to come *)
Definition between (c2 : list chunk) (q : bytes) : Prop :=
  q = []
  \/ (exists c x, hd_error c2 = Some c /\ chunk_head c = q ++ x /\ x <> [])
  \/ (c2 = [] /\ (q = [48%N] \/ q = [48%N; cr])).

Lemma dechunk_nil z enc : dechunk z enc [] = Some (Ok ([], [])).
Proof. reflexivity. Qed.

Lemma chunks_received z enc e segs : Z.testbit enc 0 = true -> ending e -> forall c2 q,
  Forall chunk_ok c2 -> Forall (fun d => d <> []) segs -> between c2 q ->
  q ++ concat segs = flat_map chunk_text c2 ++ e ->
  (forall a b, segs = a ++ b -> a <> [] -> ~ bad_cut c2 (q ++ concat a)) ->
  fst (received z enc q (map RData segs)) = inflate_all z enc c2 /\ clean z enc q (map RData segs).
Proof.
  intros B He. induction segs as [|d segs IH]; intros c2 q F Fs Bt E C.
  - cbn [concat] in E. rewrite app_nil_r in E. cbn [map received fst].
    destruct c2 as [|c c2]; [split; [reflexivity|exact I]|]. exfalso.
    destruct Bt as [->|[(c' & x & Hd & Hh & Nx)|(X & _)]]; [| |discriminate].
    + apply (f_equal (@length N)) in E. cbn [flat_map] in E. unfold chunk_text in E. rewrite !app_length in E. cbn in E. lia.
    + cbn in Hd. injection Hd as ->. apply (f_equal (@length N)) in E, Hh. cbn [flat_map] in E. unfold chunk_text in E.
      rewrite !app_length in *. cbn in E. lia.
  - inversion Fs as [|? ? Nd Fs']; subst. cbn [concat] in E.
    assert (~ bad_cut c2 (q ++ d)) as NB.
    { intros X. apply (C [d] segs eq_refl); [discriminate|]. cbn [concat]. rewrite app_nil_r. exact X. }
    rewrite app_assoc in E.
    cbn [map received clean]. destruct d as [|x0 d0] eqn:Ed; [contradiction|]. rewrite <- Ed in *.
    unfold arrive. rewrite B.
    destruct (prefix_of_stream c2 e (q ++ d) (concat segs) F E) as [(c1 & c3 & q' & -> & Es & Hq)|[X|(q' & Es & Hq)]]; [|contradiction|].
    + apply Forall_app in F as [F1 F3]. rewrite Es, dechunk_chunks by exact F1.
      destruct Hq as (c & x & Hd & Hh & Nx).
      assert (chunk_ok c) as Hc by (destruct c3 as [|c' c3]; [discriminate|]; cbn in Hd; injection Hd as ->; inversion F3; assumption).
      rewrite (dechunk_fragment z enc c q' x Hc Hh Nx). cbn [prepend].
      assert (q' ++ concat segs = flat_map chunk_text c3 ++ e) as E3.
      { rewrite Es in E. rewrite flat_map_app, <- !app_assoc in E. apply app_inv_head in E. exact E. }
      specialize (IH c3 q' F3 Fs'). destruct (received z enc q' (map RData segs)) as [b2 p2] eqn:R. cbn [fst snd] in *.
      destruct IH as (-> & IH2); [| | |split; [|split; [eauto|exact IH2]]].       * right. left. exists c, x. auto.
      * exact E3.
      * intros a b -> Na (d1 & cc & d2 & Hcs & Hb). apply (C (d :: a) b); [reflexivity|discriminate|].
        exists (c1 ++ d1), cc, d2. split; [rewrite Hcs, <- app_assoc; reflexivity|].
        cbn [concat]. rewrite app_assoc, Es, <- !app_assoc, flat_map_app, <- !app_assoc.
        destruct Hb as [-> | ->]; auto.
      * rewrite app_nil_r. unfold inflate_all. rewrite flat_map_app. reflexivity.
    + rewrite Es, dechunk_chunks by exact F.
      assert (dechunk z enc q' = Some (Ok ([], q')) /\ between [] q'
              \/ dechunk z enc q' = Some (Ok ([], [])) /\ tail_state [] (concat segs)) as [(Dq & Bq)|(Dq & Tq)].
      { destruct He as [->| ->].
        - apply app_eq_nil in Hq as [-> _]. left. split; [reflexivity|left; reflexivity].
        - unfold last_chunk in Hq. destruct q' as [|y1 q']; [left; split; [reflexivity|left; reflexivity]|].
          cbn in Hq. injection Hq as -> Hq. destruct q' as [|y2 q']; [left; split; [reflexivity|right; right; auto]|].
          cbn in Hq. injection Hq as -> Hq. destruct q' as [|y3 q']; [left; split; [reflexivity|right; right; auto]|].
          cbn in Hq. injection Hq as -> Hq. right. split.
          + unfold dechunk. cbn [length dechunk_loop]. 
            change (48%N :: cr :: lf :: q') with ([48%N; cr] ++ lf :: q').
            rewrite readline_at by (cbn; intros [X|[X|[]]]; discriminate). reflexivity.
          + left. split; [reflexivity|]. destruct q' as [|y4 q']; [auto|]. cbn in Hq. injection Hq as -> Hq.
            destruct q' as [|y5 q']; [auto|]. cbn in Hq. injection Hq as -> Hq. apply app_eq_nil in Hq as [_ Hq]. auto. }
      * rewrite Dq. cbn [prepend]. specialize (IH [] q' (Forall_nil _) Fs' Bq).
        destruct (received z enc q' (map RData segs)) as [b2 p2] eqn:R. cbn [fst snd] in *. destruct IH as (-> & IH2); [| |split; [|split; [eauto|exact IH2]]].
        -- exact Hq.
        -- intros a b _ _ (d1 & cc & d2 & Hcs & _). destruct d1; discriminate.
        -- rewrite !app_nil_r. reflexivity.
      * rewrite Dq. cbn [prepend]. destruct (tail_received z enc segs B [] Fs' Tq) as (T & T2).
        destruct (received z enc [] (map RData segs)) as [b2 p2]. cbn [fst snd] in *. split; [rewrite T, !app_nil_r; reflexivity|eauto].
Qed.
