(* The read() loop over any stream that behaves like a sequence of bytes *)
From Verif Require Import Message Reader BaseLemmas TextLemmas Spec ReaderSpec PropsMessage.
From Coq Require Import Lia.
Local Open Scope Z_scope.

Lemma talkers_ascii :
  forallb (fun t => match fst t with c :: _ => (c <? 128)%N | [] => false end) NMEA_TALKERS = true.
Proof. vm_compute. reflexivity. Qed.

Lemma hdr_char c t :
  (c <? 128)%N = true -> utf8_encode (firstn 1 (c :: t)) = Ok [c].
Proof. intros H. cbn [firstn]. apply ascii_utf8. cbn. rewrite H. reflexivity. Qed.

Lemma hdr_second_iff c : hdr_second c = true <-> second c.
Proof.
  pose proof talkers_ascii as A. rewrite forallb_forall in A.
  unfold hdr_second, second. rewrite existsb_exists. split.
  - intros ([t desc] & I & H). exists t, desc. split; [exact I|].
    specialize (A _ I). cbn [fst] in *. destruct t as [|x t]; [discriminate|].
    rewrite (hdr_char x t A) in H. apply N.eqb_eq in H. cbn. congruence.
  - intros (t & desc & I & H). exists (t, desc). split; [exact I|].
    specialize (A _ I). cbn [fst] in *. destruct t as [|x t]; [discriminate|].
    rewrite (hdr_char x t A). apply N.eqb_eq. cbn in H. congruence.
Qed.

Lemma protocol_error_iff e : is_nmea_error e = true <-> protocol_error e.
Proof.
  unfold protocol_error. split.
  - destruct e; try discriminate; auto.
  - intros [->|[->|[->| ->]]]; reflexivity.
Qed.

(* ------------------------------------------------------------ first_line *)
Lemma first_line_nil t s rest : t <> [] -> first_line t s [] rest -> s = [] /\ rest = [].
Proof.
  intros T (E & [(b & H & _)|(H & _)]).
  - symmetry in H. apply app_eq_nil in H as [_ H]. contradiction.
  - subst. split; reflexivity.
Qed.

Lemma prefix_cases {A} (a b c d : list A) : a ++ b = c ++ d ->
  (exists x, a = c ++ x /\ d = x ++ b) \/ (exists x, c = a ++ x /\ b = x ++ d).
Proof.
  revert c. induction a as [|x a IH]; intros c E.
  - right. exists c. split; [reflexivity|exact E].
  - destruct c as [|y c].
    + left. exists (x :: a). split; [reflexivity|]. symmetry. exact E.
    + cbn in E. injection E as <- E. destruct (IH c E) as [(z & -> & ->)|(z & -> & ->)].
      * left. exists z. split; reflexivity.
      * right. exists z. split; reflexivity.
Qed.

Lemma first_line_functional t s l1 r1 l2 r2 :
  t <> [] -> first_line t s l1 r1 -> first_line t s l2 r2 -> l1 = l2 /\ r1 = r2.
Proof.
  intros T.
  assert (forall l1 r1 l2 r2 x, first_line t s l1 r1 -> first_line t s l2 r2 ->
            l1 = l2 ++ x -> r2 = x ++ r1 -> x = []) as K.
  { clear l1 r1 l2 r2. intros l1 r1 l2 r2 x (E1 & H1) (E2 & H2) -> ->.
    destruct H2 as [(b & -> & _)|(H2 & _)].
    - destruct H1 as [(b' & _ & U)|(_ & N)].
      + apply (U b). rewrite app_assoc. reflexivity.
      + exfalso. apply N. exists b, x. rewrite app_assoc. reflexivity.
    - apply app_eq_nil in H2 as [H2 _]. exact H2. }
  intros F1 F2. pose proof F1 as (E1 & _). pose proof F2 as (E2 & _).
  rewrite E1 in E2. destruct (prefix_cases _ _ _ _ E2) as [(x & Ha & Hb)|(x & Ha & Hb)].
  - pose proof (K _ _ _ _ x F1 F2 Ha Hb) as ->. cbn in Hb. rewrite app_nil_r in Ha. split; congruence.
  - pose proof (K _ _ _ _ x F2 F1 Ha Hb) as ->. cbn in Hb. rewrite app_nil_r in Ha. split; congruence.
Qed.

Lemma last_lf line : line <> [] -> (N.eqb (last line 0%N) c_lf = true <-> ends_lf line).
Proof.
  intros H. destruct (exists_last H) as (b & x & ->). rewrite last_last, N.eqb_eq. split.
  - intros ->. exists b. reflexivity.
  - intros (b' & E). apply app_inj_tail in E as [_ ->]. reflexivity.
Qed.

(* ------------------------------------------------------------- next item *)
(* the next outcome of a list of happenings under an error policy *)
Fixpoint next (cfg : rcfg) (hs : list happening) : outcome * list event * list happening :=
  match hs with
  | [] => (REnd, [], [])
  | Item raw m :: r => (RMsg raw m, [], r)
  | Crash e :: r => (RRaise e, [], r)
  | Problem e :: r =>
      match do_error cfg e with
      | (Some e', ev) => (RRaise e', ev, r)
      | (None, ev) => let '(o, ev', r') := next cfg r in (o, ev ++ ev', r')
      end
  end.

(* the outcome of a for loop; the last component is what is left unread *)
Fixpoint run (cfg : rcfg) (hs : list happening)
  : list (bytes * option msg) * option exc * list event * list happening :=
  match hs with
  | [] => ([], None, [], [])
  | Item raw m :: r => let '(l, x, ev, r') := run cfg r in ((raw, m) :: l, x, ev, r')
  | Crash e :: r => ([], Some e, [], r)
  | Problem e :: r =>
      match do_error cfg e with
      | (Some e', ev) => ([], Some e', ev, r)
      | (None, ev) => let '(l, x, ev', r') := run cfg r in (l, x, ev ++ ev', r')
      end
  end.

Lemma run_next cfg hs :
  run cfg hs =
  match next cfg hs with
  | (REnd, ev, r) => ([], None, ev, r)
  | (RRaise e, ev, r) => ([], Some e, ev, r)
  | (RMsg raw m, ev, r) => let '(l, x, ev', r') := run cfg r in ((raw, m) :: l, x, ev ++ ev', r')
  end.
Proof.
  induction hs as [|h hs IH]; [reflexivity|]. destruct h as [raw m|e|e]; cbn [run next].
  - destruct (run cfg hs) as [[[l x] ev] r]. reflexivity.
  - destruct (do_error cfg e) as [[e'|] ev]; [reflexivity|]. rewrite IH.
    destruct (next cfg hs) as [[[raw m| |e'] ev'] r]; try reflexivity.
    destruct (run cfg r) as [[[l x] ev2] r']. rewrite app_assoc. reflexivity.
  - reflexivity.
Qed.

Lemma run_ignore cfg hs : r_quit cfg = ERR_IGNORE ->
  exists r, run cfg hs = (fst (policy_ignore hs), snd (policy_ignore hs), [], r).
Proof.
  intros Q. induction hs as [|h hs (r & IH)]; [exists []; reflexivity|].
  destruct h as [raw m|e|e]; cbn [run policy_ignore].
  - exists r. rewrite IH. destruct (policy_ignore hs). reflexivity.
  - unfold do_error. rewrite Q. cbn. exists r. rewrite IH. reflexivity.
  - exists hs. reflexivity.
Qed.
Lemma do_error_log cfg e : r_quit cfg = ERR_LOG ->
  do_error cfg e = (match r_handler cfg with Some f => f e | None => None end, [passed (r_handler cfg) e]).
Proof. intros Q. unfold do_error. rewrite Q. cbn. destruct (r_handler cfg); reflexivity. Qed.
Lemma run_log cfg hs : r_quit cfg = ERR_LOG ->
  exists r, run cfg hs = (fst (fst (policy_log (r_handler cfg) hs)), snd (fst (policy_log (r_handler cfg) hs)),
                          map (passed (r_handler cfg)) (snd (policy_log (r_handler cfg) hs)), r).
Proof.
  intros Q. induction hs as [|h hs (r & IH)]; [exists []; reflexivity|].
  destruct h as [raw m|e|e]; cbn [run policy_log].
  - exists r. rewrite IH. destruct (policy_log (r_handler cfg) hs) as [[l x] es]. reflexivity.
  - rewrite do_error_log by exact Q. destruct (match r_handler cfg with Some f => f e | None => None end) as [x|].
    + exists hs. reflexivity.
    + exists r. rewrite IH. destruct (policy_log (r_handler cfg) hs) as [[l x] es]. reflexivity.
  - exists hs. reflexivity.
Qed.
Lemma policy_log_returns h hs : handler_returns h ->
  policy_log h hs = (fst (policy_ignore hs), snd (policy_ignore hs), problems hs).
Proof.
  intros Q. induction hs as [|[raw m|e|e] hs IH]; cbn [policy_log policy_ignore problems]; [reflexivity| | |reflexivity].
  - rewrite IH. destruct (policy_ignore hs). reflexivity.
  - assert (match h with Some f => f e | None => None end = None) as ->; [|rewrite IH; reflexivity].
    destruct h as [f|]; [apply (Q f e eq_refl)|reflexivity].
Qed.
Lemma run_raise cfg hs : r_quit cfg = ERR_RAISE ->
  exists r, run cfg hs = (fst (policy_raise hs), snd (policy_raise hs), [], r).
Proof.
  intros Q. induction hs as [|h hs (r & IH)]; [exists []; reflexivity|].
  destruct h as [raw m|e|e]; cbn [run policy_raise].
  - exists r. rewrite IH. destruct (policy_raise hs). reflexivity.
  - unfold do_error. rewrite Q. cbn. exists hs. reflexivity.
  - exists hs. reflexivity.
Qed.

Section Generic.
Variable S : Type.
Variable stream_read1 : S -> result bytes * S.
Variable stream_readline : S -> result bytes * S.
Variable t : bytes.
Variable R : S -> bytes -> Prop.
Hypothesis T : t <> [].
Hypothesis read1_nil : forall k, R k [] -> exists k', stream_read1 k = (Ok [], k') /\ R k' [].
Hypothesis read1_cons : forall k b r, R k (b :: r) -> exists k', stream_read1 k = (Ok [b], k') /\ R k' r.
Hypothesis readline_ok : forall k s, R k s ->
  exists line rest k', stream_readline k = (Ok line, k') /\ first_line t s line rest /\ R k' rest.
Variable cfg : rcfg.

Lemma pass_nil k : R k [] -> exists k', pass S stream_read1 stream_readline cfg k = (Raise EOFError, k') /\ R k' [].
Proof.
  intros H. destruct (read1_nil k H) as (k' & E & H'). exists k'. unfold pass, read_byte. rewrite E. auto.
Qed.

Lemma pass_skip k b r : R k (b :: r) -> b <> dollar ->
  exists k', pass S stream_read1 stream_readline cfg k = (Ok None, k') /\ R k' r.
Proof.
  intros H N. destruct (read1_cons k b r H) as (k' & E & H'). exists k'. split; [|exact H'].
  unfold pass, read_byte. rewrite E. cbn [str_eqb].
  assert (N.eqb b c_dollar = false) as -> by (apply N.eqb_neq; exact N). reflexivity.
Qed.

Lemma pass_dollar k : R k [dollar] ->
  exists k', pass S stream_read1 stream_readline cfg k = (Raise EOFError, k') /\ R k' [].
Proof.
  intros H. destruct (read1_cons k _ _ H) as (k' & E & H').
  destruct (read1_nil k' H') as (k2 & E2 & H2). exists k2. split; [|exact H2].
  unfold pass, read_byte. rewrite E. cbn. rewrite E2. reflexivity.
Qed.

Lemma pass_header k c s : R k (dollar :: c :: s) ->
  exists k2, R k2 s /\
  pass S stream_read1 stream_readline cfg k =
  if hdr_second c then
    let '(r3, s3) := read_line S stream_readline k2 in
    match r3 with
    | Raise e => (Raise e, s3)
    | Ok bn =>
        match parse (MBytes (dollar :: c :: bn)) (r_mode cfg) (r_validate cfg) (r_userdefined cfg) with
        | Ok m => (Ok (Some (dollar :: c :: bn, m)), s3)
        | Raise e => (Raise e, s3)
        end
    end
  else if r_nmeaonly cfg then (Raise NMEAParseError, k2) else (Ok None, k2).
Proof.
  intros H. destruct (read1_cons k _ _ H) as (k1 & E1 & H1).
  destruct (read1_cons k1 _ _ H1) as (k2 & E2 & H2). exists k2. split; [exact H2|].
  unfold pass, read_byte. rewrite E1. cbn [str_eqb]. rewrite E2. reflexivity.
Qed.

Lemma second_dec c : second c \/ ~ second c.
Proof.
  destruct (hdr_second c) eqn:E.
  - left. apply hdr_second_iff, E.
  - right. rewrite <- hdr_second_iff, E. discriminate.
Qed.

Lemma read_line_ok k s line rest : R k s -> first_line t s line rest ->
  exists k', R k' rest /\
  read_line S stream_readline k =
  match line with
  | [] => (Raise EOFError, k')
  | _ => if N.eqb (last line 0%N) c_lf then (Ok line, k') else (Raise NMEAStreamError, k')
  end.
Proof.
  intros H F. destruct (readline_ok k s H) as (l' & r' & k' & E & F' & H').
  destruct (first_line_functional t s _ _ _ _ T F F') as [<- <-].
  exists k'. split; [exact H'|]. unfold read_line. rewrite E. reflexivity.
Qed.

Local Notation read := (read S stream_read1 stream_readline cfg).

Lemma happens_line raw ts hs : happens cfg (Line raw :: ts) hs ->
  exists hs', happens cfg ts hs' /\
  match parse (MBytes raw) (r_mode cfg) (r_validate cfg) (r_userdefined cfg) with
  | Ok m => hs = Item raw m :: hs'
  | Raise e => if is_nmea_error e then hs = Problem e :: hs' else hs = Crash e :: hs'
  end.
Proof.
  intros H. inversion H as [|? ? ? hs' E H'|? ? ? hs' E P H'|? ? ? hs' E P H'| | |]; subst; exists hs'; rewrite E; (split; [exact H'|]).
  - reflexivity.
  - apply protocol_error_iff in P. rewrite P. reflexivity.
  - destruct (is_nmea_error e) eqn:X; [|reflexivity]. exfalso. apply P, protocol_error_iff, X.
Qed.

Lemma parse_not_eof m mode v ud : parse m mode v ud <> Raise EOFError.
Proof.
  intros H. apply C07_exceptions in H as [H|[H|[[H _]|[H _]]]]; discriminate.
Qed.

Lemma read_tokens fuel : forall k s ts hs,
  tokens t s ts -> happens cfg ts hs -> R k s -> (length s < fuel)%nat ->
  exists k' s' ts' o ev hs',
    next cfg hs = (o, ev, hs') /\ read fuel k = Some (o, ev, k')
    /\ R k' s' /\ tokens t s' ts' /\ happens cfg ts' hs'
    /\ (length s' <= length s)%nat /\ (o = REnd \/ (length s' < length s)%nat) /\ (o = REnd -> s' = []).
Proof.
  induction fuel as [|f IH]; intros k s ts hs Tk Hp Rk L; [lia|].
  assert (forall k1 s1 ts1 hs1, tokens t s1 ts1 -> happens cfg ts1 hs1 -> R k1 s1 -> (length s1 < length s)%nat ->
    exists k' s' ts' o ev hs',
    next cfg hs1 = (o, ev, hs') /\ read f k1 = Some (o, ev, k')
    /\ R k' s' /\ tokens t s' ts' /\ happens cfg ts' hs'
    /\ (length s' <= length s)%nat /\ (o = REnd \/ (length s' < length s)%nat) /\ (o = REnd -> s' = [])) as Rec.
  { intros k1 s1 ts1 hs1 A B C D.
    destruct (IH k1 s1 ts1 hs1 A B C ltac:(lia)) as (k' & s' & ts' & o & ev & hs' & X1 & X2 & X3 & X4 & X5 & X6 & X7 & X8).
    exists k', s', ts', o, ev, hs'. repeat (split; [assumption|]). split; [lia|]. split; [|exact X8].
    destruct X7 as [X7|X7]; [left; exact X7|right; lia]. }
  assert (forall k1 s1 ts1 hs1 e, e <> EOFError -> is_nmea_error e = true ->
    pass S stream_read1 stream_readline cfg k = (Raise e, k1) ->
    hs = Problem e :: hs1 -> tokens t s1 ts1 -> happens cfg ts1 hs1 -> R k1 s1 -> (length s1 < length s)%nat ->
    exists k' s' ts' o ev hs',
    next cfg hs = (o, ev, hs') /\ read (Datatypes.S f) k = Some (o, ev, k')
    /\ R k' s' /\ tokens t s' ts' /\ happens cfg ts' hs'
    /\ (length s' <= length s)%nat /\ (o = REnd \/ (length s' < length s)%nat) /\ (o = REnd -> s' = [])) as Prob.
  { intros k1 s1 ts1 hs1 e Ne Pe Ps -> A B C D. cbn [next Reader.read]. rewrite Ps.
    assert (forall X (a b : X), match e with EOFError => a | _ => b end = b) as M by (intros; destruct e; try reflexivity; contradiction).
    rewrite M, Pe. destruct (do_error cfg e) as [[e'|] ev] eqn:De.
    - exists k1, s1, ts1, (RRaise e'), ev, hs1. do 5 (split; [first [reflexivity|assumption]|]). split; [lia|]. split; [right; lia|discriminate].
    - destruct (Rec k1 s1 ts1 hs1 A B C D) as (k' & s' & ts' & o & ev' & hs' & X1 & X2 & X).
      exists k', s', ts', o, (ev ++ ev'), hs'. rewrite X1, X2. repeat (split; [reflexivity|]). exact X. }
  destruct Tk as [|b s ts N Tk| |c s ts N Tk|c Sc|c s line rest ts Sc F El Tk|c s line rest ts Sc F Nl El Tk].
  - inversion Hp; subst. destruct (pass_nil k Rk) as (k' & E & H').
    exists k', [], [], REnd, [], []. cbn [next Reader.read]. rewrite E.
    do 5 (split; [first [reflexivity|assumption|constructor]|]). split; [lia|]. split; [left|]; reflexivity.
  - destruct (pass_skip k b s Rk N) as (k1 & E & H1). cbn [Reader.read]. rewrite E.
    apply (Rec k1 s ts hs Tk Hp H1). cbn. lia.
  - inversion Hp; subst. destruct (pass_dollar k Rk) as (k' & E & H').
    exists k', [], [], REnd, [], []. cbn [next Reader.read]. rewrite E.
    do 5 (split; [first [reflexivity|assumption|constructor]|]). split; [cbn; lia|]. split; [left|]; reflexivity.
  - destruct (pass_header k c s Rk) as (k2 & H2 & E).
    assert (hdr_second c = false) as Hc by (destruct (hdr_second c) eqn:X; [exfalso; apply N, hdr_second_iff, X|reflexivity]).
    rewrite Hc in E. inversion Hp as [| | | |? ? hs' O Hp'|? ? hs' O Hp'|]; subst; rewrite O in E.
    + apply (Prob k2 s ts hs' NMEAParseError); try assumption; try discriminate; try reflexivity. cbn. lia.
    + cbn [Reader.read]. rewrite E. apply (Rec k2 s ts hs Tk Hp' H2). cbn. lia.
  - inversion Hp; subst. destruct (pass_header k c [] Rk) as (k2 & H2 & E).
    apply hdr_second_iff in Sc. rewrite Sc in E.
    destruct (read_line_ok k2 [] [] [] H2) as (k' & H' & E2).
    { split; [reflexivity|]. right. split; [reflexivity|]. intros (a & b & X). symmetry in X.
      apply app_eq_nil in X as [_ X]. apply app_eq_nil in X as [X _]. contradiction. }
    rewrite E2 in E. exists k', [], [], REnd, [], []. cbn [next Reader.read]. rewrite E.
    do 5 (split; [first [reflexivity|assumption|constructor]|]). split; [cbn; lia|]. split; [left|]; reflexivity.
  - destruct (pass_header k c s Rk) as (k2 & H2 & E).
    apply hdr_second_iff in Sc. rewrite Sc in E.
    destruct (read_line_ok k2 s line rest H2 F) as (k' & H' & E2). rewrite E2 in E.
    pose proof El as (body & Eb).
    assert (line <> []) as Nl by (intros ->; destruct body; discriminate).
    pose proof (proj2 (last_lf line Nl) El) as La. rewrite La in E.
    assert (length rest < length (dollar :: c :: s))%nat as Ln.
    { destruct F as (-> & _). cbn. rewrite app_length. lia. }
    destruct (happens_line _ _ _ Hp) as (hs' & Hp' & Hq).
    assert (match line with [] => (Raise EOFError, k') | _ :: _ => (Ok line, k') end = (Ok line, k')) as X
      by (destruct line; [contradiction|reflexivity]).
    rewrite X in E. clear X.
    destruct (parse (MBytes (dollar :: c :: line)) (r_mode cfg) (r_validate cfg) (r_userdefined cfg)) as [m|e] eqn:P.
    + subst hs. exists k', rest, ts, (RMsg (dollar :: c :: line) m), [], hs'. cbn [next Reader.read]. rewrite E.
      do 5 (split; [first [reflexivity|assumption]|]). split; [lia|]. split; [right; lia|discriminate].
    + assert (e <> EOFError) as Ne by (intros ->; exact (parse_not_eof _ _ _ _ P)).
      destruct (is_nmea_error e) eqn:Ie.
      * apply (Prob k' rest ts hs' e); assumption.
      * subst hs. exists k', rest, ts, (RRaise e), [], hs'. cbn [next Reader.read]. rewrite E.
        assert (forall X (a b : X), match e with EOFError => a | _ => b end = b) as M by (intros; destruct e; try reflexivity; contradiction).
        rewrite M, Ie. do 5 (split; [first [reflexivity|assumption]|]). split; [lia|]. split; [right; lia|discriminate].
  - destruct (pass_header k c s Rk) as (k2 & H2 & E).
    apply hdr_second_iff in Sc. rewrite Sc in E.
    destruct (read_line_ok k2 s line rest H2 F) as (k' & H' & E2). rewrite E2 in E.
    assert (N.eqb (last line 0%N) c_lf = false) as La.
    { destruct (N.eqb (last line 0%N) c_lf) eqn:X; [|reflexivity]. exfalso. apply El, last_lf; assumption. }
    rewrite La in E.
    assert (match line with [] => (Raise EOFError, k') | _ :: _ => (Raise NMEAStreamError, k') end = (@Raise bytes NMEAStreamError, k')) as X
      by (destruct line; [contradiction|reflexivity]).
    rewrite X in E. clear X.
    assert (length rest < length (dollar :: c :: s))%nat as Ln.
    { destruct F as (-> & _). cbn. rewrite app_length. lia. }
    inversion Hp as [| | | | | |? hs' Hp']; subst.
    apply (Prob k' rest ts hs' NMEAStreamError); try assumption; try discriminate; reflexivity.
Qed.

Lemma iterate_tokens fuel n : forall k s ts hs,
  tokens t s ts -> happens cfg ts hs -> R k s -> (length s < fuel)%nat -> (length s < n)%nat ->
  exists k' s' ts' l x ev hs',
    run cfg hs = (l, x, ev, hs')
    /\ iterate S stream_read1 stream_readline cfg n fuel k = Some (l, x, ev, k')
    /\ R k' s' /\ tokens t s' ts' /\ happens cfg ts' hs' /\ (x = None -> s' = []).
Proof.
  induction n as [|n IH]; intros k s ts hs Tk Hp Rk L1 L2; [lia|].
  destruct (read_tokens fuel k s ts hs Tk Hp Rk L1) as (k' & s' & ts' & o & ev & hs' & X1 & X2 & X3 & X4 & X5 & X6 & X7 & X8).
  rewrite run_next, X1. cbn [iterate]. rewrite X2. destruct o as [raw m| |e].
  - destruct X7 as [X7|X7]; [discriminate|].
    destruct (IH k' s' ts' hs' X4 X5 X3 ltac:(lia) ltac:(lia)) as (k2 & s2 & ts2 & l & x & ev2 & hs2 & Y1 & Y2 & Y3 & Y4 & Y5 & Y6).
    rewrite Y1, Y2. exists k2, s2, ts2, ((raw, m) :: l), x, (ev ++ ev2), hs2. auto 8.
  - exists k', s', ts', [], None, ev, hs'. auto 8.
  - exists k', s', ts', [], (Some e), ev, hs'. do 5 (split; [first [reflexivity|assumption]|]). discriminate.
Qed.
End Generic.

(* ---------------------------------------------- tokens are a function *)
Lemma first_line_total t s : t <> [] -> exists line rest, first_line t s line rest.
Proof.
  intros T.
  assert (forall n s, (length s <= n)%nat ->
     (exists line rest, s = line ++ rest /\ exists body, line = body ++ t /\ forall a b, line = a ++ t ++ b -> b = [])
     \/ ~ occurs t s) as K.
  { clear s. induction n as [|n IH]; intros s L.
    - right. intros (a & b & E). destruct s; [|cbn in L; lia]. symmetry in E. apply app_eq_nil in E as [_ E].
      apply app_eq_nil in E as [E _]. contradiction.
    - destruct s as [|x s].
      + right. intros (a & b & E). symmetry in E. apply app_eq_nil in E as [_ E].
        apply app_eq_nil in E as [E _]. contradiction.
      + destruct (exists_last (l := x :: s) ltac:(discriminate)) as (p & y & E).
        assert (length p <= n)%nat as Lp.
        { assert (length (x :: s) = length (p ++ [y])) as Q by (rewrite E; reflexivity).
          rewrite app_length in Q. cbn in *. lia. }
        rewrite E in *. clear E. destruct (IH p Lp) as [(line & rest & -> & H)|H].
        * left. exists line, (rest ++ [y]). rewrite app_assoc. split; [reflexivity|exact H].
        * assert ({exists body, p ++ [y] = body ++ t} + {~ exists body, p ++ [y] = body ++ t}) as [(body & Q)|Q].
          { destruct (list_eq_dec N.eq_dec (skipn (length (p ++ [y]) - length t) (p ++ [y])) t) as [Q|Q].
            - left. exists (firstn (length (p ++ [y]) - length t) (p ++ [y])).
              rewrite <- Q at 2. symmetry. apply firstn_skipn.
            - right. intros (body & X). apply Q. rewrite X, app_length.
              replace (length body + length t - length t)%nat with (length body) by lia.
              rewrite skipn_app, skipn_all, Nat.sub_diag. reflexivity. }
          -- left. exists (p ++ [y]), []. rewrite app_nil_r. split; [reflexivity|]. exists body. split; [exact Q|].
             intros a b X. destruct b as [|z b] using rev_ind; [reflexivity|]. exfalso. apply H.
             rewrite !app_assoc in X. apply app_inj_tail in X as [X _]. exists a, b. rewrite X, app_assoc. reflexivity.
          -- right. intros (a & b & X). destruct b as [|z b _] using rev_ind.
             ++ apply Q. exists a. rewrite X, app_nil_r. reflexivity.
             ++ apply H. rewrite !app_assoc in X. apply app_inj_tail in X as [X _]. exists a, b. rewrite X, app_assoc. reflexivity. }
  destruct (K (length s) s (le_n _)) as [(line & rest & E & H)|H].
  - exists line, rest. split; [exact E|]. left. exact H.
  - exists s, []. split; [symmetry; apply app_nil_r|]. right. split; [reflexivity|exact H].
Qed.

Lemma ends_lf_dec line : ends_lf line \/ ~ ends_lf line.
Proof.
  destruct (list_eq_dec N.eq_dec line []) as [->|H].
  - right. intros (b & E). destruct b; discriminate.
  - destruct (N.eqb (last line 0%N) c_lf) eqn:E.
    + left. apply last_lf; assumption.
    + right. intros X. apply (last_lf line H) in X. congruence.
Qed.

Lemma tokens_total t s : t <> [] -> exists ts, tokens t s ts.
Proof.
  intros T. remember (length s) as n eqn:L. revert s L.
  induction n as [n IH] using lt_wf_ind. intros s ->.
  destruct s as [|b s]; [exists []; constructor|].
  destruct (N.eq_dec b dollar) as [->|Nd].
  - destruct s as [|c s]; [exists []; apply tok_dollar|].
    destruct (second_dec c) as [Sc|Sc].
    + destruct (first_line_total t s T) as (line & rest & F).
      destruct (list_eq_dec N.eq_dec line []) as [->|Nl].
      { destruct (first_line_nil t s rest T F) as [-> _]. exists []. apply tok_header, Sc. }
      destruct (IH (length rest)) with (s := rest) as (ts & Ht); [|reflexivity|].
      { destruct F as (-> & _). cbn. rewrite app_length. lia. }
      destruct (ends_lf_dec line) as [E|E].
      * exists (Line (dollar :: c :: line) :: ts). eapply tok_line; eassumption.
      * exists (Cut :: ts). eapply tok_cut; eassumption.
    + destruct (IH (length s)) with (s := s) as (ts & Ht); [cbn; lia|reflexivity|].
      exists (Other c :: ts). apply tok_other; assumption.
  - destruct (IH (length s)) with (s := s) as (ts & Ht); [cbn; lia|reflexivity|].
    exists ts. constructor; assumption.
Qed.

Lemma tokens_functional t s ts1 ts2 : t <> [] -> tokens t s ts1 -> tokens t s ts2 -> ts1 = ts2.
Proof.
  intros T H1. revert ts2.
  induction H1 as [|b s ts N H IH| |c s ts N H IH|c Sc|c s line rest ts Sc F El H IH|c s line rest ts Sc F Nl El H IH]; intros ts2 H2.
  - inversion H2. reflexivity.
  - inversion H2; subst; try contradiction. apply IH. assumption.
  - inversion H2; subst; [contradiction|reflexivity].
  - inversion H2; subst; try contradiction. f_equal. apply IH. assumption.
  - inversion H2 as [| | | | |c' s' line rest ts Sc' F El H E1 E2|c' s' line rest ts Sc' F Nl El H E1 E2]; subst; try contradiction; try reflexivity;
      destruct F as (F & _); symmetry in F; apply app_eq_nil in F as [-> ->].
    + destruct El as (b & E). destruct b; discriminate.
    + contradiction.
  - inversion H2 as [|? ? ? N| |? ? ? N|c' Sc' E1|c' s' line' rest' ts' Sc' F' El' H' E1 E2|c' s' line' rest' ts' Sc' F' Nl' El' H' E1 E2]; subst; try contradiction.
    + destruct F as (F & _). symmetry in F. apply app_eq_nil in F as [-> ->].
      destruct El as (b & E). destruct b; discriminate.
    + destruct (first_line_functional t s _ _ _ _ T F F') as [<- <-]. f_equal. apply IH. assumption.
    + destruct (first_line_functional t s _ _ _ _ T F F') as [<- <-]. contradiction.
  - inversion H2 as [|? ? ? N| |? ? ? N|c' Sc' E1|c' s' line' rest' ts' Sc' F' El' H' E1 E2|c' s' line' rest' ts' Sc' F' Nl' El' H' E1 E2]; subst; try contradiction.
    + destruct F as (F & _). symmetry in F. apply app_eq_nil in F as [-> ->]. contradiction.
    + destruct (first_line_functional t s _ _ _ _ T F F') as [<- <-]. contradiction.
    + destruct (first_line_functional t s _ _ _ _ T F F') as [<- <-]. f_equal. apply IH. assumption.
Qed.

Lemma happens_total cfg ts : exists hs, happens cfg ts hs.
Proof.
  induction ts as [|k ts (hs & IH)]; [exists []; constructor|]. destruct k as [raw|c|].
  - destruct (parse (MBytes raw) (r_mode cfg) (r_validate cfg) (r_userdefined cfg)) as [m|e] eqn:P.
    + exists (Item raw m :: hs). constructor; assumption.
    + destruct (is_nmea_error e) eqn:I.
      * exists (Problem e :: hs). constructor; try assumption. apply protocol_error_iff, I.
      * exists (Crash e :: hs). constructor; try assumption. rewrite <- protocol_error_iff, I. discriminate.
  - destruct (r_nmeaonly cfg) eqn:O.
    + exists (Problem NMEAParseError :: hs). constructor; assumption.
    + exists hs. constructor; assumption.
  - exists (Problem NMEAStreamError :: hs). constructor; assumption.
Qed.

Lemma happens_functional cfg ts h1 h2 : happens cfg ts h1 -> happens cfg ts h2 -> h1 = h2.
Proof.
  intros H. revert h2. induction H; intros h2 H2; inversion H2; subst; try congruence.
  all: repeat match goal with
       | A : ?p = Ok ?x, B : ?p = Ok ?y |- _ => assert (y = x) by congruence; subst; clear B
       | A : ?p = Raise ?x, B : ?p = Raise ?y |- _ => assert (y = x) by congruence; subst; clear B
       end.
  all: try contradiction. all: try (f_equal; auto; fail).
Qed.

(* ------------------------------------------------------------------ files *)
Lemma cut_line_spec s :
  match split_first c_lf s with
  | None => cut_line s = (s, [])
  | Some (a, b) => cut_line s = (a ++ [c_lf], b)
  end.
Proof.
  induction s as [|x s IH]; [reflexivity|]. cbn [split_first cut_line].
  destruct (N.eqb x c_lf) eqn:E.
  - apply N.eqb_eq in E as ->. reflexivity.
  - destruct (split_first c_lf s) as [[a b]|]; rewrite IH; reflexivity.
Qed.

Lemma file_readline_spec s :
  match split_first c_lf s with
  | None => file_readline s = (Ok s, [])
  | Some (a, b) => file_readline s = (Ok (a ++ [c_lf]), b)
  end.
Proof.
  pose proof (cut_line_spec s) as H. unfold file_readline. destruct (split_first c_lf s) as [[a b]|]; rewrite H; reflexivity.
Qed.

Lemma In_app_lf (x : N) a t b : a ++ [x] = t ++ [x] ++ b -> ~ In x a -> b = [].
Proof.
  intros E N. destruct b as [|y b] using rev_ind; [reflexivity|]. exfalso. apply N.
  rewrite !app_assoc in E. apply app_inj_tail in E as [-> _]. rewrite !in_app_iff. cbn. auto.
Qed.

Lemma first_line_lf s : exists line rest, file_readline s = (Ok line, rest) /\ first_line [lf] s line rest.
Proof.
  pose proof (file_readline_spec s) as H. destruct (split_first c_lf s) as [[a b]|] eqn:E.
  - exists (a ++ [c_lf]), b. split; [exact H|]. apply split_first_Some in E as [-> N]. split.
    + rewrite <- app_assoc. reflexivity.
    + left. exists a. split; [reflexivity|]. intros p q X. exact (In_app_lf _ _ _ _ X N).
  - exists s, []. split; [exact H|]. apply split_first_None in E. split; [symmetry; apply app_nil_r|].
    right. split; [reflexivity|]. intros (p & q & X). apply E. rewrite X, !in_app_iff. cbn. auto.
Qed.

Lemma lf_nonnil : [lf] <> []. Proof. discriminate. Qed.

Lemma fread_tokens cfg fuel s ts hs :
  tokens [lf] s ts -> happens cfg ts hs -> (length s < fuel)%nat ->
  exists s' ts' o ev hs',
    next cfg hs = (o, ev, hs') /\ fread cfg fuel s = Some (o, ev, s')
    /\ tokens [lf] s' ts' /\ happens cfg ts' hs'
    /\ (length s' <= length s)%nat /\ (o = REnd \/ (length s' < length s)%nat) /\ (o = REnd -> s' = []).
Proof.
  intros Tk Hp L.
  destruct (read_tokens file file_read1 file_readline [lf] eq lf_nonnil) with (cfg := cfg) (fuel := fuel) (k := s) (s := s) (ts := ts) (hs := hs)
    as (k' & s' & ts' & o & ev & hs' & X1 & X2 & <- & X).
  - intros k ->. exists []. split; reflexivity.
  - intros k b r ->. exists r. split; reflexivity.
  - intros k s0 ->. destruct (first_line_lf s0) as (line & rest & A & B). exists line, rest, rest. auto.
  - exact Tk. - exact Hp. - reflexivity. - exact L.
  - exists k', ts', o, ev, hs'. auto.
Qed.

Lemma fiterate_tokens cfg fuel n s ts hs :
  tokens [lf] s ts -> happens cfg ts hs -> (length s < fuel)%nat -> (length s < n)%nat ->
  exists s' ts' l x ev hs',
    run cfg hs = (l, x, ev, hs') /\ fiterate cfg n fuel s = Some (l, x, ev, s')
    /\ tokens [lf] s' ts' /\ happens cfg ts' hs' /\ (x = None -> s' = []).
Proof.
  intros Tk Hp L1 L2.
  destruct (iterate_tokens file file_read1 file_readline [lf] eq lf_nonnil) with (cfg := cfg) (fuel := fuel) (n := n) (k := s) (s := s) (ts := ts) (hs := hs)
    as (k' & s' & ts' & l & x & ev & hs' & X1 & X2 & <- & X).
  - intros k ->. exists []. split; reflexivity.
  - intros k b r ->. exists r. split; reflexivity.
  - intros k s0 ->. destruct (first_line_lf s0) as (line & rest & A & B). exists line, rest, rest. auto.
  - exact Tk. - exact Hp. - reflexivity. - exact L1. - exact L2.
  - exists k', ts', l, x, ev, hs'. auto.
Qed.
