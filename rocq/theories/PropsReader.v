(* Theorems about NMEAReader: C19 (construction), C26-C33 *)
From Verif Require Import Message Reader BaseLemmas TextLemmas Spec ReaderSpec ParseProofs PropsParse PropsMessage ReaderProofs.
From Coq Require Import Lia.
Local Open Scope Z_scope.

(* ------------------------------------------------------------------ C19 *)
Theorem C19_reader cfg :
  (r_mode cfg = 0 \/ r_mode cfg = 1 \/ r_mode cfg = 2 -> reader_init cfg = Ok cfg)
  /\ (~ (r_mode cfg = 0 \/ r_mode cfg = 1 \/ r_mode cfg = 2) -> reader_init cfg = Raise NMEAParseError).
Proof.
  unfold reader_init. destruct (valid_mode (r_mode cfg)) eqn:V.
  - split; [reflexivity|]. intros H. apply valid_mode_iff in V. contradiction.
  - split; [|reflexivity]. intros H. apply valid_mode_iff in H. congruence.
Qed.

(* an example stream: junk, a GLL sentence, junk, a bad line, a cut-off line *)
Definition ex_line : bytes := u "$GNGLL,5327.04319,S,00214.41396,E,223232.00,A,A*68" ++ [cr; lf].
Definition ex_bad : bytes := u "$GNGLL,5327.04319,S,00214.41396,E,223232.00,A,A*69" ++ [cr; lf].
Definition ex_stream : bytes := u "xyz" ++ ex_line ++ [181%N; 98%N] ++ ex_bad ++ ex_line ++ u "$GNGL".
Definition ex_handler : handler := fun _ => None.
Definition ex_cfg (quit : Z) : rcfg := mkrcfg 0 1 false quit (Some ex_handler) [].

Definition raws (r : option (list (bytes * option msg) * option exc * list event * file)) : list bytes :=
  match r with Some (l, _, _, _) => map fst l | None => [] end.
Definition reported (r : option (list (bytes * option msg) * option exc * list event * file)) : list event :=
  match r with Some (_, _, ev, _) => ev | None => [] end.
Example reader_example :
  raws (fiterate (ex_cfg 1) 300 300 ex_stream) = [ex_line; ex_line]
  /\ reported (fiterate (ex_cfg 1) 300 300 ex_stream) = [EvHandler NMEAParseError; EvHandler NMEAStreamError].
Proof. split; vm_compute; reflexivity. Qed.

(* ------------------------------------------------------------------ C26 *)
(* "$", a recognised byte, and bytes up to the first LF *)
Definition line_shape (raw : bytes) : Prop :=
  exists c body, raw = dollar :: c :: body ++ [lf] /\ second c /\ ~ In lf body.

Lemma shape_first_line body rest : ~ In lf body -> first_line [lf] (body ++ [lf] ++ rest) (body ++ [lf]) rest.
Proof.
  intros N. split; [rewrite <- app_assoc; reflexivity|]. left. exists body. split; [reflexivity|].
  intros a b E. exact (In_app_lf _ _ _ _ E N).
Qed.

Lemma app_match {A B} (l : list A) x (a b : B) : match l ++ [x] with [] => a | _ :: _ => b end = b.
Proof. destruct l; reflexivity. Qed.

Lemma file_pass cfg s r s' :
  pass file file_read1 file_readline cfg s = (r, s') ->
  exists p, s = p ++ s' /\ (forall raw m, r = Ok (Some (raw, m)) -> p = raw /\ line_shape raw
     /\ parse (MBytes raw) (r_mode cfg) (r_validate cfg) (r_userdefined cfg) = Ok m).
Proof.
  unfold pass, read_byte, read_line. destruct s as [|b s]; cbn [file_read1].
  { intros E. injection E as <- <-. exists []. split; [reflexivity|discriminate]. }
  cbn [str_eqb]. destruct (N.eqb_spec b c_dollar) as [->|N]; cbn [andb negb].
  2:{ intros E. injection E as <- <-. exists [b]. split; [reflexivity|discriminate]. }
  destruct s as [|c s]; cbn [file_read1].
  { intros E. injection E as <- <-. exists [c_dollar]. split; [reflexivity|discriminate]. }
  destruct (hdr_second c) eqn:Hc.
  - pose proof (file_readline_spec s) as F. destruct (split_first c_lf s) as [[body rest]|] eqn:Sp; rewrite F.
    + apply split_first_Some in Sp as [-> Nb].
      rewrite app_match, last_last. change (N.eqb c_lf c_lf) with true. cbn [app].
      destruct (parse _ _ _ _) as [m|e] eqn:P; intros E; injection E as <- <-; exists (c_dollar :: c :: body ++ [c_lf]);
        (split; [cbn; rewrite <- app_assoc; reflexivity|]); [|discriminate].
      intros raw m' X. injection X as <- <-. split; [reflexivity|]. split; [|exact P].
      exists c, body. split; [reflexivity|]. split; [apply hdr_second_iff, Hc|exact Nb].
    + apply split_first_None in Sp. destruct s as [|y s].
      { intros E. injection E as <- <-. exists [c_dollar; c]. split; [reflexivity|discriminate]. }
      assert (N.eqb (last (y :: s) 0%N) c_lf = false) as ->.
      { apply N.eqb_neq. intros X. apply Sp. rewrite <- X.
        destruct (exists_last (l := y :: s) ltac:(discriminate)) as (p & q & ->). rewrite last_last. apply in_app_iff. cbn. auto. }
      intros E. injection E as <- <-. exists (c_dollar :: c :: y :: s). split; [rewrite app_nil_r; reflexivity|discriminate].
  - destruct (r_nmeaonly cfg); intros E; injection E as <- <-; exists [c_dollar; c]; (split; [reflexivity|discriminate]).
Qed.

Lemma file_read cfg fuel : forall s o ev s',
  fread cfg fuel s = Some (o, ev, s') ->
  exists p, s = p ++ s' /\ (forall raw m, o = RMsg raw m -> exists gap, p = gap ++ raw /\ line_shape raw
     /\ parse (MBytes raw) (r_mode cfg) (r_validate cfg) (r_userdefined cfg) = Ok m).
Proof.
  unfold fread. induction fuel as [|f IH]; intros s o ev s' H; [discriminate|]. cbn [read] in H.
  destruct (pass file file_read1 file_readline cfg s) as [r s1] eqn:P.
  destruct (file_pass _ _ _ _ P) as (p & -> & Hm).
  assert (forall ev', read file file_read1 file_readline cfg f s1 = Some (o, ev', s') ->
     exists p0, p ++ s1 = p0 ++ s' /\ (forall raw m, o = RMsg raw m -> exists gap, p0 = gap ++ raw /\ line_shape raw
     /\ parse (MBytes raw) (r_mode cfg) (r_validate cfg) (r_userdefined cfg) = Ok m)) as Rec.
  { intros ev' E. destruct (IH _ _ _ _ E) as (q & -> & Hq). exists (p ++ q). rewrite app_assoc. split; [reflexivity|].
    intros raw m X. destruct (Hq raw m X) as (gap & -> & L). exists (p ++ gap). rewrite app_assoc. auto. }
  destruct r as [[[raw m]|]|e].
  - injection H as <- <- <-. exists p. split; [reflexivity|]. intros raw' m' X. injection X as <- <-.
    destruct (Hm raw m eq_refl) as (-> & L). exists []. auto.
  - apply (Rec ev H).
  - assert (e = EOFError \/ forall X (a b : X), match e with EOFError => a | _ => b end = b) as [->|M]
      by (destruct e; auto).
    + injection H as <- <- <-. exists p. split; [reflexivity|discriminate].
    + rewrite M in H. clear M. destruct (is_nmea_error e).
      * destruct (do_error cfg e) as [[e'|] ev1].
        { injection H as <- <- <-. exists p. split; [reflexivity|discriminate]. }
        destruct (read file file_read1 file_readline cfg f s1) as [[[o' ev'] s2]|] eqn:E; [|discriminate].
        injection H as -> <- ->. apply (Rec ev' eq_refl).
      * injection H as <- <- <-. exists p. split; [reflexivity|discriminate].
Qed.

(* one read(): the item is a block of the stream, and the stream is left at its end *)
Theorem C26_read cfg fuel s raw m ev rest :
  fread cfg fuel s = Some (RMsg raw m, ev, rest) ->
  exists gap, s = gap ++ raw ++ rest /\ line_shape raw.
Proof.
  intros H. destruct (file_read _ _ _ _ _ _ H) as (p & -> & Hm).
  destruct (Hm _ _ eq_refl) as (gap & -> & L & _). exists gap. rewrite app_assoc. auto.
Qed.
(* a for loop: the items are disjoint blocks, in order *)
Theorem C26_slices cfg n fuel : forall s items x ev rest,
  fiterate cfg n fuel s = Some (items, x, ev, rest) ->
  exists gaps tail, length gaps = length items
    /\ s = interleave gaps (map fst items) ++ tail ++ rest
    /\ Forall (fun i => line_shape (fst i)) items.
Proof.
  unfold fiterate. induction n as [|n IH]; intros s items x ev rest H; [discriminate|]. cbn [iterate] in H.
  destruct (read file file_read1 file_readline cfg fuel s) as [[[o ev1] s1]|] eqn:E; [|discriminate].
  destruct o as [raw m| |e].
  - destruct (iterate file file_read1 file_readline cfg n fuel s1) as [[[[l x'] ev2] s2]|] eqn:E2; [|discriminate].
    injection H as <- <- <- <-. destruct (IH _ _ _ _ _ E2) as (gaps & tail & L & -> & Hl).
    destruct (C26_read _ _ _ _ _ _ _ E) as (gap & -> & Hs). exists (gap :: gaps), tail.
    cbn [map length fst interleave]. split; [lia|]. split; [rewrite <- !app_assoc; reflexivity|].
    constructor; assumption.
  - injection H as <- <- <- <-. destruct (file_read _ _ _ _ _ _ E) as (p & -> & _).
    exists [], p. split; [reflexivity|]. split; [reflexivity|constructor].
  - injection H as <- <- <- <-. destruct (file_read _ _ _ _ _ _ E) as (p & -> & _).
    exists [], p. split; [reflexivity|]. split; [reflexivity|constructor].
Qed.
Example C26_example :
  exists m ev, fread (ex_cfg 1) 300 ex_stream = Some (RMsg ex_line m, ev, [181%N; 98%N] ++ ex_bad ++ ex_line ++ u "$GNGL").
Proof. eexists. eexists. vm_compute. reflexivity. Qed.

(* ------------------------------------------------------------------ C33 *)
(* for every kind of stream *)
Theorem C33_parsed S read1 readline cfg fuel (s : S) raw m ev s' :
  read S read1 readline cfg fuel s = Some (RMsg raw m, ev, s') ->
  parse (MBytes raw) (r_mode cfg) (r_validate cfg) (r_userdefined cfg) = Ok m.
Proof.
  assert (forall s r s1, pass S read1 readline cfg s = (Ok (Some r), s1) ->
    parse (MBytes (fst r)) (r_mode cfg) (r_validate cfg) (r_userdefined cfg) = Ok (snd r)) as P.
  { clear. intros s r s1. unfold pass. destruct (read_byte S read1 s) as [[b1|e] s2]; [|discriminate].
    destruct (negb (str_eqb b1 [c_dollar])); [discriminate|].
    destruct (read_byte S read1 s2) as [[b2|e] s3]; [|discriminate].
    destruct (match b2 with [x] => hdr_second x | _ => false end).
    - destruct (read_line S readline s3) as [[bn|e] s4]; [|discriminate].
      destruct (parse _ _ _ _) as [m|e] eqn:E; [|discriminate]. intros H. injection H as <- <-. exact E.
    - destruct (r_nmeaonly cfg); discriminate. }
  revert s ev s'. induction fuel as [|f IH]; intros s ev s' H; [discriminate|]. cbn [read] in H.
  destruct (pass S read1 readline cfg s) as [[[[raw' m']|]|e] s1] eqn:E.
  - injection H as <- <- <- <-. exact (P _ _ _ E).
  - eapply IH, H.
  - assert (e = EOFError \/ forall X (a b : X), match e with EOFError => a | _ => b end = b) as [->|M]
      by (destruct e; auto); [discriminate|].
    rewrite M in H. clear M. destruct (is_nmea_error e); [|discriminate].
    destruct (do_error cfg e) as [[e'|] ev1]; [discriminate|].
    destruct (read S read1 readline cfg f s1) as [[[o' ev'] s2]|] eqn:E2; [|discriminate].
    injection H as -> <- ->. eapply IH, E2.
Qed.
Theorem C33_iterate S read1 readline cfg n fuel : forall (s : S) items x ev s',
  iterate S read1 readline cfg n fuel s = Some (items, x, ev, s') ->
  Forall (fun i => parse (MBytes (fst i)) (r_mode cfg) (r_validate cfg) (r_userdefined cfg) = Ok (snd i)) items.
Proof.
  induction n as [|n IH]; intros s items x ev s' H; [discriminate|]. cbn [iterate] in H.
  destruct (read S read1 readline cfg fuel s) as [[[o ev1] s1]|] eqn:E; [|discriminate].
  destruct o as [raw m| |e].
  - destruct (iterate S read1 readline cfg n fuel s1) as [[[[l x'] ev2] s2]|] eqn:E2; [|discriminate].
    injection H as <- <- <- <-. constructor; [exact (C33_parsed _ _ _ _ _ _ _ _ _ _ E)|exact (IH _ _ _ _ _ E2)].
  - injection H as <- <- <- <-. constructor.
  - injection H as <- <- <- <-. constructor.
Qed.
Example C33_example : exists m, parse (MBytes ex_line) 0 1 [] = Ok (Some m) /\ m_msgID m = u "GLL".
Proof. eexists. split; vm_compute; reflexivity. Qed.

(* ------------------------------------------------------------------ C28 *)
Definition dollars (s : bytes) : nat := count_occ N.eq_dec s dollar.

Lemma count_interleave gaps lines :
  length gaps = length lines -> Forall line_shape lines -> (length lines <= dollars (interleave gaps lines))%nat.
Proof.
  revert lines. induction gaps as [|g gs IH]; intros [|l ls] L H; cbn in L; try discriminate; [cbn; lia|].
  inversion H as [|? ? (c & body & -> & _) H']; subst. cbn [interleave length]. unfold dollars in *.
  rewrite !count_occ_app. specialize (IH ls ltac:(lia) H').
  cbn [count_occ app]. destruct (N.eq_dec dollar dollar); [|contradiction]. lia.
Qed.

Theorem C28_read cfg fuel s : (length s < fuel)%nat ->
  exists o ev p rest, fread cfg fuel s = Some (o, ev, rest) /\ s = p ++ rest
    /\ (o = REnd -> rest = []) /\ (forall fuel', (length s < fuel')%nat -> fread cfg fuel' s = fread cfg fuel s).
Proof.
  intros L. destruct (tokens_total [lf] s lf_nonnil) as (ts & Tk). destruct (happens_total cfg ts) as (hs & Hp).
  destruct (fread_tokens cfg fuel s ts hs Tk Hp L) as (s' & ts' & o & ev & hs' & X1 & X2 & _ & _ & _ & _ & X3).
  destruct (file_read _ _ _ _ _ _ X2) as (p & Hs & _). exists o, ev, p, s'.
  split; [exact X2|]. split; [exact Hs|]. split; [exact X3|].
  assert (forall f s o ev r, fread cfg f s = Some (o, ev, r) -> forall f', (f <= f')%nat -> fread cfg f' s = Some (o, ev, r)) as Mono.
  { clear. unfold fread. induction f as [|f IH]; intros s o ev r H f' Lf; [discriminate|].
    destruct f' as [|f']; [lia|]. cbn [read] in *.
    destruct (pass file file_read1 file_readline cfg s) as [[[[raw m]|]|e] s1].
    - exact H.
    - apply (IH _ _ _ _ H). lia.
    - assert (e = EOFError \/ forall X (a b : X), match e with EOFError => a | _ => b end = b) as [->|M]
        by (destruct e; auto); [exact H|].
      rewrite M in *. destruct (is_nmea_error e); [|exact H].
      destruct (do_error cfg e) as [[e'|] ev1]; [exact H|].
      destruct (read file file_read1 file_readline cfg f s1) as [[[o' ev'] s2]|] eqn:E2; [|discriminate].
      rewrite (IH _ _ _ _ E2 f' ltac:(lia)). exact H. }
  intros fuel' L'.
  destruct (fread_tokens cfg fuel' s ts hs Tk Hp L') as (s'' & ts'' & o' & ev' & hs'' & Y1 & Y2 & _).
  destruct (Nat.le_ge_cases fuel fuel').
  - rewrite (Mono _ _ _ _ _ X2 fuel' H), X2. reflexivity.
  - rewrite (Mono _ _ _ _ _ Y2 fuel H). exact Y2.
Qed.
Theorem C28_iterate cfg n fuel s : (length s < fuel)%nat -> (length s < n)%nat ->
  exists items x ev rest, fiterate cfg n fuel s = Some (items, x, ev, rest)
    /\ (length items <= dollars s)%nat /\ (x = None -> rest = []).
Proof.
  intros L1 L2. destruct (tokens_total [lf] s lf_nonnil) as (ts & Tk). destruct (happens_total cfg ts) as (hs & Hp).
  destruct (fiterate_tokens cfg fuel n s ts hs Tk Hp L1 L2) as (s' & ts' & l & x & ev & hs' & X1 & X2 & _ & _ & X3).
  exists l, x, ev, s'. split; [exact X2|]. split; [|exact X3].
  destruct (C26_slices _ _ _ _ _ _ _ _ X2) as (gaps & tail & Lg & -> & Hl). unfold dollars. rewrite count_occ_app.
  pose proof (count_interleave gaps (map fst l)) as C. rewrite map_length in C. specialize (C Lg).
  assert (Forall line_shape (map fst l)) as F by (apply Forall_map, Hl). specialize (C F). unfold dollars in C. lia.
Qed.
Example C28_example : dollars ex_stream = 4%nat /\ length ex_stream = 166%nat.
Proof. split; vm_compute; reflexivity. Qed.

(* ------------------------------------------------------------------ C27 *)
Lemma tokens_gap t gap s ts : ~ In dollar gap -> tokens t s ts -> tokens t (gap ++ s) ts.
Proof.
  induction gap as [|b g IH]; intros N H; [exact H|]. cbn. apply tok_skip.
  - intros ->. apply N. left. reflexivity.
  - apply IH; [|exact H]. intros X. apply N. right. exact X.
Qed.
Lemma tokens_line raw s ts : line_shape raw -> tokens [lf] s ts -> tokens [lf] (raw ++ s) (Line raw :: ts).
Proof.
  intros (c & body & -> & Sc & N) H. cbn [app]. rewrite <- app_assoc.
  eapply tok_line; [exact Sc|apply shape_first_line; assumption|exists body; reflexivity|exact H].
Qed.
Lemma tokens_interleave gaps lines s ts :
  length gaps = length lines -> Forall (fun g => ~ In dollar g) gaps -> Forall line_shape lines ->
  tokens [lf] s ts -> tokens [lf] (interleave gaps lines ++ s) (map Line lines ++ ts).
Proof.
  revert lines. induction gaps as [|g gs IH]; intros [|l ls] L G F H; cbn in L; try discriminate; [exact H|].
  inversion G; inversion F; subst. cbn [interleave map app]. rewrite <- !app_assoc.
  apply tokens_gap; [assumption|]. apply tokens_line; [assumption|]. apply IH; [lia|assumption..].
Qed.
Lemma tokens_gap_end t gap : ~ In dollar gap -> tokens t gap [].
Proof. intros N. rewrite <- (app_nil_r gap). apply tokens_gap; [exact N|constructor]. Qed.

Definition parses (cfg : rcfg) (raw : bytes) (m : option msg) : Prop :=
  parse (MBytes raw) (r_mode cfg) (r_validate cfg) (r_userdefined cfg) = Ok m.

Lemma happens_lines cfg lines ms ts hs :
  Forall2 (parses cfg) lines ms -> happens cfg ts hs ->
  happens cfg (map Line lines ++ ts) (map (fun p => Item (fst p) (snd p)) (combine lines ms) ++ hs).
Proof. intros F H. induction F; [exact H|]. cbn. apply hap_item; assumption. Qed.

Lemma run_items cfg items hs :
  run cfg (map (fun p => Item (fst p) (snd p)) items ++ hs)
  = let '(l, x, ev, r) := run cfg hs in (items ++ l, x, ev, r).
Proof.
  induction items as [|[raw m] items IH]; [cbn; destruct (run cfg hs) as [[[? ?] ?] ?]; reflexivity|].
  cbn [map app run fst snd]. rewrite IH. destruct (run cfg hs) as [[[? ?] ?] ?]. reflexivity.
Qed.

Theorem C27_all_delivered cfg n fuel gaps lines ms tail :
  length gaps = length lines ->
  Forall (fun g => ~ In dollar g) gaps -> ~ In dollar tail ->
  Forall line_shape lines -> Forall2 (parses cfg) lines ms ->
  (length (interleave gaps lines ++ tail) < fuel)%nat -> (length (interleave gaps lines ++ tail) < n)%nat ->
  fiterate cfg n fuel (interleave gaps lines ++ tail) = Some (combine lines ms, None, [], []).
Proof.
  intros L G Tl F P L1 L2.
  pose proof (tokens_interleave gaps lines tail [] L G F (tokens_gap_end _ _ Tl)) as Tk.
  pose proof (happens_lines cfg lines ms [] [] P (hap_end cfg)) as Hp.
  destruct (fiterate_tokens cfg fuel n _ _ _ Tk Hp L1 L2) as (s' & ts' & l & x & ev & hs' & X1 & X2 & _ & _ & X3).
  rewrite run_items in X1. cbn in X1. rewrite app_nil_r in X1. injection X1 as <- <- <- <-.
  rewrite X2, (X3 eq_refl). reflexivity.
Qed.
Example C27_example :
  line_shape ex_line /\ ~ In dollar (u "xyz") /\ exists m, parses (ex_cfg 1) ex_line (Some m).
Proof.
  split; [|split].
  - exists 71%N, (removelast (skipn 2 ex_line)). split; [vm_compute; reflexivity|]. split.
    + apply hdr_second_iff. vm_compute. reflexivity.
    + vm_compute. intuition discriminate.
  - vm_compute. intuition discriminate.
  - eexists. vm_compute. reflexivity.
Qed.

(* ------------------------------------------------------------------ C29 *)
Section Policy.
Variables (cfg : rcfg) (n fuel : nat) (s : bytes) (ts : list token) (hs : list happening).
Hypothesis Tk : tokens [lf] s ts.
Hypothesis Hp : happens cfg ts hs.
Hypothesis L1 : (length s < fuel)%nat.
Hypothesis L2 : (length s < n)%nat.

Theorem C29_ignore : r_quit cfg = ERR_IGNORE ->
  exists rest, fiterate cfg n fuel s = Some (fst (policy_ignore hs), snd (policy_ignore hs), [], rest).
Proof using Tk Hp L1 L2.
  intros Q. destruct (fiterate_tokens cfg fuel n s ts hs Tk Hp L1 L2) as (s' & ts' & l & x & ev & hs' & X1 & X2 & _).
  destruct (run_ignore cfg hs Q) as (r & R). rewrite R in X1. injection X1 as <- <- <- <-. exists s'. exact X2.
Qed.
(* with a handler that may raise *)
Theorem C29_handler items x es : r_quit cfg = ERR_LOG -> policy_log (r_handler cfg) hs = (items, x, es) ->
  exists rest, fiterate cfg n fuel s = Some (items, x, map (passed (r_handler cfg)) es, rest).
Proof using Tk Hp L1 L2.
  intros Q P. destruct (fiterate_tokens cfg fuel n s ts hs Tk Hp L1 L2) as (s' & ts' & l & x1 & ev & hs' & X1 & X2 & _).
  destruct (run_log cfg hs Q) as (r & R). rewrite R, P in X1. injection X1 as <- <- <- <-. exists s'. exact X2.
Qed.
(* with a handler that returns, or none *)
Theorem C29_log : r_quit cfg = ERR_LOG -> handler_returns (r_handler cfg) ->
  exists rest, fiterate cfg n fuel s
   = Some (fst (policy_ignore hs), snd (policy_ignore hs), map (passed (r_handler cfg)) (problems hs), rest).
Proof using Tk Hp L1 L2. intros Q Hr. apply C29_handler; [exact Q|apply policy_log_returns, Hr]. Qed.
Theorem C29_raise : r_quit cfg = ERR_RAISE ->
  exists rest, fiterate cfg n fuel s = Some (fst (policy_raise hs), snd (policy_raise hs), [], rest).
Proof using Tk Hp L1 L2.
  intros Q. destruct (fiterate_tokens cfg fuel n s ts hs Tk Hp L1 L2) as (s' & ts' & l & x & ev & hs' & X1 & X2 & _).
  destruct (run_raise cfg hs Q) as (r & R). rewrite R in X1. injection X1 as <- <- <- <-. exists s'. exact X2.
Qed.
End Policy.

(* every stream has a history, and only one *)
Theorem C29_history cfg s :
  exists ts hs, tokens [lf] s ts /\ happens cfg ts hs
    /\ forall ts' hs', tokens [lf] s ts' -> happens cfg ts' hs' -> ts' = ts /\ hs' = hs.
Proof.
  destruct (tokens_total [lf] s lf_nonnil) as (ts & Tk). destruct (happens_total cfg ts) as (hs & Hp).
  exists ts, hs. split; [exact Tk|]. split; [exact Hp|]. intros ts' hs' Tk' Hp'.
  pose proof (tokens_functional [lf] s _ _ lf_nonnil Tk Tk') as <-. split; [reflexivity|].
  symmetry. exact (happens_functional _ _ _ _ Hp Hp').
Qed.
Lemma happens_crash cfg ts hs : happens cfg ts hs -> forall e, In (Crash e) hs -> ~ protocol_error e.
Proof.
  induction 1 as [|raw m ts hs P Hp IH|raw e ts hs P X Hp IH|raw e ts hs P X Hp IH|c ts hs O Hp IH|c ts hs O Hp IH|ts hs Hp IH]; intros e' I.
  - destruct I.
  - destruct I as [I|I]; [discriminate|apply IH, I].
  - destruct I as [I|I]; [discriminate|apply IH, I].
  - destruct I as [I|I]; [injection I as <-; exact X|apply IH, I].
  - destruct I as [I|I]; [discriminate|apply IH, I].
  - apply IH, I.
  - destruct I as [I|I]; [discriminate|apply IH, I].
Qed.
Lemma policy_ignore_crash hs e : snd (policy_ignore hs) = Some e -> In (Crash e) hs.
Proof.
  induction hs as [|h hs IH]; [discriminate|]. destruct h as [raw m|e'|e']; cbn.
  - destruct (policy_ignore hs). auto.
  - auto.
  - intros H. injection H as <-. auto.
Qed.
(* no protocol error escapes under ignore and log *)
Theorem C29_no_escape cfg n fuel s items e ev rest :
  r_quit cfg = ERR_IGNORE \/ (r_quit cfg = ERR_LOG /\ handler_returns (r_handler cfg)) ->
  (length s < fuel)%nat -> (length s < n)%nat ->
  fiterate cfg n fuel s = Some (items, Some e, ev, rest) -> ~ protocol_error e.
Proof.
  intros Q L1 L2 H. destruct (C29_history cfg s) as (ts & hs & Tk & Hp & _).
  apply (happens_crash cfg ts hs Hp), policy_ignore_crash.
  destruct Q as [Q|[Q Hr]].
  - destruct (C29_ignore cfg n fuel s ts hs Tk Hp L1 L2 Q) as (r & E). congruence.
  - destruct (C29_log cfg n fuel s ts hs Tk Hp L1 L2 Q Hr) as (r & E). congruence.
Qed.
(* which errors a line can lead to that are not protocol errors *)
Theorem C29_escapes cfg n fuel s items e ev rest :
  r_quit cfg = ERR_IGNORE \/ (r_quit cfg = ERR_LOG /\ handler_returns (r_handler cfg)) ->
  (length s < fuel)%nat -> (length s < n)%nat ->
  fiterate cfg n fuel s = Some (items, Some e, ev, rest) -> e = IndexError \/ e = ZeroDivisionError.
Proof.
  intros Q L1 L2 H. destruct (C29_history cfg s) as (ts & hs & Tk & Hp & _).
  assert (In (Crash e) hs) as I.
  { apply policy_ignore_crash. destruct Q as [Q|[Q Hr]].
    - destruct (C29_ignore cfg n fuel s ts hs Tk Hp L1 L2 Q) as (r & E). congruence.
    - destruct (C29_log cfg n fuel s ts hs Tk Hp L1 L2 Q Hr) as (r & E). congruence. }
  clear H Tk L1 L2. induction Hp as [|raw m ts hs P Hp IH|raw e' ts hs P X Hp IH|raw e' ts hs P X Hp IH|c ts hs O Hp IH|c ts hs O Hp IH|ts hs Hp IH].
  - destruct I.
  - destruct I as [I|I]; [discriminate|apply IH, I].
  - destruct I as [I|I]; [discriminate|apply IH, I].
  - destruct I as [I|I]; [|apply IH, I]. injection I as ->.
    apply C07_exceptions in P as [->|[->|[[-> _]|[-> _]]]]; auto; exfalso; apply X; unfold protocol_error; auto.
  - destruct I as [I|I]; [discriminate|apply IH, I].
  - apply IH, I.
  - destruct I as [I|I]; [discriminate|apply IH, I].
Qed.
(* ignore and log deliver the same *)
Definition with_quit (q : Z) (cfg : rcfg) : rcfg :=
  mkrcfg (r_mode cfg) (r_validate cfg) (r_nmeaonly cfg) q (r_handler cfg) (r_userdefined cfg).
Lemma happens_quit q cfg ts hs : happens cfg ts hs -> happens (with_quit q cfg) ts hs.
Proof. induction 1; try (constructor; assumption). Qed.
Theorem C29_same cfg n fuel s :
  handler_returns (r_handler cfg) -> (length s < fuel)%nat -> (length s < n)%nat ->
  exists items x ev rest rest',
    fiterate (with_quit ERR_IGNORE cfg) n fuel s = Some (items, x, [], rest)
    /\ fiterate (with_quit ERR_LOG cfg) n fuel s = Some (items, x, ev, rest').
Proof.
  intros Hr L1 L2. destruct (C29_history cfg s) as (ts & hs & Tk & Hp & _).
  destruct (C29_ignore (with_quit ERR_IGNORE cfg) n fuel s ts hs Tk (happens_quit _ _ _ _ Hp) L1 L2 eq_refl) as (r & E).
  destruct (C29_log (with_quit ERR_LOG cfg) n fuel s ts hs Tk (happens_quit _ _ _ _ Hp) L1 L2 eq_refl Hr) as (r' & E').
  do 5 eexists. split; [exact E|exact E'].
Qed.
(* any other value of quitonerror behaves as ERR_IGNORE *)
Theorem C29_other_values cfg n fuel s q :
  q <> ERR_LOG -> q <> ERR_RAISE ->
  fiterate (with_quit q cfg) n fuel s = fiterate (with_quit ERR_IGNORE cfg) n fuel s.
Proof.
  intros Q1 Q2.
  assert (forall e, do_error (with_quit q cfg) e = do_error (with_quit ERR_IGNORE cfg) e) as D.
  { intros e. unfold do_error. cbn [r_quit with_quit]. change (ERR_IGNORE =? 0) with true. cbn [negb].
    destruct (q =? 0); [reflexivity|]. apply Z.eqb_neq in Q1, Q2. rewrite Q1, Q2. reflexivity. }
  assert (forall s, fread (with_quit q cfg) fuel s = fread (with_quit ERR_IGNORE cfg) fuel s) as F.
  { unfold fread. induction fuel as [|f IH]; intros s'; [reflexivity|]. cbn [read].
    change (pass file file_read1 file_readline (with_quit q cfg) s') with (pass file file_read1 file_readline (with_quit ERR_IGNORE cfg) s').
    destruct (pass _ _ _ _ s') as [[[[raw m]|]|e] s1]; [reflexivity|apply IH|]. rewrite D, IH. reflexivity. }
  unfold fiterate. revert s. induction n as [|k IH]; intros s; [reflexivity|]. cbn [iterate].
  unfold fread in F. rewrite F. destruct (read _ _ _ _ fuel s) as [[[[raw m| |e] ev] s1]|]; try reflexivity. rewrite IH. reflexivity.
Qed.
Lemma ex_history : exists m, tokens [lf] ex_stream [Line ex_line; Line ex_bad; Line ex_line; Cut]
  /\ happens (ex_cfg 1) [Line ex_line; Line ex_bad; Line ex_line; Cut]
       [Item ex_line (Some m); Problem NMEAParseError; Item ex_line (Some m); Problem NMEAStreamError].
Proof.
  assert (line_shape ex_line) as Sl by apply C27_example.
  assert (line_shape ex_bad) as Sb.
  { exists 71%N, (removelast (skipn 2 ex_bad)). split; [vm_compute; reflexivity|]. split.
    - apply hdr_second_iff. vm_compute. reflexivity.
    - vm_compute. intuition discriminate. }
  assert (tokens [lf] (u "$GNGL") [Cut]) as T0.
  { eapply (tok_cut [lf] 71%N (u "NGL") (u "NGL") []).
    - apply hdr_second_iff. vm_compute. reflexivity.
    - split; [reflexivity|]. right. split; [reflexivity|]. intros (a & b & E).
      assert (In lf (u "NGL")) as I by (rewrite E, !in_app_iff; cbn; auto). vm_compute in I. intuition discriminate.
    - discriminate.
    - intros (b & E). assert (In lf (u "NGL")) as I by (rewrite E, !in_app_iff; cbn; auto). vm_compute in I. intuition discriminate.
    - constructor. }
  assert (tokens [lf] ex_stream [Line ex_line; Line ex_bad; Line ex_line; Cut]) as T1.
  { apply tokens_gap; [vm_compute; intuition discriminate|]. apply tokens_line; [exact Sl|].
    apply tokens_gap; [vm_compute; intuition discriminate|]. apply tokens_line; [exact Sb|].
    apply tokens_line; [exact Sl|exact T0]. }
  destruct C33_example as (m & Pm & _).
  assert (happens (ex_cfg 1) [Line ex_line; Line ex_bad; Line ex_line; Cut]
           [Item ex_line (Some m); Problem NMEAParseError; Item ex_line (Some m); Problem NMEAStreamError]) as H1.
  { apply hap_item; [exact Pm|]. apply hap_error; [vm_compute; reflexivity|unfold protocol_error; auto|].
    apply hap_item; [exact Pm|]. apply hap_cut, hap_end. }
  exists m. split; [exact T1|exact H1].
Qed.
Example C29_example :
  (exists ts hs, tokens [lf] ex_stream ts /\ happens (ex_cfg 1) ts hs /\ length hs = 4%nat)
  /\ (match fiterate (ex_cfg 2) 300 300 ex_stream with Some (l, x, ev, _) => (length l, x, ev) | None => (0%nat, None, []) end)
     = (1%nat, Some NMEAParseError, []).
Proof.
  split; [|vm_compute; reflexivity].
  destruct (C29_history (ex_cfg 1) ex_stream) as (ts & hs & Tk & Hp & U). exists ts, hs. split; [exact Tk|]. split; [exact Hp|].
  destruct ex_history as (m & T1 & H1). destruct (U _ _ T1 H1) as [_ <-]. reflexivity.
Qed.

(* ------------------------------------------------------------------ C30 *)
(* [p] consists of complete lines and data without "$" *)
Definition whole (p : bytes) : Prop :=
  exists gaps lines tail, length gaps = length lines /\ p = interleave gaps lines ++ tail
    /\ Forall (fun g => ~ In dollar g) gaps /\ Forall line_shape lines /\ ~ In dollar tail.

Lemma tokens_whole p : whole p -> exists lines, forall s ts, tokens [lf] s ts -> tokens [lf] (p ++ s) (map Line lines ++ ts).
Proof.
  intros (gaps & lines & tail & L & -> & G & F & N). exists lines. intros s ts H. rewrite <- app_assoc.
  apply tokens_interleave; try assumption. apply tokens_gap; assumption.
Qed.
Lemma happens_app cfg a b hs : happens cfg (a ++ b) hs ->
  exists ha hb, happens cfg a ha /\ happens cfg b hb /\ hs = ha ++ hb.
Proof.
  revert hs. induction a as [|x a IH]; intros hs H; [exists [], hs; split; [constructor|auto]|].
  cbn in H. inversion H; subst;
    match goal with K : happens cfg (a ++ b) _ |- _ => destruct (IH _ K) as (ha & hb & A & B & ->) end;
    do 2 eexists; (split; [|split; [exact B|]]); [econstructor; eassumption| |econstructor; eassumption| |econstructor; eassumption| |econstructor; eassumption| |eapply hap_skip; eassumption| |econstructor; eassumption|]; reflexivity.
Qed.
Lemma happens_app_intro cfg a b ha hb : happens cfg a ha -> happens cfg b hb -> happens cfg (a ++ b) (ha ++ hb).
Proof. intros A B. induction A; cbn; try (econstructor; eassumption); try exact B. Qed.
Lemma policy_ignore_problem ha e hb : policy_ignore (ha ++ Problem e :: hb) = policy_ignore (ha ++ hb).
Proof. induction ha as [|[raw m|e'|e'] ha IH]; cbn; try rewrite IH; reflexivity. Qed.

(* a bad line leaves no trace in what is delivered *)
Theorem C30_resync cfg n fuel p raw rest e :
  whole p -> line_shape raw ->
  parse (MBytes raw) (r_mode cfg) (r_validate cfg) (r_userdefined cfg) = Raise e -> protocol_error e ->
  r_quit cfg = ERR_IGNORE \/ (r_quit cfg = ERR_LOG /\ handler_returns (r_handler cfg)) ->
  (length (p ++ raw ++ rest) < fuel)%nat -> (length (p ++ raw ++ rest) < n)%nat ->
  exists items x ev ev' r r',
    fiterate cfg n fuel (p ++ raw ++ rest) = Some (items, x, ev, r)
    /\ fiterate cfg n fuel (p ++ rest) = Some (items, x, ev', r').
Proof.
  intros W Ls P Pe Q L1 L2.
  destruct (tokens_whole p W) as (lines & TW).
  destruct (tokens_total [lf] rest lf_nonnil) as (ts & Tk).
  destruct (happens_total cfg (map Line lines)) as (ha & Ha). destruct (happens_total cfg ts) as (hb & Hb).
  pose proof (TW _ _ Tk) as T2. pose proof (TW _ _ (tokens_line raw rest ts Ls Tk)) as T1.
  pose proof (happens_app_intro _ _ _ _ _ Ha Hb) as H2.
  pose proof (happens_app_intro _ _ _ _ _ Ha (hap_error cfg raw e ts hb P Pe Hb)) as H1.
  assert (length (p ++ rest) < fuel)%nat as L1' by (rewrite !app_length in *; lia).
  assert (length (p ++ rest) < n)%nat as L2' by (rewrite !app_length in *; lia).
  destruct Q as [Q|[Q Hr]].
  - destruct (C29_ignore _ _ _ _ _ _ T1 H1 L1 L2 Q) as (r1 & E1). destruct (C29_ignore _ _ _ _ _ _ T2 H2 L1' L2' Q) as (r2 & E2).
    rewrite policy_ignore_problem in E1. do 6 eexists. split; [exact E1|exact E2].
  - destruct (C29_log _ _ _ _ _ _ T1 H1 L1 L2 Q Hr) as (r1 & E1). destruct (C29_log _ _ _ _ _ _ T2 H2 L1' L2' Q Hr) as (r2 & E2).
    rewrite policy_ignore_problem in E1. do 6 eexists. split; [exact E1|exact E2].
Qed.
(* ERR_RAISE: the stream is left just after the bad line, so the next read() goes on there *)
Lemma fread_gap cfg fuel gap s : ~ In dollar gap ->
  fread cfg (length gap + fuel)%nat (gap ++ s) = fread cfg fuel s.
Proof.
  induction gap as [|b g IH]; intros N; [reflexivity|]. cbn [length app plus]. unfold fread in *. cbn [read].
  unfold pass, read_byte. cbn [file_read1 str_eqb].
  destruct (N.eqb_spec b c_dollar) as [->|X]; [exfalso; apply N; left; reflexivity|]. cbn [andb negb].
  apply IH. intros Y. apply N. right. exact Y.
Qed.
Lemma fread_fuel cfg f1 f2 s : (length s < f1)%nat -> (length s < f2)%nat -> fread cfg f1 s = fread cfg f2 s.
Proof. intros L1 L2. destruct (C28_read cfg f2 s L2) as (_ & _ & _ & _ & _ & _ & _ & H). apply H, L1. Qed.
Lemma line_pass cfg raw rest : line_shape raw ->
  pass file file_read1 file_readline cfg (raw ++ rest) =
  (match parse (MBytes raw) (r_mode cfg) (r_validate cfg) (r_userdefined cfg) with
   | Ok m => Ok (Some (raw, m)) | Raise e => Raise e end, rest).
Proof.
  intros (c & body & -> & Sc & N). unfold pass, read_byte, read_line. cbn [app file_read1 str_eqb].
  change (N.eqb dollar c_dollar) with true. cbn [andb negb]. apply hdr_second_iff in Sc. rewrite Sc.
  rewrite <- app_assoc. cbn [app].
  pose proof (file_readline_spec (body ++ lf :: rest)) as F.
  rewrite (proj2 (split_first_Some c_lf (body ++ lf :: rest) body rest) (conj eq_refl N)) in F. rewrite F.
  rewrite app_match, last_last. change (N.eqb c_lf c_lf) with true.
  cbn [app]. change (dollar :: c :: body ++ [lf]) with (c_dollar :: c :: body ++ [c_lf]).
  destruct (parse _ _ _ _); reflexivity.
Qed.
Theorem C30_raise cfg fuel gap raw rest e :
  ~ In dollar gap -> line_shape raw ->
  parse (MBytes raw) (r_mode cfg) (r_validate cfg) (r_userdefined cfg) = Raise e -> protocol_error e ->
  r_quit cfg = ERR_RAISE -> (length (gap ++ raw ++ rest) < fuel)%nat ->
  fread cfg fuel (gap ++ raw ++ rest) = Some (RRaise e, [], rest).
Proof.
  intros N Ls P Pe Q L. rewrite (fread_fuel cfg fuel (length gap + fuel) _ L) by lia. rewrite fread_gap by exact N.
  unfold fread. destruct fuel as [|f]; [lia|]. cbn [read]. rewrite line_pass by exact Ls. rewrite P.
  assert (e <> EOFError) as Ne by (intros ->; destruct Pe as [H|[H|[H|H]]]; discriminate).
  assert (forall X (a b : X), match e with EOFError => a | _ => b end = b) as M by (intros; destruct e; try reflexivity; contradiction).
  rewrite M. apply protocol_error_iff in Pe. rewrite Pe. unfold do_error. rewrite Q. reflexivity.
Qed.
Example C30_example : whole ex_line /\ parse (MBytes ex_bad) 0 1 [] = Raise NMEAParseError.
Proof.
  split; [|vm_compute; reflexivity]. exists [[]], [ex_line], []. split; [reflexivity|]. split; [vm_compute; reflexivity|].
  split; [constructor; [intros []|constructor]|]. split; [constructor; [apply C27_example|constructor]|intros []].
Qed.

(* ------------------------------------------------------------------ C31 *)
(* data without "$" is skipped silently, whatever nmeaonly says *)
Theorem C31_no_dollar cfg fuel gap s : ~ In dollar gap -> (length (gap ++ s) < fuel)%nat ->
  fread cfg fuel (gap ++ s) = fread cfg fuel s.
Proof.
  intros N L. rewrite (fread_fuel cfg fuel (length gap + fuel) _ L) by lia. apply fread_gap, N.
Qed.
Lemma other_pass cfg c s : ~ second c ->
  pass file file_read1 file_readline cfg (dollar :: c :: s)
  = (if r_nmeaonly cfg then Raise NMEAParseError else Ok None, s).
Proof.
  intros N. unfold pass, read_byte. cbn [file_read1 str_eqb]. change (N.eqb dollar c_dollar) with true. cbn [andb negb].
  destruct (hdr_second c) eqn:E; [exfalso; apply N, hdr_second_iff, E|]. destruct (r_nmeaonly cfg); reflexivity.
Qed.
Theorem C31_skipped cfg fuel c s : ~ second c -> r_nmeaonly cfg = false -> (S (S (length s)) < fuel)%nat ->
  fread cfg fuel (dollar :: c :: s) = fread cfg fuel s.
Proof.
  intros N O L. destruct fuel as [|f]; [lia|].
  transitivity (fread cfg f s).
  - unfold fread. cbn [read]. rewrite other_pass, O by exact N. reflexivity.
  - apply fread_fuel; lia.
Qed.
(* with nmeaonly "$" followed by an unknown byte is an error under the error policy *)
Theorem C31_raised cfg fuel c s : ~ second c -> r_nmeaonly cfg = true -> r_quit cfg = ERR_RAISE ->
  (S (S (length s)) < fuel)%nat ->
  fread cfg fuel (dollar :: c :: s) = Some (RRaise NMEAParseError, [], s).
Proof.
  intros N O Q L. destruct fuel as [|f]; [lia|]. unfold fread. cbn [read]. rewrite other_pass, O by exact N.
  cbn [is_nmea_error]. unfold do_error. rewrite Q. reflexivity.
Qed.
Theorem C31_reported cfg fuel c s : ~ second c -> r_nmeaonly cfg = true -> r_quit cfg = ERR_LOG -> handler_returns (r_handler cfg) ->
  (S (S (length s)) < fuel)%nat ->
  exists o ev rest, fread cfg fuel s = Some (o, ev, rest)
  /\ fread cfg fuel (dollar :: c :: s)
     = Some (o, passed (r_handler cfg) NMEAParseError :: ev, rest).
Proof.
  intros N O Q Hr L. destruct fuel as [|f]; [lia|].
  destruct (C28_read cfg (S f) s ltac:(lia)) as (o & ev & p & rest & E & _). exists o, ev, rest. split; [exact E|].
  rewrite (fread_fuel cfg (S f) f s ltac:(lia) ltac:(lia)) in E.
  unfold fread in *. cbn [read]. rewrite other_pass, O by exact N. cbn [is_nmea_error].
  rewrite do_error_log by exact Q.
  assert (match r_handler cfg with Some f => f NMEAParseError | None => None end = None) as ->
    by (destruct (r_handler cfg) as [h|]; [apply (Hr h _ eq_refl)|reflexivity]).
  rewrite E. reflexivity.
Qed.
(* so nmeaonly does not reject, say, UBX or RTCM3 data *)
Theorem C31_refuted :
  exists raw m rest, fread (mkrcfg 0 1 true 2 None []) 300
    ([181; 98; 1; 7; 0; 0]%N ++ [211; 0; 4]%N ++ ex_line) = Some (RMsg raw m, [], rest) /\ raw = ex_line.
Proof. do 3 eexists. split; [vm_compute; reflexivity|reflexivity]. Qed.
Example C31_example : ~ second 120%N.     (* "$x" *)
Proof. rewrite <- hdr_second_iff. vm_compute. discriminate. Qed.

(* ------------------------------------------------------------------ C32 *)
Lemma cut_pass cfg c body : second c -> body <> [] -> ~ In lf body ->
  pass file file_read1 file_readline cfg (dollar :: c :: body) = (Raise NMEAStreamError, []).
Proof.
  intros Sc Nb N. unfold pass, read_byte, read_line. cbn [file_read1 str_eqb]. change (N.eqb dollar c_dollar) with true. cbn [andb negb].
  apply hdr_second_iff in Sc. rewrite Sc. pose proof (file_readline_spec body) as F.
  rewrite (proj2 (split_first_None c_lf body) N) in F. rewrite F. destruct body as [|y b]; [contradiction|].
  assert (N.eqb (last (y :: b) 0%N) c_lf = false) as ->; [|reflexivity].
  apply N.eqb_neq. intros X. apply N.
  destruct (exists_last (l := y :: b) ltac:(discriminate)) as (p & q & E). rewrite E in *. rewrite last_last in X. subst q.
  apply in_app_iff. cbn. auto.
Qed.
Theorem C32_truncated cfg fuel gap c body :
  ~ In dollar gap -> second c -> body <> [] -> ~ In lf body ->
  (length (gap ++ dollar :: c :: body) < fuel)%nat ->
  fread cfg fuel (gap ++ dollar :: c :: body) =
  Some (if r_quit cfg =? ERR_RAISE then (RRaise NMEAStreamError, [], [])
        else if r_quit cfg =? ERR_LOG then
          (match r_handler cfg with Some h => match h NMEAStreamError with Some x => RRaise x | None => REnd end | None => REnd end,
           [passed (r_handler cfg) NMEAStreamError], [])
        else (REnd, [], [])).
Proof.
  intros N Sc Nb Nl L. rewrite (fread_fuel cfg fuel (length gap + fuel) _ L) by lia. rewrite fread_gap by exact N.
  destruct fuel as [|[|f]]; [lia|rewrite app_length in L; cbn in L; lia|].
  unfold fread. cbn [read]. rewrite cut_pass by assumption. cbn [is_nmea_error]. unfold do_error.
  destruct (Z.eqb_spec (r_quit cfg) 0) as [->|Q0]; [reflexivity|].
  destruct (Z.eqb_spec (r_quit cfg) ERR_RAISE) as [Q2|Q2]; [reflexivity|].
  destruct (Z.eqb_spec (r_quit cfg) ERR_LOG) as [Q1|Q1]; [destruct (r_handler cfg) as [h|]; [destruct (h NMEAStreamError)|]|]; reflexivity.
Qed.
(* end of stream between lines, after "$", or after a two-byte header: no error *)
Theorem C32_clean_end cfg fuel gap ending :
  ~ In dollar gap -> (ending = [] \/ ending = [dollar] \/ exists c, second c /\ ending = [dollar; c]) ->
  (length (gap ++ ending) < fuel)%nat ->
  fread cfg fuel (gap ++ ending) = Some (REnd, [], []).
Proof.
  intros N H L. rewrite (fread_fuel cfg fuel (length gap + fuel) _ L) by lia. rewrite fread_gap by exact N.
  destruct fuel as [|f]; [lia|]. destruct H as [->|[->|(c & Sc & ->)]]; [reflexivity|reflexivity|].
  unfold fread. cbn [read]. unfold pass, read_byte, read_line. cbn [file_read1 file_readline str_eqb].
  change (N.eqb dollar c_dollar) with true. cbn [andb negb]. apply hdr_second_iff in Sc. rewrite Sc. reflexivity.
Qed.
(* whatever is returned ends with a line feed: never part of a sentence *)
Theorem C32_complete cfg fuel s raw m ev rest :
  fread cfg fuel s = Some (RMsg raw m, ev, rest) -> exists body, raw = body ++ [lf].
Proof.
  intros H. destruct (C26_read _ _ _ _ _ _ _ H) as (gap & _ & c & body & -> & _). exists (dollar :: c :: body). reflexivity.
Qed.
Example C32_example : second 71%N /\ fread (ex_cfg 2) 20 (u "ab$GNGLL,1") = Some (RRaise NMEAStreamError, [], []).
Proof. split; [apply hdr_second_iff; vm_compute; reflexivity|vm_compute; reflexivity]. Qed.

(* a stray "$" just before a sentence hides it *)
Theorem C27_refuted :
  fiterate (ex_cfg 1) 100 100 (dollar :: ex_line) = Some ([], None, [], []).
Proof. vm_compute. reflexivity. Qed.
