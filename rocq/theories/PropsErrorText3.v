(* C111: what the texts of the exceptions say (the reader) *)
From Coq Require Import Lia.
From Verif Require Import Message Repr Reader ErrorText BaseLemmas TextLemmas NumLemmas Spec KeywordSpec ValueSpec ParseProofs
  ReaderSpec ReaderProofs ReprSpec CoordSpec CoordProofs PropsRepr PropsWrite PropsReader PropsErrorText PropsErrorText2.
Local Open Scope Z_scope.

(* ------------------------------------------------- the reader of the other properties, with the texts added *)
(* the same error handler, which is also told the text *)
Definition same_handler (h0 : option handler) (h : option (exc -> option pystr -> option (exc * option pystr))) : Prop :=
  match h0, h with
  | None, None => True
  | Some f, Some g => forall e t, option_map fst (g e t) = f e
  | _, _ => False
  end.
Definition outcome_of (o : outcome_t) : outcome := match o with TMsg raw m => RMsg raw m | TEnd => REnd | TStop e _ => RRaise e end.
Definition event_of (v : event_t) : event := match v with TvHandler e _ => EvHandler e | TvLog e _ => EvLog e end.

Section Faithful.
Variable S : Type.
Variable stream_read1 stream_readline : S -> result bytes * S.
Variable cfg : rcfg.
Variable hnd : option (exc -> option pystr -> option (exc * option pystr)).
Hypothesis M : Z.abs (r_mode cfg) < 10 ^ 4300.
Hypothesis H : same_handler (r_handler cfg) hnd.
Lemma forget_pass s :
  (forget (fst (pass_t S stream_read1 stream_readline cfg s)), snd (pass_t S stream_read1 stream_readline cfg s)) = pass S stream_read1 stream_readline cfg s.
Proof.
  unfold pass_t, pass. destruct (read_byte S stream_read1 s) as [[b1|e] s1]; [|reflexivity].
  destruct (negb (str_eqb b1 [c_dollar])); [reflexivity|]. destruct (read_byte S stream_read1 s1) as [[b2|e] s2]; [|reflexivity].
  destruct (match b2 with [x] => hdr_second x | _ => false end).
  - unfold read_line_t, read_line. destruct (stream_readline s2) as [[[|x l]|e] s3]; [reflexivity| |reflexivity].
    destruct (N.eqb _ c_lf); [|reflexivity].
    rewrite <- (C111_faithful (MBytes (b1 ++ b2 ++ x :: l)) (r_mode cfg) (r_validate cfg) (r_userdefined cfg) M).
    destruct (parse_t _ _ _ _); reflexivity.
  - destruct (r_nmeaonly cfg); reflexivity.
Qed.
Lemma forget_do_error e t : (option_map fst (fst (do_error_t cfg hnd e t)), map event_of (snd (do_error_t cfg hnd e t))) = do_error cfg e.
Proof.
  unfold do_error_t, do_error. destruct (r_quit cfg =? 0); [reflexivity|]. destruct (r_quit cfg =? ERR_RAISE); [reflexivity|].
  destruct (r_quit cfg =? ERR_LOG); [|reflexivity]. unfold same_handler in H. destruct (r_handler cfg) as [f|], hnd as [g|]; try destruct H; [|reflexivity].
  cbn. rewrite H. reflexivity.
Qed.
Definition read_of (r : option (outcome_t * list event_t * S)) : option (outcome * list event * S) :=
  match r with Some (o, ev, s) => Some (outcome_of o, map event_of ev, s) | None => None end.
Theorem faithful_read fuel : forall s,
  read_of (read_t S stream_read1 stream_readline cfg hnd fuel s) = read S stream_read1 stream_readline cfg fuel s.
Proof.
  induction fuel as [|f IH]; intros s; [reflexivity|]. cbn [read_t read]. rewrite <- forget_pass.
  destruct (pass_t S stream_read1 stream_readline cfg s) as [[[[raw m]|]|e t] s1]; cbn [fst snd forget]; [reflexivity|apply IH|].
  assert (e = EOFError \/ forall X (a b : X), match e with EOFError => a | _ => b end = b) as [->|Q] by (destruct e; auto); [reflexivity|].
  rewrite !Q. destruct (is_nmea_error e); [|reflexivity]. rewrite <- (forget_do_error e t).
  destruct (do_error_t cfg hnd e t) as [[[e' t']|] ev]; cbn [fst snd option_map]; [reflexivity|]. rewrite <- IH.
  destruct (read_t S stream_read1 stream_readline cfg hnd f s1) as [[[o ev'] s2]|]; [|reflexivity]. cbn [read_of]. rewrite map_app. reflexivity.
Qed.
Definition iterate_of (r : option (list (bytes * option msg) * option (exc * option pystr) * list event_t * S)) :
  option (list (bytes * option msg) * option exc * list event * S) :=
  match r with Some (l, x, ev, s) => Some (l, option_map fst x, map event_of ev, s) | None => None end.
Theorem C111_faithful_reader n fuel : forall s,
  iterate_of (iterate_t S stream_read1 stream_readline cfg hnd n fuel s) = iterate S stream_read1 stream_readline cfg n fuel s.
Proof.
  induction n as [|n IH]; intros s; [reflexivity|]. cbn [iterate_t iterate]. rewrite <- faithful_read.
  destruct (read_t S stream_read1 stream_readline cfg hnd fuel s) as [[[[raw m| |e t] ev] s1]|]; [|reflexivity|reflexivity|reflexivity].
  cbn [read_of outcome_of]. rewrite <- IH. destruct (iterate_t S stream_read1 stream_readline cfg hnd n fuel s1) as [[[[l x] ev'] s2]|]; [|reflexivity].
  cbn [iterate_of]. rewrite map_app. reflexivity.
Qed.
End Faithful.

(* ------------------------------------------------- what can be wrong at a "$", and its text *)
(* [trouble cfg s rest e t]: at the head of [s] there is an error [e] with text [t]; reading goes on at [rest] *)
Inductive trouble (cfg : rcfg) : bytes -> bytes -> exc -> option pystr -> Prop :=
| bad_line raw rest e t :
    line_shape raw -> parse_t (MBytes raw) (r_mode cfg) (r_validate cfg) (r_userdefined cfg) = TRaise e t -> protocol_error e ->
    trouble cfg (raw ++ rest) rest e t
| bad_header c rest :
    r_nmeaonly cfg = true -> ~ second c ->
    trouble cfg (dollar :: c :: rest) rest NMEAParseError (Some (u "Unknown protocol header " ++ repr_bytes [dollar; c] ++ u "."))
| cut_off c l n :
    second c -> l <> [] -> ~ In lf l -> integer_text (Z.of_nat (length l)) n ->
    trouble cfg (dollar :: c :: l) [] NMEAStreamError
      (Some (u "Serial stream terminated unexpectedly. Line requested, " ++ n ++ u " bytes returned.")).
(* repr() of bytes: a literal that denotes them *)
Theorem C111_literal b : Forall (fun c => (c < 256)%N) b -> exists lit, repr_bytes b = u "b" ++ lit /\ string_literal lit b [].
Proof. exact (repr_bytes_read b). Qed.

Lemma line_pass_t cfg raw rest : line_shape raw ->
  pass_t file file_read1 file_readline cfg (raw ++ rest) =
  (match parse_t (MBytes raw) (r_mode cfg) (r_validate cfg) (r_userdefined cfg) with
   | TOk m => TOk (Some (raw, m)) | TRaise e t => TRaise e t end, rest).
Proof.
  intros (c & body & -> & Sc & N). unfold pass_t, read_byte, read_line_t. cbn [app file_read1 str_eqb].
  change (N.eqb dollar c_dollar) with true. cbn [andb negb]. apply hdr_second_iff in Sc. rewrite Sc.
  rewrite <- app_assoc. cbn [app].
  pose proof (file_readline_spec (body ++ lf :: rest)) as F.
  rewrite (proj2 (split_first_Some c_lf (body ++ lf :: rest) body rest) (conj eq_refl N)) in F. rewrite F.
  rewrite app_match, last_last. change (N.eqb c_lf c_lf) with true.
  cbn [app]. change (dollar :: c :: body ++ [lf]) with (c_dollar :: c :: body ++ [c_lf]).
  destruct (parse_t _ _ _ _); reflexivity.
Qed.
Lemma nat_text n : integer_text (Z.of_nat n) (dec_of_N (N.of_nat n)).
Proof.
  exists (dec_of_N (N.of_nat n)). replace (Z.abs_N (Z.of_nat n)) with (N.of_nat n) by lia.
  split; [apply dec_of_N_ascii|]. split; [apply dec_of_N_nonempty|].
  destruct (N_digits_canon 10 (N.of_nat n)) as (C1 & C2 & C3 & C4 & C5); [lia|]. split; [|split].
  - unfold dec_of_N, number. rewrite number_acc_digits; [rewrite C1; lia|]. eapply Forall_impl; [|exact C2]. intros a A. exact A.
  - unfold dec_of_N. intros H. destruct (N.eq_dec (N.of_nat n) 0) as [Z0|Z0]; [rewrite (C5 Z0); reflexivity|].
    specialize (C4 Z0). destruct (N_digits 10 (N.of_nat n)) as [|d l]; [congruence|]. cbn [map hd] in H, C4. unfold dec_char in H. lia.
  - replace (Z.of_nat n <? 0) with false by (symmetry; apply Z.ltb_ge; lia). reflexivity.
Qed.
Lemma trouble_pass cfg s rest e t : trouble cfg s rest e t ->
  pass_t file file_read1 file_readline cfg s = (TRaise e t, rest) /\ protocol_error e /\ (length rest < length s)%nat.
Proof.
  intros [raw rest' e' t' L P Pe|c rest' O N|c l n Sc Ne N I0].
  - rewrite line_pass_t, P by exact L. split; [reflexivity|]. split; [exact Pe|]. destruct L as (c & body & -> & _). cbn. rewrite !app_length. lia.
  - split; [|split; [right; right; left; reflexivity|cbn; lia]]. unfold pass_t, read_byte. cbn [file_read1 str_eqb]. change (N.eqb dollar c_dollar) with true. cbn [andb negb].
    destruct (hdr_second c) eqn:E; [exfalso; apply N, hdr_second_iff, E|]. rewrite O. reflexivity.
  - split; [|split; [right; right; right; reflexivity|cbn; lia]]. unfold pass_t, read_byte, read_line_t. cbn [file_read1 str_eqb]. change (N.eqb dollar c_dollar) with true.
    cbn [andb negb]. apply hdr_second_iff in Sc. rewrite Sc. pose proof (file_readline_spec l) as F.
    rewrite (proj2 (split_first_None c_lf l) N) in F. rewrite F. destruct l as [|b l]; [contradiction Ne; reflexivity|].
    assert (N.eqb (last (b :: l) 0%N) c_lf = false) as ->.
    { apply N.eqb_neq. intros X. apply N. destruct (exists_last (l := b :: l) ltac:(discriminate)) as (p & q & E). rewrite E in *. rewrite last_last in X. subst q.
      apply in_app_iff. right. left. reflexivity. }
    replace (dec_of_N (N.of_nat (length (b :: l)))) with n; [reflexivity|]. eapply integer_text_unique; [exact I0|apply nat_text].
Qed.

Lemma fread_t_gap cfg h fuel gap s : ~ In dollar gap -> fread_t cfg h (length gap + fuel)%nat (gap ++ s) = fread_t cfg h fuel s.
Proof.
  induction gap as [|b g IH]; intros N; [reflexivity|]. cbn [length app plus]. unfold fread_t in *. cbn [read_t].
  unfold pass_t, read_byte. cbn [file_read1 str_eqb].
  destruct (N.eqb_spec b c_dollar) as [->|X]; [exfalso; apply N; left; reflexivity|]. cbn [andb negb].
  apply IH. intros Y. apply N. right. exact Y.
Qed.
Lemma read_t_mono cfg h f1 : forall f2 s r, fread_t cfg h f1 s = Some r -> (f1 <= f2)%nat -> fread_t cfg h f2 s = Some r.
Proof.
  unfold fread_t. induction f1 as [|f1 IH]; intros f2 s r E L; [discriminate E|]. destruct f2 as [|f2]; [lia|]. cbn [read_t] in *.
  destruct (pass_t file file_read1 file_readline cfg s) as [[[[raw m]|]|e t] s1]; [exact E|apply (IH f2); [exact E|lia]|].
  assert (e = EOFError \/ forall X (a b : X), match e with EOFError => a | _ => b end = b) as [->|Q] by (destruct e; auto); [exact E|].
  rewrite Q in *. destruct (is_nmea_error e); [|exact E]. destruct (do_error_t cfg h e t) as [[[e' t']|] ev]; [exact E|].
  destruct (read_t _ _ _ _ _ f1 s1) as [[[o ev'] s2]|] eqn:E1; [|discriminate E]. rewrite (IH f2 _ _ E1) by lia. exact E.
Qed.
Lemma pass_t_shorter cfg s r s1 : pass_t file file_read1 file_readline cfg s = (r, s1) ->
  (exists t, r = TRaise EOFError t) \/ (length s1 < length s)%nat.
Proof.
  unfold pass_t, read_byte. destruct s as [|b s]; [intros E; injection E as <- <-; left; eexists; reflexivity|]. cbn [file_read1].
  destruct (negb _); [intros E; injection E as <- <-; right; cbn; lia|].
  destruct s as [|c s]; [intros E; injection E as <- <-; left; eexists; reflexivity|]. cbn [file_read1].
  destruct (hdr_second c).
  - unfold read_line_t, file_readline. assert (length (snd (cut_line s)) <= length s)%nat as L.
    { clear. induction s as [|b s IH]; cbn [cut_line]; [cbn; lia|]. destruct (N.eqb b c_lf); [cbn; lia|]. destruct (cut_line s). cbn in *. lia. }
    destruct (cut_line s) as [l s2]. cbn [snd] in L. destruct l as [|x l]; [intros E; injection E as <- <-; right; cbn; lia|].
    destruct (N.eqb _ c_lf); [|intros E; injection E as <- <-; right; cbn; lia].
    destruct (parse_t _ _ _ _); intros E; injection E as <- <-; right; cbn; lia.
  - destruct (r_nmeaonly cfg); intros E; injection E as <- <-; right; cbn; lia.
Qed.
Lemma fread_t_total cfg h : forall fuel s, (length s < fuel)%nat -> exists r, fread_t cfg h fuel s = Some r.
Proof.
  unfold fread_t. induction fuel as [|f IH]; intros s L; [lia|]. cbn [read_t].
  destruct (pass_t file file_read1 file_readline cfg s) as [r s1] eqn:P. apply pass_t_shorter in P.
  destruct r as [[[raw m]|]|e t]; [eexists; reflexivity| |].
  - destruct P as [[t X]|P]; [discriminate X|]. apply IH. lia.
  - assert (e = EOFError \/ forall X (a b : X), match e with EOFError => a | _ => b end = b) as [->|Q] by (destruct e; auto); [eexists; reflexivity|].
    rewrite Q. destruct P as [[t' X]|P]; [injection X as -> _; specialize (Q bool true false); discriminate Q|]. destruct (is_nmea_error e); [|eexists; reflexivity].
    destruct (do_error_t cfg h e t) as [[[e' t']|] ev]; [eexists; reflexivity|]. destruct (IH s1 ltac:(lia)) as ([[o ev'] s2] & ->). eexists. reflexivity.
Qed.
Lemma fread_t_fuel cfg h f1 f2 s : (length s < f1)%nat -> (length s < f2)%nat -> fread_t cfg h f1 s = fread_t cfg h f2 s.
Proof.
  intros L1 L2. destruct (fread_t_total cfg h f1 s L1) as (r & E). rewrite E. symmetry.
  destruct (fread_t_total cfg h f2 s L2) as (r2 & E2). rewrite E2. apply (read_t_mono cfg h f1 (f1 + f2)) in E; [|lia].
  apply (read_t_mono cfg h f2 (f1 + f2)) in E2; [|lia]. congruence.
Qed.
Lemma trouble_read cfg h fuel gap s rest e t : trouble cfg s rest e t -> ~ In dollar gap -> (length (gap ++ s) < fuel)%nat ->
  fread_t cfg h fuel (gap ++ s) =
  let '(stop, ev) := do_error_t cfg h e t in
  match stop with
  | Some (e', t') => Some (TStop e' t', ev, rest)
  | None => match fread_t cfg h fuel rest with Some (o, ev', s2) => Some (o, ev ++ ev', s2) | None => None end
  end.
Proof.
  intros T G L. rewrite (fread_t_fuel cfg h fuel (length gap + fuel) _ L) by lia. rewrite fread_t_gap by exact G.
  destruct (trouble_pass _ _ _ _ _ T) as (P & Pe & Sh). rewrite app_length in L. destruct fuel as [|f]; [lia|].
  rewrite (fread_t_fuel cfg h (S f) f rest) by lia. unfold fread_t. cbn [read_t]. rewrite P.
  assert (e <> EOFError) as Ne by (intros ->; destruct Pe as [X|[X|[X|X]]]; discriminate X).
  assert (forall X (a b : X), match e with EOFError => a | _ => b end = b) as M by (intros; destruct e; try reflexivity; contradiction Ne; reflexivity).
  rewrite M. apply protocol_error_iff in Pe. rewrite Pe. reflexivity.
Qed.
(* quitonerror = ERR_RAISE: the next error of the stream is raised, with its text, and the stream is left behind it. *)
Theorem C111_reader_raise cfg h fuel gap s rest e t :
  ~ In dollar gap -> trouble cfg s rest e t -> r_quit cfg = ERR_RAISE -> (length (gap ++ s) < fuel)%nat ->
  fread_t cfg h fuel (gap ++ s) = Some (TStop e t, [], rest).
Proof. intros G T Q L. rewrite (trouble_read cfg h fuel gap s rest e t T G L). unfold do_error_t. rewrite Q. reflexivity. Qed.
(* quitonerror = ERR_LOG: the error handler, or the logger, is given the error with its text, once; then reading goes on. *)
Theorem C111_reader_log cfg h fuel gap s rest e t :
  ~ In dollar gap -> trouble cfg s rest e t -> r_quit cfg = ERR_LOG -> (length (gap ++ s) < fuel)%nat ->
  match h with Some f => f e t = None | None => True end ->
  exists o ev s', fread_t cfg h fuel rest = Some (o, ev, s')
    /\ fread_t cfg h fuel (gap ++ s) = Some (o, (match h with Some _ => TvHandler e t | None => TvLog e t end) :: ev, s').
Proof.
  intros G T Q L Hh. rewrite (trouble_read cfg h fuel gap s rest e t T G L). destruct (trouble_pass _ _ _ _ _ T) as (_ & _ & Sh). rewrite app_length in L.
  destruct (fread_t_total cfg h fuel rest ltac:(lia)) as ([[o ev] s'] & E). exists o, ev, s'. split; [exact E|].
  unfold do_error_t. rewrite Q, E. cbn. destruct h as [f|]; [rewrite Hh|]; reflexivity.
Qed.
(* A whole stream of lines: the good ones are delivered, the text of every bad one is reported, all in order. *)
Definition verdict (cfg : rcfg) (raw : bytes) : tres (option msg) := parse_t (MBytes raw) (r_mode cfg) (r_validate cfg) (r_userdefined cfg).
Fixpoint delivered (cfg : rcfg) (lines : list bytes) : list (bytes * option msg) :=
  match lines with [] => [] | raw :: r => match verdict cfg raw with TOk m => (raw, m) :: delivered cfg r | TRaise _ _ => delivered cfg r end end.
Fixpoint complaints (cfg : rcfg) (lines : list bytes) : list (exc * option pystr) :=
  match lines with [] => [] | raw :: r => match verdict cfg raw with TOk _ => complaints cfg r | TRaise e t => (e, t) :: complaints cfg r end end.
Theorem C111_reader_all cfg h n fuel gaps lines tail :
  length gaps = length lines -> Forall (fun g => ~ In dollar g) gaps -> ~ In dollar tail -> Forall line_shape lines ->
  Forall (fun raw => forall e t, verdict cfg raw = TRaise e t -> protocol_error e) lines ->
  r_quit cfg = ERR_LOG -> (forall e t, h e t = None) ->
  (length (interleave gaps lines ++ tail) < n)%nat -> (length (interleave gaps lines ++ tail) < fuel)%nat ->
  fiterate_t cfg (Some h) n fuel (interleave gaps lines ++ tail) =
  Some (delivered cfg lines, None, map (fun c => TvHandler (fst c) (snd c)) (complaints cfg lines), []).
Proof.
  intros Lg Fg Ft Fl Fe Q Hh. revert n gaps Lg Fg. induction lines as [|raw lines IH]; intros n gaps Lg Fg Ln Lf.
  - destruct gaps; [|discriminate Lg]. cbn [interleave app] in *. destruct n as [|n]; [lia|]. unfold fiterate_t. cbn [iterate_t].
    change (read_t file file_read1 file_readline cfg) with (fread_t cfg). rewrite (fread_t_fuel cfg _ fuel (length tail + fuel)) by lia.
    rewrite <- (app_nil_r tail) at 2. rewrite fread_t_gap by exact Ft. destruct fuel as [|f]; [lia|]. reflexivity.
  - destruct gaps as [|g gs]; [discriminate Lg|]. injection Lg as Lg. inversion Fg as [|? ? G Fg']; subst. inversion Fl as [|? ? Sh Fl']; subst.
    inversion Fe as [|? ? Pe Fe']; subst. specialize (IH Fl' Fe'). cbn [interleave] in *. rewrite <- !app_assoc in *.
    set (rest := interleave gs lines ++ tail) in *. assert (length rest < length (raw ++ rest))%nat as Sh2.
    { destruct Sh as (c & body & -> & _). cbn. rewrite !app_length. lia. }
    rewrite (app_length g) in Ln, Lf. destruct n as [|n]; [lia|]. cbn [delivered complaints]. destruct (verdict cfg raw) as [m|e t] eqn:V.
    + unfold fiterate_t. cbn [iterate_t]. change (read_t file file_read1 file_readline cfg) with (fread_t cfg).
      rewrite (fread_t_fuel cfg _ fuel (length g + fuel)) by (rewrite app_length; lia). rewrite fread_t_gap by exact G. destruct fuel as [|f]; [lia|].
      unfold fread_t at 1. cbn [read_t]. rewrite line_pass_t by exact Sh. unfold verdict in V. rewrite V.
      specialize (IH n gs Lg Fg' ltac:(unfold rest in *; lia) ltac:(unfold rest in *; lia)). fold rest in IH. unfold fiterate_t in IH. rewrite IH. reflexivity.
    + assert (trouble cfg (raw ++ rest) rest e t) as T by (constructor; [exact Sh|exact V|exact (Pe e t eq_refl)]).
      specialize (IH (S n) gs Lg Fg' ltac:(unfold rest in *; lia) ltac:(unfold rest in *; lia)). fold rest in IH. unfold fiterate_t in *. cbn [iterate_t] in *. change (read_t file file_read1 file_readline cfg) with (fread_t cfg) in *.
      rewrite (trouble_read cfg (Some h) fuel g (raw ++ rest) rest e t T G) by (rewrite app_length; lia).
      unfold do_error_t. rewrite Q, Hh. change (ERR_LOG =? 0) with false. change (ERR_LOG =? ERR_RAISE) with false. change (ERR_LOG =? ERR_LOG) with true. cbn match. destruct (fread_t cfg (Some h) fuel rest) as [[[o ev] s']|]; [|discriminate IH].
      cbn [app map fst snd]. destruct o as [raw' m'| |e' t'].
      * destruct (iterate_t _ _ _ _ _ n fuel s') as [[[[l x] ev'] s2]|]; [|discriminate IH]. injection IH as E0 E1 E2 E3. rewrite <- E0, E1, <- E2, E3. reflexivity.
      * injection IH as E1 E2 E3. rewrite <- E1, <- E2, E3. reflexivity.
      * discriminate IH.
Qed.

(* ------------------------------------------------------------- examples *)
Definition ex_h : exc -> option pystr -> option (exc * option pystr) := fun _ _ => None.
Definition ex_type : bytes := u "$GNGSA,A,x*65" ++ [cr; lf].
Definition ex_far : bytes := u "$GXGLL,1*45" ++ [cr; lf].
Definition ex_full : rcfg := mkrcfg 0 3 true 1 (Some (fun _ => None)) [].
Example C111_example :
  (exists m, fiterate_t ex_full (Some ex_h) 300 300 (u "ab" ++ ex_bad ++ ex_line ++ ex_type ++ ex_far ++ u "$x$GNGL") =
   Some ([(ex_line, Some m)], None,
     [TvHandler NMEAParseError (Some (u "Message GNGLL invalid checksum 69 - should be 68."));
      TvHandler NMEATypeError (Some (u "Incorrect type for attribute navMode in msgID GSA."));
      TvHandler NMEAParseError (Some (u "Unknown talker GX."));
      TvHandler NMEAParseError (Some (u "Unknown protocol header b'$x'."));
      TvHandler NMEAStreamError (Some (u "Serial stream terminated unexpectedly. Line requested, 3 bytes returned."))], []))
  /\ parse_t (MStr (u "GNGLL")) 0 3 [] = TRaise NMEAParseError (Some (u "Badly formed message GNGLL"))
  /\ parse_t (MBytes [255%N; 39%N; 10%N]) 0 3 [] = TRaise NMEAParseError (Some (u "Badly formed message b" ++ [34%N] ++ u "\xff'\n" ++ [34%N]))
  /\ parse_t (MStr []) (-7) 3 [] = TRaise NMEAParseError (Some (u "Invalid parse mode -7 - must be 0, 1 or 2."))
  /\ parse_t (MStr (u "$GNGLL,1*71")) 1 2 [] = TRaise NMEAParseError (Some (u "Unknown msgID GLL msgmode SET.")).
Proof.
  split; [eexists; vm_compute; reflexivity|]. split; [vm_compute; reflexivity|]. split; [vm_compute; reflexivity|].
  split; [vm_compute; reflexivity|vm_compute; reflexivity].
Qed.
