(* C77: exceptions that are raised by the stream object or by the error handler *)
From Coq Require Import Lia.
From Verif Require Import Message Reader Socket BaseLemmas TextLemmas Spec ReaderSpec ReaderProofs SocketSpec SocketProofs
  PropsReader PropsSocket PropsSession.
Local Open Scope Z_scope.

(* ------------------------------------------------- where it comes from *)
(* the states a stream object can be brought to by calls of its two methods *)
Inductive reaches {S} (read1 readline : S -> result bytes * S) : S -> S -> Prop :=
| reaches_here s : reaches read1 readline s s
| reaches_read s d s1 s2 : read1 s = (d, s1) -> reaches read1 readline s1 s2 -> reaches read1 readline s s2
| reaches_line s d s1 s2 : readline s = (d, s1) -> reaches read1 readline s1 s2 -> reaches read1 readline s s2.

Section Origin.
Variable S : Type.
Variables read1 readline : S -> result bytes * S.
Variable cfg : rcfg.

(* raised by the stream, by parse() on a line, or by the reader itself *)
Definition from_stream (s : S) (e : exc) (s' : S) : Prop :=
  exists s0, reaches read1 readline s s0 /\ (read1 s0 = (Raise e, s') \/ readline s0 = (Raise e, s')).
Definition from_parse (e : exc) : Prop :=
  exists raw, parse (MBytes raw) (r_mode cfg) (r_validate cfg) (r_userdefined cfg) = Raise e.

Lemma pass_origin s r s' : pass S read1 readline cfg s = (r, s') ->
  reaches read1 readline s s'
  /\ match r with
     | Ok _ => True
     | Raise e => from_stream s e s' \/ from_parse e \/ e = EOFError \/ protocol_error e
     end.
Proof.
  unfold pass, read_byte, read_line. destruct (read1 s) as [r1 s1] eqn:E1.
  assert (forall x, reaches read1 readline s1 x -> reaches read1 readline s x) as T1 by (intros x; apply (reaches_read _ _ _ _ _ _ E1)).
  assert (reaches read1 readline s s1) as R1 by (apply T1; constructor).
  destruct r1 as [d1|e1].
  2:{ intros H. injection H as <- <-. split; [exact R1|]. left. exists s. split; [constructor|auto]. }
  destruct d1 as [|b1 d1]; [intros H; injection H as <- <-; auto|].
  destruct (negb (str_eqb (b1 :: d1) [c_dollar])); [intros H; injection H as <- <-; auto|].
  destruct (read1 s1) as [r2 s2] eqn:E2.
  assert (forall x, reaches read1 readline s2 x -> reaches read1 readline s x) as T2 by (intros x Hx; apply T1, (reaches_read _ _ _ _ _ _ E2), Hx).
  assert (reaches read1 readline s s2) as R2 by (apply T2; constructor).
  destruct r2 as [d2|e2].
  2:{ intros H. injection H as <- <-. split; [exact R2|]. left. exists s1. auto. }
  destruct d2 as [|b2 d2]; [intros H; injection H as <- <-; auto|].
  destruct (match b2 :: d2 with [c] => hdr_second c | _ => false end).
  - destruct (readline s2) as [r3 s3] eqn:E3.
    assert (reaches read1 readline s s3) as R3 by (apply T2, (reaches_line _ _ _ _ _ _ E3); constructor).
    destruct r3 as [d3|e3].
    2:{ intros H. injection H as <- <-. split; [exact R3|]. left. exists s2. auto. }
    destruct d3 as [|b3 d3]; [intros H; injection H as <- <-; auto|].
    destruct (N.eqb (last (b3 :: d3) 0%N) c_lf).
    + destruct (parse _ _ _ _) as [m|e] eqn:P; intros H; injection H as <- <-; [auto|].
      split; [exact R3|]. right. left. eexists. exact P.
    + intros H. injection H as <- <-. split; [exact R3|]. right. right. right. unfold protocol_error. auto.
  - destruct (r_nmeaonly cfg); intros H; injection H as <- <-; [|auto].
    split; [exact R2|]. right. right. right. unfold protocol_error. auto.
Qed.

Lemma reaches_trans a b c : reaches read1 readline a b -> reaches read1 readline b c -> reaches read1 readline a c.
Proof. induction 1 as [|? ? ? ? E _ IH|? ? ? ? E _ IH]; intros H; [exact H|eapply reaches_read; eauto|eapply reaches_line; eauto]. Qed.

(* An exception out of read(), whatever the stream object: raised by the stream;
   or by parse() and not a protocol error; or the reaction to a protocol error -
   that error itself with ERR_RAISE, what the handler raised with ERR_LOG. *)
Theorem C77_origin fuel : forall s e ev s',
  read S read1 readline cfg fuel s = Some (RRaise e, ev, s') ->
  (from_stream s e s' /\ e <> EOFError /\ ~ protocol_error e)
  \/ (from_parse e /\ ~ protocol_error e)
  \/ (exists pe, protocol_error pe
        /\ ((r_quit cfg = ERR_RAISE /\ e = pe)
            \/ (r_quit cfg = ERR_LOG /\ exists h ev0, r_handler cfg = Some h /\ h pe = Some e /\ ev = ev0 ++ [EvHandler pe]))).
Proof.
  induction fuel as [|f IH]; intros s e ev s' H; [discriminate|]. cbn [Reader.read] in H.
  destruct (pass S read1 readline cfg s) as [r s1] eqn:P. destruct (pass_origin _ _ _ P) as [Re O].
  assert (forall ev0 ev1, ev = ev1 ++ ev0 -> read S read1 readline cfg f s1 = Some (RRaise e, ev0, s') ->
     (from_stream s e s' /\ e <> EOFError /\ ~ protocol_error e)
  \/ (from_parse e /\ ~ protocol_error e)
  \/ (exists pe, protocol_error pe
        /\ ((r_quit cfg = ERR_RAISE /\ e = pe)
            \/ (r_quit cfg = ERR_LOG /\ exists h ev0, r_handler cfg = Some h /\ h pe = Some e /\ ev = ev0 ++ [EvHandler pe])))) as Next.
  { intros ev0 ev1 -> R0. destruct (IH _ _ _ _ R0) as [((s0 & A & B) & C)|[C|(pe & Pe & [C|(C1 & h & ev2 & C2 & C3 & ->)])]]; [left|right; left; exact C|right; right; eauto|right; right].
    - split; [|exact C]. exists s0. split; [exact (reaches_trans _ _ _ Re A)|exact B].
    - exists pe. split; [exact Pe|]. right. split; [exact C1|]. exists h, (ev1 ++ ev2). rewrite app_assoc. auto. }
  destruct r as [[[raw m]|]|e1]; [discriminate|exact (Next ev [] eq_refl H)|].
  assert (e1 = EOFError \/ (e1 <> EOFError /\ forall X (a b : X), match e1 with EOFError => a | _ => b end = b)) as [->|[Ne M]]
    by (destruct e1; try (right; split; [discriminate|reflexivity]); left; reflexivity); [discriminate|].
  rewrite M in H. destruct (is_nmea_error e1) eqn:Pb.
  - apply protocol_error_iff in Pb. unfold do_error in H. destruct (Z.eqb_spec (r_quit cfg) 0) as [Q0|Q0].
    { destruct (read S read1 readline cfg f s1) as [[[o ev0] s2]|] eqn:R0; [|discriminate]. injection H as -> <- ->.
      exact (Next ev0 [] eq_refl eq_refl). }
    destruct (Z.eqb_spec (r_quit cfg) ERR_RAISE) as [Q2|Q2].
    { injection H as <- _ _. right. right. exists e1. auto. }
    destruct (Z.eqb_spec (r_quit cfg) ERR_LOG) as [Q1|Q1].
    + destruct (r_handler cfg) as [h|] eqn:Eh.
      * destruct (h e1) as [e2|] eqn:He.
        -- injection H as <- <- _. right. right. exists e1. split; [exact Pb|]. right. split; [exact Q1|]. exists h, []. auto.
        -- destruct (read S read1 readline cfg f s1) as [[[o ev0] s2]|] eqn:R0; [|discriminate]. injection H as -> <- ->.
           exact (Next ev0 [EvHandler e1] eq_refl eq_refl).
      * destruct (read S read1 readline cfg f s1) as [[[o ev0] s2]|] eqn:R0; [|discriminate]. injection H as -> <- ->.
        exact (Next ev0 [EvLog e1] eq_refl eq_refl).
    + destruct (read S read1 readline cfg f s1) as [[[o ev0] s2]|] eqn:R0; [|discriminate]. injection H as -> <- ->.
      exact (Next ev0 [] eq_refl eq_refl).
  - assert (~ protocol_error e1) as Np by (rewrite <- protocol_error_iff; congruence).
    injection H as <- _ <-. destruct O as [O|[O|[O|O]]]; [left; auto|right; left; auto|contradiction|contradiction].
Qed.
End Origin.

(* ------------------------------------------------ a connection that is lost *)
(* A file-like object (serial port, say) that delivers the bytes [s] and then
   raises [e]; a call of readline() that meets no LF in what is left raises too,
   and what it had read is lost *)
Definition dev_read1 (e : exc) (s : bytes) : result bytes * bytes :=
  match s with [] => (Raise e, []) | b :: r => (Ok [b], r) end.
Definition dev_readline (e : exc) (s : bytes) : result bytes * bytes :=
  if existsb (N.eqb lf) s then file_readline s else (Raise e, []).
Definition diterate (e : exc) (cfg : rcfg) := iterate bytes (dev_read1 e) (dev_readline e) cfg.

(* the loss happens outside of a sentence, or in the middle of one *)
Definition at_loss (tail : bytes) : Prop :=
  exists gap, ~ In dollar gap
  /\ (tail = gap \/ tail = gap ++ [dollar] \/ exists c body, second c /\ ~ In lf body /\ tail = gap ++ dollar :: c :: body).
Definition complete (p : bytes) : Prop := p = [] \/ exists b, p = b ++ [lf].

Section Loss.
Variable e : exc.
Variable cfg : rcfg.
Hypothesis He : ~ protocol_error e.
Notation dpass := (pass bytes (dev_read1 e) (dev_readline e) cfg).
Notation dread := (read bytes (dev_read1 e) (dev_readline e) cfg).
Notation fpass := (pass file file_read1 file_readline cfg).

Definition lost : outcome := match e with EOFError => REnd | _ => RRaise e end.
Lemma existsb_lf s : existsb (N.eqb lf) s = true <-> In lf s.
Proof.
  rewrite existsb_exists. split; [intros (x & I & E); apply N.eqb_eq in E as <-; exact I|].
  intros I. exists lf. split; [exact I|apply N.eqb_refl].
Qed.

Lemma loss_pass fuel s s1 : (0 < fuel)%nat -> dpass s = (Raise e, s1) -> dread fuel s = Some (lost, [], s1).
Proof using He.
  intros L P. destruct fuel as [|f]; [lia|]. cbn [Reader.read]. rewrite P. unfold lost.
  assert (is_nmea_error e = false) as N by (destruct (is_nmea_error e) eqn:X; [apply protocol_error_iff in X; contradiction|reflexivity]).
  rewrite N. destruct e; reflexivity.
Qed.
Lemma loss_read fuel tail : at_loss tail -> (length tail < fuel)%nat -> exists r, dread fuel tail = Some (lost, [], r).
Proof using He.
  intros (gap & Ng & T). revert fuel tail T. induction gap as [|b gap IH]; intros fuel tail T L.
  - cbn [app] in T. destruct T as [-> |[-> |(c & body & Sc & Nb & ->)]].
    + exists []. apply loss_pass; [lia|reflexivity].
    + exists []. apply loss_pass; [lia|reflexivity].
    + exists []. apply loss_pass; [lia|]. unfold pass, read_byte, read_line, dev_read1.
      assert (str_eqb [dollar] [c_dollar] = true) as -> by reflexivity. cbn [negb].
      assert (hdr_second c = true) as -> by (apply hdr_second_iff, Sc). unfold dev_readline.
      destruct (existsb (N.eqb lf) body) eqn:X; [apply existsb_lf in X; contradiction|reflexivity].
  - destruct fuel as [|f]; [lia|].
    assert (exists t', tail = b :: t' /\ (t' = gap \/ t' = gap ++ [dollar] \/ exists c body, second c /\ ~ In lf body /\ t' = gap ++ dollar :: c :: body)) as (t' & -> & T').
    { destruct T as [-> |[-> |(c & body & Sc & Nb & ->)]]; cbn [app]; eexists; (split; [reflexivity|]); eauto 8. }
    assert (b <> dollar) as Nb by (intros ->; apply Ng; left; reflexivity).
    assert (~ In dollar gap) as Ng' by (intros I; apply Ng; right; exact I).
    destruct (IH Ng' f t' T' ltac:(cbn in L; lia)) as (r & R). exists r.
    cbn [Reader.read]. unfold pass, read_byte, dev_read1.
    assert (str_eqb [b] [c_dollar] = false) as ->; [|exact R].
    destruct (str_eqb [b] [c_dollar]) eqn:X; [|reflexivity]. apply str_eqb_eq in X. injection X as ->. contradiction.
Qed.

Lemma complete_tail b s : complete (b :: s) -> complete s.
Proof.
  intros [H|(a & H)]; [discriminate|]. destruct a as [|x a]; [injection H as _ ->; left; reflexivity|]. injection H as _ ->. right. exists a. reflexivity.
Qed.
Lemma complete_app l s : complete (l ++ s) -> complete s.
Proof. induction l as [|b l IH]; intros H; [exact H|]. apply IH, (complete_tail b), H. Qed.

Lemma loss_step p tail : complete p ->
  (p = [] /\ fpass p = (Raise EOFError, []))
  \/ (exists r p', fpass p = (r, p') /\ dpass (p ++ tail) = (r, p' ++ tail) /\ r <> Raise EOFError /\ complete p' /\ (length p' < length p)%nat).
Proof.
  intros C. destruct p as [|b p1]; [left; split; reflexivity|right].
  pose proof (complete_tail _ _ C) as C1. unfold pass, read_byte, file_read1, dev_read1. cbn [app].
  destruct (negb (str_eqb [b] [c_dollar])) eqn:Eb.
  { exists (Ok None), p1. repeat (split; [reflexivity || discriminate || assumption|]). cbn. lia. }
  apply negb_false_iff, str_eqb_eq in Eb. injection Eb as ->.
  destruct p1 as [|c p2].
  { exfalso. destruct C as [C|(a & C)]; [discriminate|]. destruct a as [|x [|? ?]]; discriminate. }
  pose proof (complete_tail _ _ C1) as C2. cbn [app]. destruct (hdr_second c) eqn:Ec.
  - assert (c <> lf) as Nc by (intros ->; vm_compute in Ec; discriminate).
    destruct p2 as [|y p2'].
    { exfalso. destruct C1 as [C1|(a & C1)]; [discriminate|]. destruct a as [|x [|? ?]]; [injection C1 as ->; contradiction|discriminate|discriminate]. }
    destruct C2 as [C2|(a & C2)]; [discriminate|].
    assert (In lf (y :: p2')) as I by (rewrite C2; apply in_app_iff; right; left; reflexivity).
    remember (y :: p2') as p2 eqn:E2. clear y p2' E2.
    destruct (split_first c_lf p2) as [[l rest]|] eqn:Sp; [|apply split_first_None in Sp; contradiction].
    apply split_first_Some in Sp as [Ep Nl].
    assert (cut_line p2 = (l ++ [lf], rest)) as K1.
    { pose proof (cut_line_spec p2) as F. rewrite (proj2 (split_first_Some c_lf p2 l rest) (conj Ep Nl)) in F. exact F. }
    assert (cut_line (p2 ++ tail) = (l ++ [lf], rest ++ tail)) as K2.
    { pose proof (cut_line_spec (p2 ++ tail)) as F. rewrite (proj2 (split_first_Some c_lf (p2 ++ tail) l (rest ++ tail))) in F; [exact F|].
      split; [rewrite Ep, <- app_assoc; reflexivity|exact Nl]. }
    unfold read_line, dev_readline, file_readline.
    replace (existsb (N.eqb lf) (p2 ++ tail)) with true by (symmetry; apply existsb_lf, in_app_iff; left; exact I).
    rewrite K1, K2.
    assert (complete rest) as Cr by (apply (complete_app (l ++ [lf])); rewrite <- app_assoc; change ([lf] ++ rest) with (c_lf :: rest); rewrite <- Ep; right; exists a; exact C2).
    assert (length rest < length (c_dollar :: c :: p2))%nat as Lr by (rewrite Ep; cbn; rewrite app_length; cbn; lia).
    rewrite last_last. destruct (l ++ [lf]) as [|z l'] eqn:El; [destruct l; discriminate|].
    change (N.eqb lf c_lf) with true. cbv iota.
    destruct (parse _ _ _ _) as [m|x] eqn:Pr.
    + eexists _, rest. repeat (split; [reflexivity || discriminate || assumption|]). exact Lr.
    + exists (Raise x), rest. split; [reflexivity|]. split; [reflexivity|]. split; [|auto].
      intros X. injection X as ->. exact (parse_not_eof _ _ _ _ Pr).
  - destruct (r_nmeaonly cfg); eexists _, p2; repeat (split; [reflexivity || discriminate || assumption|]); cbn; lia.
Qed.

Lemma loss_next fuel : forall p tail, complete p -> at_loss tail -> (length (p ++ tail) < fuel)%nat ->
  (exists ev r, fread cfg fuel p = Some (REnd, ev, []) /\ dread fuel (p ++ tail) = Some (lost, ev, r))
  \/ (exists o ev p', fread cfg fuel p = Some (o, ev, p') /\ dread fuel (p ++ tail) = Some (o, ev, p' ++ tail)
       /\ o <> REnd /\ complete p' /\ (length p' < length p)%nat).
Proof using He.
  induction fuel as [|f IH]; intros p tail C T L; [lia|].
  destruct (loss_step p tail C) as [(-> & P)|(r & p' & P & D & Nr & C' & L')].
  - left. destruct (loss_read (S f) tail T L) as (r & R). exists [], r. split; [|exact R].
    unfold fread. cbn [Reader.read]. rewrite P. reflexivity.
  - assert (length (p' ++ tail) < f)%nat as Lf by (rewrite app_length in *; lia).
    specialize (IH p' tail C' T Lf). unfold fread in *. cbn [Reader.read]. rewrite P, D. destruct r as [[[raw m]|]|x].
    + right. exists (RMsg raw m), [], p'. split; [reflexivity|]. split; [reflexivity|]. split; [discriminate|auto].
    + destruct IH as [IH|(o & ev & q & I1 & I2 & I3 & I4 & I5)]; [left; exact IH|right]. exists o, ev, q.
      repeat (split; [assumption|]). lia.
    + assert (forall X (a b : X), match x with EOFError => a | _ => b end = b) as M by (intros; destruct x; try reflexivity; contradiction).
      rewrite !M. destruct (is_nmea_error x).
      * destruct (do_error cfg x) as [[x'|] ev1].
        -- right. exists (RRaise x'), ev1, p'. split; [reflexivity|]. split; [reflexivity|]. split; [discriminate|auto].
        -- destruct IH as [(ev & r & I1 & I2)|(o & ev & q & I1 & I2 & I3 & I4 & I5)]; [left|right]; rewrite I1, I2.
           ++ exists (ev1 ++ ev), r. auto.
           ++ exists o, (ev1 ++ ev), q. repeat (split; [reflexivity || assumption|]). lia.
      * right. exists (RRaise x), [], p'. split; [reflexivity|]. split; [reflexivity|]. split; [discriminate|auto].
Qed.
End Loss.

(* Everything up to the loss is delivered as from a file, and then the exception of
   the stream comes out of read() unchanged, under every error policy *)
Theorem C77_lost e cfg n fuel p tail :
  ~ protocol_error e -> e <> EOFError ->
  p = [] \/ (exists b, p = b ++ [lf]) -> at_loss tail ->
  (length (p ++ tail) < fuel)%nat -> (length (p ++ tail) < n)%nat ->
  exists items x ev rest rest',
    fiterate cfg n fuel p = Some (items, x, ev, rest)
    /\ diterate e cfg n fuel (p ++ tail) = Some (items, match x with Some x => Some x | None => Some e end, ev, rest').
Proof.
  intros He Ne C T L1. revert p C L1. induction n as [|n IH]; intros p C L1 L2; [lia|]. unfold fiterate, diterate in *. cbn [iterate].
  destruct (loss_next e cfg He fuel p tail C T L1) as [(ev & r & R1 & R2)|(o & ev & p' & R1 & R2 & No & C' & L')]; unfold fread in R1; rewrite R1, R2.
  - unfold lost. exists [], None, ev, [], r. split; [reflexivity|]. destruct e; try reflexivity. contradiction.
  - destruct o as [raw m| |x]; [|contradiction|].
    + rewrite app_length in *. destruct (IH p' C') as (items & x & ev2 & r1 & r2 & I1 & I2); [rewrite app_length; lia|rewrite app_length; lia|].
      rewrite I1, I2. exists ((raw, m) :: items), x, (ev ++ ev2), r1, r2. split; reflexivity.
    + exists [], (Some x), ev, p', (p' ++ tail). split; reflexivity.
Qed.
(* an EOFError of the stream is the end of the stream *)
Theorem C77_eof cfg n fuel p tail :
  p = [] \/ (exists b, p = b ++ [lf]) -> at_loss tail ->
  (length (p ++ tail) < fuel)%nat -> (length (p ++ tail) < n)%nat ->
  exists items x ev rest rest',
    fiterate cfg n fuel p = Some (items, x, ev, rest)
    /\ diterate EOFError cfg n fuel (p ++ tail) = Some (items, x, ev, rest').
Proof.
  intros C T L1.
  assert (~ protocol_error EOFError) as He by (intros [H|[H|[H|H]]]; discriminate).
  revert p C L1. induction n as [|n IH]; intros p C L1 L2; [lia|]. unfold fiterate, diterate in *. cbn [iterate].
  destruct (loss_next EOFError cfg He fuel p tail C T L1) as [(ev & r & R1 & R2)|(o & ev & p' & R1 & R2 & No & C' & L')]; unfold fread in R1; rewrite R1, R2.
  - exists [], None, ev, [], r. split; reflexivity.
  - destruct o as [raw m| |x]; [|contradiction|].
    + rewrite app_length in *. destruct (IH p' C') as (items & x & ev2 & r1 & r2 & I1 & I2); [rewrite app_length; lia|rewrite app_length; lia|].
      rewrite I1, I2. exists ((raw, m) :: items), x, (ev ++ ev2), r1, r2. split; reflexivity.
    + exists [], (Some x), ev, p', (p' ++ tail). split; reflexivity.
Qed.
(* a chunked connection whose server sends a size that does not fit: OverflowError
   comes out of the for loop, and everything not yet delivered is still in the buffer *)
Theorem C77_overflow cfg n fuel k size v rest p :
  Z.testbit (k_encoding k) 0 = true -> k_buffer k = [] -> k_partial k = [] ->
  hex_number size v -> (2 ^ 63 <= v)%N -> k_pending k = RData (size ++ [cr; lf] ++ rest) :: p ->
  siterate cfg (S n) (S fuel) k = Some ([], Some OverflowError, [], mksock p [] [] (k_encoding k) (k_zlib k)).
Proof.
  intros B E1 E2 H V P. unfold siterate. cbn [iterate Reader.read]. unfold pass, read_byte, sock_read. rewrite P. cbn [length sock_read_loop].
  rewrite E1. cbn [length Nat.ltb Nat.leb]. unfold sock_recv. rewrite P, E1, E2.
  pose proof (C39_overflow (k_zlib k) (k_encoding k) [] size v rest (Forall_nil _) H V) as D. cbn [flat_map app] in D.
  destruct (size ++ [cr; lf] ++ rest) as [|y t] eqn:Es; [destruct size; discriminate|].
  rewrite chunked_bit, B. cbn [negb app]. cbn [app] in Es. rewrite Es in D. rewrite D. reflexivity.
Qed.
Example C77_example :
  at_loss (u "xy$GNGLL,53") /\ ~ protocol_error (OtherException 7)
  /\ (match diterate (OtherException 7) (ex_cfg 1) 300 300 (ex_line ++ u "xy$GNGLL,53") with
      | Some (l, x, ev, _) => (map fst l, x, ev) | None => ([], None, []) end) = ([ex_line], Some (OtherException 7), [])
  /\ (match fiterate (mkrcfg 0 1 false 1 (Some (fun _ => Some (OtherException 9))) []) 300 300 (ex_bad ++ ex_line) with
      | Some (l, x, ev, _) => (map fst l, x, ev) | None => ([], None, []) end) = ([], Some (OtherException 9), [EvHandler NMEAParseError]).
Proof.
  split; [|split; [|split]].
  - exists (u "xy"). split; [vm_compute; intros [H|[H|[]]]; discriminate|]. right. right. exists 71%N, (u "NGLL,53").
    split; [apply hdr_second_iff; vm_compute; reflexivity|]. split; [|reflexivity].
    intros I. apply existsb_lf in I. vm_compute in I. discriminate.
  - intros [H|[H|[H|H]]]; discriminate.
  - vm_compute. reflexivity.
  - vm_compute. reflexivity.
Qed.
