(* C88: reading from a serial port, whose read(1) and readline() give up after a timeout *)
From Coq Require Import Lia.
From Verif Require Import Message Reader Socket BaseLemmas TextLemmas Spec ReaderSpec ReaderProofs SocketSpec SocketProofs ChunkProofs
  PropsReader PropsSocket PropsSession.
Local Open Scope nat_scope.

(* What such a port is for NMEAReader (nmeareader.py:68 "e.g. Serial", 169-206; README.md:111
   Serial('/dev/tty.usbmodem14101', 9600, timeout=3)): the bytes to
   come, and the moments at which one call of a method gives up because the next byte has not
   arrived within the timeout.  At the end the port stays silent. *)
Definition port := list (option N).
(* read(1): b"" after a timeout *)
Definition port_read1 (p : port) : result bytes * port :=
  match p with [] => (Ok [], []) | None :: r => (Ok [], r) | Some b :: r => (Ok [b], r) end.
(* readline(): up to and including LF, or what has arrived when the timeout expires *)
Fixpoint port_line (p : port) : bytes * port :=
  match p with
  | [] => ([], [])
  | None :: r => ([], r)
  | Some b :: r => if N.eqb b c_lf then ([b], r) else let '(l, r') := port_line r in (b :: l, r')
  end.
Definition port_readline (p : port) : result bytes * port := let '(l, r) := port_line p in (Ok l, r).
Definition pread (cfg : rcfg) := read port port_read1 port_readline cfg.
Definition piterate (cfg : rcfg) := iterate port port_read1 port_readline cfg.

(* an application that calls read() again whatever happens - after (None, None) and after an
   exception - until the port has nothing more to give *)
Fixpoint poll (cfg : rcfg) (n fuel : nat) (p : port) : option (list entry * list event) :=
  match p with
  | [] => Some ([], [])
  | _ => match n with
         | O => None
         | S n' =>
             match pread cfg fuel p with
             | None => None
             | Some (o, ev, p') =>
                 match poll cfg n' fuel p' with
                 | None => None
                 | Some (l, ev') => Some (match o with RMsg raw m => [Got raw m] | RRaise e => [Caught e] | REnd => [] end ++ l, ev ++ ev')
                 end
             end
         end
  end.

(* the bursts of bytes between the timeouts *)
Fixpoint port_of (bursts : list bytes) : port :=
  match bursts with
  | [] => []
  | [s] => map Some s
  | s :: r => map Some s ++ None :: port_of r
  end.

(* -------------------------------------------------- the run as a sequence of passes *)
Section Runs.
Variable S : Type.
Variables read1 readline : S -> result bytes * S.
Variable cfg : rcfg.
Variable fin : S.
Inductive runs : S -> list entry -> list event -> Prop :=
| runs_fin : runs fin [] []
| runs_item s raw m s1 l ev : pass S read1 readline cfg s = (Ok (Some (raw, m)), s1) -> runs s1 l ev -> runs s (Got raw m :: l) ev
| runs_skip s s1 l ev : pass S read1 readline cfg s = (Ok None, s1) -> runs s1 l ev -> runs s l ev
| runs_eof s s1 l ev : pass S read1 readline cfg s = (Raise EOFError, s1) -> runs s1 l ev -> runs s l ev
| runs_on s e s1 l ev ev1 : pass S read1 readline cfg s = (Raise e, s1) -> e <> EOFError -> is_nmea_error e = true -> do_error cfg e = (None, ev1) ->
    runs s1 l ev -> runs s l (ev1 ++ ev)
| runs_out s e e' s1 l ev ev1 : pass S read1 readline cfg s = (Raise e, s1) -> e <> EOFError -> is_nmea_error e = true -> do_error cfg e = (Some e', ev1) ->
    runs s1 l ev -> runs s (Caught e' :: l) (ev1 ++ ev)
| runs_crash s e s1 l ev : pass S read1 readline cfg s = (Raise e, s1) -> e <> EOFError -> is_nmea_error e = false ->
    runs s1 l ev -> runs s (Caught e :: l) ev.

Lemma read_runs fuel : forall s o ev s' l ev', read S read1 readline cfg fuel s = Some (o, ev, s') -> runs s' l ev' ->
  runs s (match o with RMsg raw m => [Got raw m] | RRaise e => [Caught e] | REnd => [] end ++ l) (ev ++ ev').
Proof.
  induction fuel as [|f IH]; intros s o ev s' l ev' H R; [discriminate|]. cbn [read] in H.
  destruct (pass S read1 readline cfg s) as [r s1] eqn:E. destruct r as [[[raw m]|]|e].
  - injection H as <- <- <-. cbn [app]. eapply runs_item; [exact E|exact R].
  - eapply runs_skip; [exact E|]. eapply IH; [exact H|exact R].
  - assert (e = EOFError \/ e <> EOFError /\ forall X (a b : X), match e with EOFError => a | _ => b end = b) as [->|[N M]] by (destruct e; auto; right; split; (discriminate || reflexivity)).
    + injection H as <- <- <-. eapply runs_eof; [exact E|exact R].
    + rewrite M in H. clear M. destruct (is_nmea_error e) eqn:Ne.
      * destruct (do_error cfg e) as [[e'|] ev1] eqn:D.
        -- injection H as <- <- <-. cbn [app]. eapply runs_out; eassumption.
        -- destruct (read S read1 readline cfg f s1) as [[[o' ev2] s2]|] eqn:E2; [|discriminate]. injection H as <- <- <-. rewrite <- app_assoc.
           eapply runs_on; [exact E|exact N|exact Ne|exact D|]. eapply IH; [exact E2|exact R].
      * injection H as <- <- <-. cbn [app]. eapply runs_crash; eassumption.
Qed.
Lemma runs_det : (forall r s, pass S read1 readline cfg fin = (r, s) -> r = Raise EOFError /\ s = fin) ->
  forall s l ev, runs s l ev -> forall l2 ev2, runs s l2 ev2 -> l = l2 /\ ev = ev2.
Proof.
  intros F. assert (forall s l ev, runs s l ev -> s = fin -> l = [] /\ ev = []) as Z0.
  { intros s l ev H. induction H; intros E0; [auto|..]; rewrite E0 in H; destruct (F _ _ H) as [X Y]; try discriminate X; try congruence. apply IHruns, Y. }
  intros s l ev H. induction H as [|s raw m s1 l ev P R IH|s s1 l ev P R IH|s s1 l ev P R IH|s e s1 l ev ev1 P N Ne D R IH|s e e' s1 l ev ev1 P N Ne D R IH|s e s1 l ev P N Ne R IH]; intros l2 ev2 Q.
  { destruct (Z0 _ _ _ Q eq_refl) as [-> ->]. auto. }
  all: inversion Q; subst; try (destruct (F _ _ P) as [X Y]; (discriminate X || congruence));
    try (destruct (F _ _ P) as [X Y]; subst; destruct (Z0 _ _ _ R eq_refl) as [-> ->]; auto; fail).
  all: match goal with A : pass _ _ _ _ ?x = _, B : pass _ _ _ _ ?x = _ |- _ => rewrite A in B; try discriminate B; injection B; intros; subst end; try congruence.
  all: try (match goal with A : do_error _ ?e = _, B : do_error _ ?e = _ |- _ => rewrite A in B; try discriminate B; injection B; intros; subst end).
  all: match goal with I : forall l2 ev2, runs _ l2 ev2 -> _, R : runs _ ?a ?b |- context [?a] => destruct (I _ _ R) as [-> ->]; auto end.
Qed.
End Runs.

Notation fpass cfg := (pass file file_read1 file_readline cfg).
Notation ppass cfg := (pass port port_read1 port_readline cfg).
(* the end of a burst: silence, or a timeout and then more *)
Definition after (tl : port) : port := match tl with None :: r => r | _ => [] end.
Definition burst_end (tl : port) : Prop := tl = [] \/ exists r, tl = None :: r.

Lemma port_line_burst tl : burst_end tl -> forall s l s', cut_line s = (l, s') ->
  (port_line (map Some s ++ tl) = (l, map Some s' ++ tl) /\ last l 0%N = c_lf /\ l <> []) \/ (s' = [] /\ port_line (map Some s ++ tl) = (l, after tl) /\ (s <> [] -> last s 0%N <> c_lf)).
Proof.
  intros B. induction s as [|b s IH]; intros l s' H; cbn [cut_line] in H.
  - injection H as <- <-. right. split; [reflexivity|]. split; [destruct B as [->|(r & ->)]; reflexivity|congruence].
  - cbn [map app port_line]. destruct (N.eqb_spec b c_lf) as [->|N].
    + injection H as <- <-. left. split; [reflexivity|]. split; [reflexivity|discriminate].
    + destruct (cut_line s) as [l0 s0]. injection H as <- <-. destruct (IH _ _ eq_refl) as [(-> & L & NE)|(-> & -> & L)].
      * left. split; [reflexivity|]. split; [destruct l0; [congruence|exact L]|discriminate].
      * right. split; [reflexivity|]. split; [reflexivity|]. intros _. destruct s as [|c s]; [exact N|]. cbn [last]. apply L. discriminate.
Qed.
Lemma read1_burst tl s r s' : burst_end tl -> file_read1 s = (r, s') ->
  (port_read1 (map Some s ++ tl) = (r, map Some s' ++ tl) /\ s <> []) \/ (s = [] /\ s' = [] /\ r = Ok [] /\ port_read1 (map Some s ++ tl) = (r, after tl)).
Proof.
  intros B H. destruct s as [|b s]; cbn in H; injection H as <- <-.
  - right. repeat split. destruct B as [->|(r & ->)]; reflexivity.
  - left. split; [reflexivity|discriminate].
Qed.
Lemma pass_burst cfg tl s r s' : burst_end tl -> fpass cfg s = (r, s') ->
  (ppass cfg (map Some s ++ tl) = (r, map Some s' ++ tl) /\ r <> Raise EOFError)
  \/ (s' = [] /\ ppass cfg (map Some s ++ tl) = (r, after tl) /\ (r = Raise EOFError \/ (s <> [] /\ last s 0%N <> c_lf))).
Proof.
  intros B E. unfold pass, read_byte in *.
  destruct (file_read1 s) as [r1 s1] eqn:R1. destruct (read1_burst _ _ _ _ B R1) as [[-> N1]|(-> & -> & -> & ->)].
  2:{ right. injection E as <- <-. auto. }
  destruct s as [|b s]; [congruence|]. cbn in R1. injection R1 as <- <-.
  destruct (negb (str_eqb [b] [c_dollar])); [injection E as <- <-; left; split; [reflexivity|discriminate]|].
  destruct (file_read1 s) as [r2 s2] eqn:R2. destruct (read1_burst _ _ _ _ B R2) as [[-> N2]|(-> & -> & -> & ->)].
  2:{ right. injection E as <- <-. auto. }
  destruct s as [|c s]; [congruence|]. cbn in R2. injection R2 as <- <-.
  destruct (hdr_second c).
  - unfold read_line, file_readline, port_readline in *. destruct (cut_line s) as [l s3] eqn:C. destruct (port_line_burst _ B _ _ _ C) as [(-> & L & NE)|(-> & -> & L)].
    + left. destruct l as [|y l]; [congruence|]. rewrite L, N.eqb_refl in E |- *.
      destruct (parse _ _ _ _) as [m|e] eqn:Pa; injection E as <- <-; (split; [reflexivity|]); [discriminate|].
      intros X. assert (e = EOFError) as -> by congruence. exact (parse_not_eof _ _ _ _ Pa).
    + right. destruct l as [|y l].
      * injection E as <- <-. auto.
      * assert (N.eqb (last (y :: l) 0%N) c_lf = false) as Nl.
        { apply N.eqb_neq. assert (y :: l = s) as -> by (rewrite <- (app_nil_r (y :: l)); symmetry; exact (readline_split _ _ _ C)).
          apply L. intros ->. discriminate C. }
        rewrite Nl in E |- *. injection E as <- <-. split; [reflexivity|]. split; [reflexivity|]. right. split; [discriminate|].
        destruct s as [|z s]; [discriminate C|]. apply L. discriminate.
  - left. destruct (r_nmeaonly cfg); injection E as <- <-; (split; [reflexivity|discriminate]).
Qed.

Lemma file_runs_nil cfg s l ev : runs file file_read1 file_readline cfg [] s l ev -> s = [] -> l = [] /\ ev = [].
Proof.
  intros H E. subst. eapply runs_det; [|exact H|apply runs_fin]. intros r s E. cbn in E. injection E as <- <-. auto.
Qed.
Lemma runs_burst cfg tl l2 ev2 : burst_end tl -> runs port port_read1 port_readline cfg [] (after tl) l2 ev2 ->
  forall s l ev, runs file file_read1 file_readline cfg [] s l ev -> runs port port_read1 port_readline cfg [] (map Some s ++ tl) (l ++ l2) (ev ++ ev2).
Proof.
  intros B A s l ev H. induction H as [|s raw m s1 l ev P R IH|s s1 l ev P R IH|s s1 l ev P R IH|s e s1 l ev ev1 P N Ne D R IH|s e e' s1 l ev ev1 P N Ne D R IH|s e s1 l ev P N Ne R IH].
  - destruct B as [->|(r & ->)]; [exact A|]. cbn [map app]. eapply runs_eof; [reflexivity|exact A].
  - destruct (pass_burst _ _ _ _ _ B P) as [[Q _]|(-> & Q & _)]; [|destruct (file_runs_nil _ _ _ _ R eq_refl) as [-> ->]]; eapply runs_item; eassumption.
  - destruct (pass_burst _ _ _ _ _ B P) as [[Q _]|(-> & Q & _)]; [|destruct (file_runs_nil _ _ _ _ R eq_refl) as [-> ->]]; eapply runs_skip; eassumption.
  - destruct (pass_burst _ _ _ _ _ B P) as [[Q _]|(-> & Q & _)]; [|destruct (file_runs_nil _ _ _ _ R eq_refl) as [-> ->]]; eapply runs_eof; eassumption.
  - rewrite <- app_assoc. destruct (pass_burst _ _ _ _ _ B P) as [[Q _]|(-> & Q & _)]; [|destruct (file_runs_nil _ _ _ _ R eq_refl) as [-> ->]]; eapply runs_on; eassumption.
  - rewrite <- app_assoc. destruct (pass_burst _ _ _ _ _ B P) as [[Q _]|(-> & Q & _)]; [|destruct (file_runs_nil _ _ _ _ R eq_refl) as [-> ->]]; eapply runs_out; eassumption.
  - destruct (pass_burst _ _ _ _ _ B P) as [[Q _]|(-> & Q & _)]; [|destruct (file_runs_nil _ _ _ _ R eq_refl) as [-> ->]]; eapply runs_crash; eassumption.
Qed.

(* --------------------------------------------------------------- termination *)
Lemma port_line_length p : length (snd (port_line p)) <= length p.
Proof.
  induction p as [|[b|] p IH]; cbn [port_line length snd]; [lia| |lia]. destruct (N.eqb b c_lf); [cbn; lia|].
  destruct (port_line p) as [l r]. cbn in *. lia.
Qed.
Lemma port_pass_length cfg p r p' : ppass cfg p = (r, p') -> length p' <= length p - 1 /\ (p = [] -> r = Raise EOFError).
Proof.
  intros E. unfold pass, read_byte in E. destruct p as [|[b|] p]; cbn [port_read1] in E; try (injection E as <- <-; cbn; split; [lia|try reflexivity; discriminate]).
  split; [|discriminate]. cbn [length]. rewrite Nat.sub_succ, Nat.sub_0_r.
  destruct (negb (str_eqb [b] [c_dollar])); [injection E as <- <-; lia|].
  destruct p as [|[c|] p]; cbn [port_read1] in E; try (injection E as <- <-; cbn; lia).
  destruct (hdr_second c); [|destruct (r_nmeaonly cfg); injection E as <- <-; cbn; lia].
  unfold read_line, port_readline in E. pose proof (port_line_length p) as L. destruct (port_line p) as [l q]. cbn [snd] in L.
  destruct l as [|y l]; [injection E as <- <-; cbn; lia|]. destruct (N.eqb _ _); [|injection E as <- <-; cbn; lia].
  destruct (parse _ _ _ _); injection E as <- <-; cbn; lia.
Qed.
Lemma pread_total cfg fuel : forall p, length p < fuel -> exists o ev p', pread cfg fuel p = Some (o, ev, p') /\ length p' <= length p - 1.
Proof.
  unfold pread. induction fuel as [|f IH]; intros p L; [lia|]. cbn [read].
  destruct (ppass cfg p) as [r p1] eqn:E. destruct (port_pass_length _ _ _ _ E) as [L1 Z0].
  assert (r = Raise EOFError \/ length p1 < f) as F by (destruct p; [left; auto|right; cbn in *; lia]).
  destruct r as [[[raw m]|]|e]; [eauto|destruct F as [F|F]; [discriminate|]; destruct (IH p1 F) as (o & ev & p' & -> & Lp); do 3 eexists; split; [reflexivity|lia]|].
  assert (e = EOFError \/ e <> EOFError /\ forall X (a b : X), match e with EOFError => a | _ => b end = b) as [->|[N M]] by (destruct e; auto; right; split; (discriminate || reflexivity)); [eauto|].
  rewrite M. destruct F as [F|F]; [congruence|]. destruct (is_nmea_error e); [|eauto]. destruct (do_error cfg e) as [[e'|] ev1]; [eauto|].
  destruct (IH p1 F) as (o & ev & p' & -> & Lp); do 3 eexists; split; [reflexivity|lia].
Qed.
Lemma poll_total cfg fuel n : forall p, length p < fuel -> length p < n -> exists l ev, poll cfg n fuel p = Some (l, ev) /\ runs port port_read1 port_readline cfg [] p l ev.
Proof.
  induction n as [|n IH]; intros p L1 L2; [lia|]. destruct p as [|b p]; [exists [], []; split; [reflexivity|apply runs_fin]|].
  cbn [poll]. destruct (pread_total cfg fuel (b :: p) L1) as (o & ev & p' & E & L). cbn in L. cbn in L1, L2. rewrite E.
  destruct (IH p' ltac:(lia) ltac:(lia)) as (l & ev2 & -> & R). do 2 eexists. split; [reflexivity|]. eapply read_runs; [exact E|exact R].
Qed.
Lemma fsession_runs cfg fuel n : forall s l ev, fsession cfg n fuel s = Some (l, ev, []) -> runs file file_read1 file_readline cfg [] s l ev.
Proof.
  unfold fsession. induction n as [|n IH]; intros s l ev H; [discriminate|]. cbn [session] in H.
  destruct (read file file_read1 file_readline cfg fuel s) as [[[o ev1] s1]|] eqn:E; [|discriminate].
  destruct o as [raw m| |e].
  - destruct (session _ _ _ _ n fuel s1) as [[[l1 ev2] s2]|] eqn:S1; [|discriminate]. injection H as <- <- ->. apply (read_runs _ _ _ _ _ _ _ _ _ _ _ _ E (IH _ _ _ S1)).
  - injection H as <- <- ->. rewrite <- (app_nil_r ev1). apply (read_runs _ _ _ _ _ _ _ _ _ _ _ _ E (runs_fin _ _ _ _ _)).
  - destruct (session _ _ _ _ n fuel s1) as [[[l1 ev2] s2]|] eqn:S1; [|discriminate]. injection H as <- <- ->. apply (read_runs _ _ _ _ _ _ _ _ _ _ _ _ E (IH _ _ _ S1)).
Qed.

(* ------------------------------------------------------------------ C88 *)
(* every port is a sequence of bursts *)
Theorem C88_bursts (p : port) : exists bursts, p = port_of bursts /\ bursts <> [].
Proof.
  induction p as [|[b|] p (bs & -> & N)].
  - exists [[]]. split; [reflexivity|discriminate].
  - destruct bs as [|s bs]; [congruence|]. exists ((b :: s) :: bs). split; [destruct bs; reflexivity|discriminate].
  - destruct bs as [|s bs]; [congruence|]. exists ([] :: s :: bs). split; [reflexivity|discriminate].
Qed.
(* An application that goes on reading sees and reports, burst by burst, what it would see
   of a file with the bytes of that burst: nothing is lost, repeated or invented across
   timeouts, under every error policy and with every handler. *)
Theorem C88_polled cfg n fuel bursts :
  length (port_of bursts) < fuel -> length (port_of bursts) < n ->
  exists rs, Forall2 (fun s r => fsession cfg n fuel s = Some (fst r, snd r, [])) bursts rs
    /\ poll cfg n fuel (port_of bursts) = Some (flat_map fst rs, flat_map snd rs).
Proof.
  intros L1 L2. assert (exists rs, Forall2 (fun s r => fsession cfg n fuel s = Some (fst r, snd r, [])) bursts rs) as (rs & F).
  { revert L1 L2. induction bursts as [|s bs IH]; intros L1 L2; [exists []; constructor|].
    assert (length s <= length (port_of (s :: bs)) /\ length (port_of bs) <= length (port_of (s :: bs))) as [A B].
    { destruct bs as [|s2 bs]; cbn [port_of]; [rewrite map_length; cbn; lia|]. rewrite app_length, map_length. cbn [length]. lia. }
    destruct (IH ltac:(lia) ltac:(lia)) as (rs & F). destruct (tokens_total [lf] s ltac:(discriminate)) as (ts & Tk). destruct (happens_total cfg ts) as (hs & Hp).
    destruct (C76_file cfg n fuel s ts hs Tk Hp ltac:(lia) ltac:(lia)) as (ev & E & _). eexists ((_, ev) :: rs). constructor; [exact E|exact F]. }
  exists rs. split; [exact F|]. destruct (poll_total cfg fuel n _ L1 L2) as (l & ev & -> & R).
  assert (runs port port_read1 port_readline cfg [] (port_of bursts) (flat_map fst rs) (flat_map snd rs)) as R2.
  { clear - F. induction F as [|s r bs rs E F IH]; [apply runs_fin|]. cbn [flat_map]. apply fsession_runs in E. destruct bs as [|s2 bs].
    - cbn [port_of]. rewrite <- (app_nil_r (map Some s)). apply runs_burst; [left; reflexivity|exact IH|exact E].
    - change (port_of (s :: s2 :: bs)) with (map Some s ++ None :: port_of (s2 :: bs)). apply runs_burst; [right; eexists; reflexivity|exact IH|exact E]. }
  assert (forall r s, ppass cfg [] = (r, s) -> r = Raise EOFError /\ s = []) as Fin by (intros r s E; cbn in E; injection E as <- <-; auto).
  destruct (runs_det _ _ _ _ _ Fin _ _ _ R _ _ R2) as [-> ->]. reflexivity.
Qed.

(* no burst ends inside a line *)
Definition lines_only (s : bytes) : Prop := s = [] \/ exists body, s = body ++ [lf].
Lemma lines_only_last s : s <> [] -> lines_only s <-> last s 0%N = lf.
Proof.
  intros N. split.
  - intros [E|(b & ->)]; [congruence|]. apply last_last.
  - intros E. right. destruct (exists_last N) as (b & x & ->). rewrite last_last in E. subst. eauto.
Qed.
Lemma lines_only_tail b s : lines_only (b :: s) -> lines_only s.
Proof. intros H. destruct s as [|c s]; [left; reflexivity|]. apply lines_only_last in H; [|discriminate]. apply lines_only_last; [discriminate|exact H]. Qed.
Lemma cut_line_lines s rest : s <> [] -> lines_only s -> exists l s', cut_line s = (l, s') /\ cut_line (s ++ rest) = (l, s' ++ rest) /\ lines_only s' /\ l <> [] /\ last l 0%N = c_lf.
Proof.
  induction s as [|b s IH]; intros N H; [congruence|]. cbn [cut_line app]. destruct (N.eqb_spec b c_lf) as [->|Nb].
  - exists [c_lf], s. repeat split; [apply (lines_only_tail _ _ H)|discriminate].
  - destruct s as [|c s]; [apply lines_only_last in H; [contradiction (Nb H)|discriminate]|].
    destruct (IH ltac:(discriminate) (lines_only_tail _ _ H)) as (l & s' & A & B & C & D & E). rewrite A, B. exists (b :: l), s'. repeat split; [exact C|discriminate|]. destruct l; [congruence|exact E].
Qed.
Lemma pass_lines cfg s rest r s' : s <> [] -> lines_only s -> fpass cfg s = (r, s') ->
  fpass cfg (s ++ rest) = (r, s' ++ rest) /\ lines_only s' /\ r <> Raise EOFError.
Proof.
  intros N H E. unfold pass, read_byte in *. destruct s as [|b s]; [congruence|]. cbn [app file_read1] in *.
  destruct (negb (str_eqb [b] [c_dollar])) eqn:Db; [injection E as <- <-; split; [reflexivity|]; split; [apply (lines_only_tail _ _ H)|discriminate]|].
  assert (b = c_dollar) as -> by (destruct (str_eqb [b] [c_dollar]) eqn:X; [cbn in X; rewrite andb_true_r in X; apply N.eqb_eq, X|discriminate Db]).
  destruct s as [|c s]; [apply lines_only_last in H; [discriminate H|discriminate]|]. apply lines_only_tail in H. cbn [app file_read1] in *.
  destruct (hdr_second c) eqn:Hc.
  - destruct s as [|d s]; [exfalso; apply lines_only_last in H; [|discriminate]; cbn in H; subst; vm_compute in Hc; discriminate Hc|].
    apply lines_only_tail in H. unfold read_line, file_readline in *.
    destruct (cut_line_lines (d :: s) rest ltac:(discriminate) H) as (l & s1 & A & B & C & NE & L). rewrite A in E. rewrite B.
    destruct l as [|y l]; [congruence|]. rewrite L, N.eqb_refl in E |- *.
    destruct (parse _ _ _ _) as [m|e] eqn:Pa; injection E as <- <-; (split; [reflexivity|]); (split; [exact C|]); [discriminate|].
    intros X. assert (e = EOFError) as -> by congruence. exact (parse_not_eof _ _ _ _ Pa).
  - apply lines_only_tail in H. destruct (r_nmeaonly cfg); injection E as <- <-; (split; [reflexivity|]); (split; [exact H|discriminate]).
Qed.
Lemma runs_lines cfg rest l2 ev2 : runs file file_read1 file_readline cfg [] rest l2 ev2 ->
  forall s l ev, runs file file_read1 file_readline cfg [] s l ev -> lines_only s -> runs file file_read1 file_readline cfg [] (s ++ rest) (l ++ l2) (ev ++ ev2).
Proof.
  intros A s l ev H. induction H as [|s raw m s1 l ev P R IH|s s1 l ev P R IH|s s1 l ev P R IH|s e s1 l ev ev1 P N Ne D R IH|s e e' s1 l ev ev1 P N Ne D R IH|s e s1 l ev P N Ne R IH]; intros Ho.
  { exact A. }
  all: assert (forall r s, fpass cfg [] = (r, s) -> r = Raise EOFError /\ s = []) as Fin by (intros r0 s0 X; cbn in X; injection X as <- <-; auto).
  all: destruct s as [|b s]; [destruct (Fin _ _ P) as [P0 P1]; subst s1; try discriminate P0; try congruence;
    destruct (file_runs_nil _ _ _ _ R eq_refl) as [-> ->]; exact A|].
  all: destruct (pass_lines cfg (b :: s) rest _ _ ltac:(discriminate) Ho P) as (P2 & Ho2 & NE); try congruence; specialize (IH Ho2).
  - eapply runs_item; eassumption.
  - eapply runs_skip; eassumption.
  - rewrite <- app_assoc. eapply runs_on; eassumption.
  - rewrite <- app_assoc. eapply runs_out; eassumption.
  - eapply runs_crash; eassumption.
Qed.
(* Timeouts that fall between lines make no difference at all: the application sees and
   reports the same as for a file with all the bytes. *)
Theorem C88_between_lines cfg n fuel bursts :
  Forall lines_only bursts -> length (port_of bursts) < fuel -> length (port_of bursts) < n ->
  exists l ev, poll cfg n fuel (port_of bursts) = Some (l, ev) /\ fsession cfg n fuel (concat bursts) = Some (l, ev, []).
Proof.
  intros Ho L1 L2. destruct (C88_polled cfg n fuel bursts L1 L2) as (rs & F & ->). do 2 eexists. split; [reflexivity|].
  assert (length (concat bursts) <= length (port_of bursts)) as Lc.
  { clear. induction bursts as [|s bs IH]; [cbn; lia|]. cbn [concat]. rewrite app_length. destruct bs as [|s2 bs]; [cbn; rewrite map_length; lia|].
    change (port_of (s :: s2 :: bs)) with (map Some s ++ None :: port_of (s2 :: bs)). rewrite app_length, map_length. cbn [length]. lia. }
  destruct (tokens_total [lf] (concat bursts) ltac:(discriminate)) as (ts & Tk). destruct (happens_total cfg ts) as (hs & Hp).
  destruct (C76_file cfg n fuel _ ts hs Tk Hp ltac:(lia) ltac:(lia)) as (ev & E & _). rewrite E. apply fsession_runs in E.
  assert (runs file file_read1 file_readline cfg [] (concat bursts) (flat_map fst rs) (flat_map snd rs)) as R2.
  { clear - F Ho. induction F as [|s r bs rs E F IH]; [apply runs_fin|]. cbn [flat_map concat]. inversion Ho; subst. apply fsession_runs in E. apply runs_lines; auto. }
  assert (forall r s, fpass cfg [] = (r, s) -> r = Raise EOFError /\ s = []) as Fin by (intros r s X; cbn in X; injection X as <- <-; auto).
  destruct (runs_det _ _ _ _ _ Fin _ _ _ E _ _ R2) as [-> ->]. reflexivity.
Qed.
(* A timeout inside a sentence loses that sentence and no other; it is a protocol error
   (NMEAStreamError), except if it falls on the first two bytes: then nothing is reported. *)
Theorem C88_inside_sentence cfg n fuel p a b rest :
  whole p -> line_shape (a ++ b) -> a <> [] -> b <> [] -> ~ In dollar b ->
  let bursts := [p ++ a; b ++ rest] in
  length (port_of bursts) < fuel -> length (port_of bursts) < n ->
  exists l1 ev1 l2 ev2 ev,
    fsession cfg n fuel p = Some (l1, ev1, []) /\ fsession cfg n fuel rest = Some (l2, ev2, [])
    /\ poll cfg n fuel (port_of bursts)
       = Some (l1 ++ (if 3 <=? length a then noted (r_quit cfg) (r_handler cfg) (Problem NMEAStreamError) else []) ++ l2, ev).
Proof.
  intros W Sh Na Nb Nd bursts L1 L2. destruct (C88_polled cfg n fuel bursts L1 L2) as (rs & F & ->).
  inversion F as [|? r1 ? rs1 E1 F1]; subst. inversion F1 as [|? r2 ? rs2 E2 F2]; subst. inversion F2; subst. clear F F1 F2.
  unfold bursts in L1, L2. cbn [port_of] in L1, L2. rewrite !app_length, !map_length in L1, L2. cbn [length] in L1, L2. rewrite !map_length, !app_length in L1, L2.
  destruct (tokens_whole p W) as (lines & TW).
  destruct (tokens_total [lf] rest ltac:(discriminate)) as (ts & Tk). destruct (happens_total cfg ts) as (hb & Hb). destruct (happens_total cfg (map Line lines)) as (ha & Ha).
  pose proof (TW [] [] (tok_end _)) as Tp. rewrite !app_nil_r in Tp.
  destruct (C76_file cfg n fuel p _ _ Tp Ha ltac:(lia) ltac:(lia)) as (ev1 & Ep & _).
  destruct (C76_file cfg n fuel rest _ _ Tk Hb ltac:(lia) ltac:(lia)) as (ev2 & Er & _).
  destruct (C76_file cfg n fuel (b ++ rest) _ _ (tokens_gap _ _ _ _ Nd Tk) Hb ltac:(rewrite app_length; lia) ltac:(rewrite app_length; lia)) as (ev3 & Eb & _).
  assert (exists ta hc, tokens [lf] a ta /\ happens cfg ta hc /\ flat_map (noted (r_quit cfg) (r_handler cfg)) hc
      = if 3 <=? length a then noted (r_quit cfg) (r_handler cfg) (Problem NMEAStreamError) else []) as (ta & hc & Ta & Hc & Ec).
  { destruct Sh as (c & body & E & Sc & Nl). destruct a as [|a0 a]; [congruence|]. injection E as -> E. destruct a as [|a1 a]; [exists [], []; split; [apply tok_dollar|]; split; [constructor|reflexivity]|].
    injection E as -> E. destruct a as [|a2 a]; [exists [], []; split; [apply tok_header, Sc|]; split; [constructor|reflexivity]|].
    assert (~ In lf (a2 :: a)) as Ni.
    { destruct (exists_last Nb) as (b0 & x & ->). rewrite app_assoc in E. apply app_inj_tail in E as [E _]. rewrite <- E in Nl. intros X. apply Nl, in_or_app. left. exact X. }
    exists [Cut], [Problem NMEAStreamError]. split; [|split; [repeat constructor|cbn [flat_map length Nat.leb]; apply app_nil_r]].
    eapply tok_cut with (line := a2 :: a) (rest := []); [exact Sc| |discriminate| |apply tok_end].
    - split; [rewrite app_nil_r; reflexivity|]. right. split; [reflexivity|]. intros (u1 & u2 & X). apply Ni. rewrite X. apply in_or_app. right. left. reflexivity.
    - intros (u1 & X). apply Ni. rewrite X. apply in_or_app. right. left. reflexivity. }
  destruct (C76_file cfg n fuel (p ++ a) _ _ (TW _ _ Ta) (happens_app_intro _ _ _ _ _ Ha Hc) ltac:(rewrite app_length; lia) ltac:(rewrite app_length; lia)) as (ev4 & Ea & _).
  do 5 eexists. split; [exact Ep|]. split; [exact Er|]. cbn [flat_map]. rewrite E1 in Ea. rewrite E2 in Eb. injection Ea as -> _. injection Eb as -> _.
  rewrite flat_map_app, Ec, app_nil_r, <- !app_assoc. reflexivity.
Qed.

Lemma read_lines cfg rest fuel : forall s o ev s', lines_only s -> fread cfg fuel s = Some (o, ev, s') ->
  lines_only s' /\ pread cfg fuel (map Some s ++ None :: rest) = Some (o, ev, match o with REnd => rest | _ => map Some s' ++ None :: rest end).
Proof.
  unfold fread, pread. induction fuel as [|f IH]; intros s o ev s' Ho H; [discriminate|]. cbn [read] in *.
  destruct s as [|b s].
  - cbn in H. injection H as <- <- <-. split; [left; reflexivity|]. reflexivity.
  - destruct (fpass cfg (b :: s)) as [r s1] eqn:E. destruct (pass_lines cfg (b :: s) [] _ _ ltac:(discriminate) Ho E) as (_ & Ho1 & Ne).
    destruct (pass_burst cfg (None :: rest) _ _ _ (or_intror (ex_intro _ rest eq_refl)) E) as [[-> _]|(_ & _ & [X|[_ X]])]; [|contradiction|exfalso; apply X, lines_only_last; [discriminate|exact Ho]].
    destruct r as [[[raw m]|]|e].
    + injection H as <- <- <-. auto.
    + apply IH; assumption.
    + assert (forall X (a b : X), match e with EOFError => a | _ => b end = b) as M by (destruct e; auto; congruence).
      rewrite M in H |- *. clear M. destruct (is_nmea_error e); [|injection H as <- <- <-; auto].
      destruct (do_error cfg e) as [[e'|] ev1]; [injection H as <- <- <-; auto|].
      destruct (read file file_read1 file_readline cfg f s1) as [[[o' ev'] s2]|] eqn:E2; [|discriminate]. injection H as <- <- <-.
      destruct (IH _ _ _ _ Ho1 E2) as [A ->]. auto.
Qed.
(* A for loop over the reader ends at the first timeout (if it falls between lines), with
   what it would give for a file; if it is not left by an exception, all that comes later is
   still there for the next loop. *)
Theorem C88_loop cfg n fuel s rest :
  lines_only s -> length s < fuel -> length s < n ->
  exists items x ev s' p', fiterate cfg n fuel s = Some (items, x, ev, s')
    /\ piterate cfg n fuel (map Some s ++ None :: rest) = Some (items, x, ev, p') /\ (x = None -> p' = rest).
Proof.
  intros Ho L1 L2. destruct (C28_iterate cfg n fuel s L1 L2) as (items & x & ev & s' & E & _). exists items, x, ev, s'.
  assert (exists p', piterate cfg n fuel (map Some s ++ None :: rest) = Some (items, x, ev, p') /\ (x = None -> p' = rest)) as (p' & A); [|exists p'; split; [exact E|exact A]].
  clear L1 L2. revert s items x ev s' Ho E. unfold fiterate, piterate. induction n as [|n IH]; intros s items x ev s' Ho E; [discriminate|]. cbn [iterate] in *.
  destruct (read file file_read1 file_readline cfg fuel s) as [[[o ev1] s1]|] eqn:R; [|discriminate].
  destruct (read_lines cfg rest fuel s o ev1 s1 Ho R) as [Ho1 R2]. unfold pread in R2. rewrite R2. destruct o as [raw m| |e].
  - destruct (iterate file _ _ _ n fuel s1) as [[[[l x1] ev2] s2]|] eqn:I; [|discriminate]. injection E as <- <- <- <-.
    destruct (IH _ _ _ _ _ Ho1 I) as (p' & -> & Z0). eauto.
  - injection E as <- <- <- <-. eauto.
  - injection E as <- <- <- <-. eexists. split; [reflexivity|discriminate].
Qed.

(* two sentences with a timeout between them, and one more inside a third *)
Definition ex_bursts : list bytes := [ex_line; ex_line ++ firstn 20 ex_line; skipn 20 ex_line ++ ex_line].
Definition entry_raws (l : list entry) : list bytes := flat_map (fun e => match e with Got raw _ => [raw] | Caught _ => [] end) l.
Example C88_example :
  Forall lines_only [ex_line; u "x" ++ ex_line] /\ whole ex_line /\ line_shape (firstn 20 ex_line ++ skipn 20 ex_line)
  /\ match poll (ex_cfg 1) 300 300 (port_of ex_bursts) with
     | Some (l, ev) => (entry_raws l, ev) = ([ex_line; ex_line; ex_line], [EvHandler NMEAStreamError]) | None => False end.
Proof.
  split; [apply Forall_cons; [right; exists (removelast ex_line); vm_compute; reflexivity|]; apply Forall_cons; [right; exists (removelast (u "x" ++ ex_line)); vm_compute; reflexivity|apply Forall_nil]|].
  split; [apply C30_example|]. split; [rewrite firstn_skipn; apply C27_example|]. vm_compute. reflexivity.
Qed.
(* a single for loop does not see what comes after a pause *)
Theorem C88_one_loop_refuted :
  exists items ev p', piterate (ex_cfg 1) 300 300 (port_of [ex_line; ex_line]) = Some (items, None, ev, p')
    /\ map fst items = [ex_line] /\ p' = map Some ex_line.
Proof. do 3 eexists. split; [vm_compute; reflexivity|]. split; vm_compute; reflexivity. Qed.
(* a timeout after the first or second byte of a sentence loses it without any report, under
   every policy *)
Theorem C88_silent_refuted :
  poll (ex_cfg 1) 300 300 (port_of [firstn 2 ex_line; skipn 2 ex_line]) = Some ([], []).
Proof. vm_compute. reflexivity. Qed.
