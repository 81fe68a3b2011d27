(* One pass of the reader's loop over a list of happenings, and handlers with
   memory. *)
From Coq Require Import Lia.
From Verif Require Import Message Reader ReaderHandler Spec BaseLemmas ReaderSpec ReaderProofs.
Local Open Scope Z_scope.

Section Generic.
Variables S M : Type.
Variable stream_read1 : S -> result bytes * S.
Variable stream_readline : S -> result bytes * S.
Variable t : bytes.
Variable R : S -> bytes -> Prop.
Hypothesis T : t <> [].
Hypothesis read1_nil : forall k, R k [] -> exists k', stream_read1 k = (Ok [], k') /\ R k' [].
Hypothesis read1_cons : forall k b r, R k (b :: r) -> exists k', stream_read1 k = (Ok [b], k') /\ R k' r.
Hypothesis readline_ok : forall k s, R k s ->
  exists line rest k', stream_readline k = (Ok line, k') /\ first_line t s line rest /\ R k' rest.
Variable cfg : rcfg.
Notation pass := (pass S stream_read1 stream_readline cfg).

(* what one pass does *)
Inductive step (k : S) (s : bytes) (hs : list happening) : Prop :=
| step_end k' : pass k = (Raise EOFError, k') -> hs = [] -> R k' [] -> step k s hs
| step_skip k' s' ts' : pass k = (Ok None, k') -> R k' s' -> tokens t s' ts' -> happens cfg ts' hs -> (length s' < length s)%nat -> step k s hs
| step_item k' s' ts' hs' raw m : pass k = (Ok (Some (raw, m)), k') -> hs = Item raw m :: hs' ->
    R k' s' -> tokens t s' ts' -> happens cfg ts' hs' -> (length s' < length s)%nat -> step k s hs
| step_problem k' s' ts' hs' e : pass k = (Raise e, k') -> e <> EOFError -> is_nmea_error e = true -> hs = Problem e :: hs' ->
    R k' s' -> tokens t s' ts' -> happens cfg ts' hs' -> (length s' < length s)%nat -> step k s hs
| step_crash k' s' ts' hs' e : pass k = (Raise e, k') -> e <> EOFError -> is_nmea_error e = false -> hs = Crash e :: hs' ->
    R k' s' -> tokens t s' ts' -> happens cfg ts' hs' -> (length s' < length s)%nat -> step k s hs.

Lemma pass_tokens k s ts hs : tokens t s ts -> happens cfg ts hs -> R k s -> step k s hs.
Proof using T read1_nil read1_cons readline_ok.
  intros Tk Hp Rk.
  pose proof (pass_nil S stream_read1 stream_readline R read1_nil cfg) as pass_nil.
  pose proof (pass_skip S stream_read1 stream_readline R read1_cons cfg) as pass_skip.
  pose proof (pass_dollar S stream_read1 stream_readline R read1_nil read1_cons cfg) as pass_dollar.
  pose proof (pass_header S stream_read1 stream_readline R read1_cons cfg) as pass_header.
  pose proof (read_line_ok S stream_readline t R T readline_ok) as read_line_ok.
  destruct Tk as [|b s ts N Tk| |c s ts N Tk|c Sc|c s line rest ts Sc F El Tk|c s line rest ts Sc F Nl El Tk].
  - inversion Hp; subst. destruct (pass_nil k Rk) as (k' & E & H'). apply (step_end k [] [] k'); auto.
  - destruct (pass_skip k b s Rk N) as (k1 & E & H1). apply (step_skip k _ hs k1 s ts); auto.
  - inversion Hp; subst. destruct (pass_dollar k Rk) as (k' & E & H'). apply (step_end k _ [] k'); auto.
  - destruct (pass_header k c s Rk) as (k2 & H2 & E).
    assert (hdr_second c = false) as Hc by (destruct (hdr_second c) eqn:X; [exfalso; apply N, hdr_second_iff, X|reflexivity]).
    rewrite Hc in E. inversion Hp as [| | | |? ? hs' O Hp'|? ? hs' O Hp'|]; subst; rewrite O in E.
    + apply (step_problem k _ _ k2 s ts hs' NMEAParseError); try assumption; try discriminate; try reflexivity. cbn. lia.
    + apply (step_skip k _ hs k2 s ts); try assumption. cbn. lia.
  - inversion Hp; subst. destruct (pass_header k c [] Rk) as (k2 & H2 & E).
    apply hdr_second_iff in Sc. rewrite Sc in E.
    destruct (read_line_ok k2 [] [] [] H2) as (k' & H' & E2).
    { split; [reflexivity|]. right. split; [reflexivity|]. intros (a & b & X). symmetry in X.
      apply app_eq_nil in X as [_ X]. apply app_eq_nil in X as [X _]. contradiction. }
    rewrite E2 in E. apply (step_end k _ [] k'); auto.
  - destruct (pass_header k c s Rk) as (k2 & H2 & E).
    apply hdr_second_iff in Sc. rewrite Sc in E.
    destruct (read_line_ok k2 s line rest H2 F) as (k' & H' & E2). rewrite E2 in E.
    pose proof El as (body & Eb).
    assert (line <> []) as Nl by (intros ->; destruct body; discriminate).
    pose proof (proj2 (last_lf line Nl) El) as La. rewrite La in E.
    assert (length rest < length (dollar :: c :: s))%nat as Ln.
    { destruct F as (-> & _). cbn. rewrite app_length. lia. }
    destruct (happens_line _ _ _ _ Hp) as (hs' & Hp' & Hq).
    assert (match line with [] => (Raise EOFError, k') | _ :: _ => (Ok line, k') end = (Ok line, k')) as X
      by (destruct line; [contradiction|reflexivity]).
    rewrite X in E. clear X.
    destruct (parse (MBytes (dollar :: c :: line)) (r_mode cfg) (r_validate cfg) (r_userdefined cfg)) as [m|e] eqn:P.
    + subst hs. eapply (step_item k _ _ k' rest ts hs'); try eassumption. reflexivity.
    + assert (e <> EOFError) as Ne by (intros ->; exact (parse_not_eof _ _ _ _ P)).
      destruct (is_nmea_error e) eqn:Ie.
      * apply (step_problem k _ _ k' rest ts hs' e); assumption.
      * apply (step_crash k _ _ k' rest ts hs' e); assumption.
  - destruct (pass_header k c s Rk) as (k2 & H2 & E).
    apply hdr_second_iff in Sc. rewrite Sc in E.
    destruct (read_line_ok k2 s line rest H2 F) as (k' & H' & E2). rewrite E2 in E.
    assert (N.eqb (last line 0%N) c_lf = false) as La.
    { destruct (N.eqb (last line 0%N) c_lf) eqn:X; [|reflexivity]. exfalso. apply El, last_lf; assumption. }
    rewrite La in E.
    assert (match line with [] => (Raise EOFError, k') | _ :: _ => (Raise NMEAStreamError, k') end = (@Raise bytes NMEAStreamError, k')) as X
      by (destruct line; [contradiction|reflexivity]).
    rewrite X in E. clear X.
    assert (length rest < length (dollar :: c :: s))%nat as Ln.
    { destruct F as (-> & _). cbn. rewrite app_length. lia. }
    inversion Hp as [| | | | | |? hs' Hp']; subst.
    apply (step_problem k _ _ k' rest ts hs' NMEAStreamError); try assumption; try discriminate; reflexivity.
Qed.

Variable h : M -> exc -> option exc * M.
Notation do_error_h := (do_error_h M cfg h).
Notation read_h := (read_h S M stream_read1 stream_readline cfg h).
Notation iterate_h := (iterate_h S M stream_read1 stream_readline cfg h).

(* the next outcome of a list of happenings *)
Fixpoint next_h (mem : M) (hs : list happening) : outcome * list event * list happening * M :=
  match hs with
  | [] => (REnd, [], [], mem)
  | Item raw m :: r => (RMsg raw m, [], r, mem)
  | Crash e :: r => (RRaise e, [], r, mem)
  | Problem e :: r =>
      match do_error_h mem e with
      | (Some e', ev, mem') => (RRaise e', ev, r, mem')
      | (None, ev, mem') => let '(o, ev', r', mem2) := next_h mem' r in (o, ev ++ ev', r', mem2)
      end
  end.
Fixpoint run_h (mem : M) (hs : list happening) : list (bytes * option msg) * option exc * list event * list happening * M :=
  match hs with
  | [] => ([], None, [], [], mem)
  | Item raw m :: r => let '(l, x, ev, r', mem') := run_h mem r in ((raw, m) :: l, x, ev, r', mem')
  | Crash e :: r => ([], Some e, [], r, mem)
  | Problem e :: r =>
      match do_error_h mem e with
      | (Some e', ev, mem') => ([], Some e', ev, r, mem')
      | (None, ev, mem') => let '(l, x, ev', r', mem2) := run_h mem' r in (l, x, ev ++ ev', r', mem2)
      end
  end.
Lemma run_next_h hs : forall mem,
  run_h mem hs =
  match next_h mem hs with
  | (REnd, ev, r, mem') => ([], None, ev, r, mem')
  | (RRaise e, ev, r, mem') => ([], Some e, ev, r, mem')
  | (RMsg raw m, ev, r, mem') => let '(l, x, ev', r', mem2) := run_h mem' r in ((raw, m) :: l, x, ev ++ ev', r', mem2)
  end.
Proof.
  induction hs as [|a hs IH]; intros mem; [reflexivity|]. destruct a as [raw m|e|e]; cbn [run_h next_h].
  - destruct (run_h mem hs) as [[[[l x] ev] r] mem']. reflexivity.
  - destruct (do_error_h mem e) as [[[e'|] ev] mem']; [reflexivity|]. rewrite IH.
    destruct (next_h mem' hs) as [[[[raw m| |e'] ev'] r] mem2]; try reflexivity.
    destruct (run_h mem2 r) as [[[[l x] ev2] r'] mem3]. rewrite app_assoc. reflexivity.
  - reflexivity.
Qed.

Lemma read_h_tokens fuel : forall k s ts hs mem,
  tokens t s ts -> happens cfg ts hs -> R k s -> (length s < fuel)%nat ->
  exists k' s' ts' o ev hs' mem',
    next_h mem hs = (o, ev, hs', mem') /\ read_h fuel k mem = Some (o, ev, k', mem')
    /\ R k' s' /\ tokens t s' ts' /\ happens cfg ts' hs'
    /\ (length s' <= length s)%nat /\ (o = REnd \/ (length s' < length s)%nat).
Proof using T read1_nil read1_cons readline_ok.
  induction fuel as [|f IH]; intros k s ts hs mem Tk Hp Rk L; [lia|].
  assert (forall e X (a b : X), e <> EOFError -> match e with EOFError => a | _ => b end = b) as Q
    by (intros e X a b Ne; destruct e; try reflexivity; contradiction).
  destruct (pass_tokens k s ts hs Tk Hp Rk) as
    [k' E -> Rk'|k' s' ts' E Rk' Tk' Hp' L'|k' s' ts' hs' raw m E -> Rk' Tk' Hp' L'
    |k' s' ts' hs' e E Ne Ie -> Rk' Tk' Hp' L'|k' s' ts' hs' e E Ne Ie -> Rk' Tk' Hp' L']; cbn [ReaderHandler.read_h]; rewrite E.
  - exists k', [], [], REnd, [], [], mem. cbn [next_h]. do 5 (split; [first [reflexivity|assumption|constructor]|]). split; [cbn; lia|]. left. reflexivity.
  - destruct (IH k' s' ts' hs mem Tk' Hp' Rk' ltac:(lia)) as (k2 & s2 & ts2 & o & ev & hs2 & mem2 & X1 & X2 & X3 & X4 & X5 & X6 & X7).
    exists k2, s2, ts2, o, ev, hs2, mem2. do 5 (split; [assumption|]). split; [lia|]. right. lia.
  - exists k', s', ts', (RMsg raw m), [], hs', mem. cbn [next_h]. do 5 (split; [first [reflexivity|assumption]|]). split; [lia|]. right. lia.
  - cbn [next_h]. rewrite (Q e) by exact Ne. rewrite Ie. destruct (do_error_h mem e) as [[[e'|] ev] mem1].
    + exists k', s', ts', (RRaise e'), ev, hs', mem1. do 5 (split; [first [reflexivity|assumption]|]). split; [lia|]. right. lia.
    + destruct (IH k' s' ts' hs' mem1 Tk' Hp' Rk' ltac:(lia)) as (k2 & s2 & ts2 & o & ev2 & hs2 & mem2 & X1 & X2 & X3 & X4 & X5 & X6 & X7).
      rewrite X1, X2. exists k2, s2, ts2, o, (ev ++ ev2), hs2, mem2. do 5 (split; [first [reflexivity|assumption]|]). split; [lia|]. right. lia.
  - cbn [next_h]. rewrite (Q e) by exact Ne. rewrite Ie.
    exists k', s', ts', (RRaise e), [], hs', mem. do 5 (split; [first [reflexivity|assumption]|]). split; [lia|]. right. lia.
Qed.

Lemma iterate_h_tokens fuel n : forall k s ts hs mem,
  tokens t s ts -> happens cfg ts hs -> R k s -> (length s < fuel)%nat -> (length s < n)%nat ->
  exists k' l x ev hs' mem',
    run_h mem hs = (l, x, ev, hs', mem') /\ iterate_h n fuel k mem = Some (l, x, ev, k', mem').
Proof using T read1_nil read1_cons readline_ok.
  induction n as [|n IH]; intros k s ts hs mem Tk Hp Rk L1 L2; [lia|].
  destruct (read_h_tokens fuel k s ts hs mem Tk Hp Rk L1) as (k' & s' & ts' & o & ev & hs' & mem' & X1 & X2 & X3 & X4 & X5 & X6 & X7).
  rewrite run_next_h, X1. cbn [ReaderHandler.iterate_h]. rewrite X2. destruct o as [raw m| |e].
  - destruct X7 as [X7|X7]; [discriminate|].
    destruct (IH k' s' ts' hs' mem' X4 X5 X3 ltac:(lia) ltac:(lia)) as (k2 & l & x & ev2 & hs2 & mem2 & Y1 & Y2).
    rewrite Y1, Y2. exists k2, ((raw, m) :: l), x, (ev ++ ev2), hs2, mem2. auto.
  - exists k', [], None, ev, hs', mem'. auto.
  - exists k', [], (Some e), ev, hs', mem'. auto.
Qed.
End Generic.
