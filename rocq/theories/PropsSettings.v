(* Theorems about changing the settings while a stream is read: C114.  A program may
   open a new NMEAReader on reader.datastream, with other settings, at any moment. *)
From Coq Require Import Lia.
From Verif Require Import Message Reader Socket Spec BaseLemmas ReaderSpec ReaderProofs SocketSpec SocketProofs
  HandlerProofs PropsReader PropsSocket.
Local Open Scope Z_scope.

(* ---------------------------------------------------------------------- *)
(* specification *)

(* what becomes of a protocol error: raised?, reports *)
Definition reported (cfg : rcfg) (e : exc) : option exc * list event :=
  match r_quit cfg, r_handler cfg with
  | 1, None => (None, [EvLog e])
  | 1, Some h => (h e, [EvHandler e])
  | 2, _ => (Some e, [])
  | _, _ => (None, [])
  end.
Definition is_protocol_error (e : exc) : bool :=
  match e with NMEAMessageError | NMEATypeError | NMEAParseError | NMEAStreamError => true | _ => false end.
(* one read() with these settings, over what the stream holds: the outcome, the reports, what is left *)
Fixpoint serve (cfg : rcfg) (ts : list token) : outcome * list event * list token :=
  let problem (e : exc) (r : list token) (next : outcome * list event * list token) :=
    match reported cfg e with
    | (Some x, ev) => (RRaise x, ev, r)
    | (None, ev) => let '(o, ev', r') := next in (o, ev ++ ev', r')
    end in
  match ts with
  | [] => (REnd, [], [])
  | Other _ :: r => if r_nmeaonly cfg then problem NMEAParseError r (serve cfg r) else serve cfg r
  | Cut :: r => problem NMEAStreamError r (serve cfg r)
  | Line raw :: r =>
      match parse (MBytes raw) (r_mode cfg) (r_validate cfg) (r_userdefined cfg) with
      | Ok m => (RMsg raw m, [], r)
      | Raise e => if is_protocol_error e then problem e r (serve cfg r) else (RRaise e, [], r)
      end
  end.
(* a program: from all it has seen, the settings of the reader it calls next, or no more *)
Definition program := list (outcome * list event) -> option rcfg.
Fixpoint served (p : program) (n : nat) (seen : list (outcome * list event)) (ts : list token) : list (outcome * list event) * list token :=
  match n with
  | O => (seen, ts)
  | S n' => match p seen with
            | None => (seen, ts)
            | Some cfg => let '(o, ev, r) := serve cfg ts in served p n' (seen ++ [(o, ev)]) r
            end
  end.
(* the same program over a stream object *)
Fixpoint performed {S} (read1 readline : S -> result bytes * S) (fuel : nat) (p : program) (n : nat) (seen : list (outcome * list event)) (k : S)
  : option (list (outcome * list event) * S) :=
  match n with
  | O => Some (seen, k)
  | Datatypes.S n' =>
      match p seen with
      | None => Some (seen, k)
      | Some cfg =>
          match read S read1 readline cfg fuel k with
          | Some (o, ev, k') => performed read1 readline fuel p n' (seen ++ [(o, ev)]) k'
          | None => None
          end
      end
  end.

(* ---------------------------------------------------------------------- *)
(* proofs *)
Lemma reported_ok cfg e : do_error cfg e = reported cfg e.
Proof.
  unfold do_error, reported, ERR_RAISE, ERR_LOG. destruct (Z.eqb_spec (r_quit cfg) 0) as [->|N0]; [reflexivity|].
  destruct (Z.eqb_spec (r_quit cfg) 2) as [->|N2]; [reflexivity|]. destruct (Z.eqb_spec (r_quit cfg) 1) as [->|N1]; [reflexivity|].
  destruct (r_quit cfg) as [|[[q|q|]|[q|q|]|]|q]; try reflexivity; contradiction.
Qed.

Section Generic.
Variable S : Type.
Variable stream_read1 : S -> result bytes * S.
Variable stream_readline : S -> result bytes * S.
Variable t : bytes.
Variable R : S -> bytes -> Prop.
Hypothesis T : t <> [].
Hypothesis read1_nil : forall k, R k [] -> exists k', stream_read1 k = (Ok [], k') /\ R k' [].
Hypothesis read1_cons : forall k b r, R k (b :: r) -> exists k', stream_read1 k = (Ok [b], k') /\ R k' r.
Hypothesis readline_ok : forall k s, R k s ->
  exists line rest k', stream_readline k = (Ok line, k') /\ first_line t s line rest /\ R k' rest.
Section One.
Variable cfg : rcfg.
Notation pass := (pass S stream_read1 stream_readline cfg).

Inductive eats (k : S) (s : bytes) (ts : list token) : Prop :=
| eats_end k' : pass k = (Raise EOFError, k') -> ts = [] -> R k' [] -> eats k s ts
| eats_skip k' s' : pass k = (Ok None, k') -> R k' s' -> tokens t s' ts -> (length s' < length s)%nat -> eats k s ts
| eats_token k' s' x r ts' : pass k = (r, k') -> ts = x :: ts' -> R k' s' -> tokens t s' ts' -> (length s' < length s)%nat ->
    r = match x with
        | Line raw => match parse (MBytes raw) (r_mode cfg) (r_validate cfg) (r_userdefined cfg) with Ok m => Ok (Some (raw, m)) | Raise e => Raise e end
        | Other _ => if r_nmeaonly cfg then Raise NMEAParseError else Ok None
        | Cut => Raise NMEAStreamError
        end -> eats k s ts.
Lemma pass_eats k s ts : tokens t s ts -> R k s -> eats k s ts.
Proof using T read1_nil read1_cons readline_ok.
  intros Tk Rk.
  pose proof (pass_nil S stream_read1 stream_readline R read1_nil cfg) as pass_nil.
  pose proof (pass_skip S stream_read1 stream_readline R read1_cons cfg) as pass_skip.
  pose proof (pass_dollar S stream_read1 stream_readline R read1_nil read1_cons cfg) as pass_dollar.
  pose proof (pass_header S stream_read1 stream_readline R read1_cons cfg) as pass_header.
  pose proof (read_line_ok S stream_readline t R T readline_ok) as read_line_ok.
  destruct Tk as [|b s ts N Tk| |c s ts N Tk|c Sc|c s line rest ts Sc F El Tk|c s line rest ts Sc F Nl El Tk].
  - destruct (pass_nil k Rk) as (k' & E & H'). apply (eats_end k [] [] k'); auto.
  - destruct (pass_skip k b s Rk N) as (k1 & E & H1). apply (eats_skip k _ ts k1 s); auto.
  - destruct (pass_dollar k Rk) as (k' & E & H'). apply (eats_end k _ [] k'); auto.
  - destruct (pass_header k c s Rk) as (k2 & H2 & E).
    assert (hdr_second c = false) as Hc by (destruct (hdr_second c) eqn:X; [exfalso; apply N, hdr_second_iff, X|reflexivity]).
    rewrite Hc in E. destruct (r_nmeaonly cfg) eqn:Y; (eapply (eats_token k _ _ k2 s (Other c) _ ts E); [reflexivity|assumption|assumption|cbn; lia|rewrite Y; reflexivity]).
  - destruct (pass_header k c [] Rk) as (k2 & H2 & E).
    apply hdr_second_iff in Sc. rewrite Sc in E.
    destruct (read_line_ok k2 [] [] [] H2) as (k' & H' & E2).
    { split; [reflexivity|]. right. split; [reflexivity|]. intros (a & b & X). symmetry in X.
      apply app_eq_nil in X as [_ X]. apply app_eq_nil in X as [X _]. contradiction. }
    rewrite E2 in E. apply (eats_end k _ [] k'); auto.
  - destruct (pass_header k c s Rk) as (k2 & H2 & E).
    apply hdr_second_iff in Sc. rewrite Sc in E.
    destruct (read_line_ok k2 s line rest H2 F) as (k' & H' & E2). rewrite E2 in E.
    pose proof El as (body & Eb).
    assert (line <> []) as Nl by (intros ->; destruct body; discriminate).
    pose proof (proj2 (last_lf line Nl) El) as La. rewrite La in E.
    assert (length rest < length (dollar :: c :: s))%nat as Ln.
    { destruct F as (-> & _). cbn. rewrite app_length. lia. }
    assert (match line with [] => (Raise EOFError, k') | _ :: _ => (Ok line, k') end = (Ok line, k')) as X
      by (destruct line; [contradiction|reflexivity]).
    rewrite X in E. clear X.
    eapply (eats_token k _ _ k' rest (Line (dollar :: c :: line)) _ ts); [|reflexivity|assumption|assumption|assumption|reflexivity].
    destruct (parse (MBytes (dollar :: c :: line)) (r_mode cfg) (r_validate cfg) (r_userdefined cfg)) as [m|e] eqn:P; exact E.
  - destruct (pass_header k c s Rk) as (k2 & H2 & E).
    apply hdr_second_iff in Sc. rewrite Sc in E.
    destruct (read_line_ok k2 s line rest H2 F) as (k' & H' & E2). rewrite E2 in E.
    assert (N.eqb (last line 0%N) c_lf = false) as La.
    { destruct (N.eqb (last line 0%N) c_lf) eqn:X; [|reflexivity]. exfalso. apply El, last_lf; assumption. }
    rewrite La in E.
    assert (match line with [] => (Raise EOFError, k') | _ :: _ => (Raise NMEAStreamError, k') end = (@Raise bytes NMEAStreamError, k')) as X
      by (destruct line; [contradiction|reflexivity]).
    rewrite X in E. clear X.
    assert (length rest < length (dollar :: c :: s))%nat as Ln.
    { destruct F as (-> & _). cbn. rewrite app_length. lia. }
    eapply (eats_token k _ _ k' rest Cut _ ts E); [reflexivity|assumption|assumption|assumption|reflexivity].
Qed.

Lemma read_serve fuel : forall k s ts, tokens t s ts -> R k s -> (length s < fuel)%nat ->
  exists k' s' o ev ts', serve cfg ts = (o, ev, ts') /\ read S stream_read1 stream_readline cfg fuel k = Some (o, ev, k')
    /\ R k' s' /\ tokens t s' ts' /\ (length s' <= length s)%nat.
Proof using T read1_nil read1_cons readline_ok.
  induction fuel as [|f IH]; intros k s ts Tk Rk L; [lia|].
  assert (forall e X (a b : X), e <> EOFError -> match e with EOFError => a | _ => b end = b) as Q
    by (intros e X a b Ne; destruct e; try reflexivity; contradiction).
  assert (forall e k1 s1 ts1, e <> EOFError -> is_nmea_error e = true -> pass k = (Raise e, k1) -> R k1 s1 -> tokens t s1 ts1 -> (length s1 < length s)%nat ->
    exists k' s' o ev ts',
      match reported cfg e with
      | (Some x, ev) => (RRaise x, ev, ts1)
      | (None, ev) => let '(o, ev', r') := serve cfg ts1 in (o, ev ++ ev', r')
      end = (o, ev, ts') /\ read S stream_read1 stream_readline cfg (Datatypes.S f) k = Some (o, ev, k')
      /\ R k' s' /\ tokens t s' ts' /\ (length s' <= length s)%nat) as Problem.
  { intros e k1 s1 ts1 Ne Ie E R1 T1 L1. cbn [read]. rewrite E, (Q e) by exact Ne. rewrite Ie, reported_ok.
    destruct (reported cfg e) as [[x|] ev].
    - exists k1, s1, (RRaise x), ev, ts1. repeat (split; [first [reflexivity|assumption]|]). lia.
    - destruct (IH k1 s1 ts1 T1 R1 ltac:(lia)) as (k2 & s2 & o & ev2 & ts2 & -> & -> & A & B & C).
      exists k2, s2, o, (ev ++ ev2), ts2. repeat (split; [first [reflexivity|assumption]|]). lia. }
  destruct (pass_eats k s ts Tk Rk) as [k' E -> Rk'|k' s' E Rk' Tk' L'|k' s' x r ts' E -> Rk' Tk' L' Er].
  - cbn [read]. rewrite E. exists k', [], REnd, [], []. repeat (split; [first [reflexivity|assumption|constructor]|]). cbn. lia.
  - cbn [read]. rewrite E. destruct (IH k' s' ts Tk' Rk' ltac:(lia)) as (k2 & s2 & o & ev & ts2 & A & B & C & D & L2).
    exists k2, s2, o, ev, ts2. repeat (split; [assumption|]). lia.
  - destruct x as [raw|c|]; cbn [serve]; subst r.
    + destruct (parse (MBytes raw) (r_mode cfg) (r_validate cfg) (r_userdefined cfg)) as [m|e] eqn:P.
      * cbn [read]. rewrite E. exists k', s', (RMsg raw m), [], ts'. repeat (split; [first [reflexivity|assumption]|]). lia.
      * assert (e <> EOFError) as Ne by (intros ->; exact (parse_not_eof _ _ _ _ P)).
        change (is_protocol_error e) with (is_nmea_error e). destruct (is_nmea_error e) eqn:Ie.
        -- apply (Problem e k' s' ts'); assumption.
        -- cbn [read]. rewrite E, (Q e) by exact Ne. rewrite Ie. exists k', s', (RRaise e), [], ts'. repeat (split; [first [reflexivity|assumption]|]). lia.
    + destruct (r_nmeaonly cfg).
      * apply (Problem NMEAParseError k' s' ts'); try assumption; [discriminate|reflexivity].
      * cbn [read]. rewrite E. destruct (IH k' s' ts' Tk' Rk' ltac:(lia)) as (k2 & s2 & o & ev & ts2 & A & B & C & D & L2).
        exists k2, s2, o, ev, ts2. repeat (split; [assumption|]). lia.
    + apply (Problem NMEAStreamError k' s' ts'); try assumption; [discriminate|reflexivity].
Qed.
End One.

Lemma performed_served p fuel n : forall seen k s ts, tokens t s ts -> R k s -> (length s < fuel)%nat ->
  exists k' s', performed stream_read1 stream_readline fuel p n seen k = Some (fst (served p n seen ts), k')
    /\ R k' s' /\ tokens t s' (snd (served p n seen ts)).
Proof using T read1_nil read1_cons readline_ok.
  induction n as [|n IH]; intros seen k s ts Tk Rk L; cbn [performed served].
  - exists k, s. auto.
  - destruct (p seen) as [cfg|]; [|exists k, s; auto].
    destruct (read_serve cfg fuel k s ts Tk Rk L) as (k1 & s1 & o & ev & ts1 & -> & -> & A & B & C). apply (IH (seen ++ [(o, ev)]) k1 s1 ts1 B A). lia.
Qed.
End Generic.

(* over a file: whatever the settings of each read(), and however they are chosen *)
Theorem C114_file p fuel n s ts :
  tokens [lf] s ts -> (length s < fuel)%nat ->
  exists rest, performed file_read1 file_readline fuel p n [] s = Some (fst (served p n [] ts), rest)
    /\ tokens [lf] rest (snd (served p n [] ts)).
Proof.
  intros Tk L.
  destruct (performed_served file file_read1 file_readline [lf] eq lf_nonnil) with (p := p) (fuel := fuel) (n := n) (seen := @nil (outcome * list event)) (k := s) (s := s) (ts := ts)
    as (k' & s' & A & B & C); try assumption; try reflexivity.
  - intros k Ek. rewrite Ek. exists []. split; reflexivity.
  - intros k b r Ek. rewrite Ek. exists r. split; reflexivity.
  - intros k s0 ->. destruct (first_line_lf s0) as (line & rest & A & B). exists line, rest, rest. auto.
  - subst s'. exists k'. auto.
Qed.
(* over a connection, however the data is cut: the readers share the first one's wrapper *)
Theorem C114_socket p fuel n segs enc z ts :
  Z.testbit enc 0 = false -> Forall (fun d => d <> []) segs ->
  tokens [cr; lf] (concat segs) ts -> (length (concat segs) < fuel)%nat ->
  exists k', performed (sock_read 1) sock_readline fuel p n [] (sock_init (map RData segs) enc z) = Some (fst (served p n [] ts), k').
Proof.
  intros B F Tk L. destruct (init_contents segs enc z B F) as (A1 & A2 & A3).
  destruct (performed_served sock (sock_read 1) sock_readline crlf sock_is crlf_nonnil) with (p := p) (fuel := fuel) (n := n) (seen := @nil (outcome * list event))
    (k := sock_init (map RData segs) enc z) (s := concat segs) (ts := ts) as (k' & s' & A & _); try assumption.
  - intros k0 K. destruct (sock_read1_ok k0 [] K) as (d & k' & E & -> & K'). exists k'. auto.
  - intros k0 b r K. destruct (sock_read1_ok k0 (b :: r) K) as (d & k' & E & -> & K'). exists k'. auto.
  - exact sock_readline_ok.
  - split; [exact A1|]. split; [exact A2|]. congruence.
  - exists k'. exact A.
Qed.

(* the messages delivered to all the readers together are lines of the stream, each at
   most once and in order; what is left afterwards is untouched *)
Inductive picked {A} : list A -> list A -> Prop :=
| picked_end : picked [] []
| picked_yes a l s : picked l s -> picked (a :: l) (a :: s)
| picked_no a l s : picked l s -> picked l (a :: s).
Definition lines_of (ts : list token) : list bytes := flat_map (fun x => match x with Line raw => [raw] | _ => [] end) ts.
Definition raws_of (seen : list (outcome * list event)) : list bytes :=
  flat_map (fun x => match fst x with RMsg raw _ => [raw] | _ => [] end) seen.
Lemma picked_none {A} (l : list A) : picked [] l.
Proof. induction l; constructor; assumption. Qed.
Lemma picked_app {A} (a b s r : list A) : picked a s -> picked b r -> picked (a ++ b) (s ++ r).
Proof. induction 1; cbn; intros; try constructor; auto. Qed.
Lemma serve_used cfg ts : forall o ev ts', serve cfg ts = (o, ev, ts') ->
  exists used, ts = used ++ ts' /\ picked (raws_of [(o, ev)]) (lines_of used) /\ (ts' = [] \/ used <> []).
Proof.
  induction ts as [|x ts IH]; intros o ev ts' E.
  - injection E as <- <- <-. exists []. split; [reflexivity|]. split; [constructor|]. left. reflexivity.
  - assert (forall e o ev ts', match reported cfg e with
        | (Some y, ev) => (RRaise y, ev, ts)
        | (None, ev) => let '(o, ev', r') := serve cfg ts in (o, ev ++ ev', r')
        end = (o, ev, ts') -> exists used, x :: ts = used ++ ts' /\ picked (raws_of [(o, ev)]) (lines_of used) /\ (ts' = [] \/ used <> [])) as Pb.
    { clear E o ev ts'. intros e o ev ts' E. destruct (reported cfg e) as [[y|] ev0].
      - injection E as <- <- <-. exists [x]. split; [reflexivity|]. split; [apply picked_none|]. right. discriminate.
      - destruct (serve cfg ts) as [[o1 ev1] r1] eqn:E1. injection E as <- <- <-. destruct (IH _ _ _ eq_refl) as (used & -> & Pk & _).
        exists (x :: used). split; [reflexivity|]. split; [|right; discriminate]. destruct x; cbn; try (apply picked_no); exact Pk. }
    destruct x as [raw|c|]; cbn [serve] in E.
    + destruct (parse (MBytes raw) (r_mode cfg) (r_validate cfg) (r_userdefined cfg)) as [m|e].
      * injection E as <- <- <-. exists [Line raw]. split; [reflexivity|]. split; [cbn; constructor; constructor|]. right. discriminate.
      * destruct (is_protocol_error e); [exact (Pb _ _ _ _ E)|]. injection E as <- <- <-. exists [Line raw]. split; [reflexivity|].
        split; [apply picked_none|]. right. discriminate.
    + destruct (r_nmeaonly cfg); [exact (Pb _ _ _ _ E)|]. destruct (IH _ _ _ E) as (used & -> & Pk & _). exists (Other c :: used).
      split; [reflexivity|]. split; [exact Pk|]. right. discriminate.
    + exact (Pb _ _ _ _ E).
Qed.
Theorem C114_lines p n ts :
  exists used, ts = used ++ snd (served p n [] ts) /\ picked (raws_of (fst (served p n [] ts))) (lines_of used).
Proof.
  cut (forall seen ts, exists used, ts = used ++ snd (served p n seen ts)
    /\ exists more, fst (served p n seen ts) = seen ++ more /\ picked (raws_of more) (lines_of used)).
  { intros X. destruct (X [] ts) as (used & A & more & B & C). exists used. rewrite B. auto. }
  clear ts. induction n as [|n IH]; intros seen ts; cbn [served].
  - exists []. split; [reflexivity|]. exists []. rewrite app_nil_r. split; [reflexivity|constructor].
  - destruct (p seen) as [cfg|].
    2:{ exists []. split; [reflexivity|]. exists []. rewrite app_nil_r. split; [reflexivity|constructor]. }
    destruct (serve cfg ts) as [[o ev] r] eqn:E. destruct (serve_used _ _ _ _ _ E) as (used & -> & Pk & _).
    destruct (IH (seen ++ [(o, ev)]) r) as (used2 & A & more & B & C). exists (used ++ used2). split.
    + rewrite <- app_assoc. f_equal. exact A.
    + exists ((o, ev) :: more). rewrite B, <- app_assoc. split; [reflexivity|].
      change (raws_of ((o, ev) :: more)) with (raws_of ([(o, ev)] ++ more)). unfold raws_of, lines_of. rewrite !flat_map_app.
      apply picked_app; assumption.
Qed.
(* with errors raised and nothing skipped, one call is one element of the stream: after n calls exactly n are gone, whatever else the settings *)
Definition strict (cfg : rcfg) : Prop := r_quit cfg = 2 /\ r_nmeaonly cfg = true.
Theorem C114_one_each p n ts : (forall seen, exists cfg, p seen = Some cfg /\ strict cfg) ->
  snd (served p n [] ts) = skipn n ts.
Proof.
  intros St. cut (forall seen ts, snd (served p n seen ts) = skipn n ts); [auto|]. clear ts.
  induction n as [|n IH]; intros seen ts; [destruct ts; reflexivity|]. cbn [served].
  destruct (St seen) as (cfg & -> & Qq & Nm). destruct ts as [|x ts].
  - cbn [serve]. rewrite IH. destruct n; reflexivity.
  - cbn [skipn]. assert (exists o ev, serve cfg (x :: ts) = (o, ev, ts)) as (o & ev & ->); [|apply IH].
    assert (forall e, reported cfg e = (Some e, [])) as Re by (intros e; unfold reported; rewrite Qq; reflexivity).
    destruct x as [raw|c|]; cbn [serve]; rewrite ?Nm, ?Re.
    + destruct (parse (MBytes raw) (r_mode cfg) (r_validate cfg) (r_userdefined cfg)) as [m|e]; [eauto|]. rewrite Re. destruct (is_protocol_error e); eauto.
    + eauto.
    + eauto.
Qed.

(* a program that drops the checksum validation after its first error *)
Definition lenient_later : program := fun seen =>
  Some (if existsb (fun x => match fst x with RRaise _ => true | _ => false end) seen then mkrcfg 0 0 false 2 None [] else mkrcfg 0 1 false 2 None []).
Definition ex_mixed : bytes := ex_bad ++ ex_bad ++ ex_line.
Example C114_example :
  match performed file_read1 file_readline 300 lenient_later 4 [] ex_mixed with
  | Some (seen, rest) => map (fun x => match fst x with RMsg _ _ => 1 | REnd => 0 | RRaise e => match e with NMEAParseError => 2 | _ => 3 end end) seen = [2; 1; 1; 0]
      /\ raws_of seen = [ex_bad; ex_line] /\ rest = []
  | None => False
  end
  /\ (exists m, tokens [lf] ex_stream [Line ex_line; Line ex_bad; Line ex_line; Cut] /\ m = raws_of (fst (served lenient_later 5 [] [Line ex_line; Line ex_bad; Line ex_line; Cut]))
      /\ m = [ex_line; ex_line])
  /\ (forall seen, exists cfg, (fun _ : list (outcome * list event) => Some (mkrcfg 1 0 true 2 None [])) seen = Some cfg /\ strict cfg).
Proof.
  split; [vm_compute; auto|]. split.
  - eexists. split; [destruct ex_history as (m & Tk & _); exact Tk|]. split; [reflexivity|]. vm_compute. reflexivity.
  - intros seen. eexists. split; [reflexivity|]. split; reflexivity.
Qed.
