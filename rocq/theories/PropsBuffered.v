(* C118: a serial port behind io.BufferedReader, and the server's loop that asks in_waiting first *)
From Coq Require Import Lia.
From Verif Require Import Message Reader Server Socket BaseLemmas TextLemmas Spec ReaderSpec ReaderProofs SocketSpec SocketProofs ChunkProofs
  PropsReader PropsSocket PropsSession PropsPort PropsMemory BufferedPort.
Local Open Scope nat_scope.

(* the port without the buffer: the bytes in the order in which they come, and a timeout for
   every raw read that gives nothing *)
Definition unbuffered (buf : bytes) (fills : list bytes) : port :=
  map Some buf ++ flat_map (fun f => match f with [] => [None] | _ => map Some f end) fills.

(* an application that calls read() until there is nothing more to come *)
Fixpoint bpoll (cfg : rcfg) (n fuel : nat) (s : bport) : option (list entry * list event) :=
  match s with
  | ([], []) => Some ([], [])
  | _ => match n with
         | O => None
         | S n' =>
             match bread cfg fuel s with
             | None => None
             | Some (o, ev, s') =>
                 match bpoll cfg n' fuel s' with
                 | None => None
                 | Some (l, ev') => Some (match o with RMsg raw m => [Got raw m] | RRaise e => [Caught e] | REnd => [] end ++ l, ev ++ ev')
                 end
             end
         end
  end.
(* the loop of the server: while it runs, it calls read() when something is waiting at the
   port, and does nothing otherwise.  It may be stopped at any time. *)
Inductive served (cfg : rcfg) (fuel : nat) : bport -> list entry -> list event -> bport -> Prop :=
| served_stop s : served cfg fuel s [] [] s
| served_read s o ev s1 l ev' s' : in_waiting s = true -> bread cfg fuel s = Some (o, ev, s1) -> served cfg fuel s1 l ev' s' ->
    served cfg fuel s (match o with RMsg raw m => [Got raw m] | RRaise e => [Caught e] | REnd => [] end ++ l) (ev ++ ev') s'.

(* ---------------------------------------------------------------- the same bytes *)
Definition unb (s : bport) : port := unbuffered (fst s) (snd s).
Lemma line_split s tl : port_line (map Some s ++ tl) =
  (let '(l, rest) := cut_line s in if existsb (N.eqb c_lf) s then (l, map Some rest ++ tl) else let '(l', r) := port_line tl in (l ++ l', r)).
Proof.
  induction s as [|b s IH]; [cbn; destruct (port_line tl); reflexivity|]. cbn [map app port_line cut_line existsb]. rewrite (N.eqb_sym c_lf b).
  destruct (N.eqb_spec b c_lf) as [->|N]; [reflexivity|]. rewrite IH. destruct (cut_line s) as [l rest]. cbn [orb].
  destruct (existsb (N.eqb c_lf) s); [reflexivity|]. destruct (port_line tl). reflexivity.
Qed.
Lemma fill_line_port fs : port_line (flat_map (fun f => match f with [] => [None] | _ => map Some f end) fs) = (fst (fill_line fs), unb (snd (fill_line fs))).
Proof.
  induction fs as [|f fs IH]; [reflexivity|]. destruct f as [|b f]; [reflexivity|]. cbn [flat_map]. rewrite line_split, IH. cbn [fill_line].
  destruct (cut_line (b :: f)) as [l rest]. destruct (existsb (N.eqb c_lf) (b :: f)); [reflexivity|]. destruct (fill_line fs) as [l' s]. reflexivity.
Qed.
Definition same_port (s : bport) (p : port) : Prop := p = unb s.
Lemma same_port_read1 s p : same_port s p -> alike _ _ same_port (buffered_read1 s) (port_read1 p).
Proof.
  intros ->. destruct s as [[|b r] fs]; [|split; reflexivity]. destruct fs as [|[|b r] fs]; split; reflexivity.
Qed.
Lemma same_port_readline s p : same_port s p -> alike _ _ same_port (buffered_readline s) (port_readline p).
Proof.
  intros ->. destruct s as [buf fs]. unfold buffered_readline, port_readline, unb, unbuffered. cbn [fst snd]. rewrite line_split, fill_line_port.
  destruct (cut_line buf) as [l rest]. destruct (existsb (N.eqb c_lf) buf); [split; reflexivity|]. destruct (fill_line fs) as [l' s']. split; reflexivity.
Qed.
Lemma unb_nil s : unb s = [] -> s = ([], []).
Proof. destruct s as [[|b buf] [|[|b' f] fs]]; cbn; (reflexivity || discriminate). Qed.
Lemma bread_port cfg fuel s :
  pread cfg fuel (unb s) = match bread cfg fuel s with Some (o, ev, s') => Some (o, ev, unb s') | None => None end.
Proof.
  pose proof (sim_read _ _ buffered_read1 buffered_readline port_read1 port_readline same_port same_port_read1 same_port_readline cfg fuel s (unb s) eq_refl) as H.
  unfold bread, pread. destruct (read bport _ _ cfg fuel s) as [[[o ev] s']|], (read port _ _ cfg fuel (unb s)) as [[[o' ev'] p']|]; try contradiction; [|reflexivity].
  destruct H as (<- & <- & H). unfold same_port in H. rewrite H. reflexivity.
Qed.

(* --------------------------------------------------------------------- C118 *)
(* The buffer makes no difference to an application that goes on reading: it sees and reports
   what it would see of the port itself (C88), whatever the sizes of the raw reads. *)
Theorem C118_same cfg n fuel buf fills : bpoll cfg n fuel (buf, fills) = poll cfg n fuel (unbuffered buf fills).
Proof.
  change (unbuffered buf fills) with (unb (buf, fills)). generalize (buf, fills). clear buf fills.
  induction n as [|n IH]; intros s; [destruct s as [[|b r] [|[|b' f] fs]]; reflexivity|].
  destruct (unb s) as [|x p] eqn:E; [rewrite (unb_nil _ E); reflexivity|].
  transitivity (match bread cfg fuel s with None => None | Some (o, ev, s') =>
    match bpoll cfg n fuel s' with None => None | Some (l, ev') => Some (match o with RMsg raw m => [Got raw m] | RRaise e => [Caught e] | REnd => [] end ++ l, ev ++ ev') end end).
  { destruct s as [[|b r] [|f fs]]; [discriminate E| | |]; reflexivity. }
  cbn [poll]. rewrite <- E, bread_port. destruct (bread cfg fuel s) as [[[o ev] s']|]; [|reflexivity]. rewrite IH. reflexivity.
Qed.
(* so does a for loop *)
Theorem C118_loop cfg n fuel buf fills :
  match iterate bport buffered_read1 buffered_readline cfg n fuel (buf, fills), piterate cfg n fuel (unbuffered buf fills) with
  | Some (l, e, ev, s'), Some (l', e', ev', p') => l = l' /\ e = e' /\ ev = ev' /\ p' = unbuffered (fst s') (snd s')
  | None, None => True
  | _, _ => False
  end.
Proof. exact (sim_iterate _ _ buffered_read1 buffered_readline port_read1 port_readline same_port same_port_read1 same_port_readline cfg n fuel (buf, fills) _ eq_refl). Qed.

(* what is left in the buffer *)
Definition left_over (fills : list bytes) (s : bport) : Prop :=
  s = ([], fills) \/ exists before f x, fills = before ++ f :: snd s /\ f = x ++ fst s.
Lemma cut_line_app s l rest : cut_line s = (l, rest) -> s = l ++ rest.
Proof.
  revert l rest. induction s as [|b s IH]; intros l rest H; cbn [cut_line] in H; [injection H as <- <-; reflexivity|].
  destruct (N.eqb b c_lf); [injection H as <- <-; reflexivity|]. destruct (cut_line s) as [l0 r0]. injection H as <- <-. cbn [app]. f_equal. exact (IH _ _ eq_refl).
Qed.
Lemma fill_line_left fs : forall l s, fill_line fs = (l, s) -> fs = [] /\ s = ([], []) \/ exists before f x, fs = before ++ f :: snd s /\ f = x ++ fst s.
Proof.
  induction fs as [|f fs IH]; intros l s H; cbn [fill_line] in H; [injection H as <- <-; auto|]. right. destruct f as [|b f].
  { injection H as <- <-. exists [], [], []. auto. }
  destruct (cut_line (b :: f)) as [l0 rest] eqn:C. destruct (existsb _ _).
  { injection H as <- <-. exists [], (b :: f), l0. split; [reflexivity|]. exact (cut_line_app _ _ _ C). }
  destruct (fill_line fs) as [l1 s1] eqn:F. injection H as <- <-. destruct (IH _ _ eq_refl) as [(-> & ->)|(before & g & x & E & G)].
  - exists [], (b :: f), (b :: f). cbn. rewrite app_nil_r. auto.
  - exists ((b :: f) :: before), g, x. split; [cbn; rewrite E; reflexivity|exact G].
Qed.
Lemma left_over_deeper fills buf fs before f x s :
  left_over fills (buf, fs) -> fs = before ++ f :: snd s -> f = x ++ fst s -> left_over fills s.
Proof.
  intros [E|(be & g & y & E & G)] F X; right; cbn [fst snd] in *.
  - injection E as -> ->. exists before, f, x. auto.
  - exists (be ++ g :: before), f, x. split; [rewrite E, F, <- app_assoc; reflexivity|exact X].
Qed.
Lemma left_over_same fills y buf fs : left_over fills (y ++ buf, fs) -> y ++ buf <> [] -> left_over fills (buf, fs).
Proof.
  intros [E|(be & g & z & E & G)] N; [injection E as E _; contradiction (N E)|]. right. exists be, g, (z ++ y). cbn [fst snd] in *. split; [exact E|]. rewrite G, app_assoc. reflexivity.
Qed.
Lemma left_read1 fills s d s' : left_over fills s -> buffered_read1 s = (d, s') -> left_over fills s'.
Proof.
  intros L E. destruct s as [[|b r] fs].
  - destruct fs as [|f fs]; [injection E as _ <-; exact L|]. destruct f as [|b r]; injection E as _ <-.
    + exact (left_over_deeper fills [] ([] :: fs) [] [] [] ([], fs) L eq_refl eq_refl).
    + exact (left_over_deeper fills [] ((b :: r) :: fs) [] (b :: r) [b] (r, fs) L eq_refl eq_refl).
  - injection E as _ <-. apply (left_over_same fills [b]); [exact L|discriminate].
Qed.
Lemma left_all fills buf : left_over fills (buf, []) -> left_over fills ([], []).
Proof.
  destruct buf; [auto|]. intros [E|(be & g & y & E & G)]; [discriminate E|]. right. exists be, g, g. cbn [fst snd] in *. rewrite app_nil_r. auto.
Qed.
Lemma left_readline fills s d s' : left_over fills s -> buffered_readline s = (d, s') -> left_over fills s'.
Proof.
  intros L E. destruct s as [buf fs]. unfold buffered_readline in E. destruct (cut_line buf) as [l rest] eqn:C. apply cut_line_app in C. destruct (existsb _ buf) eqn:X.
  - injection E as _ <-. rewrite C in L. apply (left_over_same _ _ _ _ L). rewrite <- C. intros ->. discriminate X.
  - destruct (fill_line fs) as [l' s1] eqn:F. injection E as _ <-. destruct (fill_line_left _ _ _ F) as [(-> & ->)|(before & f & x & A & B)].
    + exact (left_all _ _ L).
    + exact (left_over_deeper _ _ _ _ _ _ _ L A B).
Qed.
Lemma served_keeps (Q : bport -> Prop) cfg fuel :
  (forall s o ev s', Q s -> bread cfg fuel s = Some (o, ev, s') -> Q s') -> forall s l ev s', served cfg fuel s l ev s' -> Q s -> Q s'.
Proof. intros K s l ev s' H. induction H; intros Qs; [exact Qs|]. apply IHserved. exact (K _ _ _ _ Qs H0). Qed.
Lemma served_left cfg fuel fills s l ev s' : served cfg fuel s l ev s' -> left_over fills s -> left_over fills s'.
Proof.
  apply (served_keeps (left_over fills)). intros a o e b L R. exact (read_keeps buffered_read1 buffered_readline (left_over fills) cfg (left_read1 fills) (left_readline fills) fuel a o e b L R).
Qed.
Lemma unb_length buf fs : length (unb (buf, fs)) = length buf + length (unb ([], fs)).
Proof. unfold unb, unbuffered. cbn [fst snd map app]. rewrite app_length, map_length. reflexivity. Qed.

(* What the server has read when its loop is stopped, at whatever time, is the first part of
   what a reader of the port sees; the rest is what the bytes not yet read give. *)
Theorem C118_served cfg n fuel fills l ev buf fs :
  length (unbuffered [] fills) < fuel -> length (unbuffered [] fills) < n ->
  served cfg fuel ([], fills) l ev (buf, fs) ->
  exists later ev', poll cfg n fuel (unbuffered buf fs) = Some (later, ev')
    /\ poll cfg n fuel (unbuffered [] fills) = Some (l ++ later, ev ++ ev').
Proof.
  intros L1 L2 H. change (unbuffered [] fills) with (unb ([], fills)) in *. change (unbuffered buf fs) with (unb (buf, fs)).
  revert L1 L2 H. generalize (@nil N, fills), (buf, fs). intros s s' L1 L2 H.
  assert (length (unb s') <= length (unb s) /\ forall later ev', runs port port_read1 port_readline cfg [] (unb s') later ev' -> runs port port_read1 port_readline cfg [] (unb s) (l ++ later) (ev ++ ev')) as [Lk R].
  { clear L2 n. induction H as [s|s o ev s1 l ev' s' W B H IH]; [auto|]. pose proof (bread_port cfg fuel s) as E. rewrite B in E.
    destruct (pread_total cfg fuel (unb s) L1) as (o2 & ev2 & p2 & E2 & Lp). rewrite E in E2. injection E2 as <- <- <-.
    destruct IH as (L & R); [lia|]. split; [lia|]. intros later ev2 Q. rewrite <- !app_assoc. eapply read_runs; [exact E|]. exact (R _ _ Q). }
  destruct (poll_total cfg fuel n (unb s') ltac:(lia) ltac:(lia)) as (later & ev' & P & R'). exists later, ev'. split; [exact P|].
  destruct (poll_total cfg fuel n (unb s) L1 L2) as (l0 & ev0 & -> & R0).
  assert (forall r s, ppass cfg [] = (r, s) -> r = Raise EOFError /\ s = []) as Fin by (intros r x E; cbn in E; injection E as <- <-; auto).
  destruct (runs_det _ _ _ _ _ Fin _ _ _ R0 _ _ (R _ _ R')) as [-> ->]. reflexivity.
Qed.
(* What has arrived and has not been looked at lies in the buffer, and is the end of what the
   latest raw read brought. *)
Theorem C118_lag cfg fuel fills l ev buf fs :
  served cfg fuel ([], fills) l ev (buf, fs) ->
  buf = [] \/ exists earlier latest seen, fills = earlier ++ latest :: fs /\ latest = seen ++ buf.
Proof.
  intros H. destruct (served_left _ _ fills _ _ _ _ H) as [E|(be & g & x & E & G)]; [left; reflexivity|left; congruence|]. right. exists be, g, x. auto.
Qed.

(* one line per raw read *)
Definition one_line (s : bport) : Prop := fst s = [] /\ Forall line_shape (snd s).
Lemma cut_line_none body : ~ In lf body -> cut_line (body ++ [lf]) = (body ++ [lf], []) /\ existsb (N.eqb c_lf) (body ++ [lf]) = true.
Proof.
  intros N. split.
  - induction body as [|b s IH]; [reflexivity|]. cbn [app cut_line]. destruct (N.eqb_spec b c_lf) as [->|Nb]; [contradiction N; left; reflexivity|]. rewrite IH; [reflexivity|]. intros H. apply N. right. exact H.
  - apply existsb_exists. exists lf. split; [apply in_or_app; right; left; reflexivity|reflexivity].
Qed.
Lemma one_line_pass cfg s : one_line s -> one_line (snd (pass bport buffered_read1 buffered_readline cfg s)).
Proof.
  destruct s as [buf fs]. intros [B F]. cbn [fst snd] in *. subst buf. destruct F as [|f fs (c & body & -> & Sc & Nb) F]; [split; [reflexivity|exact (Forall_nil _)]|].
  destruct (cut_line_none body Nb) as [C X]. unfold pass, read_byte, buffered_read1, read_line, buffered_readline.
  change (negb (str_eqb [dollar] [c_dollar])) with false. cbn [snd]. rewrite C, X.
  rewrite (proj2 (hdr_second_iff c) Sc). destruct (body ++ [lf]) as [|y r]; [split; [reflexivity|exact F]|].
  destruct (N.eqb _ _); [destruct (parse _ _ _ _)|]; (split; [reflexivity|exact F]).
Qed.
Lemma one_line_read cfg fuel : forall s o ev s', one_line s -> bread cfg fuel s = Some (o, ev, s') -> one_line s'.
Proof.
  unfold bread. induction fuel as [|f IH]; intros s o ev s' O E; [discriminate E|]. cbn [read] in E. pose proof (one_line_pass cfg s O) as O1.
  destruct (pass _ _ _ cfg s) as [r s1]. cbn [snd] in O1. destruct r as [[[raw m]|]|e]; [injection E as _ _ <-; exact O1|exact (IH _ _ _ _ O1 E)|].
  assert (e = EOFError \/ forall X (a b : X), match e with EOFError => a | _ => b end = b) as [->|X] by (destruct e; auto); [injection E as _ _ <-; exact O1|].
  rewrite X in E. destruct (is_nmea_error e); [|injection E as _ _ <-; exact O1]. destruct (do_error cfg e) as [[e'|] ev1]; [injection E as _ _ <-; exact O1|].
  destruct (read _ _ _ cfg f s1) as [[[o' ev'] s2]|] eqn:E2; [|discriminate E]. injection E as _ _ <-. exact (IH _ _ _ _ O1 E2).
Qed.
(* If every raw read brings one whole line, nothing waits in the buffer. *)
Theorem C118_prompt cfg fuel fills l ev buf fs :
  Forall line_shape fills -> served cfg fuel ([], fills) l ev (buf, fs) -> buf = [].
Proof. intros F H. exact (proj1 (served_keeps one_line cfg fuel (one_line_read cfg fuel) _ _ _ _ H (conj eq_refl F))). Qed.

(* As long as the raw reads bring something, the loop gets through all of them. *)
Theorem C118_all_fetched cfg fuel fills :
  Forall (fun f => f <> []) fills -> length (unbuffered [] fills) < fuel ->
  exists l ev buf, served cfg fuel ([], fills) l ev (buf, []).
Proof.
  intros F L. assert (forall n s, length (unb s) <= n -> length (unb s) < fuel -> Forall (fun f => f <> []) (snd s) -> exists l ev buf, served cfg fuel s l ev (buf, [])) as G.
  2:{ exact (G _ ([], fills) (le_n _) L F). }
  clear F L fills. induction n as [|n IH]; intros s Ln Lf F.
  { rewrite (unb_nil s) by (destruct (unb s); [reflexivity|cbn in Ln; lia]). do 3 eexists. apply served_stop. }
  destruct s as [buf [|f fs]]; [do 3 eexists; apply served_stop|]. assert (in_waiting (buf, f :: fs) = true) as W.
  { cbn [snd] in F. inversion F as [|? ? Nf _]; subst. destruct f; [contradiction Nf; reflexivity|reflexivity]. }
  destruct (pread_total cfg fuel _ Lf) as (o & ev & p' & E & Lp). pose proof (bread_port cfg fuel (buf, f :: fs)) as B. rewrite E in B.
  destruct (bread cfg fuel (buf, f :: fs)) as [[[o' ev'] s']|] eqn:R; [|discriminate B]. injection B as <- <- ->.
  assert (1 <= length (unb (buf, f :: fs))) as L1 by (destruct (unb (buf, f :: fs)) as [|x p] eqn:U; [discriminate (unb_nil _ U)|cbn; lia]).
  destruct (IH s') as (l & ev2 & buf' & H); [lia|lia| |].
  - refine (read_keeps buffered_read1 buffered_readline (fun s => Forall (fun f => f <> []) (snd s)) cfg _ _ fuel (buf, f :: fs) o ev s' F R).
    + intros [b1 f1] d s2 Q X. destruct b1 as [|x b1]; [|injection X as _ <-; exact Q]. destruct f1 as [|[|x g] f1]; injection X as _ <-; [exact Q| |]; (cbn [snd] in *; inversion Q; assumption).
    + intros [b1 f1] d s2 Q X. unfold buffered_readline in X. destruct (cut_line b1) as [l1 r1]. destruct (existsb _ b1); [injection X as _ <-; exact Q|].
      destruct (fill_line f1) as [l' s3] eqn:Fl. injection X as _ <-. destruct (fill_line_left _ _ _ Fl) as [(-> & ->)|(before & g & x & A & _)]; [exact Q|].
      cbn [snd] in Q. rewrite A in Q. apply Forall_app in Q as [_ Q]. inversion Q; assumption.
  - do 3 eexists. exact (served_read _ _ _ _ _ _ _ _ _ W R H).
Qed.

(* in the dictionary of the server (C102) *)
Definition readings (l : list entry) : list reading := map (fun e => match e with PropsSession.Got _ m => Server.Got m | Caught x => Failed x end) l.

(* ------------------------------------------------------------ not what one might expect *)
(* two bursts, each with the position and then the altitude *)
Definition rmc (t : pystr) (k : pystr) : bytes := u "$GNRMC," ++ t ++ u ".00,A,5327.04319,S,00214.41396,E,0.0,0.0,010124,,,A*" ++ k ++ [cr; lf].
Definition gga (t : pystr) (alt : pystr) (k : pystr) : bytes := u "$GNGGA," ++ t ++ u ".00,5327.04319,S,00214.41396,E,1,08,1.0," ++ alt ++ u ",M,0.0,M,,*" ++ k ++ [cr; lf].
Definition first_burst : bytes := rmc (u "223232") (u "59") ++ gga (u "223232") (u "10.0") (u "65").
Definition second_burst : bytes := rmc (u "223233") (u "58") ++ gga (u "223233") (u "20.0") (u "67").
(* the first three of these four sentences are read and shown - the altitude is the one before;
   the fourth is complete, and stays in the buffer until more arrives *)
Theorem C118_refuted :
  exists l ev, served server_cfg 2000 ([], [first_burst; second_burst]) l ev (gga (u "223233") (u "20.0") (u "67"), [])
    /\ entry_raws l = [rmc (u "223232") (u "59"); gga (u "223232") (u "10.0") (u "65"); rmc (u "223233") (u "58")]
    /\ (forall k, 18 <= k -> lookup (u "time") (gpsdata (readings l) k) = Some (VStr (u "22:32:33"))
         /\ exists x, lookup (u "elevation") (gpsdata (readings l) k) = Some (VFloat x) /\ str_of_val (VFloat x) = Ok (u "10.0"))
    (* and so it stays: with nothing more from the port, the loop reads nothing more *)
    /\ forall l' ev' s', served server_cfg 2000 (gga (u "223233") (u "20.0") (u "67"), []) l' ev' s' -> l' = [] /\ s' = (gga (u "223233") (u "20.0") (u "67"), []).
Proof.
  assert (exists o1 s1, bread server_cfg 2000 ([], [first_burst; second_burst]) = Some (o1, [], s1)
    /\ exists o2 s2, bread server_cfg 2000 s1 = Some (o2, [], s2)
    /\ exists o3 s3, bread server_cfg 2000 s2 = Some (o3, [], s3)
    /\ s3 = (gga (u "223233") (u "20.0") (u "67"), []) /\ in_waiting s1 = true /\ in_waiting s2 = true
    /\ let l := match o1, o2, o3 with RMsg a m1, RMsg b m2, RMsg c m3 => [Got a m1; Got b m2; Got c m3] | _, _, _ => [] end in
       l = flat_map (fun o => match o with RMsg raw m => [Got raw m] | RRaise e => [Caught e] | REnd => [] end) [o1; o2; o3]
       /\ entry_raws l = [rmc (u "223232") (u "59"); gga (u "223232") (u "10.0") (u "65"); rmc (u "223233") (u "58")]
       /\ length (fst (serve (readings l))) = 18
       /\ lookup (u "time") (gpsdata (readings l) 18) = Some (VStr (u "22:32:33"))
       /\ exists x, lookup (u "elevation") (gpsdata (readings l) 18) = Some (VFloat x) /\ str_of_val (VFloat x) = Ok (u "10.0")) as H.
  { do 2 eexists. split; [vm_compute; reflexivity|]. do 2 eexists. split; [vm_compute; reflexivity|]. do 2 eexists. split; [vm_compute; reflexivity|].
    split; [vm_compute; reflexivity|]. split; [vm_compute; reflexivity|]. split; [vm_compute; reflexivity|]. cbv zeta. split; [reflexivity|]. split; [vm_compute; reflexivity|].
    split; [vm_compute; reflexivity|]. split; [vm_compute; reflexivity|]. eexists. split; [vm_compute; reflexivity|]. vm_compute; reflexivity. }
  destruct H as (o1 & s1 & R1 & o2 & s2 & R2 & o3 & s3 & R3 & -> & W1 & W2 & H). cbv zeta in H.
  match goal with H : ?a = _ /\ _ |- _ => set (l := a) in * end. destruct H as (El & Er & Ln & Tm & Ev).
  exists l, []. split; [|split; [exact Er|split]].
  - rewrite El. cbn [flat_map]. change (@nil event) with (@nil event ++ [] ++ [] ++ []).
    eapply served_read; [reflexivity|exact R1|]. eapply served_read; [exact W1|exact R2|]. eapply served_read; [exact W2|exact R3|]. apply served_stop.
  - intros k K. assert (gpsdata (readings l) k = gpsdata (readings l) 18) as ->; [|split; [exact Tm|exact Ev]].
    unfold gpsdata. rewrite !firstn_all2 by lia. reflexivity.
  - intros l' ev' s' H. inversion H; subst; [split; reflexivity|]. match goal with W : in_waiting _ = true |- _ => discriminate W end.
Qed.

Example C118_example :
  Forall line_shape [rmc (u "223232") (u "59"); gga (u "223232") (u "10.0") (u "65")]
  /\ length (unbuffered [] [first_burst; firstn 100 second_burst; []; skipn 100 second_burst]) < 2000
  /\ match bpoll server_cfg 2000 2000 ([], [first_burst; firstn 100 second_burst; []; skipn 100 second_burst]) with
     | Some (l, ev) => (entry_raws l, length ev) = ([rmc (u "223232") (u "59"); gga (u "223232") (u "10.0") (u "65"); rmc (u "223233") (u "58")], 1) | None => False end.
Proof.
  split.
  - apply Forall_cons; [|apply Forall_cons; [|exact (Forall_nil _)]].
    + exists 71%N, (removelast (skipn 2 (rmc (u "223232") (u "59")))). split; [vm_compute; reflexivity|]. split; [apply hdr_second_iff; vm_compute; reflexivity|].
      assert (existsb (N.eqb lf) (removelast (skipn 2 (rmc (u "223232") (u "59")))) = false) as E by (vm_compute; reflexivity).
      intros H. assert (existsb (N.eqb lf) (removelast (skipn 2 (rmc (u "223232") (u "59")))) = true) as E2 by (apply existsb_exists; exists lf; split; [exact H|reflexivity]). rewrite E in E2. discriminate E2.
    + exists 71%N, (removelast (skipn 2 (gga (u "223232") (u "10.0") (u "65")))). split; [vm_compute; reflexivity|]. split; [apply hdr_second_iff; vm_compute; reflexivity|].
      assert (existsb (N.eqb lf) (removelast (skipn 2 (gga (u "223232") (u "10.0") (u "65")))) = false) as E by (vm_compute; reflexivity).
      intros H. assert (existsb (N.eqb lf) (removelast (skipn 2 (gga (u "223232") (u "10.0") (u "65")))) = true) as E2 by (apply existsb_exists; exists lf; split; [exact H|reflexivity]). rewrite E in E2. discriminate E2.
  - split; [vm_compute; lia|vm_compute; reflexivity].
Qed.
