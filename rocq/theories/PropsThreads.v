(* C93: several threads reading one stream *)
From Coq Require Import Lia.
From Verif Require Import Message Reader Socket Threads BaseLemmas Spec ReaderSpec ReaderProofs PropsParse PropsReader PropsSession PropsPort PropsConcat.
Local Open Scope nat_scope.

Section Generic.
Variable S : Type.
Variables read1 readline : S -> result bytes * S.
Notation step := (tstep S read1 readline).
Notation alone := (alone S read1 readline).

Lemma step_start cfg t s t' o ev s' : step cfg t s = (t', Some o, ev, s') -> t' = AtStart.
Proof.
  assert (forall e s1, on_error S cfg e s1 = (t', Some o, ev, s') -> t' = AtStart) as On.
  { intros e s1. unfold on_error. destruct e; cbn [is_nmea_error]; try (intros H; injection H as <- _ _ _; reflexivity);
      destruct (do_error cfg _) as [[?|] ?]; intros H; try discriminate; injection H as <- _ _ _; reflexivity. }
  destruct t; cbn [tstep].
  - destruct (read_byte S read1 s) as [[b|e] s1]; [discriminate|apply On].
  - destruct (read_byte S read1 s) as [[b|e] s1]; [|apply On]. destruct (match b with [x] => hdr_second x | _ => false end); [discriminate|]. destruct (r_nmeaonly cfg); [apply On|discriminate].
  - destruct (read_line S readline s) as [[b|e] s1]; [|apply On]. cbv zeta. destruct (parse _ _ _ _); [intros H; injection H as <- _ _ _; reflexivity|apply On].
Qed.

(* the rest of a pass from each point *)
Definition finish cfg (p : result (option (bytes * option msg)) * S) n ev o s' : Prop :=
  match p with
  | (Ok (Some (raw, m)), s1) => n = 0 /\ ev = [] /\ o = RMsg raw m /\ s' = s1
  | (Ok None, s1) => alone cfg AtStart s1 n ev o s'
  | (Raise e, s1) => match on_error S cfg e s1 with
      | (_, Some o1, ev1, s2) => n = 0 /\ ev = ev1 /\ o = o1 /\ s' = s2
      | (_, None, ev1, s2) => exists ev2, ev = ev1 ++ ev2 /\ alone cfg AtStart s2 n ev2 o s' end
  end.
Lemma alone_error cfg t s e s1 n ev o s' :
  step cfg t s = on_error S cfg e s1 -> finish cfg (Raise e, s1) n ev o s' -> alone cfg t s (Datatypes.S n) ev o s'.
Proof.
  intros E F. cbn [finish] in F. destruct (on_error S cfg e s1) as [[[t2 o2] ev2] s2] eqn:O. destruct o2 as [o2|].
  - destruct F as (-> & -> & -> & ->). eapply alone_last, E.
  - destruct F as (ev3 & -> & F). eapply alone_more; [exact E|]. assert (t2 = AtStart) as ->; [|exact F].
    clear - O. unfold on_error in O. destruct e; cbn [is_nmea_error] in O; try discriminate; destruct (do_error cfg _) as [[?|] ?]; try discriminate; injection O as <- _ _; reflexivity.
Qed.
Lemma alone_pass cfg s : exists k, forall n ev o s', finish cfg (pass S read1 readline cfg s) n ev o s' -> alone cfg AtStart s (k + n) ev o s'.
Proof.
  unfold pass. destruct (read_byte S read1 s) as [[b1|e] s1] eqn:R1.
  2:{ exists 1. intros n ev o s' F. eapply alone_error; [|exact F]. cbn [tstep]. rewrite R1. reflexivity. }
  destruct (negb (str_eqb b1 [c_dollar])) eqn:D.
  { exists 1. intros n ev o s' F. cbn [finish] in F. cbn [Nat.add]. change ev with ([] ++ ev). eapply alone_more; [|exact F]. cbn [tstep]. rewrite R1, D. reflexivity. }
  assert (forall k ev o s', alone cfg AtSecond s1 k ev o s' -> alone cfg AtStart s (Datatypes.S k) ev o s') as First.
  { intros k ev o s' A. change ev with ([] ++ ev). eapply alone_more; [|exact A]. cbn [tstep]. rewrite R1, D. reflexivity. }
  apply negb_false_iff, str_eqb_eq in D. subst b1.
  destruct (read_byte S read1 s1) as [[b2|e] s2] eqn:R2.
  2:{ exists 2. intros n ev o s' F. cbn [Nat.add]. apply First. eapply alone_error; [|exact F]. cbn [tstep]. rewrite R2. reflexivity. }
  destruct (match b2 with [x] => hdr_second x | _ => false end) eqn:H.
  2:{ destruct (r_nmeaonly cfg) eqn:No.
      - exists 2. intros n ev o s' F. cbn [Nat.add]. apply First. eapply alone_error; [|exact F]. cbn [tstep]. rewrite R2, H, No. reflexivity.
      - exists 2. intros n ev o s' F. cbn [finish] in F. cbn [Nat.add]. apply First. change ev with ([] ++ ev). eapply alone_more; [|exact F]. cbn [tstep]. rewrite R2, H, No. reflexivity. }
  assert (forall k ev o s', alone cfg (AtLine b2) s2 k ev o s' -> alone cfg AtStart s (Datatypes.S (Datatypes.S k)) ev o s') as Second.
  { intros k ev o s' A. apply First. change ev with ([] ++ ev). eapply alone_more; [|exact A]. cbn [tstep]. rewrite R2, H. reflexivity. }
  exists 3. intros n ev o s'. destruct (read_line S readline s2) as [[bn|e] s3] eqn:R3.
  2:{ intros F. cbn [Nat.add]. apply Second. eapply alone_error; [|exact F]. cbn [tstep]. rewrite R3. reflexivity. }
  cbv zeta. destruct (parse (MBytes ([c_dollar] ++ b2 ++ bn)) (r_mode cfg) (r_validate cfg) (r_userdefined cfg)) as [m|e] eqn:P.
  - intros F. cbn [finish] in F. destruct F as (-> & -> & -> & ->). apply Second. eapply alone_last. cbn [tstep]. rewrite R3. cbv zeta. rewrite P. reflexivity.
  - intros F. cbn [Nat.add]. apply Second. eapply alone_error; [|exact F]. cbn [tstep]. rewrite R3. cbv zeta. rewrite P. reflexivity.
Qed.
(* read() is a sequence of such steps *)
Lemma read_alone cfg fuel : forall s o ev s', read S read1 readline cfg fuel s = Some (o, ev, s') -> exists n, alone cfg AtStart s n ev o s'.
Proof.
  induction fuel as [|fuel IH]; intros s o ev s' R; [discriminate|]. cbn [read] in R. destruct (alone_pass cfg s) as (k & A).
  destruct (pass S read1 readline cfg s) as [[[[raw m]|]|e] s1] eqn:P.
  - injection R as <- <- <-. exists (k + 0). apply A. cbn. auto.
  - apply IH in R as (n & R). exists (k + n). apply A. exact R.
  - assert (e = EOFError \/ e <> EOFError) as [->|Ne] by (destruct e; (left; reflexivity) || (right; discriminate)).
    + injection R as <- <- <-. exists (k + 0). apply A. cbn. auto.
    + replace (match e with EOFError => Some (REnd, [], s1) | _ => if is_nmea_error e then let '(stop, ev0) := do_error cfg e in match stop with Some e' => Some (RRaise e', ev0, s1) | None => match read S read1 readline cfg fuel s1 with Some (o, ev', s2) => Some (o, ev0 ++ ev', s2) | None => None end end else Some (RRaise e, [], s1) end)
        with (if is_nmea_error e then let '(stop, ev0) := do_error cfg e in match stop with Some e' => Some (RRaise e', ev0, s1) | None => match read S read1 readline cfg fuel s1 with Some (o, ev', s2) => Some (o, ev0 ++ ev', s2) | None => None end end else Some (RRaise e, [], s1)) in R by (destruct e; reflexivity || congruence).
      assert (on_error S cfg e s1 = if is_nmea_error e then let '(stop, ev) := do_error cfg e in (AtStart, match stop with Some e' => Some (RRaise e') | None => None end, ev, s1) else (AtStart, Some (RRaise e), [], s1)) as O by (destruct e; reflexivity || congruence).
      destruct (is_nmea_error e).
      * destruct (do_error cfg e) as [[e'|] ev1].
        -- injection R as <- <- <-. exists (k + 0). apply A. cbn [finish]. rewrite O. auto.
        -- destruct (read S read1 readline cfg fuel s1) as [[[o2 ev2] s2]|] eqn:R2; [|discriminate]. injection R as <- <- <-. apply IH in R2 as (n & R2).
           exists (k + n). apply A. cbn [finish]. rewrite O. eauto.
      * injection R as <- <- <-. exists (k + 0). apply A. cbn [finish]. rewrite O. auto.
Qed.
Lemma alone_det cfg t s n ev o s' : alone cfg t s n ev o s' -> forall n2 ev2 o2 s2, alone cfg t s n2 ev2 o2 s2 -> n2 = n /\ ev2 = ev /\ o2 = o /\ s2 = s'.
Proof.
  induction 1 as [t s o ev s' t' E|t s t1 ev1 s1 n ev o s' E A IH]; intros n2 ev2 o2 s2 B; inversion B; subst; rewrite E in *; try discriminate.
  - match goal with X : _ = _ |- _ => injection X as -> -> -> -> end. auto.
  - match goal with X : (_, None, _, _) = _ |- _ => injection X as -> -> -> end.
    match goal with X : alone _ _ _ _ _ _ _ |- _ => destruct (IH _ _ _ _ X) as (-> & -> & -> & ->) end. auto.
Qed.
End Generic.

(* ------------------------------------------------------------ files *)
Definition frun := trun file file_read1 file_readline.
Definition flocked := locked file file_read1 file_readline.
Definition returns (log : list (nat * seen)) : list entry :=
  flat_map (fun x => match snd x with Returned (RMsg raw m) => [Got raw m] | Returned (RRaise e) => [Caught e] | _ => [] end) log.
Definition reports (log : list (nat * seen)) : list event :=
  flat_map (fun x => match snd x with Reported e => [e] | _ => [] end) log.
Definition ended (log : list (nat * seen)) : Prop := exists i, In (i, Returned REnd) log.

Lemma sees_app i ev1 ev2 o : sees i ev1 None ++ sees i ev2 o = sees i (ev1 ++ ev2) o.
Proof. unfold sees. rewrite app_nil_r, map_app, app_assoc. reflexivity. Qed.
Lemma returns_app a b : returns (a ++ b) = returns a ++ returns b. Proof. apply flat_map_app. Qed.
Lemma reports_app a b : reports (a ++ b) = reports a ++ reports b. Proof. apply flat_map_app. Qed.
Lemma returns_sees i ev o : returns (sees i ev (Some o)) = match o with RMsg raw m => [Got raw m] | RRaise e => [Caught e] | REnd => [] end.
Proof. unfold sees. rewrite returns_app. replace (returns (map _ ev)) with (@nil entry) by (induction ev; [reflexivity|assumption]). destruct o; reflexivity. Qed.
Lemma reports_sees i ev o : reports (sees i ev o) = ev.
Proof. unfold sees. rewrite reports_app. replace (reports (map _ ev)) with ev by (induction ev as [|e ev IH]; [reflexivity|cbn; unfold reports in IH; rewrite <- IH; reflexivity]). destruct o; apply app_nil_r. Qed.
Lemma trun_alone S read1 readline cfgs i t s n ev o s1 : alone S read1 readline (cfgs i) t s n ev o s1 ->
  forall st rest, st i = t -> exists st', (forall j, st' j = if j =? i then AtStart else st j)
    /\ trun S read1 readline cfgs st s (repeat i n ++ rest) = let '(log, st2, s2) := trun S read1 readline cfgs st' s1 rest in (sees i ev (Some o) ++ log, st2, s2).
Proof.
  induction 1 as [t s o ev s' t' E|t s t1 ev1 s1 n ev o s' E A IH]; intros st rest T.
  - pose proof (step_start _ _ _ _ _ _ _ _ _ _ E) as ->. exists (set_state st i AtStart). split; [reflexivity|]. cbn [repeat app trun]. rewrite T, E. reflexivity.
  - destruct (IH (set_state st i t1) rest) as (st' & X & Y); [unfold set_state; rewrite Nat.eqb_refl; reflexivity|]. exists st'. split.
    + intros j. rewrite X. unfold set_state. destruct (j =? i); reflexivity.
    + cbn [repeat app trun]. rewrite T, E, Y. destruct (trun S read1 readline cfgs st' s' rest) as [[log st2] s2]. rewrite app_assoc, sees_app. reflexivity.
Qed.
Lemma fread_total cfg fuel s : length s < fuel -> exists o ev s', fread cfg fuel s = Some (o, ev, s') /\ (o = REnd \/ length s' < length s) /\ (o = REnd -> s' = []).
Proof.
  intros L. destruct (tokens_total [lf] s ltac:(discriminate)) as (ts & Tk). destruct (happens_total cfg ts) as (hs & Hp).
  destruct (fread_tokens cfg fuel s ts hs Tk Hp L) as (s' & ts' & o & ev & hs' & _ & X & _ & _ & _ & Y & Z'). eauto 8.
Qed.

(* ------------------------------------------------------------------ C93 *)
(* With a lock around read() it makes no difference which thread reads when: all threads together see, in
   order, what one thread would have seen - each item goes to exactly one thread - and once some
   thread has seen the end of the file, all of it. *)
Theorem C93_locked cfg n fuel s sched log st s' :
  length s < fuel -> length s < n -> flocked (fun _ => cfg) s sched ->
  frun (fun _ => cfg) all_start s sched = (log, st, s') ->
  exists l ev l' ev', fsession cfg n fuel s = Some (l, ev, []) /\ l = returns log ++ l' /\ ev = reports log ++ ev'
    /\ (ended log -> l' = [] /\ ev' = []).
Proof.
  intros L1 L2 Lk. assert (forall j, all_start j = AtStart) as St by reflexivity. revert St. generalize all_start as st0. intros st0 St R.
  revert n st0 St L1 L2 log st s' R. induction Lk as [s|i s k ev o s1 rest A Lk IH]; intros n st0 St L1 L2 log st s' R.
  - cbn in R. injection R as <- <- <-. destruct (fsession_total cfg n fuel s L1 L2) as (l & ev & E & _). exists l, ev, l, ev. repeat split; auto; destruct H as (i & []).
  - destruct (trun_alone _ _ _ (fun _ => cfg) i AtStart s k ev o s1 A st0 rest (St i)) as (st1 & St1 & T). unfold frun in R. rewrite T in R.
    destruct (trun file file_read1 file_readline (fun _ => cfg) st1 s1 rest) as [[log1 st2] s2] eqn:T1. injection R as <- <- <-.
    destruct (fread_total cfg fuel s L1) as (o' & ev' & s'' & E & Sh & En). destruct (read_alone _ _ _ _ _ _ _ _ _ E) as (k' & A').
    destruct (alone_det _ _ _ _ _ _ _ _ _ _ A' _ _ _ _ A) as (-> & -> & -> & ->).
    assert (length s'' <= length s) as Le by (destruct Sh as [->|]; [rewrite (En eq_refl); cbn; lia|lia]).
    destruct n as [|n]; [lia|]. rewrite returns_app, reports_app, returns_sees, reports_sees.
    assert (forall j, st1 j = AtStart) as St2 by (intros j; rewrite St1; destruct (j =? i); auto).
    assert (forall o0, ended (sees i ev' (Some o0) ++ log1) -> o0 = REnd \/ ended log1) as Ends.
    { intros o0 (j & Hj). unfold sees in Hj. rewrite !in_app_iff in Hj. destruct Hj as [[Hj|[Hj|[]]]|Hj]; [apply in_map_iff in Hj as (? & Hj & _); discriminate|injection Hj as _ ->; auto|right; exists j; exact Hj]. }
    unfold fsession. cbn [session]. unfold fread in E. rewrite E. destruct o' as [raw m| |e].
    + destruct Sh as [Sh|Sh]; [discriminate|]. destruct (IH n st1 St2 ltac:(lia) ltac:(lia) log1 st2 s2 T1) as (l & ev & l' & ev2 & E1 & -> & -> & F).
      unfold fsession in E1. rewrite E1. exists (Got raw m :: returns log1 ++ l'), (ev' ++ reports log1 ++ ev2), l', ev2. split; [reflexivity|]. split; [reflexivity|]. split; [apply app_assoc|].
      intros X. destruct (Ends _ X) as [X1|X1]; [discriminate|apply F, X1].
    + rewrite (En eq_refl) in *. destruct (IH (S n) st1 St2 ltac:(cbn; lia) ltac:(cbn; lia) log1 st2 s2 T1) as (l & ev & l' & ev2 & E1 & -> & -> & F).
      unfold fsession in E1. cbn [session] in E1. destruct fuel as [|fuel]; [lia|]. cbn in E1. injection E1 as E1 E2.
      symmetry in E1, E2. apply app_eq_nil in E1 as [-> ->], E2 as [-> ->]. exists [], ev', [], []. cbn [app]. rewrite !app_nil_r. auto.
    + destruct Sh as [Sh|Sh]; [discriminate|]. destruct (IH n st1 St2 ltac:(lia) ltac:(lia) log1 st2 s2 T1) as (l & ev & l' & ev2 & E1 & -> & -> & F).
      unfold fsession in E1. rewrite E1. exists (Caught e :: returns log1 ++ l'), (ev' ++ reports log1 ++ ev2), l', ev2. split; [reflexivity|]. split; [reflexivity|]. split; [apply app_assoc|].
      intros X. destruct (Ends _ X) as [X1|X1]; [discriminate|apply F, X1].
Qed.
(* and there is such a schedule for every order of turns *)
Theorem C93_turns cfg s who :
  exists sched log st s', flocked (fun _ => cfg) s sched /\ frun (fun _ => cfg) all_start s sched = (log, st, s')
    /\ flat_map (fun x => match snd x with Returned _ => [fst x] | _ => [] end) log = who.
Proof.
  assert (exists sched, flocked (fun _ => cfg) s sched /\ forall st0, (forall j, st0 j = AtStart) -> exists log st s', frun (fun _ => cfg) st0 s sched = (log, st, s')
    /\ flat_map (fun x => match snd x with Returned _ => [fst x] | _ => [] end) log = who) as (sched & Lk & X).
  { revert s. induction who as [|i who IH]; intros s.
    - exists []. split; [constructor|]. intros st0 _. exists [], st0, s. split; reflexivity.
    - destruct (fread_total cfg (S (length s)) s ltac:(lia)) as (o & ev & s1 & E & _). destruct (read_alone _ _ _ _ _ _ _ _ _ E) as (k & A).
      destruct (IH s1) as (sched & Lk & X). exists (repeat i k ++ sched). split; [econstructor; eassumption|]. intros st0 St.
      destruct (trun_alone _ _ _ (fun _ => cfg) i AtStart s k ev o s1 A st0 sched (St i)) as (st1 & St1 & T).
      destruct (X st1) as (log & st & s' & R & W); [intros j; rewrite St1; destruct (j =? i); auto|].
      unfold frun in *. rewrite R in T. exists (sees i ev (Some o) ++ log), st, s'. split; [exact T|]. rewrite flat_map_app, W. unfold sees. rewrite flat_map_app.
      replace (flat_map _ (map _ ev)) with (@nil nat) by (clear; induction ev; [reflexivity|assumption]). reflexivity. }
  destruct (X all_start ltac:(reflexivity)) as (log & st & s' & R & W). eauto 8.
Qed.
(* Without a lock, under any schedule and with any settings of the threads: an item is "$", a recognised byte and
   a whole line - the ends of the items, from the third byte, are disjoint blocks of the stream in the order
   of delivery - and its message is what parse() makes of it. *)
Definition items_seen (log : list (nat * seen)) : list (nat * (bytes * option msg)) :=
  flat_map (fun x => match snd x with Returned (RMsg raw m) => [(fst x, (raw, m))] | _ => [] end) log.
Theorem C93_any cfgs s sched log st s' :
  frun cfgs all_start s sched = (log, st, s') ->
  Forall (fun x => let '(i, (raw, m)) := x in
            (exists c body, raw = dollar :: c :: body ++ [lf] /\ second c)
            /\ parse (MBytes raw) (r_mode (cfgs i)) (r_validate (cfgs i)) (r_userdefined (cfgs i)) = Ok m) (items_seen log)
  /\ exists gaps tail, length gaps = length (items_seen log)
       /\ s = interleave gaps (map (fun x => skipn 2 (fst (snd x))) (items_seen log)) ++ tail ++ s'.
Proof.
  assert (forall j b, all_start j = AtLine b -> exists c, b = [c] /\ second c) as Inv by discriminate. revert Inv. generalize all_start as st0. intros st0.
  revert st0 s log. induction sched as [|i sched IH]; intros st0 s log Inv R.
  - cbn in R. injection R as <- <- <-. split; [constructor|]. exists [], []. split; reflexivity.
  - unfold frun in R. cbn [trun] in R. destruct (tstep file file_read1 file_readline (cfgs i) (st0 i) s) as [[[t o] ev] s1] eqn:E.
    destruct (trun file file_read1 file_readline cfgs (set_state st0 i t) s1 sched) as [[log1 st2] s2] eqn:T. injection R as <- <- <-.
    assert ((forall b, t = AtLine b -> exists c, b = [c] /\ second c) /\ exists p, s = p ++ s1
      /\ forall raw m, o = Some (RMsg raw m) -> p = skipn 2 raw /\ (exists c body, raw = dollar :: c :: body ++ [lf] /\ second c)
        /\ parse (MBytes raw) (r_mode (cfgs i)) (r_validate (cfgs i)) (r_userdefined (cfgs i)) = Ok m) as (It & p & -> & Io).
    { assert (forall e s3, on_error file (cfgs i) e s3 = (t, o, ev, s1) -> s1 = s3 /\ t = AtStart /\ forall raw m, o <> Some (RMsg raw m)) as On.
      { intros e s3 H. unfold on_error in H. destruct e; cbn [is_nmea_error] in H; try (injection H as <- <- _ <-; repeat split; discriminate);
          destruct (do_error (cfgs i) _) as [[?|] ?]; injection H as <- <- _ <-; repeat split; discriminate. }
      destruct (st0 i) as [| |b2] eqn:St; cbn [tstep] in E.
      - unfold read_byte in E. destruct s as [|b s]; cbn [file_read1] in E.
        + apply On in E as (-> & -> & On'). split; [discriminate|]. exists []. split; [reflexivity|]. intros raw m H. elim (On' _ _ H).
        + destruct (negb (str_eqb [b] [c_dollar])); injection E as <- <- _ <-; (split; [discriminate|]; exists [b]; split; [reflexivity|discriminate]).
      - unfold read_byte in E. destruct s as [|b s]; cbn [file_read1] in E.
        + apply On in E as (-> & -> & On'). split; [discriminate|]. exists []. split; [reflexivity|]. intros raw m H. elim (On' _ _ H).
        + destruct (hdr_second b) eqn:Hd; [|destruct (r_nmeaonly (cfgs i))].
          * injection E as <- <- _ <-. split; [intros b' Eb; injection Eb as <-; exists b; split; [reflexivity|apply hdr_second_iff, Hd]|]. exists [b]. split; [reflexivity|discriminate].
          * apply On in E as (-> & -> & On'). split; [discriminate|]. exists [b]. split; [reflexivity|]. intros raw m H. elim (On' _ _ H).
          * injection E as <- <- _ <-. split; [discriminate|]. exists [b]. split; [reflexivity|discriminate].
      - destruct (Inv _ _ St) as (c & -> & Sc). unfold read_line, file_readline in E. destruct (cut_line s) as [l r] eqn:C.
        assert (s = l ++ r) as ->. { clear - C. revert l r C. induction s as [|b s IH]; intros l r C; cbn in C; [injection C as <- <-; reflexivity|].
          destruct (b =? c_lf)%N; [injection C as <- <-; reflexivity|]. destruct (cut_line s) as [l' r'] eqn:C'. injection C as <- <-. cbn. rewrite (IH _ _ eq_refl) at 1. reflexivity. }
        destruct l as [|b l].
        { apply On in E as (-> & -> & On'). split; [discriminate|]. exists []. split; [reflexivity|]. intros raw m H. elim (On' _ _ H). }
        destruct (N.eqb_spec (last (b :: l) 0%N) c_lf) as [La|_].
        2:{ apply On in E as (-> & -> & On'). split; [discriminate|]. exists (b :: l). split; [reflexivity|]. intros raw m H. elim (On' _ _ H). }
        cbv zeta in E. destruct (parse _ _ _ _) as [m|e] eqn:P.
        + injection E as <- <- _ <-. split; [discriminate|]. exists (b :: l). split; [reflexivity|]. intros raw m' H. injection H as <- <-. split; [reflexivity|]. split; [|exact P].
          exists c, (removelast (b :: l)). split; [|exact Sc]. cbn [app]. do 2 f_equal. rewrite (app_removelast_last 0%N) at 1 by discriminate. rewrite La. reflexivity.
        + apply On in E as (-> & -> & On'). split; [discriminate|]. exists (b :: l). split; [reflexivity|]. intros raw m H. elim (On' _ _ H). }
    destruct (IH (set_state st0 i t) s1 log1) as (F & gaps & tail & Lg & Eg); [|exact T|].
    { intros j b. unfold set_state. destruct (j =? i); [apply It|apply Inv]. }
    assert (items_seen (sees i ev o ++ log1) = match o with Some (RMsg raw m) => [(i, (raw, m))] | _ => [] end ++ items_seen log1) as ->.
    { unfold items_seen at 1. rewrite flat_map_app. fold (items_seen log1). f_equal. unfold sees. rewrite flat_map_app.
      replace (flat_map _ (map _ ev)) with (@nil (nat * (bytes * option msg))) by (clear; induction ev; [reflexivity|assumption]). destruct o as [[]|]; reflexivity. }
    destruct o as [[raw m| |e]|].
    1:{ destruct (Io raw m eq_refl) as (-> & Sh & P). split; [constructor; [split; assumption|exact F]|]. exists ([] :: gaps), tail.
        cbn [app length map interleave fst snd]. split; [lia|]. rewrite <- app_assoc. f_equal. exact Eg. }
    all: split; [exact F|]; cbn [app]; destruct gaps as [|g gaps];
      [exists [], (p ++ tail)|exists ((p ++ g) :: gaps), tail]; (split; [exact Lg|]); rewrite Eg; destruct (items_seen log1) as [|x items]; try discriminate Lg; cbn [map interleave app]; rewrite <- ?app_assoc; reflexivity.
Qed.
(* two threads in turns of read() *)
Definition ex_two := ex_line ++ ex_bad ++ ex_line.
Example C93_example :
  exists sched log st s', flocked (fun _ => ex_cfg 1) ex_two sched /\ frun (fun _ => ex_cfg 1) all_start ex_two sched = (log, st, s')
    /\ flat_map (fun x => match snd x with Returned _ => [fst x] | _ => [] end) log = [0; 1; 1; 0].
Proof. exact (C93_turns (ex_cfg 1) ex_two [0; 1; 1; 0]). Qed.
(* Without a lock a sentence is lost if another thread takes one of its first bytes; *)
Theorem C93_lost_refuted :
  let run sched := let '(log, _, _) := frun (fun _ => ex_cfg 1) all_start (ex_line ++ ex_line) sched in map (fun x => (fst x, fst (snd x))) (items_seen log) in
  run (repeat 0 6) = [(0, ex_line); (0, ex_line)] /\ run ([0; 1] ++ repeat 0 60) = [(0, ex_line)].
Proof. split; vm_compute; reflexivity. Qed.
(* and without checksum validation a message is delivered that was never sent: the head of one sentence, the tail of another. *)
Definition ex_pubx40 : bytes := u "$PUBX,40,GLL,1,0,0,0,0,0*5D" ++ [cr; lf].
Theorem C93_torn_refuted :
  let '(log, _, _) := frun (fun _ => mkrcfg 0 0 false 1 None []) all_start (ex_line ++ ex_pubx40) ([0; 0] ++ repeat 1 (length ex_line) ++ [0]) in
  exists x, items_seen log = [(0, (u "$GUBX,40,GLL,1,0,0,0,0,0*5D" ++ [cr; lf], Some x))] /\ m_talker x = u "GU" /\ m_msgID x = u "BX".
Proof. vm_compute. eexists. split; [reflexivity|]. split; reflexivity. Qed.
