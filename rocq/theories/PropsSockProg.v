(* C117: the socket reader of the examples (nmeasocket.py) *)
From Coq Require Import Lia QArith.
From Verif Require Import Message Reader Socket SocketInt NmeaFile NmeaSocket BaseLemmas TextLemmas Spec ReaderSpec ReaderProofs SocketSpec SocketProofs
  NumLemmas PropsMessage PropsReader PropsSocket PropsInterrupt PropsShown PropsFile.
Local Open Scope Z_scope.

(* the value of an option: the last name=value, or the default *)
Definition option_is (args : list pystr) (name default value : pystr) : Prop :=
  given_last args name value \/ (value = default /\ forall a n v, In a args -> argument a n v -> n <> name).
(* the port: int() of the text, or 50012 *)
Definition port_is (args : list pystr) (port : Z) : Prop :=
  (exists t, given_last args (u "ipport") t /\ int_of_str t = Ok port)
  \/ (port = 50012 /\ forall a n v, In a args -> argument a n v -> n <> u "ipport").
Definition opening_line (address : pystr) (port : pystr) : pystr := u "Opening socket " ++ address ++ u ":" ++ port ++ u "...".
Definition starting : pystr := u "Starting NMEA reader...".
Definition terminated : pystr := u "Session terminated by user".

Lemma option_lookup args kw name d v : command_line [] args = Ok kw -> option_is args name d v -> kwarg name d kw = v.
Proof.
  intros E H. destruct (command_line_ok args [] kw E) as [_ L]. unfold kwarg. destruct H as [H|[-> H]].
  - rewrite (proj2 (L _ _) (or_introl H)). reflexivity.
  - destruct (lookup name kw) as [w|] eqn:Lk; [|reflexivity]. exfalso. apply L in Lk as [(b & a & r & -> & A & _)|[X _]]; [|discriminate X].
    refine (H a _ w _ A eq_refl). apply in_or_app. right. left. reflexivity.
Qed.
Lemma port_lookup args kw z : command_line [] args = Ok kw -> port_is args z ->
  match lookup (u "ipport") kw with Some t => int_of_str t | None => Ok 50012 end = Ok z.
Proof.
  intros E H. destruct (command_line_ok args [] kw E) as [_ L]. destruct H as [(t & H & I0)|[-> H]].
  - rewrite (proj2 (L _ _) (or_introl H)). exact I0.
  - destruct (lookup (u "ipport") kw) as [w|] eqn:Lk; [|reflexivity]. exfalso. apply L in Lk as [(b & a & r & -> & A & _)|[X _]]; [|discriminate X].
    refine (H a _ w _ A eq_refl). apply in_or_app. right. left. reflexivity.
Qed.

(* the host and the port of the arguments are opened, and no other *)
Theorem C117_arguments host dur args :
  (~ Forall (fun a => exists name value, argument a name value) args -> nmeasocket host dur args = ([], [], Died ValueError))
  /\ (Forall (fun a => exists name value, argument a name value) args -> forall t, given_last args (u "ipport") t -> int_of_str t = Raise ValueError ->
        nmeasocket host dur args = ([], [], Died ValueError))
  /\ (Forall (fun a => exists name value, argument a name value) args -> forall address port text,
        option_is args (u "ipaddress") (u "localhost") address -> port_is args port -> str_of_Z port = Ok text ->
        nmeasocket host dur args = match host address port with
          | Ok p => session_loop dur [opening_line address text] p
          | Raise e => if exc_eqb e KeyboardInterrupt then farewell [opening_line address text] [] 0 dur else ([opening_line address text], [], Died e)
          end).
Proof.
  split; [intros H; unfold nmeasocket; rewrite (command_line_fails args [] H); reflexivity|]. split; intros F.
  - intros t G I0. destruct (command_line_total args [] F) as (kw & E). unfold nmeasocket. rewrite E. cbv zeta.
    destruct (command_line_ok args [] kw E) as [_ L]. rewrite (proj2 (L _ _) (or_introl G)), I0. reflexivity.
  - intros address port text A P T. destruct (command_line_total args [] F) as (kw & E). unfold nmeasocket. rewrite E. cbv zeta.
    rewrite (port_lookup args kw port E P), T, (option_lookup args kw _ _ _ E A). reflexivity.
Qed.

(* ------------------------------------------------------------- the loop *)
Lemma items_parse ts hs : happens sock_cfg ts hs -> Forall (fun i => match snd i with Some x => exists raw mode v, parse (MBytes raw) mode v [] = Ok (Some x) | None => True end) (fst (policy_ignore hs)).
Proof.
  intros H. induction H as [|raw m ts hs P H IH|raw e0 ts hs P Pe H IH|raw e0 ts hs P Pe H IH|c ts hs B H IH|c ts hs B H IH|ts hs H IH]; cbn [policy_ignore]; try exact IH; try (constructor; fail).
  destruct (policy_ignore hs) as [l x]. cbn [fst] in *. apply Forall_cons; [|exact IH]. cbn [snd]. destruct m as [x0|]; [|exact Logic.I].
  exists raw, 0, 1. exact P.
Qed.
Lemma crash_index ts hs e : happens sock_cfg ts hs -> snd (policy_ignore hs) = Some e -> e = IndexError.
Proof.
  intros H. induction H as [|raw m ts hs P H IH|raw e0 ts hs P Pe H IH|raw e0 ts hs P Pe H IH|c ts hs B H IH|c ts hs B H IH|ts hs H IH]; cbn [policy_ignore]; try exact IH.
  - discriminate.
  - destruct (policy_ignore hs) as [l x]. exact IH.
  - cbn [snd]. intros Q. injection Q as ->. destruct (C07_exceptions _ _ _ _ _ P) as [->|[->|[[-> _]|[_ (k & d & [] & _)]]]]; [elim Pe; right; right; left; reflexivity|elim Pe; right; left; reflexivity|reflexivity].
Qed.
Lemma bytes_to_come_data segs T : (length (concat segs) <= bytes_to_come (map IRecv (map RData segs) ++ T))%nat.
Proof.
  unfold bytes_to_come. rewrite flat_map_app, app_length. assert (flat_map (fun r => match r with IRecv (RData d) => d | _ => [] end) (map IRecv (map RData segs)) = concat segs) as ->; [|lia].
  induction segs as [|d segs IH]; [reflexivity|]. cbn [map flat_map concat]. rewrite IH. reflexivity.
Qed.
Lemma shown_lines l : Forall (fun i : bytes * option msg => match snd i with Some x => exists raw mode v, parse (MBytes raw) mode v [] = Ok (Some x) | None => True end) l ->
  exists texts, Forall2 line_of l texts /\ print_all (map snd l) = (texts, None) /\ length texts = length l.
Proof.
  intros F. destruct (print_shown (map snd l)) as (texts & Ep & F2); [apply Forall_map; exact F|].
  apply forall2_map in F2. exists texts. split; [exact F2|]. split; [exact Ep|]. symmetry. exact (forall2_length F2).
Qed.

(* what happens after the data: the peer closes, or the user presses Ctrl-C *)
Definition goodbye (T : list irecv) : Prop := T = [] \/ exists later, T = IRaise KeyboardInterrupt :: later.
(* the last line printed after Ctrl-C *)
Definition figures (count : nat) (dur : Z) (f : session) : Prop :=
  if clock_micros dur =? 0 then f = Died ZeroDivisionError
  else exists secs rate, f = Terminated (N.of_nat count) secs rate /\ (secs * inject_Z 1000000 == inject_Z (clock_micros dur))%Q
         /\ (rate * secs == inject_Z (Z.of_nat count))%Q.

Lemma farewell_figures lines ev count dur : exists f, farewell lines ev count dur = (lines ++ [terminated], ev, f) /\ figures count dur f.
Proof.
  unfold farewell, figures. cbv zeta. destruct (Z.eqb_spec (clock_micros dur) 0) as [E|E].
  - eexists. split; reflexivity.
  - eexists. split; [reflexivity|]. eexists _, _. split; [reflexivity|]. split.
    + unfold Qeq. cbn. lia.
    + assert (~ (clock_micros dur # 1000000 == 0)%Q) as Nz by (unfold Qeq; cbn; lia). field. exact Nz.
Qed.

(* NMEAReader(stream) with its documented defaults: GET messages, checksums validated, other protocols skipped, errors logged, no error handler *)
Definition default_cfg : rcfg := mkrcfg 0 1 false 1 None [].
(* Whatever arrives (data that ends with CR LF, cut into segments in any way): each delivered item is printed, in order, as str() of the
   message; errors go to the log; when the peer closes the connection the program ends without a word; on Ctrl-C it prints how many messages
   there were, the seconds of the session (its days left out) and the quotient of these.  Only the IndexError of C07 ends it early. *)
Theorem C117_prints host dur args address port text segs T :
  Forall (fun a => exists name value, argument a name value) args ->
  option_is args (u "ipaddress") (u "localhost") address -> port_is args port -> str_of_Z port = Ok text ->
  host address port = Ok (map IRecv (map RData segs) ++ T) -> Forall (fun d => d <> []) segs -> goodbye T ->
  (concat segs = [] \/ exists body, concat segs = body ++ [cr; lf]) ->
  exists ts hs texts, tokens crlf (concat segs) ts /\ happens default_cfg ts hs /\ Forall2 line_of (fst (policy_ignore hs)) texts
    /\ exists last end_, nmeasocket host dur args = ([opening_line address text; starting] ++ texts ++ last, map EvLog (problems hs), end_)
    /\ match snd (policy_ignore hs) with
       | Some e => e = IndexError /\ last = [] /\ end_ = Died IndexError
       | None => (T = [] /\ last = [] /\ end_ = Closed) \/ (T <> [] /\ last = [terminated] /\ figures (length texts) dur end_)
       end.
Proof.
  change default_cfg with sock_cfg. intros F A P Tx Hh Fs G W. destruct (tokens_total crlf (concat segs) crlf_nonnil) as (ts & Tk). destruct (happens_total sock_cfg ts) as (hs & Hp).
  destruct (shown_lines _ (items_parse ts hs Hp)) as (texts & F2 & Ep & Lt).
  exists ts, hs, texts. split; [exact Tk|]. split; [exact Hp|]. split; [exact F2|].
  rewrite (proj2 (proj2 (C117_arguments host dur args)) F address port text A P Tx), Hh.
  unfold session_loop. cbv zeta. change (u "Starting NMEA reader...") with starting. set (z0 := mkzlib (fun _ => None) (fun _ => None) (fun _ => None)).
  destruct segs as [|d segs].
  { cbn [concat] in Tk. inversion Tk; subst. inversion Hp; subst. cbn [map app policy_ignore fst snd problems] in *.
    inversion F2; subst. destruct G as [-> |(later & ->)].
    - eexists _, _. split; [vm_compute; reflexivity|]. left. auto.
    - change (isock_open (IRaise KeyboardInterrupt :: later) 0 z0) with (@Raise isock KeyboardInterrupt).
      change (exc_eqb KeyboardInterrupt KeyboardInterrupt) with true. cbv iota.
      destruct (farewell_figures [opening_line address text; starting] [] 0 dur) as (f & -> & Ff).
      eexists _, _. split; [reflexivity|]. right. split; [discriminate|]. split; [reflexivity|exact Ff]. }
  pose proof (C116_opened T (map RData (d :: segs)) 0 z0 ltac:(discriminate)) as O. rewrite (open_plain _ 0 z0 eq_refl) in O. rewrite O.
  pose proof (init_contents (d :: segs) 0 z0 eq_refl Fs) as K. set (k := sock_init (map RData (d :: segs)) 0 z0) in *.
  set (n := Datatypes.S (bytes_to_come (map IRecv (map RData (d :: segs)) ++ T))).
  assert (length (concat (d :: segs)) < n)%nat as Ln by (pose proof (bytes_to_come_data (d :: segs) T); unfold n; lia).
  destruct (siterate_tokens sock_cfg n n k _ ts hs Tk Hp K Ln Ln) as (k' & s' & ts' & l & x & ev & hs' & R & It & _).
  destruct (run_log sock_cfg hs eq_refl) as (r & R2). rewrite policy_log_returns in R2 by (intros f e X; discriminate X). cbn [fst snd] in R2.
  rewrite R in R2. injection R2 as -> -> -> _. change (map (passed (r_handler sock_cfg)) (problems hs)) with (map EvLog (problems hs)) in *.
  assert (exists y k2, isiterate sock_cfg n n (then_ T k) = Some (fst (policy_ignore hs), y, map EvLog (problems hs), k2)
          /\ match snd (policy_ignore hs) with Some e => y = Some e | None => (T = [] /\ y = None) \/ (T <> [] /\ y = Some KeyboardInterrupt) end)
    as (y & k2 & J & Hy).
  { destruct G as [-> |(later & ->)].
    - exists (snd (policy_ignore hs)), (live k'). split; [exact (C116_steady _ _ _ _ _ _ _ _ It)|]. destruct (snd (policy_ignore hs)); auto.
    - assert (tail_of_lines (concat (d :: segs))) as Tl by (destruct W as [W|W]; [left; exact W|right; right; exact W]).
      assert (~ protocol_error KeyboardInterrupt) as Np by (intros X; apply protocol_error_iff in X; discriminate X).
      pose proof (iterate_whole sock_cfg n KeyboardInterrupt later Np ltac:(discriminate) n k _ _ _ _ _ K Tl It) as Q.
      destruct (snd (policy_ignore hs)) as [e|].
      + exists (Some e), (then_ (IRaise KeyboardInterrupt :: later) k'). split; [exact Q|reflexivity].
      + destruct Q as [_ Q]. exists (Some KeyboardInterrupt), (then_ later k'). split; [exact Q|]. right. split; [discriminate|reflexivity]. }
  rewrite J, Ep. destruct (snd (policy_ignore hs)) as [e|] eqn:Cr.
  - subst y. pose proof (crash_index ts hs e Hp Cr) as ->. change (exc_eqb IndexError KeyboardInterrupt) with false. cbv iota.
    eexists _, _. split; [rewrite app_nil_r; reflexivity|]. auto.
  - destruct Hy as [[-> ->]|[Nt ->]].
    + eexists _, _. split; [rewrite app_nil_r; reflexivity|]. left. auto.
    + change (exc_eqb KeyboardInterrupt KeyboardInterrupt) with true. cbv iota.
      destruct (farewell_figures (([opening_line address text] ++ [starting]) ++ texts) (map EvLog (problems hs)) (length (fst (policy_ignore hs))) dur) as (f & E & Ff).
      rewrite E. exists [terminated], f. split; [rewrite <- !app_assoc; reflexivity|]. right. split; [exact Nt|]. split; [reflexivity|]. rewrite Lt. exact Ff.
Qed.
(* no connection: the exception of connect() ends the program; Ctrl-C while it waits for the connection ends it with a count of 0 *)
Theorem C117_unreachable host dur args address port text e :
  Forall (fun a => exists name value, argument a name value) args ->
  option_is args (u "ipaddress") (u "localhost") address -> port_is args port -> str_of_Z port = Ok text -> host address port = Raise e ->
  (e <> KeyboardInterrupt -> nmeasocket host dur args = ([opening_line address text], [], Died e))
  /\ (e = KeyboardInterrupt -> exists f, nmeasocket host dur args = ([opening_line address text; terminated], [], f) /\ figures 0 dur f).
Proof.
  intros F A P Tx Hh. rewrite (proj2 (proj2 (C117_arguments host dur args)) F address port text A P Tx), Hh. split.
  - intros Ne. destruct (exc_eqb e KeyboardInterrupt) eqn:X; [|reflexivity]. exfalso. apply Ne. destruct e; try discriminate X.
    cbn in X. do 7 (destruct n as [|n]; try discriminate X). reflexivity.
  - intros ->. change (exc_eqb KeyboardInterrupt KeyboardInterrupt) with true. cbv iota. exact (farewell_figures [opening_line address text] [] 0 dur).
Qed.
(* sessions of less than a day: the seconds are those of the session *)
Theorem C117_seconds dur : 0 < dur < 86400000000 -> clock_micros dur = dur.
Proof. intros H. apply Z.mod_small. lia. Qed.
(* a session of one day and a second counts as one second, and one of exactly a day (or no time at all) ends with ZeroDivisionError *)
Theorem C117_refuted :
  clock_micros (86401 * 1000000) = 1000000 /\ farewell [] [] 1 (86400 * 1000000) = ([terminated], [], Died ZeroDivisionError)
  /\ farewell [] [] 0 0 = ([terminated], [], Died ZeroDivisionError).
Proof. split; [reflexivity|]. split; vm_compute; reflexivity. Qed.
Definition ex_host (a : pystr) (p : Z) : result (list irecv) :=
  if str_eqb a (u "10.0.0.7") && (p =? 2101) then Ok (map IRecv (map RData [firstn 30 ex_gll; skipn 30 ex_gll ++ firstn 9 ex_gll; skipn 9 ex_gll]) ++ [IRaise KeyboardInterrupt])
  else Raise (OtherException 9).
Definition ex_shown : pystr := Eval vm_compute in match parse (MBytes ex_gll) 0 1 [] with Ok (Some m) => match str_of_msg m with Ok t => t | Raise _ => [] end | _ => [] end.
Example C117_example :
  nmeasocket ex_host 2500000 [u "ipaddress=10.0.0.7"; u "ipport=2101"]
    = ([opening_line (u "10.0.0.7") (u "2101"); starting; ex_shown; ex_shown; terminated], [], Terminated 2 (2500000 # 1000000) (2000000 # 2500000))
  /\ ex_shown <> []
  /\ option_is [u "ipaddress=10.0.0.7"; u "ipport=2101"] (u "ipaddress") (u "localhost") (u "10.0.0.7")
  /\ port_is [u "ipaddress=10.0.0.7"; u "ipport=2101"] 2101.
Proof.
  split; [vm_compute; reflexivity|]. split; [discriminate|]. split.
  - left. exists [], (u "ipaddress=10.0.0.7"), [u "ipport=2101"]. split; [reflexivity|]. split; [apply split_argument; vm_compute; reflexivity|].
    intros b n v [<-|[]] H. apply split_argument in H. vm_compute in H. injection H as <- _. discriminate.
  - left. exists (u "2101"). split; [|vm_compute; reflexivity].
    exists [u "ipaddress=10.0.0.7"], (u "ipport=2101"), []. split; [reflexivity|]. split; [apply split_argument; vm_compute; reflexivity|].
    intros b n v [].
Qed.
