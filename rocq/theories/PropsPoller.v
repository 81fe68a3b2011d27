(* C99: the threads and queues of the example applications nmeapoller.py and quecteldemo.py *)
From Coq Require Import Lia.
From Verif Require Import Message Reader Threads Poller BaseLemmas Spec ReaderSpec ReaderProofs PropsParse PropsReader PropsSession PropsConcat PropsThreads.
Local Open Scope nat_scope.

(* ------------------------------------------------------------ what a log or a schedule says *)
(* the messages that nmr.read() delivered *)
Definition received (log : list effect) : list msg :=
  flat_map (fun e => match e with Returns (RMsg _ (Some m)) => [m] | _ => [] end) log.
(* the messages that the process thread showed, or passed over *)
Definition displayed (log : list effect) : list msg :=
  flat_map (fun e => match e with Shown m _ => [m] | Hidden m => [m] | _ => [] end) log.
(* what was given to the port's write() *)
Definition written (log : list effect) : list bytes :=
  flat_map (fun e => match e with Wrote b _ => [b] | _ => [] end) log.
(* the exceptions that the I/O thread reported, and how often read() raised one *)
Definition failures (log : list effect) : list exc := flat_map (fun e => match e with Failed x => [x] | _ => [] end) log.
Definition raised (log : list effect) : list exc := flat_map (fun e => match e with Returns (RRaise x) => [x] | _ => [] end) log.
(* what the main program put on the send queue *)
Definition queued (sched : list action) : list (option msg) :=
  flat_map (fun a => match a with Send d => [d] | _ => [] end) sched.
(* the bytes of a queued message *)
Definition encodings (d : option msg) : list bytes :=
  match d with Some m => match serialize m with Ok b => [b] | Raise _ => [] end | None => [] end.
(* how many steps a thread makes in a schedule *)
Definition turns (x : action) (sched : list action) : nat :=
  length (filter (fun a => match x, a with Io, Io | Proc, Proc => true | _, _ => false end) sched).
(* read() gave something back, as opposed to raising *)
Definition gave (o : outcome) : Prop := match o with RRaise _ => False | _ => True end.

Ltac logs := unfold received, displayed, written, failures, raised in *; rewrite ?flat_map_app; cbn [flat_map app].
Lemma reports_none {A} (f : effect -> list A) ev : (forall e, f (Reports e) = []) -> flat_map f (map Reports ev) = [].
Proof. intros H. induction ev as [|e ev IH]; [reflexivity|]. cbn. rewrite H, IH. reflexivity. Qed.

Section Any.
Variable P : Type.
Variables read1 readline : P -> result bytes * P.
Variable write : bytes -> P -> result Z * P.
Variable cfg : rcfg.
Variables blocking qtmonly : bool.
Notation world := (Poller.world P).
Notation step := (Poller.step P read1 readline write cfg blocking qtmonly).
Notation run := (Poller.run P read1 readline write cfg blocking qtmonly).
Notation begin := (Poller.begin P).
Notation io_step := (Poller.io_step P read1 readline write cfg blocking).
Notation proc_step := (Poller.proc_step P qtmonly).

(* messages in the hands of a thread: taken from a queue, or not yet put there *)
Definition in_proc (w : world) : list msg := match g_proc w with PrPrint m => [m] | PrDead m => [m] | _ => [] end.
Definition in_io (w : world) : list msg := match g_io w with IoPut _ m => [m] | _ => [] end.
Definition to_write (w : world) : list (option msg) := match g_io w with IoWrite m => [Some m] | _ => [] end.
Definition busy_proc (w : world) : nat := match g_proc w with PrPrint _ | PrDone | PrDead _ => 1 | _ => 0 end.
Definition busy_io (w : world) : nat := match g_io w with IoWrite _ | IoDone => 1 | _ => 0 end.
Definition waiting (w : world) : list msg := in_proc w ++ map snd (q_items (g_readq w)).

Lemma run_app a b w : run (a ++ b) w = let '(l, w1) := run a w in let '(l2, w2) := run b w1 in (l ++ l2, w2).
Proof.
  revert w. induction a as [|x a IH]; intros w; cbn [app Poller.run]; [destruct (run b w); reflexivity|].
  destruct (step x w) as [l w1]. rewrite IH. destruct (run a w1) as [l2 w2]. destruct (run b w2) as [l3 w3]. rewrite app_assoc. reflexivity.
Qed.

(* every step of the I/O thread *)
Ltac io_cases w E :=
  destruct w as [p rq sq st i pr]; unfold Poller.io_step, io_failed, io_at, q_get, q_task_done in E; cbn [g_io g_port g_readq g_sendq g_stop g_proc] in *;
  destruct i as [|t|raw m| | |m| |]; cbv beta iota zeta in E;
  [ | destruct (tstep P read1 readline cfg t p) as [[[t' o] ev] p'] eqn:Ts; destruct o as [[raw [m|]| |e]|]
    | | | destruct (q_items sq) as [|d sq'] eqn:Sq; [destruct blocking|]
    | destruct (serialize m) as [b|e] eqn:Se; [destruct (write b p) as [[z|e] p'] eqn:Wr|]
    | destruct (q_unfinished sq) as [|n] eqn:Un | ].
Ltac pr_cases w E :=
  destruct w as [p rq sq st i pr]; unfold Poller.proc_step, Poller.pr_at, q_get, q_task_done in E; cbn [g_io g_port g_readq g_sendq g_stop g_proc] in *;
  destruct pr as [| | |m| | |m]; cbv beta iota zeta in E;
  [ | | destruct (q_items rq) as [|[raw m] rq'] eqn:Rq
    | destruct (if qtmonly then let! i0 := identity m in Ok (negb (contains (u "QTM") i0)) else Ok false) as [[|]|e] eqn:Sh; [|destruct (str_of_msg m) as [t|e] eqn:Str|]
    | destruct (q_unfinished rq) as [|n] eqn:Un | | ].
Ltac done_step H := cbv beta iota zeta in H; injection H as <- <-; cbn [g_io g_port g_readq g_sendq g_stop g_proc q_items q_unfinished q_put map app snd] in *.

(* ------------------------------------------------------------ invariants of a reachable world *)
Definition good (w : world) : Prop :=
  (g_proc w = PrGet -> q_items (g_readq w) <> []) /\ (g_io w = IoGet -> q_items (g_sendq w) <> [])
  /\ q_unfinished (g_readq w) = length (q_items (g_readq w)) + busy_proc w
  /\ length (q_items (g_sendq w)) + busy_io w <= q_unfinished (g_sendq w)
  /\ (g_stop w = false -> g_io w <> IoEnd /\ g_proc w <> PrEnd).
Lemma good_begin p : good (begin p).
Proof. unfold good, begin, busy_proc, busy_io. cbn. repeat split; try discriminate; lia. Qed.
Ltac wreck := 
  repeat split; try (intros; discriminate); try congruence; try tauto; try lia;
  repeat match goal with
  | |- context [match ?x with _ => _ end] => destruct x eqn:?
  | H : context [if ?x then _ else _] |- _ => destruct x eqn:?
  end; rewrite ?app_length in *; cbn [length app] in *; try (intros; discriminate); try lia; try tauto; try congruence.
Lemma good_step a w l w' : step a w = (l, w') -> good w -> good w'.
Proof.
  unfold good, busy_proc, busy_io. intros E (A & B & C & D & S0). destruct a as [| |d|]; cbn [Poller.step] in E.
  - io_cases w E; done_step E. all: wreck.
    destruct (q_items rq); discriminate.
  - pr_cases w E; done_step E. all: wreck.
  - destruct w as [p rq sq st i pr]. done_step E. wreck. destruct (q_items sq); discriminate.
  - destruct w as [p rq sq st i pr]. done_step E. wreck.
Qed.
Lemma good_run sched : forall w l w', run sched w = (l, w') -> good w -> good w'.
Proof.
  induction sched as [|a r IH]; intros w l w' R G; cbn [Poller.run] in R; [congruence|].
  destruct (step a w) as [l1 w1] eqn:E. destruct (run r w1) as [l2 w2] eqn:R2. injection R as <- <-. eauto using good_step.
Qed.
Lemma run_ind (I : list action -> list effect -> world -> world -> Prop) :
  (forall w, I [] [] w w) ->
  (forall a r w l1 w1 l2 w2, step a w = (l1, w1) -> run r w1 = (l2, w2) -> I r l2 w1 w2 -> I (a :: r) (l1 ++ l2) w w2) ->
  forall sched w l w', run sched w = (l, w') -> I sched l w w'.
Proof.
  intros H0 H1. induction sched as [|a r IH]; intros w l w' R; cbn [Poller.run] in R; [injection R as <- <-; apply H0|].
  destruct (step a w) as [l1 w1] eqn:E. destruct (run r w1) as [l2 w2] eqn:R2. injection R as <- <-. eauto.
Qed.

(* ------------------------------------------------------------ display *)
Ltac nil_logs := unfold received, displayed, written, failures, raised in *; rewrite ?flat_map_app, ?reports_none by reflexivity; cbn [flat_map app map snd].
Lemma display_step a w l w' : step a w = (l, w') ->
  waiting w ++ in_io w ++ received l = displayed l ++ waiting w' ++ in_io w'.
Proof.
  unfold waiting, in_proc, in_io. intros E. destruct a as [| |d|]; cbn [Poller.step] in E.
  - io_cases w E; done_step E; nil_logs; rewrite ?app_nil_r, ?map_app, ?app_assoc; try reflexivity; [destruct st; reflexivity || idtac..].
    all: try (destruct (q_items sq); rewrite ?app_nil_r; reflexivity). all: try (destruct d; rewrite ?app_nil_r; reflexivity).
    all: rewrite ?app_nil_r; reflexivity.
  - pr_cases w E; done_step E; nil_logs; rewrite ?app_nil_r, ?map_app, ?app_assoc; try reflexivity.
    all: try (destruct st; reflexivity). all: try (destruct (q_items rq); reflexivity). all: try (rewrite ?Rq; reflexivity).
  - destruct w as [p rq sq st i pr]. done_step E. nil_logs. rewrite app_nil_r. reflexivity.
  - destruct w as [p rq sq st i pr]. done_step E. nil_logs. rewrite app_nil_r. reflexivity.
Qed.
Lemma display_run sched : forall w l w', run sched w = (l, w') ->
  waiting w ++ in_io w ++ received l = displayed l ++ waiting w' ++ in_io w'.
Proof.
  apply (run_ind (fun _ l w w' => waiting w ++ in_io w ++ received l = displayed l ++ waiting w' ++ in_io w')).
  - intros w. nil_logs. rewrite app_nil_r. reflexivity.
  - intros a r w l1 w1 l2 w2 E _ IH. apply display_step in E. unfold received, displayed in *. rewrite !flat_map_app, <- (app_assoc (flat_map _ l1)), <- IH.
    rewrite !app_assoc in *. rewrite E. reflexivity.
Qed.

(* ------------------------------------------------------------ sending *)
Lemma sent_step a w l w' : step a w = (l, w') ->
  exists done, to_write w ++ q_items (g_sendq w) ++ queued [a] = done ++ to_write w' ++ q_items (g_sendq w') /\ written l = flat_map encodings done.
Proof.
  unfold to_write, queued. intros E. destruct a as [| |d|]; cbn [Poller.step flat_map app] in *.
  - rewrite !app_nil_r. io_cases w E; done_step E; nil_logs; rewrite ?app_nil_r;
      try (exists []; split; reflexivity).
    + exists []. destruct st; split; reflexivity.
    + exists []. split; [|reflexivity]. destruct (q_items sq); reflexivity.
    + exists []. rewrite ?Sq. split; reflexivity.
    + exists []. rewrite ?Sq. split; reflexivity.
    + rewrite ?Sq. destruct d as [m|]; [exists []|exists [None]]; split; reflexivity.
    + exists [Some m]. cbn. rewrite Se. split; reflexivity.
    + exists [Some m]. cbn. rewrite Se. split; reflexivity.
    + exists [Some m]. cbn. rewrite Se. split; reflexivity.
  - rewrite !app_nil_r. pr_cases w E; done_step E; nil_logs; exists []; split; try reflexivity.
  - destruct w as [p rq sq st i pr]. done_step E. exists []. nil_logs. rewrite app_assoc. split; reflexivity.
  - destruct w as [p rq sq st i pr]. done_step E. exists []. nil_logs. rewrite !app_nil_r. split; reflexivity.
Qed.
Lemma queued_cons a r : queued (a :: r) = queued [a] ++ queued r.
Proof. unfold queued. cbn [flat_map]. rewrite app_nil_r. reflexivity. Qed.
Lemma sent_run sched : forall w l w', run sched w = (l, w') ->
  exists done, to_write w ++ q_items (g_sendq w) ++ queued sched = done ++ to_write w' ++ q_items (g_sendq w') /\ written l = flat_map encodings done.
Proof.
  apply (run_ind (fun sched l w w' => exists done, to_write w ++ q_items (g_sendq w) ++ queued sched = done ++ to_write w' ++ q_items (g_sendq w') /\ written l = flat_map encodings done)).
  - intros w. exists []. cbn. rewrite app_nil_r. split; reflexivity.
  - intros a r w l1 w1 l2 w2 E _ (d2 & X & Y). apply sent_step in E as (d1 & X1 & Y1). exists (d1 ++ d2). split.
    + rewrite queued_cons, <- (app_assoc d1), <- X, !app_assoc. f_equal. rewrite <- !app_assoc. exact X1.
    + unfold written in *. rewrite !flat_map_app, Y, Y1. reflexivity.
Qed.

(* ------------------------------------------------------------ task counts and failures *)
Lemma count_step a w l w' : good w -> step a w = (l, w') ->
  q_unfinished (g_sendq w') + length (raised l) + (length (q_items (g_sendq w)) + busy_io w)
  = q_unfinished (g_sendq w) + length (failures l) + (length (q_items (g_sendq w')) + busy_io w').
Proof.
  unfold good, busy_io. intros (A & B & C & D & S0) E. destruct a as [| |d|]; cbn [Poller.step] in E.
  - io_cases w E; done_step E; nil_logs; cbn [length] in *; try lia.
    + destruct st; lia.
    + destruct (q_items sq); cbn [length]; lia.
    + destruct (B eq_refl); reflexivity || assumption.
    + destruct (B eq_refl); reflexivity || assumption.
    + rewrite ?Sq. cbn [length]. destruct d; lia.
  - pr_cases w E; done_step E; nil_logs; cbn [length]; lia.
  - destruct w as [p rq sq st i pr]. done_step E. nil_logs. rewrite app_length. cbn [length]. lia.
  - destruct w as [p rq sq st i pr]. done_step E. nil_logs. cbn [length]. lia.
Qed.
Lemma count_run sched : forall w l w', run sched w = (l, w') -> good w ->
  q_unfinished (g_sendq w') + length (raised l) + (length (q_items (g_sendq w)) + busy_io w)
  = q_unfinished (g_sendq w) + length (failures l) + (length (q_items (g_sendq w')) + busy_io w').
Proof.
  apply (run_ind (fun sched l w w' => good w -> q_unfinished (g_sendq w') + length (raised l) + (length (q_items (g_sendq w)) + busy_io w)
  = q_unfinished (g_sendq w) + length (failures l) + (length (q_items (g_sendq w')) + busy_io w'))). 
  - intros w _. nil_logs. cbn [length]. lia.
  - intros a r w l1 w1 l2 w2 E _ IH G. pose proof (good_step _ _ _ _ E G) as G1. specialize (IH G1). apply count_step in E; [|exact G].
    unfold raised, failures in *. rewrite !flat_map_app, !app_length. lia.
Qed.
Lemma fail_step a w l w' x : good w -> step a w = (l, w') -> In (Failed x) l ->
  In (Returns (RRaise x)) l \/ (exists m, In (Some m) (to_write w) /\ serialize m = Raise x) \/ exists b, In (Wrote b (Raise x)) l.
Proof.
  unfold good, to_write. intros (A & B & C & D & S0) E I.
  assert (forall ev, ~ In (Failed x) (map Reports ev)) as No by (intros ev H; apply in_map_iff in H as (? & ? & _); discriminate).
  destruct a as [| |d|]; cbn [Poller.step] in E.
  - io_cases w E; done_step E; try (destruct I; fail); try (apply No in I; destruct I); try (apply in_app_iff in I as [I|[I|[]]]; [apply No in I; destruct I|discriminate]).
    + apply in_app_iff in I as [I|[I|[I|[]]]]; [apply No in I; destruct I|discriminate|]. injection I as ->. left. apply in_app_iff. right. left. reflexivity.
    + destruct (B eq_refl); reflexivity || assumption.
    + destruct I as [I|[]]. discriminate.
    + destruct I as [I|[I|[]]]; [discriminate|]. injection I as ->. right. right. eexists. left. reflexivity.
    + destruct I as [I|[]]. injection I as ->. right. left. exists m. split; [left; reflexivity|assumption].
    + cbn [busy_io g_io] in D. lia.
  - pr_cases w E; done_step E; cbn in I; intuition discriminate.
  - destruct w as [p rq sq st i pr]. done_step E. destruct I.
  - destruct w as [p rq sq st i pr]. done_step E. destruct I.
Qed.
Lemma fail_run sched : forall w l w', run sched w = (l, w') -> good w -> forall x, In (Failed x) l ->
  In (Returns (RRaise x)) l \/ (exists m, In (Some m) (to_write w ++ q_items (g_sendq w) ++ queued sched) /\ serialize m = Raise x) \/ exists b, In (Wrote b (Raise x)) l.
Proof.
  apply (run_ind (fun sched l w w' => good w -> forall x, In (Failed x) l -> In (Returns (RRaise x)) l \/ (exists m, In (Some m) (to_write w ++ q_items (g_sendq w) ++ queued sched) /\ serialize m = Raise x) \/ exists b, In (Wrote b (Raise x)) l)).
  - intros w _ e [].
  - intros a r w l1 w1 l2 w2 E _ IH G e I. apply in_app_iff in I as [I|I].
    + destruct (fail_step _ _ _ _ _ G E I) as [H|[(m & H & Hs)|(b & H)]]; [left; apply in_app_iff; auto|right; left; exists m; split; [apply in_app_iff; auto|exact Hs]|right; right; exists b; apply in_app_iff; auto].
    + destruct (IH (good_step _ _ _ _ E G) e I) as [H|[(m & H & Hs)|(b & H)]]; [left; apply in_app_iff; auto| |right; right; exists b; apply in_app_iff; auto].
      right. left. exists m. split; [|exact Hs]. destruct (sent_step _ _ _ _ E) as (done & X & _). rewrite queued_cons, !app_assoc, <- (app_assoc (to_write w)), X, <- !app_assoc. apply in_app_iff. right. exact H.
Qed.

(* ------------------------------------------------------------ progress *)
(* str() of a message succeeds, and its identity if that is looked at *)
Definition printable (m : msg) : Prop := (exists t, str_of_msg m = Ok t) /\ (qtmonly = true -> exists i, identity m = Ok i).
Lemma print_ok m : printable m -> exists e, displayed [e] = [m] /\ forall w, g_proc w = PrPrint m ->
  proc_step w = ([e], pr_at P PrDone w).
Proof.
  intros ((t & T) & Q). destruct qtmonly eqn:Qe.
  - destruct (Q eq_refl) as (i & Id). destruct (negb (contains (u "QTM") i)) eqn:C.
    + exists (Hidden m). split; [reflexivity|]. intros w G. unfold Poller.proc_step. rewrite G, Id. cbn [bind]. rewrite C. reflexivity.
    + exists (Shown m t). split; [reflexivity|]. intros w G. unfold Poller.proc_step. rewrite G, Id. cbn [bind]. rewrite C, T. reflexivity.
  - exists (Shown m t). split; [reflexivity|]. intros w G. unfold Poller.proc_step. rewrite G, T. reflexivity.
Qed.
Definition dead_ok (w : world) : Prop := forall m, g_proc w = PrDead m -> ~ printable m.
Lemma dead_step a w l w' : step a w = (l, w') -> dead_ok w -> dead_ok w'.
Proof.
  unfold dead_ok. intros E D. destruct a as [| |d|]; cbn [Poller.step] in E.
  - io_cases w E; done_step E; exact D.
  - pr_cases w E; done_step E; try (intros; discriminate || (exfalso; congruence)); try exact D.
    + destruct st; discriminate.
    + destruct (q_items rq); discriminate.
    + intros m' X. injection X as <-. intros ((t & T) & _). congruence.
    + intros m' X. injection X as <-. intros (_ & Q). destruct qtmonly; [|discriminate]. destruct (Q eq_refl) as (i' & Id). rewrite Id in Sh. discriminate.
  - destruct w as [p rq sq st i pr]. done_step E. exact D.
  - destruct w as [p rq sq st i pr]. done_step E. exact D.
Qed.
Lemma dead_run sched : forall w l w', run sched w = (l, w') -> dead_ok w -> dead_ok w'.
Proof. apply (run_ind (fun _ _ w w' => dead_ok w -> dead_ok w')); [auto|]. intros. eauto using dead_step. Qed.
Definition cost (pc : prstate) (k : nat) : nat :=
  match k with
  | 0 => 0
  | S k => match pc with PrPrint _ => 1 | PrGet => 2 | PrCheck => 3 | PrTop => 4 | _ => 5 end + 5 * k
  end.
Lemma quiet a w l w' : a <> Proc -> step a w = (l, w') -> g_proc w' = g_proc w /\ displayed l = [] /\ exists x, q_items (g_readq w') = q_items (g_readq w) ++ x.
Proof.
  intros Na E. destruct a as [| |d|]; cbn [Poller.step] in E; [|congruence| |].
  - io_cases w E; done_step E; nil_logs; repeat split; try (exists []; rewrite app_nil_r; reflexivity). exists [(raw, m)]. reflexivity.
  - destruct w as [p rq sq st i pr]. done_step E. repeat split. exists []. rewrite app_nil_r. reflexivity.
  - destruct w as [p rq sq st i pr]. done_step E. repeat split. exists []. rewrite app_nil_r. reflexivity.
Qed.
Lemma stop_step a w l w' : step a w = (l, w') -> g_stop w' = match a with Stop => true | _ => g_stop w end.
Proof.
  intros E. destruct a as [| |d|]; cbn [Poller.step] in E; [io_cases w E|pr_cases w E|destruct w|destruct w]; done_step E; reflexivity.
Qed.
Lemma turns_cons x a r : turns x (a :: r) = turns x [a] + turns x r.
Proof. unfold turns. cbn [filter]. destruct (match x, a with Io, Io | Proc, Proc => true | _, _ => false end); reflexivity. Qed.
Lemma live_display sched : forall w l w', run sched w = (l, w') -> forall todo rest,
  good w -> g_stop w = false -> ~ In Stop sched -> (forall m, g_proc w <> PrDead m) ->
  waiting w = todo ++ rest -> Forall printable todo -> cost (g_proc w) (length todo) <= turns Proc sched ->
  exists more, displayed l = todo ++ more.
Proof.
  apply (run_ind (fun sched l w w' => forall todo rest, good w -> g_stop w = false -> ~ In Stop sched -> (forall m, g_proc w <> PrDead m) ->
    waiting w = todo ++ rest -> Forall printable todo -> cost (g_proc w) (length todo) <= turns Proc sched -> exists more, displayed l = todo ++ more)).
  - intros w todo rest _ _ _ _ _ _ C. unfold turns in C. cbn in C. destruct todo; [exists []; reflexivity|]. cbn in C. destruct (g_proc w); lia.
  - intros a r w l1 w1 l2 w2 E R IH todo rest G St Ns Al W F C. destruct todo as [|m todo]; [eexists; reflexivity|].
    pose proof (good_step _ _ _ _ E G) as G1. pose proof (stop_step _ _ _ _ E) as St1.
    assert (~ In Stop r) as Nr by (intros H; apply Ns; right; exact H).
    assert (g_stop w1 = false) as S1 by (rewrite St1; destruct a; [exact St..|destruct Ns; left; reflexivity]).
    rewrite turns_cons in C. replace (displayed (l1 ++ l2)) with (displayed l1 ++ displayed l2) by (unfold displayed; rewrite flat_map_app; reflexivity).
    assert (a = Proc \/ a <> Proc) as [->|Na] by (destruct a; (left; reflexivity) || (right; discriminate)).
    + change (turns Proc [Proc]) with 1 in C. cbn [Poller.step] in E. destruct (g_proc w) eqn:Pc; cbn [cost length] in C.
      * unfold Poller.proc_step in E. rewrite Pc, St in E. injection E as <- <-. apply (IH (m :: todo) rest); auto; [discriminate|destruct w; cbn in *; subst; exact W|cbn in *; lia].
      * unfold Poller.proc_step in E. rewrite Pc in E. destruct w as [p rq sq st i pr]. cbn in *. subst pr. unfold waiting, in_proc in W. cbn in W. destruct (q_items rq) eqn:Q; [discriminate|].
        injection E as <- <-. apply (IH (m :: todo) rest); auto; cbn; [discriminate|unfold waiting; cbn; rewrite Q; exact W|lia].
      * unfold Poller.proc_step, q_get in E. rewrite Pc in E. destruct w as [p rq sq st i pr]. cbn in *. subst pr. unfold waiting, in_proc in W. cbn in W. destruct (q_items rq) as [|[raw m'] q] eqn:Q; [discriminate|].
        injection E as <- <-. apply (IH (m :: todo) rest); auto; cbn; [discriminate|lia].
      * destruct w as [p rq sq st i pr]. cbn in Pc. subst pr. unfold waiting, in_proc in W. cbn in W. injection W as -> W. inversion F as [|? ? F1 F2]; subst.
        destruct (print_ok m F1) as (e & D & Ps). match type of E with Poller.proc_step _ _ ?w = _ => rewrite (Ps w eq_refl) in E end. injection E as <- <-. rewrite D. cbn [app].
        destruct (IH todo rest) as (more & ->); auto; cbn; [discriminate|unfold cost; destruct (length todo); lia|]. exists more. reflexivity.
      * unfold Poller.proc_step, q_task_done in E. rewrite Pc in E. destruct G as (_ & _ & Cn & _). unfold busy_proc in Cn. rewrite Pc in Cn. destruct (q_unfinished (g_readq w)) eqn:Un; [lia|].
        destruct w as [p rq sq st i pr]. cbn in *. subst pr. injection E as <- <-. apply (IH (m :: todo) rest); auto; cbn; [discriminate|lia].
      * destruct G as (_ & _ & _ & _ & X). destruct (X St) as [_ X2]. congruence.
      * destruct (Al _ eq_refl).
    + destruct (quiet _ _ _ _ Na E) as (Pe & -> & x & Q). cbn [app].
      replace (turns Proc [a]) with 0 in C by (destruct a; try reflexivity; congruence).
      apply (IH (m :: todo) (rest ++ map snd x)); auto; rewrite ?Pe; auto.
      unfold waiting, in_proc in *. rewrite Pe, Q, map_app, app_assoc, W, app_assoc. reflexivity.
Qed.

Definition pending (w : world) : list (option msg) := to_write w ++ q_items (g_sendq w).
Definition encodable (d : option msg) : Prop := match d with Some m => exists b, serialize m = Ok b | None => True end.
Definition accepts : Prop := forall b p, exists z p', write b p = (Ok z, p').
Definition sending (w : world) : Prop := match g_io w with IoTop | IoRead _ | IoEnd => False | _ => True end.
Definition cost_io (pc : iostate) (k : nat) : nat :=
  match k with
  | 0 => 0
  | S k => match pc with IoWrite _ => 1 | IoGet => 2 | IoCheck => 3 | _ => 4 end + 4 * k
  end.
Lemma quiet_io a w l w' : a <> Io -> step a w = (l, w') -> g_io w' = g_io w /\ written l = [] /\ q_items (g_sendq w') = q_items (g_sendq w) ++ queued [a].
Proof.
  intros Na E. destruct a as [| |d|]; cbn [Poller.step] in E; [congruence| | |].
  - pr_cases w E; done_step E; nil_logs; repeat split; cbn; rewrite app_nil_r; reflexivity.
  - destruct w as [p rq sq st i pr]. done_step E. repeat split.
  - destruct w as [p rq sq st i pr]. done_step E. repeat split. cbn. rewrite app_nil_r. reflexivity.
Qed.
Lemma live_send : accepts -> forall sched w l w', run sched w = (l, w') -> forall todo rest,
  good w -> sending w -> pending w = todo ++ rest -> Forall encodable todo -> cost_io (g_io w) (length todo) <= turns Io sched ->
  exists more, written l = flat_map encodings todo ++ more.
Proof.
  intros Acc.
  apply (run_ind (fun sched l w w' => forall todo rest, good w -> sending w ->
    pending w = todo ++ rest -> Forall encodable todo -> cost_io (g_io w) (length todo) <= turns Io sched -> exists more, written l = flat_map encodings todo ++ more)).
  - intros w todo rest _ _ _ _ C. unfold turns in C. cbn in C. destruct todo; [exists []; reflexivity|]. cbn in C. destruct (g_io w); lia.
  - intros a r w l1 w1 l2 w2 E R IH todo rest G Sd W F C. destruct todo as [|d todo]; [eexists; reflexivity|].
    pose proof (good_step _ _ _ _ E G) as G1. rewrite turns_cons in C.
    replace (written (l1 ++ l2)) with (written l1 ++ written l2) by (unfold written; rewrite flat_map_app; reflexivity).
    assert (a = Io \/ a <> Io) as [->|Na] by (destruct a; (left; reflexivity) || (right; discriminate)).
    + change (turns Io [Io]) with 1 in C. cbn [Poller.step] in E. destruct G as (_ & _ & _ & Cn & _). unfold pending, to_write, busy_io, sending in *.
      destruct w as [p rq sq st i pr]. cbn [g_io g_port g_readq g_sendq g_stop g_proc] in *.
      unfold Poller.io_step, io_failed, io_at, q_get, q_task_done in E. cbn [g_io g_port g_readq g_sendq g_stop g_proc] in E.
      destruct i as [|t|raw m| | |m| |]; try (destruct Sd; fail); cbn [app cost_io length] in *.
      * injection E as <- <-. apply (IH (d :: todo) rest); auto; cbn; lia.
      * rewrite W in E. injection E as <- <-. apply (IH (d :: todo) rest); auto; cbn; lia.
      * rewrite W in E. injection E as <- <-. cbn [written flat_map app]. destruct d as [m|].
        -- apply (IH (Some m :: todo) rest); auto; cbn; lia.
        -- cbn [flat_map encodings app]. inversion F; subst. apply (IH todo rest); auto; unfold cost_io; cbn [g_io]; destruct (length todo); lia.
      * injection W as <- W. inversion F as [|? ? F1 F2]; subst. cbn [encodable] in F1. destruct F1 as (b & Se). rewrite Se in E. destruct (Acc b p) as (z & p' & Wr). rewrite Wr in E. injection E as <- <-.
        destruct (IH todo rest) as (more & X); auto; [unfold cost_io; cbn [g_io]; destruct (length todo); lia|].
        exists more. cbn [flat_map encodings written app]. rewrite Se. cbn [app]. f_equal. exact X.
      * destruct (q_unfinished sq) eqn:Un; [lia|]. injection E as <- <-. apply (IH (d :: todo) rest); auto; cbn; lia.
    + destruct (quiet_io _ _ _ _ Na E) as (Pe & -> & Q). cbn [app]. replace (turns Io [a]) with 0 in C by (destruct a; try reflexivity; congruence).
      apply (IH (d :: todo) (rest ++ queued [a])); auto; unfold sending; rewrite ?Pe; auto. unfold pending, to_write in *. rewrite Pe, Q, app_assoc, W, app_assoc. reflexivity.
Qed.

(* ------------------------------------------------------------ stopping *)
Definition cost_end (w : world) : nat :=
  match g_io w with
  | IoEnd => 0 | IoTop => 1 | IoRead _ => 0
  | IoCheck => 2 | IoGet => 1 | IoWrite _ => 4 | IoDone => 3 | IoPut _ _ => 3 end + (match g_io w with IoEnd | IoTop => 0 | _ => 4 end) * length (q_items (g_sendq w)).
Lemma io_ends sched : forall w l w', run sched w = (l, w') ->
  good w -> g_stop w = true -> queued sched = [] -> (forall t, g_io w <> IoRead t) -> cost_end w <= turns Io sched -> g_io w' = IoEnd.
Proof.
  apply (run_ind (fun sched l w w' => good w -> g_stop w = true -> queued sched = [] -> (forall t, g_io w <> IoRead t) -> cost_end w <= turns Io sched -> g_io w' = IoEnd)).
  - intros w (_ & B & _) _ _ Nr C. unfold cost_end, turns in C. cbn in C. destruct (g_io w); try lia; try reflexivity. destruct (Nr t). reflexivity.
  - intros a r w l1 w1 l2 w2 E R IH G St Qd Nr C. pose proof (good_step _ _ _ _ E G) as G1. pose proof (stop_step _ _ _ _ E) as St1.
    assert (g_stop w1 = true) as S1 by (rewrite St1; destruct a; auto).
    rewrite queued_cons in Qd. apply app_eq_nil in Qd as [Qa Qd]. rewrite turns_cons in C.
    assert (a = Io \/ a <> Io) as [->|Na] by (destruct a; (left; reflexivity) || (right; discriminate)).
    + change (turns Io [Io]) with 1 in C. cbn [Poller.step] in E. destruct G as (_ & B & _ & Cn & _). apply IH; auto.
      * io_cases w E; done_step E; try discriminate; try (destruct (Nr t); reflexivity); try assumption.
        -- rewrite St. discriminate.
        -- destruct (q_items sq); discriminate.
        -- destruct d; discriminate.
      * unfold cost_end in *. io_cases w E; done_step E; try (destruct (Nr t); reflexivity); try lia; cbn [length] in *; try lia.
        -- rewrite St. lia.
        -- destruct (q_items sq); cbn [length] in *; lia.
        -- destruct (B eq_refl); reflexivity || assumption.
        -- destruct (B eq_refl); reflexivity || assumption.
        -- destruct d; lia.
    + destruct (quiet_io _ _ _ _ Na E) as (Pe & _ & Q). replace (turns Io [a]) with 0 in C by (destruct a; try reflexivity; congruence).
      rewrite Qa, app_nil_r in Q. apply IH; auto; unfold cost_end in *; rewrite ?Pe, ?Q; auto.
Qed.
Definition cost_pr (pc : prstate) : nat := match pc with PrCheck => 5 | PrGet => 4 | PrPrint _ => 3 | PrDone => 2 | PrTop => 1 | _ => 0 end.
Lemma proc_ends sched : forall w l w', run sched w = (l, w') ->
  good w -> g_stop w = true -> cost_pr (g_proc w) <= turns Proc sched -> g_proc w' = PrEnd \/ exists m, g_proc w' = PrDead m.
Proof.
  apply (run_ind (fun sched l w w' => good w -> g_stop w = true -> cost_pr (g_proc w) <= turns Proc sched -> g_proc w' = PrEnd \/ exists m, g_proc w' = PrDead m)).
  - intros w _ _ C. unfold turns in C. cbn in C. destruct (g_proc w); cbn in C; try lia; eauto.
  - intros a r w l1 w1 l2 w2 E R IH G St C. pose proof (good_step _ _ _ _ E G) as G1. pose proof (stop_step _ _ _ _ E) as St1.
    assert (g_stop w1 = true) as S1 by (rewrite St1; destruct a; auto). rewrite turns_cons in C.
    assert (a = Proc \/ a <> Proc) as [->|Na] by (destruct a; (left; reflexivity) || (right; discriminate)).
    + change (turns Proc [Proc]) with 1 in C. cbn [Poller.step] in E. destruct G as (A & _ & _). apply IH; auto.
      pr_cases w E; done_step E; cbn [cost_pr] in *; try lia.
      * rewrite St. cbn. lia.
      * destruct (q_items rq); cbn; lia.
      * destruct (A eq_refl); reflexivity || assumption.
    + destruct (quiet _ _ _ _ Na E) as (Pe & _). replace (turns Proc [a]) with 0 in C by (destruct a; try reflexivity; congruence). apply IH; auto. rewrite Pe. exact C.
Qed.
Definition slack_pr (w : world) : nat := match g_proc w with PrCheck | PrGet | PrPrint _ => 1 | _ => 0 end.
Definition slack_io (w : world) : nat := match g_io w with IoRead _ => 1 | _ => 0 end.
Definition returned (log : list effect) : list outcome := flat_map (fun e => match e with Returns o => [o] | _ => [] end) log.
Lemma slack_run sched : forall w l w', run sched w = (l, w') -> g_stop w = true ->
  length (displayed l) + slack_pr w' <= slack_pr w /\ length (returned l) + slack_io w' <= slack_io w.
Proof.
  apply (run_ind (fun sched l w w' => g_stop w = true -> length (displayed l) + slack_pr w' <= slack_pr w /\ length (returned l) + slack_io w' <= slack_io w)).
  - intros w _. cbn. lia.
  - intros a r w l1 w1 l2 w2 E R IH St. pose proof (stop_step _ _ _ _ E) as St1.
    assert (g_stop w1 = true) as S1 by (rewrite St1; destruct a; auto). destruct (IH S1) as [I1 I2]. unfold displayed, returned in *. rewrite !flat_map_app, !app_length.
    enough (length (displayed l1) + slack_pr w1 <= slack_pr w /\ length (returned l1) + slack_io w1 <= slack_io w) by (unfold displayed, returned in *; lia).
    clear - E St. unfold slack_pr, slack_io, returned. destruct a as [| |d|]; cbn [Poller.step] in E.
    + io_cases w E; done_step E; nil_logs; cbn [length]; try lia.
      * rewrite St. lia.
      * destruct (q_items sq); lia.
      * destruct d; lia.
    + pr_cases w E; done_step E; nil_logs; cbn [length]; try lia.
      * rewrite St. lia.
      * destruct (q_items rq); lia.
    + destruct w as [p rq sq st i pr]. done_step E. nil_logs. cbn [length]. lia.
    + destruct w as [p rq sq st i pr]. done_step E. nil_logs. cbn [length]. lia.
Qed.

(* ------------------------------------------------------------------ C99 *)
(* Whatever the threads' turns: every message that read() delivered is displayed exactly once and in order,
   or is still in the queue or in the hands of one of the threads (at most one each). *)
Theorem C99_display sched p log w :
  run sched (begin p) = (log, w) ->
  exists putting printing, received log = displayed log ++ printing ++ map snd (q_items (g_readq w)) ++ putting
    /\ length putting <= 1 /\ length printing <= 1
    /\ (g_proc w = PrTop -> printing = []) /\ (g_io w = IoTop -> putting = []).
Proof.
  intros R. apply display_run in R. cbn [waiting in_proc in_io begin g_proc g_readq g_io q_items map app] in R.
  exists (in_io w), (in_proc w). split; [rewrite R; unfold waiting; rewrite <- app_assoc; reflexivity|]. unfold in_io, in_proc.
  repeat split; [destruct (g_io w)|destruct (g_proc w)|destruct (g_proc w)|destruct (g_io w)]; cbn; auto; discriminate.
Qed.
(* what is printed is str() of the message; with the option for PQTM messages exactly the others are passed over *)
Theorem C99_text sched w log w' : run sched w = (log, w') ->
  Forall (fun e => match e with
    | Shown m t => str_of_msg m = Ok t /\ (qtmonly = true -> exists i, identity m = Ok i /\ contains (u "QTM") i = true)
    | Hidden m => qtmonly = true /\ exists i, identity m = Ok i /\ contains (u "QTM") i = false
    | _ => True end) log.
Proof.
  revert sched w log w'. apply (run_ind (fun _ log _ _ => Forall _ log)); [constructor|]. intros a r w l1 w1 l2 w2 E _ IH. apply Forall_app. split; [|exact IH]. clear IH.
  destruct a as [| |d|]; cbn [Poller.step] in E.
  - io_cases w E; done_step E; rewrite ?Forall_app; repeat split; repeat constructor. all: apply Forall_map, Forall_forall; intros; exact I.
  - pr_cases w E; done_step E; repeat constructor.
    + destruct qtmonly; [reflexivity|discriminate].
    + destruct qtmonly; [|discriminate]. destruct (identity m) as [i'|]; [|discriminate]. exists i'. split; [reflexivity|]. cbn in Sh. injection Sh as Sh. apply negb_true_iff in Sh. exact Sh.
    + assumption.
    + intros Q. rewrite Q in Sh. destruct (identity m) as [i'|]; [|discriminate]. exists i'. split; [reflexivity|]. cbn in Sh. injection Sh as Sh. apply negb_false_iff in Sh. exact Sh.
  - destruct w. done_step E. constructor.
  - destruct w. done_step E. constructor.
Qed.
(* the port is given the bytes of the queued messages, each at most once, in the order in which they were queued *)
Theorem C99_sent sched p log w :
  run sched (begin p) = (log, w) ->
  exists done hand, queued sched = done ++ hand ++ q_items (g_sendq w) /\ written log = flat_map encodings done
    /\ length hand <= 1 /\ (g_io w = IoTop -> hand = []).
Proof.
  intros R. apply sent_run in R as (done & X & Y). exists done, (to_write w). repeat split; auto; unfold to_write; destruct (g_io w); cbn; auto; discriminate.
Qed.
(* join() on the queues: the read queue has no unfinished tasks exactly when it is empty and the process
   thread has nothing in hand; every failed serialize() or write() leaves a task of the send queue unfinished for good *)
Theorem C99_tasks sched p log w :
  run sched (begin p) = (log, w) ->
  q_unfinished (g_readq w) = length (q_items (g_readq w)) + busy_proc w
  /\ q_unfinished (g_sendq w) + length (raised log) = length (q_items (g_sendq w)) + busy_io w + length (failures log)
  /\ busy_proc w <= 1 /\ busy_io w <= 1 /\ (g_proc w = PrTop -> busy_proc w = 0) /\ (g_io w = IoTop -> busy_io w = 0).
Proof.
  intros R. pose proof (good_run _ _ _ _ R (good_begin p)) as (_ & _ & C & _). split; [exact C|]. apply count_run in R; [|apply good_begin]. cbn in R. split; [lia|].
  unfold busy_proc, busy_io. repeat split; [destruct (g_proc w)|destruct (g_io w)|destruct (g_proc w)|destruct (g_io w)]; auto; discriminate.
Qed.
(* get() never finds a queue empty; what the I/O thread reports as gone wrong is an exception of read(), of
   serialize() or of the port's write(), and nothing else; the threads end only after the stop
   event, or the process thread by a message that cannot be printed *)
Theorem C99_safe sched p log w :
  run sched (begin p) = (log, w) ->
  (g_proc w = PrGet -> q_items (g_readq w) <> []) /\ (g_io w = IoGet -> q_items (g_sendq w) <> [])
  /\ (forall e, In (Failed e) log -> In (Returns (RRaise e)) log \/ (exists m, In (Some m) (queued sched) /\ serialize m = Raise e)
        \/ exists b, In (Wrote b (Raise e)) log)
  /\ (~ In Stop sched -> g_io w <> IoEnd /\ g_proc w <> PrEnd)
  /\ (forall m, g_proc w = PrDead m -> In m (received log) /\ ~ printable m).
Proof.
  intros R. pose proof (good_run _ _ _ _ R (good_begin p)) as (A & B & C & D & S0). split; [exact A|]. split; [exact B|].
  split; [intros e I; apply (fail_run _ _ _ _ R (good_begin p) _ I)|]. split.
  - intros N. apply S0. clear - R N. revert R N. 
    cut (forall w0 l w', run sched w0 = (l, w') -> ~ In Stop sched -> g_stop w' = g_stop w0).
    { intros X R N. rewrite (X _ _ _ R N). reflexivity. }
    apply (run_ind (fun sched _ w w' => ~ In Stop sched -> g_stop w' = g_stop w)); [reflexivity|].
    intros a r w1 l1 w2 l2 w3 E _ IH N. rewrite IH by (intros H; apply N; right; exact H). rewrite (stop_step _ _ _ _ E). destruct a; auto. destruct N. left. reflexivity.
  - intros m M. split.
    + apply display_run in R. cbn [waiting in_proc in_io begin g_proc g_readq g_io q_items map app] in R. rewrite R. unfold waiting, in_proc. rewrite M.
      apply in_app_iff. right. left. reflexivity.
    + apply (dead_run _ _ _ _ R); [|exact M]. intros m' X. discriminate.
Qed.
(* Progress: as long as the stop event is not set, the messages received before are displayed once the process thread has had five
   turns for each, whatever the other threads do meanwhile; *)
Theorem C99_displays sched p log w sched2 log2 w2 :
  run sched (begin p) = (log, w) -> run sched2 w = (log2, w2) -> ~ In Stop (sched ++ sched2) ->
  Forall printable (received log) -> 5 * length (received log) <= turns Proc sched2 ->
  exists putting more, length putting <= 1 /\ (g_io w = IoTop -> putting = []) /\ received log = firstn (length (received log) - length putting) (received log) ++ putting
    /\ displayed (log ++ log2) = firstn (length (received log) - length putting) (received log) ++ more.
Proof.
  intros R R2 N F T. pose proof (good_run _ _ _ _ R (good_begin p)) as G. pose proof (display_run _ _ _ _ R) as D. cbn [waiting in_proc in_io begin g_proc g_readq g_io q_items map app] in D.
  assert (dead_ok w) as De by (apply (dead_run _ _ _ _ R); intros m' X; discriminate).
  assert (g_stop w = false) as St.
  { assert (~ In Stop sched) as N1 by (intros H; apply N, in_app_iff; auto). clear - R N1. revert R N1.
    cut (forall w0 l w', run sched w0 = (l, w') -> ~ In Stop sched -> g_stop w' = g_stop w0).
    { intros X R N. rewrite (X _ _ _ R N). reflexivity. }
    apply (run_ind (fun sched _ w w' => ~ In Stop sched -> g_stop w' = g_stop w)); [reflexivity|].
    intros a r w1 l1 w2 l2 w3 E _ IH N. rewrite IH by (intros H; apply N; right; exact H). rewrite (stop_step _ _ _ _ E). destruct a; auto. destruct N. left. reflexivity. }
  rewrite D in F. apply Forall_app in F as [F1 F2]. apply Forall_app in F2 as [F2 F3].
  assert (length (waiting w) <= length (received log)) as Le by (rewrite D, !app_length; lia).
  destruct (live_display _ _ _ _ R2 (waiting w) [] G St) as (more & X).
  { intros H. apply N, in_app_iff. auto. }
  { intros m M. apply (De m M). unfold waiting, in_proc in F2. rewrite M in F2. inversion F2; assumption. }
  { rewrite app_nil_r. reflexivity. } { exact F2. }
  { unfold cost. destruct (length (waiting w)); [lia|]. destruct (g_proc w); lia. }
  exists (in_io w), more. split; [unfold in_io; destruct (g_io w); cbn; lia|]. split; [intros I; unfold in_io; rewrite I; reflexivity|].
  replace (firstn (length (received log) - length (in_io w)) (received log)) with (displayed log ++ waiting w).
  2:{ rewrite D at 2. rewrite D, app_assoc, app_length, Nat.add_sub, firstn_app, Nat.sub_diag, firstn_O, app_nil_r, firstn_all. reflexivity. }
  split; [rewrite <- app_assoc; exact D|]. unfold displayed in *. rewrite flat_map_app, X, app_assoc. reflexivity.
Qed.
(* and once read() has given something back, the messages queued so far are written within four turns of the I/O thread for each
   and one more, if they can be encoded and the port accepts them - even if the stop event is set meanwhile *)
Theorem C99_sends sched p log w0 l1 w out sched2 log2 w2 :
  accepts -> run sched (begin p) = (log, w0) -> step Io w0 = (l1, w) -> In (Returns out) l1 -> gave out ->
  Forall encodable (queued sched) -> run sched2 w = (log2, w2) -> 4 * length (queued sched) <= turns Io sched2 ->
  exists more, written (log ++ l1 ++ log2) = flat_map encodings (queued sched) ++ more.
Proof.
  intros Acc R E I Gv F R2 T. pose proof (good_run _ _ _ _ R (good_begin p)) as G. pose proof (good_step _ _ _ _ E G) as G1.
  assert (sending w /\ written l1 = [] /\ to_write w = [] /\ to_write w0 = [] /\ q_items (g_sendq w) = q_items (g_sendq w0)) as (Sd & Wn & Tw & Tw0 & Qe).
  { clear - E I Gv. unfold sending, to_write. cbn [Poller.step] in E.
    assert (forall ev, ~ In (Returns out) (map Reports ev)) as No by (intros ev H; apply in_map_iff in H as (? & ? & _); discriminate).
    io_cases w0 E; done_step E; try (cbn in I; destruct I; fail); try (apply No in I; destruct I); nil_logs; auto 6; try (exfalso; cbn in I; intuition discriminate).
    apply in_app_iff in I as [I|[I|[I|[]]]]; [apply No in I; destruct I| |discriminate]. injection I as <-. destruct Gv. }
  apply sent_run in R as (done & X & Y). cbn [to_write begin g_io g_sendq q_items app] in X. rewrite Tw0 in X. cbn [app] in X. rewrite X in F. apply Forall_app in F as [F1 F2].
  destruct (live_send Acc _ _ _ _ R2 (pending w) [] G1 Sd) as (more & W).
  { rewrite app_nil_r. reflexivity. } { unfold pending. rewrite Tw, Qe. exact F2. }
  { assert (length (pending w) <= length (queued sched)) by (unfold pending; rewrite Tw, Qe, X; cbn [app]; rewrite app_length; lia). unfold cost_io. destruct (length (pending w)); [lia|]. destruct (g_io w); lia. }
  exists more. unfold written in *. rewrite !flat_map_app, Wn, W, Y, X, flat_map_app. unfold pending. rewrite Tw, Qe. cbn [app]. rewrite app_assoc. reflexivity.
Qed.
(* After the stop event: read() gives back at most one more thing and at most one more message is displayed; the process thread ends within
   five turns; the I/O thread, unless it is inside read(), within four for each message still to be sent and four more *)
Theorem C99_stops sched p log w sched2 log2 w2 :
  run sched (begin p) = (log, w) -> In Stop sched -> run sched2 w = (log2, w2) ->
  length (returned log2) <= 1 /\ length (displayed log2) <= 1
  /\ (5 <= turns Proc sched2 -> g_proc w2 = PrEnd \/ exists m, g_proc w2 = PrDead m)
  /\ ((forall t, g_io w <> IoRead t) -> queued sched2 = [] -> 4 * length (q_items (g_sendq w)) + 4 <= turns Io sched2 -> g_io w2 = IoEnd).
Proof.
  intros R I R2. pose proof (good_run _ _ _ _ R (good_begin p)) as G.
  assert (g_stop w = true) as St.
  { clear - R I. revert R I. cut (forall w0 l w', run sched w0 = (l, w') -> In Stop sched \/ g_stop w0 = true -> g_stop w' = true); [eauto|].
    apply (run_ind (fun sched _ w w' => In Stop sched \/ g_stop w = true -> g_stop w' = true)); [intros ? [[]|]; assumption|].
    intros a r w1 l1 w2 l2 w3 E _ IH N. apply IH. rewrite (stop_step _ _ _ _ E). destruct N as [[->|N]|N]; auto. right. destruct a; auto. }
  destruct (slack_run _ _ _ _ R2 St) as [A B]. assert (slack_pr w <= 1 /\ slack_io w <= 1) as [? ?] by (unfold slack_pr, slack_io; destruct (g_proc w), (g_io w); auto).
  split; [lia|]. split; [lia|]. split.
  - intros T. apply (proc_ends _ _ _ _ R2 G St). unfold cost_pr. destruct (g_proc w); lia.
  - intros Nr Qd T. apply (io_ends _ _ _ _ R2 G St Qd Nr). unfold cost_end. destruct (g_io w); lia.
Qed.

(* What the port has been told: whatever part of its state reading leaves alone and writing changes (the bytes gone out, say) is, after any
   run, what the bytes written have made of it, in order; read() writes nothing. *)
Lemma tstep_leaves (O : Type) (out : P -> O) :
  (forall p, out (snd (read1 p)) = out p) -> (forall p, out (snd (readline p)) = out p) ->
  forall t p t' o ev p', tstep P read1 readline cfg t p = (t', o, ev, p') -> out p' = out p.
Proof.
  intros H1 H2 t p t' o ev p' E. unfold tstep in E.
  assert (R1 : forall r q, read_byte P read1 p = (r, q) -> out q = out p).
  { unfold read_byte. intros r q X. pose proof (H1 p) as Y. destruct (read1 p) as [[d|e] q0]; cbn [snd] in Y; [destruct d|]; congruence. }
  assert (R2 : forall r q, read_line P readline p = (r, q) -> out q = out p).
  { unfold read_line. intros r q X. pose proof (H2 p) as Y. destruct (readline p) as [[[|x d]|e] q0]; cbn [snd] in Y; [|destruct (N.eqb (last (x :: d) 0%N) c_lf)|]; congruence. }
  assert (OE : forall e s' , on_error P cfg e s' = (t', o, ev, p') -> p' = s').
  { unfold on_error. intros e s' X. repeat match type of X with context [match ?x with _ => _ end] => destruct x end; congruence. }
  destruct t as [| |b2].
  - destruct (read_byte P read1 p) as [[b1|e] s'] eqn:B; rewrite <- (R1 _ _ eq_refl); [congruence|]. f_equal. eapply OE, E.
  - destruct (read_byte P read1 p) as [[b1|e] s'] eqn:B; rewrite <- (R1 _ _ eq_refl); [|f_equal; eapply OE, E].
    destruct (match b1 with [x] => hdr_second x | _ => false end); [congruence|].
    destruct (r_nmeaonly cfg); [f_equal; eapply OE, E|congruence].
  - destruct (read_line P readline p) as [[b1|e] s'] eqn:B; rewrite <- (R2 _ _ eq_refl); [|f_equal; eapply OE, E].
    destruct (parse (MBytes ([c_dollar] ++ b2 ++ b1)) (r_mode cfg) (r_validate cfg) (r_userdefined cfg)); [congruence|f_equal; eapply OE, E].
Qed.
Theorem C99_port (O : Type) (out : P -> O) (told : bytes -> O -> O) :
  (forall p, out (snd (read1 p)) = out p) -> (forall p, out (snd (readline p)) = out p) ->
  (forall b p, out (snd (write b p)) = told b (out p)) ->
  forall sched p log w, run sched (begin p) = (log, w) -> out (g_port w) = fold_left (fun o b => told b o) (written log) (out p).
Proof.
  intros H1 H2 H3.
  assert (St : forall a w l w', step a w = (l, w') -> out (g_port w') = fold_left (fun o b => told b o) (written l) (out (g_port w))).
  { intros a w l w' E. destruct a as [| |d|]; cbn [Poller.step] in E.
    - io_cases w E; done_step E; unfold written; cbn [flat_map fold_left app];
        rewrite ?flat_map_app, ?(reports_none (fun e => match e with Wrote b _ => [b] | _ => [] end) _ (fun _ => eq_refl)); cbn [flat_map fold_left app];
        try reflexivity; try (eapply tstep_leaves; eassumption).
      all: pose proof (H3 b p) as Y; rewrite Wr in Y; exact Y.
    - pr_cases w E; done_step E; reflexivity.
    - done_step E. reflexivity.
    - done_step E. reflexivity. }
  assert (Run : forall sched w l w', run sched w = (l, w') -> out (g_port w') = fold_left (fun o b => told b o) (written l) (out (g_port w))).
  { intros sched. induction sched as [|a r IH]; intros w l w' E; cbn [Poller.run] in E; [injection E as <- <-; reflexivity|].
    destruct (step a w) as [l1 w1] eqn:E1. destruct (run r w1) as [l2 w2] eqn:E2. injection E as <- <-.
    unfold written in *. rewrite flat_map_app, fold_left_app, <- (St _ _ _ _ E1). exact (IH _ _ _ E2). }
  intros sched p log w E. exact (Run _ _ _ _ E).
Qed.
End Any.

(* ------------------------------------------------------------ a log file played through the application *)
Definition entries (log : list effect) : list entry :=
  flat_map (fun e => match e with Returns (RMsg raw m) => [Got raw m] | Returns (RRaise x) => [Caught x] | _ => [] end) log.
Definition reported (log : list effect) : list event := flat_map (fun e => match e with Reports x => [x] | _ => [] end) log.
Definition entry_of (o : outcome) : list entry := match o with RMsg raw m => [Got raw m] | RRaise x => [Caught x] | REnd => [] end.
(* the rest of the file from here *)
Definition rest_of (cfg : rcfg) (s : file) (l : list entry) (ev : list event) : Prop :=
  exists n fuel, length s < n /\ length s < fuel /\ fsession cfg n fuel s = Some (l, ev, []).
Lemma rest_alone cfg s l ev k ev1 o s1 : rest_of cfg s l ev -> alone file file_read1 file_readline cfg AtStart s k ev1 o s1 ->
  exists l2 ev2, rest_of cfg s1 l2 ev2 /\ l = entry_of o ++ l2 /\ ev = ev1 ++ ev2 /\ (o = REnd -> l2 = [] /\ ev2 = [] /\ s1 = []).
Proof.
  intros (n & fuel & L1 & L2 & E) A. destruct (fread_total cfg fuel s L2) as (o' & ev' & s' & Er & Sh & En). destruct (read_alone _ _ _ _ _ _ _ _ _ Er) as (k' & A').
  destruct (alone_det _ _ _ _ _ _ _ _ _ _ A' _ _ _ _ A) as (-> & -> & -> & ->). destruct n as [|n]; [lia|]. unfold fsession in E. cbn [session] in E. unfold fread in Er. rewrite Er in E. destruct o' as [raw m| |e].
  - destruct Sh as [Sh|Sh]; [discriminate|]. destruct (session _ _ _ cfg n fuel s') as [[[l2 ev2] s2]|] eqn:E2; [|discriminate]. injection E as <- <- ->.
    exists l2, ev2. split; [exists n, fuel; repeat split; [lia|lia|exact E2]|]. repeat split; discriminate.
  - rewrite (En eq_refl) in *. injection E as <- <-. exists [], []. split; [exists 1, 1; repeat split; cbn; try lia|]. rewrite !app_nil_r. auto.
  - destruct Sh as [Sh|Sh]; [discriminate|]. destruct (session _ _ _ cfg n fuel s') as [[[l2 ev2] s2]|] eqn:E2; [|discriminate]. injection E as <- <- ->.
    exists l2, ev2. split; [exists n, fuel; repeat split; [lia|lia|exact E2]|]. repeat split; discriminate.
Qed.
Lemma rest_starts cfg s l ev : rest_of cfg s l ev -> exists k ev1 o s1, alone file file_read1 file_readline cfg AtStart s k ev1 o s1.
Proof.
  intros (n & fuel & L1 & L2 & E). destruct (fread_total cfg fuel s L2) as (o' & ev' & s' & Er & _). destruct (read_alone _ _ _ _ _ _ _ _ _ Er) as (k' & A'). eauto.
Qed.
(* the rest from inside or outside a call of read() *)
Definition future (cfg : rcfg) (w : world file) (l : list entry) (ev : list event) : Prop :=
  match g_io w with
  | IoRead t => exists k ev1 o s1 l2 ev2, alone file file_read1 file_readline cfg t (g_port w) k ev1 o s1 /\ rest_of cfg s1 l2 ev2
      /\ l = entry_of o ++ l2 /\ ev = ev1 ++ ev2 /\ (o = REnd -> l2 = [] /\ ev2 = [])
  | _ => rest_of cfg (g_port w) l ev
  end.
Section File.
Variable write : bytes -> file -> result Z * file.
Variable cfg : rcfg.
Variables blocking qtmonly : bool.
Hypothesis apart : forall b s, snd (write b s) = s.
Notation frun := (Poller.run file file_read1 file_readline write cfg blocking qtmonly).
Notation fstep := (Poller.step file file_read1 file_readline write cfg blocking qtmonly).
Lemma reported_map ev : reported (map Reports ev) = ev.
Proof. induction ev as [|e ev IH]; [reflexivity|]. cbn. unfold reported in IH. rewrite IH. reflexivity. Qed.
Lemma future_step a w l w' en ev : fstep a w = (l, w') -> future cfg w en ev ->
  exists en' ev', future cfg w' en' ev' /\ en = entries l ++ en' /\ ev = reported l ++ ev' /\ (In (Returns REnd) l -> en' = [] /\ ev' = []).
Proof.
  intros E F. destruct a as [| |d|]; cbn [Poller.step] in E.
  - destruct w as [p rq sq st i pr]. unfold Poller.io_step, io_failed, io_at, q_get, q_task_done in E. cbn [g_io g_port g_readq g_sendq g_stop g_proc] in E.
    unfold future in F. cbn [g_io g_port] in F.
    destruct i as [|t|raw m| | |m| |]; cbv beta iota zeta in E.
    + injection E as <- <-. exists en, ev. split; [|split; [reflexivity|split; [reflexivity|intros []]]]. unfold future. cbn [g_io g_port]. destruct st; [exact F|].
      destruct (rest_starts _ _ _ _ F) as (k & ev1 & o & s1 & A). destruct (rest_alone _ _ _ _ _ _ _ _ F A) as (l2 & ev2 & R & X & Y & Z'). exists k, ev1, o, s1, l2, ev2. repeat (split; [assumption|]). intros H. destruct (Z' H) as (? & ? & _). auto.
    + destruct F as (k & ev1 & o & s1 & l2 & ev2 & A & R & -> & -> & Z').
      inversion A as [? ? ? ? ? ? Ts|? ? ? eva sa k' evb ? ? Ts A2]; subst; rewrite Ts in E.
      * destruct o as [raw [m|]| |e]; injection E as <- <-; exists l2, ev2; unfold entries, reported, future; cbn [g_io g_port]; rewrite ?flat_map_app, ?reports_none by reflexivity;
          fold (reported (map Reports ev1)); rewrite reported_map; cbn; rewrite ?app_nil_r;
          (split; [exact R|split; [reflexivity|split; [reflexivity|intros H; apply in_app_iff in H as [H|H]; [exfalso; apply in_map_iff in H as (? & ? & _); discriminate|
             cbn in H; first [apply Z'; reflexivity|exfalso; intuition discriminate]]]]]).
      * injection E as <- <-. exists (entry_of o ++ l2), (evb ++ ev2). unfold future. cbn [g_io g_port]. split; [exists k', evb, o, s1, l2, ev2; auto|].
        unfold entries. rewrite reports_none by reflexivity. rewrite reported_map, <- app_assoc. (split; [reflexivity|split; [reflexivity|intros H; exfalso; apply in_map_iff in H as (? & ? & _); discriminate]]).
    + injection E as <- <-. exists en, ev. split; [|split; [reflexivity|split; [reflexivity|intros []]]]. exact F.
    + injection E as <- <-. exists en, ev. split; [|split; [reflexivity|split; [reflexivity|intros []]]]. unfold future. cbn [g_io g_port]. destruct (q_items sq); exact F.
    + destruct (q_items sq) as [|d q]; [destruct blocking|]; injection E as <- <-; exists en, ev; (split; [|split; [reflexivity|split; [reflexivity|intros H; exfalso; cbn in H; intuition discriminate]]]); unfold future; cbn [g_io g_port]; try exact F. destruct d; exact F.
    + destruct (serialize m) as [b|e]; [pose proof (apart b p) as Ap; destruct (write b p) as [[z|e] p']; cbn [snd] in Ap; subst p'|]; injection E as <- <-; exists en, ev; (split; [|split; [reflexivity|split; [reflexivity|intros H; exfalso; cbn in H; intuition discriminate]]]); exact F.
    + destruct (q_unfinished sq); injection E as <- <-; exists en, ev; (split; [|split; [reflexivity|split; [reflexivity|intros H; exfalso; cbn in H; intuition discriminate]]]); exact F.
    + injection E as <- <-. exists en, ev. split; [|split; [reflexivity|split; [reflexivity|intros []]]]. exact F.
  - exists en, ev. assert (g_io w' = g_io w /\ g_port w' = g_port w /\ entries l = [] /\ reported l = [] /\ ~ In (Returns REnd) l) as (Io' & Po & -> & -> & Nr).
    { clear - E. destruct w as [p rq sq st i pr]. unfold Poller.proc_step, Poller.pr_at, q_get, q_task_done in E; cbn [g_io g_port g_readq g_sendq g_stop g_proc] in *.
      destruct pr as [| | |m| | |m];
      [ | | destruct (q_items rq) as [|[raw m] rq'] eqn:Rq
        | destruct (if qtmonly then let! i0 := identity m in Ok (negb (contains (u "QTM") i0)) else Ok false) as [[|]|e] eqn:Sh; [|destruct (str_of_msg m) as [t|e] eqn:Str|]
        | destruct (q_unfinished rq) as [|n] eqn:Un | | ]; injection E as <- <-; cbn; repeat split; auto; intuition discriminate. }
    unfold future in *. rewrite Io', Po. repeat split; auto; contradiction.
  - injection E as <- <-. exists en, ev. split; [|split; [reflexivity|split; [reflexivity|intros []]]]. exact F.
  - injection E as <- <-. exists en, ev. split; [|split; [reflexivity|split; [reflexivity|intros []]]]. exact F.
Qed.
(* If the port is a file (or anything that gives its bytes and then nothing; what is written does not come back): what read() gives
   the application is the beginning of what a single loop over read() gets from the file, and all of it once the end was seen -
   whatever the turns of the threads, whatever is sent, whatever goes wrong in sending. *)
Theorem C99_file n fuel s sched log w :
  length s < fuel -> length s < n -> frun sched (begin file s) = (log, w) ->
  exists l ev l' ev', fsession cfg n fuel s = Some (l, ev, []) /\ l = entries log ++ l' /\ ev = reported log ++ ev'
    /\ (In (Returns REnd) log -> l' = [] /\ ev' = []).
Proof.
  intros L1 L2 R. destruct (fsession_total cfg n fuel s L1 L2) as (l & ev & E & _). 
  assert (future cfg (begin file s) l ev) as F by (exists n, fuel; auto).
  cut (exists l' ev', l = entries log ++ l' /\ ev = reported log ++ ev' /\ (In (Returns REnd) log -> l' = [] /\ ev' = [])).
  { intros (l' & ev' & X). exists l, ev, l', ev'. split; [exact E|exact X]. }
  clear E L1 L2. revert R l ev F. generalize (begin file s) as w0. intros w0 R. revert w0 log w R.
  apply (run_ind file file_read1 file_readline write cfg blocking qtmonly (fun sched log w0 w => forall l ev, future cfg w0 l ev -> exists l' ev', l = entries log ++ l' /\ ev = reported log ++ ev' /\ (In (Returns REnd) log -> l' = [] /\ ev' = []))).
  - intros w l ev _. exists l, ev. split; [reflexivity|split; [reflexivity|intros []]].
  - intros a r w l1 w1 l2 w2 E _ IH l ev F. destruct (future_step _ _ _ _ _ _ E F) as (en' & ev' & F' & -> & -> & Z1). destruct (IH _ _ F') as (l' & ev2 & -> & -> & Z2).
    exists l', ev2. unfold entries, reported. rewrite !flat_map_app, !app_assoc. split; [reflexivity|]. split; [reflexivity|]. intros H. apply in_app_iff in H as [H|H]; [|apply Z2, H].
    destruct (Z1 H) as [X Y]. apply app_eq_nil in X as [_ ->], Y as [_ ->]. auto.
Qed.
(* so the messages displayed are the first of those in the file, in order, none twice *)
Theorem C99_file_display n fuel s sched log w :
  length s < fuel -> length s < n -> frun sched (begin file s) = (log, w) ->
  exists l ev more, fsession cfg n fuel s = Some (l, ev, []) /\ flat_map (fun x => match x with Got _ (Some m) => [m] | _ => [] end) l = displayed log ++ more.
Proof.
  intros L1 L2 R. destruct (C99_file _ _ _ _ _ _ L1 L2 R) as (l & ev & l' & ev' & E & -> & _). destruct (C99_display _ _ _ _ _ _ _ _ _ _ _ R) as (putting & printing & D & _).
  exists (entries log ++ l'), ev, (printing ++ map snd (q_items (g_readq w)) ++ putting ++ flat_map (fun x => match x with Got _ (Some m) => [m] | _ => [] end) l').
  split; [exact E|]. rewrite flat_map_app. replace (flat_map _ (entries log)) with (received log); [rewrite D, <- !app_assoc; reflexivity|].
  clear. induction log as [|e log IH]; [reflexivity|]. unfold entries, received in *. cbn [flat_map]. rewrite flat_map_app, IH. destruct e as [[raw [m|]| |x]| | | | |]; reflexivity.
Qed.
End File.

(* ------------------------------------------------------------ a case that meets the hypotheses *)
(* a receiver whose output is a file and which takes what is written; one that refuses it *)
Definition takes (b : bytes) (s : file) : result Z * file := (Ok (Z.of_nat (length b)), s).
Definition refuses (b : bytes) (s : file) : result Z * file := (Raise (OtherException 7), s).
Definition poll_gga : option msg :=
  match NMEAMessage no_clock (u "EI") (u "GNQ") POLL false 1 [] None None [(u "msgId", VStr (u "GGA"))] with Ok m => Some m | Raise _ => None end.
Definition expoll wr sched s := Poller.run file file_read1 file_readline wr (ex_cfg 1) false false sched (begin file s).
Definition in_turn n := concat (repeat [Io; Proc] n).
Example C99_example :
  let '(log, w) := expoll takes (Send poll_gga :: in_turn 400 ++ [Stop] ++ in_turn 10) ex_stream in
  length (received log) = 2 /\ displayed log = received log /\ written log = [u "$EIGNQ,GGA*39" ++ [cr; lf]]
  /\ reported log = [EvHandler NMEAParseError; EvHandler NMEAStreamError] /\ In (Returns REnd) log /\ g_io w = IoEnd /\ g_proc w = PrEnd.
Proof. vm_compute. repeat (split; [reflexivity|]). split; [repeat (first [left; reflexivity|right])|split; reflexivity]. Qed.

(* ------------------------------------------------------------ what does not hold *)
(* What is in the queues when the stop event is set is lost: a message received is not displayed, a message queued is not sent, although
   both threads come to their end. *)
Theorem C99_left_refuted :
  (let '(log, w) := expoll takes (repeat Io 6 ++ [Stop] ++ in_turn 10) ex_line in
   length (received log) = 1 /\ displayed log = [] /\ g_io w = IoEnd /\ g_proc w = PrEnd)
  /\ let '(log, w) := expoll takes (repeat Io 6 ++ [Send poll_gga; Stop] ++ in_turn 10) ex_line in
     written log = [] /\ q_items (g_sendq w) = [poll_gga] /\ poll_gga <> None /\ g_io w = IoEnd /\ g_proc w = PrEnd.
Proof. split; vm_compute; repeat split; discriminate. Qed.
(* A write that fails leaves its task unfinished: sendqueue.join() would wait for ever, though the queue is empty. *)
Theorem C99_join_refuted :
  let '(log, w) := expoll refuses (Send poll_gga :: repeat Io 500) ex_line in
  failures log = [OtherException 7] /\ q_items (g_sendq w) = [] /\ q_unfinished (g_sendq w) = 1.
Proof. vm_compute. repeat split. Qed.
(* A port that keeps sending bytes that are no NMEA: nothing is ever sent, and the I/O thread does not see the stop event - whatever is queued, however long it runs. *)
Definition noise (s : unit) : result bytes * unit := (Ok (u "x"), s).
Theorem C99_noise_refuted sched log w :
  Poller.run unit noise noise (fun _ s => (Ok 1%Z, s)) (ex_cfg 1) false false (Io :: sched) (begin unit tt) = (log, w) ->
  written log = [] /\ g_io w = IoRead AtStart.
Proof.
  cbn [Poller.run Poller.step]. change (Poller.io_step unit noise noise (fun _ s => (Ok 1%Z, s)) (ex_cfg 1) false (begin unit tt)) with (@nil effect, io_at unit (IoRead AtStart) (begin unit tt)).
  assert (g_io (io_at unit (IoRead AtStart) (begin unit tt)) = IoRead AtStart) as G by reflexivity. revert G. generalize (io_at unit (IoRead AtStart) (begin unit tt)) as w0.
  intros w0 G R. destruct (Poller.run unit noise noise (fun _ s => (Ok 1%Z, s)) (ex_cfg 1) false false sched w0) as [l2 w2] eqn:R2. injection R as <- <-. cbn [app].
  revert w0 l2 w2 R2 G. apply (run_ind unit noise noise (fun _ s => (Ok 1%Z, s)) (ex_cfg 1) false false (fun _ l w0 w => g_io w0 = IoRead AtStart -> written l = [] /\ g_io w = IoRead AtStart)).
  - intros w G. split; [reflexivity|exact G].
  - intros a r w l1 w1 l2 w2 E _ IH G. assert (a = Io \/ a <> Io) as [->|Na] by (destruct a; (left; reflexivity) || (right; discriminate)).
    + cbn [Poller.step] in E. unfold Poller.io_step in E. rewrite G in E. cbn in E. injection E as <- <-. apply IH. reflexivity.
    + destruct (quiet_io _ _ _ _ _ _ _ _ _ _ _ Na E) as (Gi & W & _). unfold written in *. rewrite flat_map_app, W. cbn [app]. apply IH. congruence.
Qed.
