(* C107: what the main programs of nmeapoller.py and quecteldemo.py send, whatever the threads, the port and the user do *)
From Coq Require Import Lia.
From Verif Require Import Message Reader Threads Poller Demos Spec BaseLemmas ReaderSpec PropsParse PropsReader PropsThreads PropsPoller.
Local Open Scope nat_scope.

(* ------------------------------------------------------------ specification *)
(* a poll for sentence type [id], as a receiver expects it, and as parse() reads it *)
Definition asks_for (id : pystr) (b : bytes) : Prop :=
  (exists ck, is_checksum (u "EIGNQ," ++ id) ck /\ b = u "$EIGNQ," ++ id ++ u "*" ++ ck ++ [cr; lf])
  /\ exists x, parse (MBytes b) POLL VALCKSUM [] = Ok (Some x) /\ m_talker x = u "EI" /\ m_msgID x = u "GNQ" /\ m_attrs x = [(u "msgId", VStr id)].
(* the lines quecteldemo.py sends, in order, without their CR LF *)
Definition quectel_lines : list string :=
  ["$PQTMVERNO*58"; "$PQTMRESTOREPAR*13"; "$PQTMCFGRCVRMODE,R*32"; "$PQTMCFGFIXRATE,W,1000*59"; "$PQTMCFGFIXRATE,R*71";
   (* four PQTMCFGUART commands are built here; sent is this *)
   "$PQTMCFGFIXRATE,R*71"; "$PQTMCFGFIXRATE,R*71"; "$PQTMCFGFIXRATE,R*71"; "$PQTMCFGFIXRATE,R*71";
   "$PQTMCFGUART,R,1*2B"; "$PQTMCFGPROT,R,1,1*3D"; "$PQTMCFGUART,R,2*28"; "$PQTMCFGPROT,R,1,2*3E"; "$PQTMCFGUART,R,3*29"; "$PQTMCFGPROT,R,1,3*3F";
   (* PQTMCFGSAT and PQTMCFGSIGNAL are built here; sent is this *)
   "$PQTMCFGPROT,R,1,3*3F"; "$PQTMCFGPROT,R,1,3*3F";
   "$PQTMCFGMSGRATE,W,GGA,0*0B"; "$PQTMCFGMSGRATE,W,GLL,0*0D"; "$PQTMCFGMSGRATE,W,GSA,0*1F"; "$PQTMCFGMSGRATE,W,GSV,0*08";
   "$PQTMCFGMSGRATE,W,RMC,0*16"; "$PQTMCFGMSGRATE,W,VTG,0*0F";
   "$PQTMCFGMSGRATE,W,PQTMDOP,1,1*15"; "$PQTMCFGMSGRATE,W,PQTMEPE,1,2*1D"; "$PQTMCFGMSGRATE,W,PQTMGEOFENCESTATUS,1,1*5C";
   "$PQTMCFGMSGRATE,W,PQTMODO,1,1*0A"; "$PQTMCFGMSGRATE,W,PQTMPL,1,1*52"; "$PQTMCFGMSGRATE,W,PQTMPVT,1,1*1C";
   "$PQTMCFGMSGRATE,W,PQTMSVINSTATUS,1,1*58"; "$PQTMCFGMSGRATE,W,PQTMTXT,1,1*16"; "$PQTMCFGMSGRATE,W,PQTMVEL,1,1*11";
   "$PQTMCFGRCVRMODE,W,2*29"; "$PQTMCFGSVIN,W,1,60,3000,0.0,0.0,0.0*39"; "$PQTMSAVEPAR*5A"; "$PQTMSRR*4B";
   "$PQTMCFGRCVRMODE,W,1*2A"; "$PQTMSAVEPAR*5A"; "$PQTMSRR*4B"; "$PQTMHOT*4B"]%string.
Definition line (s : string) : bytes := u s ++ [cr; lf].
(* the commands that its comments announce at the places where the constructor's result is not assigned *)
Definition announced_lines : list string :=
  ["$PQTMCFGUART,W,460800*15"; "$PQTMCFGUART,W,2,115200*06"; "$PQTMCFGUART,W,460800,8,0,1,0*1C"; "$PQTMCFGUART,W,2,115200,8,0,1,0*0F";
   "$PQTMCFGSAT,W,1,1,FFFFFFFF*4B"; "$PQTMCFGSIGNAL,W,7,3,F,3F,7,1*0E"]%string.
(* how often the main program or the I/O thread has its turn *)
Definition main_turns (ts : list turn) : nat := length (filter (fun t => match t with MainTurn => true | _ => false end) ts).
Definition io_turns (ts : list turn) : nat := length (filter (fun t => match t with IoTurn => true | _ => false end) ts).

(* ------------------------------------------------------------ what a program sends *)
(* the messages of the statements from here on; None if one of them raises *)
Fixpoint plan (ck : clock) (p : list stmt) (env : list (nat * msg)) : option (list msg) :=
  match p with
  | [] => Some []
  | Let x l :: r => match build ck l with Ok m => plan ck r ((x, m) :: env) | Raise _ => None end
  | Make l :: r => match build ck l with Ok _ => plan ck r env | Raise _ => None end
  | Copy x y :: r => match var y env with Ok m => plan ck r ((x, m) :: env) | Raise _ => None end
  | Put x :: r => match (let! m := var x env in let! t := str_of_msg m in Ok m) with
                  | Ok m => match plan ck r env with Some l => Some (m :: l) | None => None end
                  | Raise _ => None
                  end
  | SetStop :: _ | Idle :: _ => Some []
  end.
Definition pending (ck : clock) (s : mainstate) (l : list msg) : Prop :=
  match s with Running p env => plan ck p env = Some l | Finished => l = [] | Crashed _ => False end.
Fixpoint effective (p : list stmt) : nat :=
  match p with [] | SetStop :: _ | Idle :: _ => 0 | _ :: r => S (effective r) end.
Definition remaining (s : mainstate) : nat := match s with Running p _ => effective p | _ => 0 end.

Section Any.
Variable P : Type.
Variables read1 readline : P -> result bytes * P.
Variable write : bytes -> P -> result Z * P.
Variable cfg : rcfg.
Variables blocking qtmonly : bool.
Variable ck : clock.
Notation world := (world P).
Notation demo := (demo P read1 readline write cfg blocking qtmonly ck).
Notation run := (Poller.run P read1 readline write cfg blocking qtmonly).
Notation begin := (begin P).

Lemma queued_app a b : queued (a ++ b) = queued a ++ queued b.
Proof. unfold queued. apply flat_map_app. Qed.
Definition acts (a : option action) : list action := match a with Some a => [a] | None => [] end.
Lemma main_step_ok t s a s' l : main_step ck t s = (a, s') -> pending ck s l ->
  exists now rest, l = now ++ rest /\ queued (acts a) = map Some now
    /\ (exists l', pending ck s' l' /\ (t <> CtrlC -> l' = rest))
    /\ (t = MainTurn -> remaining s' = pred (remaining s)) /\ (t = IoTurn \/ t = ProcTurn -> s' = s)
    /\ turns Io (acts a) = io_turns [t].
Proof.
  intros E Pe. destruct t; cbn [main_step] in E.
  - injection E as <- <-. exists [], l. repeat split; eauto. discriminate.
  - injection E as <- <-. exists [], l. repeat split; eauto. discriminate.
  - destruct s as [[|c r] env| |]; cbn [pending] in Pe; try contradiction.
    + injection E as <- <-. exists [], l. repeat split; eauto; try (intros [H|H]; discriminate H).
    + destruct c as [x c|c|x y|x| |]; cbn [plan] in Pe.
      * destruct (build ck c) as [m|e]; [|discriminate Pe]. injection E as <- <-. exists [], l. repeat split; eauto; try (intros [H|H]; discriminate H).
      * destruct (build ck c) as [m|e]; [|discriminate Pe]. injection E as <- <-. exists [], l. repeat split; eauto; try (intros [H|H]; discriminate H).
      * destruct (var y env) as [m|e]; [|discriminate Pe]. injection E as <- <-. exists [], l. repeat split; eauto; try (intros [H|H]; discriminate H).
      * destruct (let! m := var x env in let! t := str_of_msg m in Ok m) as [m|e]; [|discriminate Pe]. destruct (plan ck r env) as [l1|] eqn:Pl; [|discriminate Pe].
        injection E as <- <-. injection Pe as <-. exists [m], l1. repeat split; eauto; try (intros [H|H]; discriminate H).
      * injection E as <- <-. injection Pe as <-. exists [], []. repeat split; cbn; eauto; try (intros [H|H]; discriminate H).
      * injection E as <- <-. injection Pe as <-. exists [], []. repeat split; cbn; eauto; try (intros [H|H]; discriminate H).
    + injection E as <- <-. subst l. exists [], []. repeat split; cbn; eauto; try (intros [H|H]; discriminate H).
  - destruct s as [p env| |]; cbn [pending] in Pe; try contradiction.
    + injection E as <- <-. exists [], l. split; [reflexivity|]. split; [reflexivity|]. split; [exists []; split; [reflexivity|intros H; elim H; reflexivity]|].
      repeat split; try discriminate. intros [H|H]; discriminate H.
    + injection E as <- <-. subst l. exists [], []. repeat split; cbn; eauto; try discriminate; try (intros [H|H]; discriminate H).
Qed.

Lemma demo_run ts : forall s w log s' w' l, demo ts s w = (log, s', w') -> pending ck s l ->
  exists sched now rest, run sched w = (log, w') /\ l = now ++ rest /\ queued sched = map Some now
    /\ (exists l', pending ck s' l' /\ (~ In CtrlC ts -> l' = rest))
    /\ (~ In CtrlC ts -> remaining s <= main_turns ts -> remaining s' = 0)
    /\ turns Io sched = io_turns ts.
Proof.
  induction ts as [|t ts IH]; intros s w log s' w' l E Pe; cbn [Demos.demo] in E.
  - injection E as <- <- <-. exists [], [], l. repeat split; eauto. unfold main_turns. cbn. lia.
  - destruct (main_step ck t s) as [a s1] eqn:M.
    destruct (match a with Some a => Poller.step P read1 readline write cfg blocking qtmonly a w | None => ([], w) end) as [l1 w1] eqn:St.
    destruct (demo ts s1 w1) as [[l2 s2] w2] eqn:D. injection E as <- <- <-.
    destruct (main_step_ok _ _ _ _ _ M Pe) as (now & rest & -> & Q & (l' & Pe' & Lr) & Rm & Rs & Tu).
    destruct (IH _ _ _ _ _ _ D Pe') as (sched & now2 & rest2 & R & -> & Q2 & (l'' & Pe'' & Lr'') & Rm2 & Tu2).
    assert (t = CtrlC -> l'' = [] /\ now2 ++ rest2 = []) as Cc.
    { intros ->. cbn [main_step] in M. 
      assert (now2 ++ rest2 = [] ) as N0.
      { destruct s as [p env| |]; injection M as _ <-; [exact Pe'|exact Pe'|destruct Pe']. }
      split; [|exact N0].
      assert (s1 = Finished) as -> by (destruct s as [p env| |]; injection M as _ <-; [reflexivity|reflexivity|destruct Pe']).
      assert (s2 = Finished) as ->; [|exact Pe''].
      clear - D. revert w1 l2 s2 w2 D. induction ts as [|t ts IH]; intros w1 l2 s2 w2 D; cbn [Demos.demo] in D; [injection D as _ <- _; reflexivity|].
      assert (snd (main_step ck t Finished) = Finished) as F by (destruct t; reflexivity). destruct (main_step ck t Finished) as [a s1]. cbn in F. subst s1.
      destruct (match a with Some a => _ | None => _ end) as [x w3]. destruct (Demos.demo _ _ _ _ _ _ _ _ ts Finished w3) as [[y s3] w4] eqn:D2. injection D as _ <- _. exact (IH _ _ _ _ D2). }
    exists (acts a ++ sched), (now ++ now2).
    assert (run (acts a ++ sched) w = (l1 ++ l2, w2)) as R'.
    { destruct a as [a|]; cbn [acts app Poller.run].
      - rewrite St, R. reflexivity.
      - injection St as <- <-. exact R. }
    assert (turns Io (acts a ++ sched) = io_turns (t :: ts)) as T'.
    { unfold turns in *. rewrite filter_app, app_length. rewrite Tu, Tu2. unfold io_turns. cbn [filter]. destruct t; reflexivity. }
    destruct t; try (exists rest2; specialize (Lr ltac:(discriminate)); subst rest;
      split; [exact R'|split; [rewrite <- app_assoc; reflexivity|split; [rewrite queued_app, Q, Q2, map_app; reflexivity|split; [exists l''; split; [exact Pe''|intros N; apply Lr''; intros H; apply N; right; exact H]|split; [|exact T']]]]];
      intros N L; apply Rm2; [intros H; apply N; right; exact H|]).
    + rewrite Rs by auto. exact L.
    + rewrite Rs by auto. exact L.
    + rewrite Rm by reflexivity. unfold main_turns in *. cbn [filter length] in L. lia.
    + destruct (Cc eq_refl) as [-> N0]. apply app_eq_nil in N0 as [-> ->]. exists rest. rewrite app_nil_r.
      split; [exact R'|]. split; [reflexivity|]. split; [rewrite queued_app, Q, Q2; apply app_nil_r|]. split; [exists []; split; [exact Pe''|intros N; elim N; left; reflexivity]|].
      split; [intros N; elim N; left; reflexivity|exact T'].
Qed.

Lemma demo_app ts1 : forall ts2 s w, demo (ts1 ++ ts2) s w =
  let '(l1, s1, w1) := demo ts1 s w in let '(l2, s2, w2) := demo ts2 s1 w1 in (l1 ++ l2, s2, w2).
Proof.
  induction ts1 as [|t ts1 IH]; intros ts2 s w; cbn [app Demos.demo].
  - destruct (demo ts2 s w) as [[l2 s2] w2]. reflexivity.
  - destruct (main_step ck t s) as [a s1]. destruct (match a with Some a => _ | None => _ end) as [l w1]. rewrite IH.
    destruct (demo ts1 s1 w1) as [[l1 s2] w2]. destruct (demo ts2 s2 w2) as [[l2 s3] w3]. rewrite app_assoc. reflexivity.
Qed.

(* what has been written is the beginning of what the program sends, and main() does not die of an exception *)
Theorem C107_sent program l ts p log s w :
  plan ck program [] = Some l -> demo ts (Running program []) (begin p) = (log, s, w) ->
  (exists more, flat_map encodings (map Some l) = written log ++ more) /\ forall e, s <> Crashed e.
Proof.
  intros Pl D. destruct (demo_run _ _ _ _ _ _ _ D Pl) as (sched & now & rest & R & -> & Q & (l' & Pe & _) & _).
  split; [|intros e ->; exact Pe]. apply C99_sent in R as (done & hand & Qd & W & _).
  rewrite Q in Qd. exists (flat_map encodings (hand ++ q_items (g_sendq w)) ++ flat_map encodings (map Some rest)).
  rewrite map_app, flat_map_app, Qd, flat_map_app, W, <- app_assoc. reflexivity.
Qed.

(* and all of it, once main() is through, the port has answered a read() after that, and the I/O thread has had its turns *)
Theorem C107_all_sent program l ts p log0 s0 w0 l1 s1 w1 out ts2 log2 s2 w2 :
  accepts P write -> plan ck program [] = Some l -> Forall encodable (map Some l) ->
  demo ts (Running program []) (begin p) = (log0, s0, w0) -> ~ In CtrlC ts -> effective program <= main_turns ts ->
  demo [IoTurn] s0 w0 = (l1, s1, w1) -> In (Returns out) l1 -> gave out ->
  demo ts2 s1 w1 = (log2, s2, w2) -> 4 * length l <= io_turns ts2 ->
  written (log0 ++ l1 ++ log2) = flat_map encodings (map Some l).
Proof.
  intros Acc Pl En D0 Nc Mt D1 I1 Gv D2 Io2.
  destruct (demo_run _ _ _ _ _ _ _ D0 Pl) as (sched & now & rest & R & -> & Q & (l' & Pe & Lr) & Rm & _).
  specialize (Rm Nc Mt). specialize (Lr Nc). subst l'.
  assert (rest = []) as ->.
  { destruct s0 as [q env| |]; cbn in Pe; [|exact Pe|destruct Pe]. cbn [remaining] in Rm. destruct q as [|[]]; cbn in Rm; try discriminate Rm; cbn in Pe; congruence. }
  rewrite app_nil_r in *.
  cbn [Demos.demo main_step] in D1. destruct (Poller.step P read1 readline write cfg blocking qtmonly Io w0) as [l1' w1'] eqn:St. injection D1 as <- <- <-. rewrite app_nil_r in *.
  destruct (demo_run _ _ _ _ _ _ _ D2 Pe) as (sched2 & now2 & rest2 & R2 & N2 & Q2 & _ & _ & T2).
  symmetry in N2. apply app_eq_nil in N2 as [-> ->].
  rewrite <- Q in En.
  destruct (C99_sends _ _ _ _ _ _ _ _ _ _ _ _ _ _ _ _ _ Acc R St I1 Gv En R2) as [more Wm].
  { rewrite Q, map_length, T2. exact Io2. }
  rewrite Wm, <- Q.
  assert (Poller.run P read1 readline write cfg blocking qtmonly (sched ++ Io :: sched2) (begin p) = (log0 ++ l1' ++ log2, w2)) as Rall.
  { clear - R St R2. revert R. generalize (begin p) as w. revert log0. induction sched as [|a sched IH]; intros log0 w R; cbn [Poller.run app] in *.
    - injection R as <- <-. rewrite St, R2. reflexivity.
    - destruct (Poller.step P read1 readline write cfg blocking qtmonly a w) as [la wa]. destruct (Poller.run _ _ _ _ _ _ _ sched wa) as [lb wb] eqn:E. injection R as <- <-. rewrite (IH _ _ E), <- app_assoc. reflexivity. }
  apply C99_sent in Rall as (done & hand & Qd & W & _). rewrite queued_app in Qd. cbn [queued flat_map app] in Qd. fold (queued sched2) in Qd. rewrite Q2, app_nil_r in Qd.
  rewrite Wm in W. rewrite Qd, !flat_map_app in W.
  assert (more = []) as ->; [|rewrite Qd, !flat_map_app; apply app_nil_r].
  apply (f_equal (@length _)) in W. rewrite !app_length in W. destruct more; [reflexivity|cbn in W; lia].
Qed.
(* ------------------------------------------------------------ the stop event *)
Fixpoint stops (p : list stmt) : bool := match p with [] | Idle :: _ => false | SetStop :: _ => true | _ :: r => stops r end.
Lemma demo_stop ts : forall s w log s' w' l, demo ts s w = (log, s', w') -> pending ck s l -> (g_stop w = true <-> s = Finished) ->
  (g_stop w' = true <-> s' = Finished)
  /\ (s = Finished \/ In CtrlC ts \/ (match s with Running p _ => stops p = true /\ effective p < main_turns ts | _ => False end) -> s' = Finished)
  /\ (s' = Finished -> s = Finished \/ In CtrlC ts \/ match s with Running p _ => stops p = true /\ effective p < main_turns ts | _ => False end).
Proof.
  induction ts as [|t ts IH]; intros s w log s' w' l E Pe Sw; cbn [Demos.demo] in E.
  - injection E as <- <- <-. split; [exact Sw|]. split; [intros [H|[[]|H]]; [exact H|]|intros H; left; exact H].
    destruct s as [p env| |]; try contradiction. destruct H as [_ H]. unfold main_turns in H. cbn in H. lia.
  - destruct (main_step ck t s) as [a s1] eqn:M.
    destruct (match a with Some a => Poller.step P read1 readline write cfg blocking qtmonly a w | None => ([], w) end) as [l1 w1] eqn:St.
    destruct (demo ts s1 w1) as [[l2 s2] w2] eqn:D. injection E as <- <- <-.
    destruct (main_step_ok _ _ _ _ _ M Pe) as (now & rest & -> & Q & (l' & Pe' & Lr) & Rm & Rs & Tu).
    assert (g_stop w1 = match a with Some Stop => true | _ => g_stop w end) as Gs.
    { destruct a as [a|]; [apply (stop_step _ _ _ _ _ _ _ _ _ _ _ St)|injection St as _ <-; reflexivity]. }
    assert (g_stop w1 = true <-> s1 = Finished) as Sw1.
    { rewrite Gs. destruct t; cbn [main_step] in M; try (injection M as <- <-; exact Sw).
      - destruct s as [[|c r] env| |]; [injection M as <- <-; exact Sw| |injection M as <- <-; exact Sw|destruct Pe].
        assert (g_stop w = true <-> False) as Sw' by (rewrite Sw; split; [discriminate|contradiction]). clear Sw.
        destruct c as [x c|c|x y|x| |].
        + destruct (build ck c); injection M as <- <-; [rewrite Sw'; split; [contradiction|discriminate]|destruct Pe'].
        + destruct (build ck c); injection M as <- <-; [rewrite Sw'; split; [contradiction|discriminate]|destruct Pe'].
        + destruct (var y env); injection M as <- <-; [rewrite Sw'; split; [contradiction|discriminate]|destruct Pe'].
        + destruct (let! m := var x env in let! t := str_of_msg m in Ok m); injection M as <- <-; [rewrite Sw'; split; [contradiction|discriminate]|destruct Pe'].
        + injection M as <- <-. split; reflexivity.
        + injection M as <- <-. rewrite Sw'. split; [contradiction|discriminate].
      - destruct s as [p env| |]; injection M as <- <-; [split; reflexivity|exact Sw|destruct Pe]. }
    destruct (IH _ _ _ _ _ _ D Pe' Sw1) as (A & B & C). split; [exact A|].
    assert ((s = Finished \/ In CtrlC (t :: ts) \/ match s with Running p _ => stops p = true /\ effective p < main_turns (t :: ts) | _ => False end) <->
            (s1 = Finished \/ In CtrlC ts \/ match s1 with Running p _ => stops p = true /\ effective p < main_turns ts | _ => False end)) as Eq; [|split; [intros H; apply B, Eq, H|intros H; apply Eq, C, H]].
    destruct t; cbn [main_step] in M; cbn [In].
    + injection M as <- <-. change (main_turns (IoTurn :: ts)) with (main_turns ts). intuition discriminate.
    + injection M as <- <-. change (main_turns (ProcTurn :: ts)) with (main_turns ts). intuition discriminate.
    + change (main_turns (MainTurn :: ts)) with (S (main_turns ts)).
      destruct s as [[|c r] env| |]; [injection M as <- <-; cbn; intuition discriminate| |injection M as <- <-; cbn; intuition discriminate|destruct Pe].
      destruct c as [x c|c|x y|x| |]; cbn [stops effective].
      * destruct (build ck c); injection M as <- <-; [|destruct Pe']. rewrite <- Nat.succ_lt_mono. intuition discriminate.
      * destruct (build ck c); injection M as <- <-; [|destruct Pe']. rewrite <- Nat.succ_lt_mono. intuition discriminate.
      * destruct (var y env); injection M as <- <-; [|destruct Pe']. rewrite <- Nat.succ_lt_mono. intuition discriminate.
      * destruct (let! m := var x env in let! t := str_of_msg m in Ok m); injection M as <- <-; [|destruct Pe']. rewrite <- Nat.succ_lt_mono. intuition discriminate.
      * injection M as <- <-. split; [intros _; left; reflexivity|intros _; right; right; split; [reflexivity|lia]].
      * injection M as <- <-. cbn [stops effective]. intuition discriminate.
    + split; intros _; [left|right; left; left; reflexivity]. destruct s; injection M as <- <-; [reflexivity|reflexivity|destruct Pe].
Qed.
End Any.

(* ------------------------------------------------------------ the two programs *)
Definition encodes (m : msg) : bool := match serialize m with Ok _ => true | Raise _ => false end.
Lemma encodes_all l : forallb encodes l = true -> Forall encodable (map Some l).
Proof.
  intros H. apply Forall_map, Forall_forall. intros m I1. rewrite forallb_forall in H. specialize (H m I1). unfold encodes in H. cbn.
  destruct (serialize m) as [b|e]; [eauto|discriminate H].
Qed.
Lemma quectel_plan ck : exists l, plan ck quectel_main [] = Some l /\ flat_map encodings (map Some l) = map line quectel_lines
  /\ forallb encodes l = true /\ length l = 40.
Proof. eexists. split; [vm_compute; reflexivity|]. split; [vm_compute; reflexivity|]. split; vm_compute; reflexivity. Qed.
Lemma prefix_firstn {A} (l a b : list A) : l = a ++ b -> a = firstn (length a) l.
Proof. intros ->. rewrite firstn_app, Nat.sub_diag, firstn_all. cbn. rewrite app_nil_r. reflexivity. Qed.

Definition gnq (id : pystr) : call := mkcall (u "EI") (u "GNQ") POLL [(u "msgId", VStr id)].
Definition polls (ck : clock) (id : pystr) : bool :=
  match build ck (gnq id) with
  | Ok m => match str_of_msg m, serialize m with
            | Ok _, Ok b => str_eqb b (u "$EIGNQ," ++ id ++ u "*" ++ calc_checksum (u "EIGNQ," ++ id) ++ [cr; lf])
                && match parse (MBytes b) POLL VALCKSUM [] with
                   | Ok (Some x) => str_eqb (m_talker x) (u "EI") && str_eqb (m_msgID x) (u "GNQ")
                        && match m_attrs x with [(k, VStr v)] => str_eqb k (u "msgId") && str_eqb v id | _ => false end
                   | _ => false
                   end
            | _, _ => false
            end
  | Raise _ => false
  end.
Lemma polls_ok ck id : polls ck id = true ->
  exists m t b, build ck (gnq id) = Ok m /\ str_of_msg m = Ok t /\ serialize m = Ok b /\ asks_for id b.
Proof.
  unfold polls. destruct (build ck (gnq id)) as [m|e]; [|discriminate]. destruct (str_of_msg m) as [t|e] eqn:Et; [|discriminate].
  destruct (serialize m) as [b|e] eqn:Eb; [|discriminate]. intros H. exists m, t, b. split; [reflexivity|]. split; [exact Et|]. split; [exact Eb|].
  apply andb_true_iff in H as [H1 H2]. apply str_eqb_eq in H1.
  split; [exists (calc_checksum (u "EIGNQ," ++ id)); split; [apply C01_checksum|exact H1]|].
  destruct (parse (MBytes b) POLL VALCKSUM []) as [[x|]|]; try discriminate H2. exists x. split; [reflexivity|].
  apply andb_true_iff in H2 as [H2 H3]. apply andb_true_iff in H2 as [H2 H4]. apply str_eqb_eq in H2, H4. split; [exact H2|]. split; [exact H4|].
  destruct (m_attrs x) as [|[k v] [|]]; try discriminate H3; destruct v; try discriminate H3.
  apply andb_true_iff in H3 as [H3 H5]. apply str_eqb_eq in H3, H5. subst. reflexivity.
Qed.
Lemma poller_plan_of ck (ids : list (pystr * pystr)) : forallb (fun e => polls ck (fst e)) ids = true -> forall env, exists l,
  plan ck (flat_map (fun e => [Let 0 (gnq (fst e)); Put 0]) ids ++ [SetStop]) env = Some l
  /\ Forall2 asks_for (map fst ids) (flat_map encodings (map Some l)) /\ forallb encodes l = true /\ length l = length ids.
Proof.
  induction ids as [|e ids IH]; intros H env.
  - exists []. repeat split. constructor.
  - cbn [forallb] in H. apply andb_true_iff in H as [H1 H2]. apply polls_ok in H1 as (m & t & b & Eb & Et & Es & As).
    destruct (IH H2 ((0, m) :: env)) as (l & Pl & F & En & L). exists (m :: l). cbn [flat_map app plan].
    rewrite Eb. cbn [var Nat.eqb bind]. rewrite Et. cbn [bind]. rewrite Pl. split; [reflexivity|].
    cbn [map flat_map encodings forallb length]. rewrite Es. cbn [app]. split; [constructor; assumption|]. unfold encodes at 1. rewrite Es, En, L. split; reflexivity.
Qed.
Lemma poller_plan ck : exists l,
  plan ck poller_main [] = Some l /\ Forall2 asks_for (map fst NMEA_MSGIDS) (flat_map encodings (map Some l)) /\ forallb encodes l = true /\ length l = 154.
Proof.
  destruct (poller_plan_of ck NMEA_MSGIDS) with (env := @nil (nat * msg)) as (l & Pl & F & En & L); [vm_compute; reflexivity|].
  exists l. split; [exact Pl|]. split; [exact F|]. split; [exact En|]. rewrite L. vm_compute. reflexivity.
Qed.
Lemma Forall2_prefix {A B} (R : A -> B -> Prop) l a b : Forall2 R l (a ++ b) -> Forall2 R (firstn (length a) l) a.
Proof. revert l. induction a as [|x a IH]; intros l F; inversion F; subst; cbn; constructor; auto. Qed.

Section Programs.
Variable P : Type.
Variables read1 readline : P -> result bytes * P.
Variable write : bytes -> P -> result Z * P.
Variable cfg : rcfg.
Variables blocking qtmonly : bool.
Variable ck : clock.
Notation demo := (demo P read1 readline write cfg blocking qtmonly ck).
Notation begin := (begin P).

(* nmeapoller.py: at every moment of every run, what has been written is a poll for each of the first sentence types of the
   table, in its order, none twice and none left out; main() is never ended by an exception *)
Theorem C107_poller ts p log s w :
  demo ts (Running poller_main []) (begin p) = (log, s, w) ->
  Forall2 asks_for (firstn (length (written log)) (map fst NMEA_MSGIDS)) (written log) /\ forall e, s <> Crashed e.
Proof.
  intros D. destruct (poller_plan ck) as (l & Pl & F & _). destruct (C107_sent _ _ _ _ _ _ _ _ _ _ _ _ _ _ _ Pl D) as [[more W] N].
  split; [|exact N]. rewrite W in F. exact (Forall2_prefix _ _ _ _ F).
Qed.
Theorem C107_poller_all ts p log0 s0 w0 l1 s1 w1 out ts2 log2 s2 w2 :
  accepts P write -> demo ts (Running poller_main []) (begin p) = (log0, s0, w0) -> ~ In CtrlC ts -> 308 <= main_turns ts ->
  demo [IoTurn] s0 w0 = (l1, s1, w1) -> In (Returns out) l1 -> gave out ->
  demo ts2 s1 w1 = (log2, s2, w2) -> 616 <= io_turns ts2 ->
  Forall2 asks_for (map fst NMEA_MSGIDS) (written (log0 ++ l1 ++ log2)).
Proof.
  intros Acc D0 Nc Mt D1 I1 Gv D2 Io2. destruct (poller_plan ck) as (l & Pl & F & En & L).
  rewrite (C107_all_sent _ _ _ _ _ _ _ _ _ _ _ _ _ _ _ _ _ _ _ _ _ _ _ Acc Pl (encodes_all _ En) D0 Nc Mt D1 I1 Gv D2); [exact F|]. rewrite L. exact Io2.
Qed.

(* quecteldemo.py: what has been written is the beginning of this list of lines *)
Theorem C107_quectel ts p log s w :
  demo ts (Running quectel_main []) (begin p) = (log, s, w) ->
  written log = map line (firstn (length (written log)) quectel_lines) /\ forall e, s <> Crashed e.
Proof.
  intros D. destruct (quectel_plan ck) as (l & Pl & F & _). destruct (C107_sent _ _ _ _ _ _ _ _ _ _ _ _ _ _ _ Pl D) as [[more W] N].
  split; [|exact N]. rewrite F in W. rewrite <- firstn_map. exact (prefix_firstn _ _ _ W).
Qed.
Theorem C107_quectel_all ts p log0 s0 w0 l1 s1 w1 out ts2 log2 s2 w2 :
  accepts P write -> demo ts (Running quectel_main []) (begin p) = (log0, s0, w0) -> ~ In CtrlC ts -> 87 <= main_turns ts ->
  demo [IoTurn] s0 w0 = (l1, s1, w1) -> In (Returns out) l1 -> gave out ->
  demo ts2 s1 w1 = (log2, s2, w2) -> 160 <= io_turns ts2 ->
  written (log0 ++ l1 ++ log2) = map line quectel_lines.
Proof.
  intros Acc D0 Nc Mt D1 I1 Gv D2 Io2. destruct (quectel_plan ck) as (l & Pl & F & En & L).
  rewrite (C107_all_sent _ _ _ _ _ _ _ _ _ _ _ _ _ _ _ _ _ _ _ _ _ _ _ Acc Pl (encodes_all _ En) D0 Nc Mt D1 I1 Gv D2); [exact F|]. rewrite L. exact Io2.
Qed.
(* the stop event is set once main() is through (its 309 statements), or by Ctrl-C, and not otherwise; quecteldemo.py runs until Ctrl-C *)
Theorem C107_poller_stops ts p log s w :
  demo ts (Running poller_main []) (begin p) = (log, s, w) ->
  (g_stop w = true <-> In CtrlC ts \/ 309 <= main_turns ts) /\ (g_stop w = true <-> s = Finished).
Proof.
  intros D. destruct (poller_plan ck) as (l & Pl & _).
  destruct (demo_stop _ _ _ _ _ _ _ _ _ _ _ _ _ _ _ D Pl) as (A & B & C); [split; discriminate|]. split; [|exact A]. rewrite A.
  change (effective poller_main) with 308 in *. split.
  - intros H. destruct (C H) as [X|[X|[_ X]]]; [discriminate X|left; exact X|right; exact X].
  - intros [H|H]; apply B; [right; left; exact H|right; right; split; [reflexivity|exact H]].
Qed.
Theorem C107_quectel_stops ts p log s w :
  demo ts (Running quectel_main []) (begin p) = (log, s, w) -> (g_stop w = true <-> In CtrlC ts) /\ (g_stop w = true <-> s = Finished).
Proof.
  intros D. destruct (quectel_plan ck) as (l & Pl & _).
  destruct (demo_stop _ _ _ _ _ _ _ _ _ _ _ _ _ _ _ D Pl) as (A & B & C); [split; discriminate|]. split; [|exact A]. rewrite A.
  split.
  - intros H. destruct (C H) as [X|[X|[X _]]]; [discriminate X|exact X|discriminate X].
  - intros H; apply B; right; left; exact H.
Qed.
(* six of the commands that the program announces are built and never sent: in no run are they written *)
Theorem C107_announced_refuted ts p log s w :
  demo ts (Running quectel_main []) (begin p) = (log, s, w) ->
  Forall (fun a => ~ In (line a) (written log)) announced_lines.
Proof.
  intros D. destruct (C107_quectel _ _ _ _ _ D) as [W _]. apply Forall_forall. intros a Ia I1. rewrite W in I1. apply in_map_iff in I1 as (b & E & I1).
  assert (In b quectel_lines) as Ib by (rewrite <- (firstn_skipn (length (written log)) quectel_lines); apply in_or_app; left; exact I1).
  assert (existsb (fun a => existsb (fun b => str_eqb (line b) (line a)) quectel_lines) announced_lines = false) as No by (vm_compute; reflexivity).
  assert (existsb (fun a => existsb (fun b => str_eqb (line b) (line a)) quectel_lines) announced_lines = true); [|congruence].
  apply existsb_exists. exists a. split; [exact Ia|]. apply existsb_exists. exists b. split; [exact Ib|]. apply str_eqb_eq, E.
Qed.
End Programs.
(* and these are the commands that the six constructor calls build *)
Theorem C107_announced ck :
  Forall2 (fun c a => exists m, build ck c = Ok m /\ serialize m = Ok (line a))
    (flat_map (fun c => match c with Make l => [l] | _ => [] end) quectel_main) announced_lines.
Proof. repeat (apply Forall2_cons; [eexists; split; [vm_compute; reflexivity|vm_compute; reflexivity]|]). apply Forall2_nil. Qed.
(* a run of nmeapoller.py in which two polls go out before the port sends its first sentence's answer and the user interrupts *)
Example C107_example :
  let ck : clock := fun _ => (mkdate 2025 9 12, mktime 12 0 0 0) in
  let '(log, s, w) := demo file file_read1 file_readline takes (ex_cfg 1) false false ck
     (repeat MainTurn 4 ++ repeat IoTurn 40 ++ [CtrlC] ++ concat (repeat [IoTurn; ProcTurn] 20)) (Running poller_main []) (begin file ex_line) in
  written log = [line "$EIGNQ,AAM*35"; line "$EIGNQ,ABK*30"] /\ s = Finished /\ g_io w = IoEnd /\ g_proc w = PrEnd.
Proof. vm_compute. repeat split. Qed.
Example C107_quectel_example :
  let ck : clock := fun _ => (mkdate 2025 9 12, mktime 12 0 0 0) in
  let '(log, s, w) := demo file file_read1 file_readline takes (ex_cfg 1) true true ck
     (repeat MainTurn 87 ++ repeat IoTurn 500) (Running quectel_main []) (begin file ex_line) in
  written log = map line quectel_lines /\ s = Running [Idle] (match s with Running _ env => env | _ => [] end).
Proof. vm_compute. split; reflexivity. Qed.
