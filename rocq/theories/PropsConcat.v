(* C90: streams put together *)
From Coq Require Import Lia.
From Verif Require Import Message Reader BaseLemmas Spec ReaderSpec ReaderProofs PropsReader PropsSession PropsPort.
Local Open Scope nat_scope.

Lemma file_fin cfg r s : fpass cfg [] = (r, s) -> r = Raise EOFError /\ s = [].
Proof. intros X. cbn in X. injection X as <- <-. auto. Qed.
Lemma fsession_total cfg n fuel s : length s < fuel -> length s < n ->
  exists l ev, fsession cfg n fuel s = Some (l, ev, []) /\ runs file file_read1 file_readline cfg [] s l ev.
Proof.
  intros L1 L2. destruct (tokens_total [lf] s ltac:(discriminate)) as (ts & Tk). destruct (happens_total cfg ts) as (hs & Hp).
  destruct (C76_file cfg n fuel s ts hs Tk Hp L1 L2) as (ev & E & _). do 2 eexists. split; [exact E|]. apply fsession_runs in E. exact E.
Qed.

(* ------------------------------------------------------------------ C90 *)
(* Two files put together, the first of which is empty or ends in LF: the application sees
   and reports first what the one gives and then what the other gives. *)
Theorem C90_two cfg n fuel s rest :
  lines_only s -> length (s ++ rest) < fuel -> length (s ++ rest) < n ->
  exists l1 ev1 l2 ev2, fsession cfg n fuel s = Some (l1, ev1, []) /\ fsession cfg n fuel rest = Some (l2, ev2, [])
    /\ fsession cfg n fuel (s ++ rest) = Some (l1 ++ l2, ev1 ++ ev2, []).
Proof.
  intros Ho L1 L2. rewrite app_length in L1, L2.
  destruct (fsession_total cfg n fuel s ltac:(lia) ltac:(lia)) as (l1 & ev1 & E1 & R1).
  destruct (fsession_total cfg n fuel rest ltac:(lia) ltac:(lia)) as (l2 & ev2 & E2 & R2).
  destruct (fsession_total cfg n fuel (s ++ rest) ltac:(rewrite app_length; lia) ltac:(rewrite app_length; lia)) as (l & ev & E & R).
  exists l1, ev1, l2, ev2. split; [exact E1|]. split; [exact E2|].
  destruct (runs_det _ _ _ _ _ (file_fin cfg) _ _ _ R _ _ (runs_lines cfg rest l2 ev2 R2 s l1 ev1 R1 Ho)) as [-> ->]. exact E.
Qed.
(* any number of files *)
Theorem C90_many cfg n fuel files :
  Forall lines_only files -> length (concat files) < fuel -> length (concat files) < n ->
  exists rs, Forall2 (fun s r => fsession cfg n fuel s = Some (fst r, snd r, [])) files rs
    /\ fsession cfg n fuel (concat files) = Some (flat_map fst rs, flat_map snd rs, []).
Proof.
  intros F. induction F as [|s files Ho F IH]; intros L1 L2.
  - exists []. split; [constructor|]. destruct (fsession_total cfg n fuel [] L1 L2) as (l & ev & E & R). cbn [concat flat_map].
    destruct (file_runs_nil _ _ _ _ R eq_refl) as [-> ->]. exact E.
  - cbn [concat] in L1, L2 |- *. destruct (C90_two cfg n fuel s (concat files) Ho L1 L2) as (l1 & ev1 & l2 & ev2 & E1 & E2 & E).
    rewrite app_length in L1, L2. destruct IH as (rs & F2 & E3); [lia|lia|]. rewrite E3 in E2. injection E2 as <- <-.
    exists ((l1, ev1) :: rs). split; [constructor; [exact E1|exact F2]|exact E].
Qed.

Lemma loop_session cfg fuel n : forall s items ev s', fiterate cfg n fuel s = Some (items, None, ev, s') <->
  fsession cfg n fuel s = Some (map (fun i => Got (fst i) (snd i)) items, ev, s').
Proof.
  unfold fiterate, fsession. induction n as [|n IH]; intros s items ev s'; [split; discriminate|]. cbn [iterate session].
  destruct (read file file_read1 file_readline cfg fuel s) as [[[[raw m| |e] ev1] s1]|]; [| | |split; discriminate].
  - split; intros H.
    + destruct (iterate file file_read1 file_readline cfg n fuel s1) as [[[[l x] ev2] s2]|] eqn:E; [|discriminate].
      injection H as <- -> <- <-. apply IH in E. rewrite E. reflexivity.
    + destruct (session file file_read1 file_readline cfg n fuel s1) as [[[l ev2] s2]|] eqn:E; [|discriminate].
      destruct items as [|[raw' m'] items]; [discriminate|]. injection H as -> -> -> <- <-. apply IH in E. rewrite E. reflexivity.
  - split; intros H; [injection H as <- <- <-; reflexivity|]. destruct items; [|discriminate]. injection H as <- <-. reflexivity.
  - split; intros H; [discriminate|]. destruct (session file file_read1 file_readline cfg n fuel s1) as [[[l ev2] s2]|]; [|discriminate]. destruct items; discriminate.
Qed.
(* the same for for loops that end normally *)
Theorem C90_loops cfg n fuel s rest i1 ev1 r1 i2 ev2 r2 :
  lines_only s -> length (s ++ rest) < fuel -> length (s ++ rest) < n ->
  fiterate cfg n fuel s = Some (i1, None, ev1, r1) -> fiterate cfg n fuel rest = Some (i2, None, ev2, r2) ->
  fiterate cfg n fuel (s ++ rest) = Some (i1 ++ i2, None, ev1 ++ ev2, []).
Proof.
  intros Ho L1 L2 E1 E2. apply loop_session in E1. apply loop_session in E2. apply loop_session.
  destruct (C90_two cfg n fuel s rest Ho L1 L2) as (l1 & e1 & l2 & e2 & F1 & F2 & F). rewrite F1 in E1. rewrite F2 in E2. injection E1 as -> -> _. injection E2 as -> -> _.
  rewrite map_app. exact F.
Qed.
(* Bytes other than "$" inserted between lines have no effect. *)
Theorem C90_noise cfg n fuel s noise rest :
  lines_only s -> ~ In dollar noise -> length (s ++ noise ++ rest) < fuel -> length (s ++ noise ++ rest) < n ->
  fsession cfg n fuel (s ++ noise ++ rest) = fsession cfg n fuel (s ++ rest).
Proof.
  intros Ho N L1 L2. rewrite !app_length in L1, L2.
  destruct (fsession_total cfg n fuel s ltac:(lia) ltac:(lia)) as (l1 & ev1 & E1 & R1).
  destruct (fsession_total cfg n fuel rest ltac:(lia) ltac:(lia)) as (l2 & ev2 & E2 & R2).
  assert (runs file file_read1 file_readline cfg [] (noise ++ rest) l2 ev2) as R3.
  { clear - N R2. induction noise as [|b noise IH]; [exact R2|]. eapply runs_skip with (s1 := noise ++ rest); [|apply IH; intros X; apply N; right; exact X].
    unfold pass, read_byte. cbn [app file_read1]. destruct (str_eqb [b] [c_dollar]) eqn:D; [|reflexivity].
    apply str_eqb_eq in D. injection D as ->. exfalso. apply N. left. reflexivity. }
  destruct (fsession_total cfg n fuel (s ++ rest) ltac:(rewrite app_length; lia) ltac:(rewrite app_length; lia)) as (l & ev & E & R).
  destruct (fsession_total cfg n fuel (s ++ noise ++ rest) ltac:(rewrite !app_length; lia) ltac:(rewrite !app_length; lia)) as (l' & ev' & E' & R').
  rewrite E, E'. destruct (runs_det _ _ _ _ _ (file_fin cfg) _ _ _ R _ _ (runs_lines cfg rest _ _ R2 s _ _ R1 Ho)) as [-> ->].
  destruct (runs_det _ _ _ _ _ (file_fin cfg) _ _ _ R' _ _ (runs_lines cfg (noise ++ rest) _ _ R3 s _ _ R1 Ho)) as [-> ->]. reflexivity.
Qed.

Example C90_example :
  lines_only (ex_line ++ ex_bad) /\ ~ In dollar (u "xyz")
  /\ raws (fiterate (ex_cfg 1) 300 300 ((ex_line ++ ex_bad) ++ u "xyz" ++ ex_line)) = [ex_line; ex_line].
Proof. split; [right; exists (removelast (ex_line ++ ex_bad)); vm_compute; reflexivity|]. split; [apply C27_example|vm_compute; reflexivity]. Qed.
(* without a line end at the end of the first file its last sentence - complete but for
   that - and the first of the second are both lost; each file by itself gives the sentence
   or reports NMEAStreamError *)
Theorem C90_no_newline_refuted :
  raws (fiterate (ex_cfg 1) 300 300 ex_line) = [ex_line]
  /\ raws (fiterate (ex_cfg 1) 300 300 (removelast (removelast ex_line) ++ ex_line)) = []
  /\ reported (fiterate (ex_cfg 1) 300 300 (removelast (removelast ex_line) ++ ex_line)) = [EvHandler NMEAParseError].
Proof. split; [|split]; vm_compute; reflexivity. Qed.
