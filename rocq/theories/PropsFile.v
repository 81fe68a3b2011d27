(* C110: the log file reader of the examples (nmeafile.py). *)
From Coq Require Import Lia.
From Verif Require Import Message Reader BaseLemmas TextLemmas NumLemmas Spec ReaderSpec MessageProofs StreamProofs ReaderProofs PropsMessage PropsReader PropsShown NmeaFile.
Local Open Scope Z_scope.

(* the arguments name=value; the last one with a name counts *)
Definition argument (a : pystr) (name value : pystr) : Prop := a = name ++ u "=" ++ value /\ ~ In 61%N name /\ ~ In 61%N value.
Definition given_last (args : list pystr) (name value : pystr) : Prop :=
  exists before a rest, args = before ++ a :: rest /\ argument a name value
    /\ forall b n v, In b rest -> argument b n v -> n <> name.
(* the file that is read *)
Definition file_named (args : list pystr) (f : pystr) : Prop :=
  given_last args (u "filename") f \/ (f = u "nmeadata.log" /\ forall a n v, In a args -> argument a n v -> n <> u "filename").
(* one line of output per message *)
Definition line_of (i : bytes * option msg) (t : pystr) : Prop :=
  match snd i with Some m => str_of_msg m = Ok t | None => t = u "None" end.
Definition opening (f : pystr) : pystr := [10%N] ++ u "Opening file " ++ f ++ u "..." ++ [10%N].
Definition closing (n : nat) : list pystr :=
  [[10%N] ++ dec_of_N (N.of_nat n) ++ u " messages read." ++ [10%N]; [10%N] ++ u "Processing Complete"].

(* ---------------------------------------------------------- command line *)
Lemma split_argument a k v : split_all 61 a = [k; v] <-> argument a k v.
Proof.
  split.
  - intros E. pose proof (split_all_parts 61 a) as F. rewrite E in F. inversion F as [|? ? A F1]; subst. inversion F1 as [|? ? B _]; subst.
    apply split_all_rebuild in E. cbn [flat_map] in E. rewrite app_nil_r in E. split; [exact E|split; assumption].
  - intros (-> & A & B). change (u "=" ++ v) with (61%N :: v). rewrite split_all_app by exact A. rewrite split_all_no_sep by exact B. reflexivity.
Qed.
Lemma argument_inj a k v k' v' : argument a k v -> argument a k' v' -> k' = k /\ v' = v.
Proof. intros A B. apply split_argument in A, B. rewrite A in B. injection B as -> ->. auto. Qed.
Lemma dict_set_lookup k v d j : lookup j (dict_set k v d) = if str_eqb j k then Some v else lookup j (d : list (pystr * pystr)).
Proof.
  induction d as [|[k' v'] d IH]; cbn [dict_set lookup].
  - destruct (str_eqb j k); reflexivity.
  - destruct (str_eqb_spec k k') as [<-|N0]; cbn [lookup]; [destruct (str_eqb j k); reflexivity|]. rewrite IH.
    destruct (str_eqb_spec j k') as [->|N1]; [|reflexivity]. destruct (str_eqb_spec k' k) as [E|E]; [elim N0; symmetry; exact E|reflexivity].
Qed.
Lemma command_line_ok args : forall d kw, command_line d args = Ok kw ->
  Forall (fun a => exists k v, argument a k v) args
  /\ forall name w, lookup name kw = Some w <-> given_last args name w \/ (lookup name d = Some w /\ forall a n v, In a args -> argument a n v -> n <> name).
Proof.
  induction args as [|a r IH]; intros d kw E; cbn [command_line] in E.
  - injection E as <-. split; [constructor|]. intros name w. split; [intros L; right; split; [exact L|intros ? ? ? []]|].
    intros [(b & x & t & X & _)|[L _]]; [destruct b; discriminate X|exact L].
  - destruct (split_all 61 a) as [|k [|v [|? ?]]] eqn:Sp; try discriminate E. apply split_argument in Sp.
    destruct (IH _ _ E) as [F L]. split; [constructor; [exists k, v; exact Sp|exact F]|]. intros name w. rewrite L, dict_set_lookup. split.
    + intros [(b & x & t & -> & Ax & H)|[H1 H2]].
      * left. exists (a :: b), x, t. split; [reflexivity|]. split; assumption.
      * destruct (str_eqb_spec name k) as [->|N0].
        -- injection H1 as <-. left. exists [], a, r. split; [reflexivity|]. split; assumption.
        -- right. split; [exact H1|]. intros a' n v' [<-|I0] Ar; [destruct (argument_inj _ _ _ _ _ Sp Ar) as [-> _]; congruence|exact (H2 a' n v' I0 Ar)].
    + intros [(b & x & t & X & Ax & H)|[H1 H2]].
      * destruct b as [|b0 b]; cbn [app] in X; injection X as <- ->.
        -- right. destruct (argument_inj _ _ _ _ _ Sp Ax) as [-> ->]. rewrite str_eqb_refl. split; [reflexivity|exact H].
        -- left. exists b, x, t. split; [reflexivity|]. split; assumption.
      * right. destruct (str_eqb_spec name k) as [->|N0]; [elim (H2 a k v (or_introl eq_refl) Sp); reflexivity|].
        split; [exact H1|]. intros a' n v' I0. apply H2. right. exact I0.
Qed.
Lemma command_line_total args : forall d, Forall (fun a => exists k v, argument a k v) args -> exists kw, command_line d args = Ok kw.
Proof.
  induction args as [|a r IH]; intros d F; cbn [command_line]; [exists d; reflexivity|]. inversion F as [|? ? (k & v & A) F']; subst.
  apply split_argument in A. rewrite A. apply IH, F'.
Qed.
Lemma command_line_fails args : forall d, ~ Forall (fun a => exists k v, argument a k v) args -> command_line d args = Raise ValueError.
Proof.
  induction args as [|a r IH]; intros d F; cbn [command_line]; [elim F; constructor|].
  destruct (split_all 61 a) as [|k [|v [|? ?]]] eqn:Sp; try reflexivity. apply split_argument in Sp. apply IH. intros F'. apply F. constructor; [exists k, v; exact Sp|exact F'].
Qed.
Lemma named_lookup args kw f : command_line [] args = Ok kw -> file_named args f -> kwarg (u "filename") (u "nmeadata.log") kw = f.
Proof.
  intros E H. destruct (command_line_ok args [] kw E) as [_ L]. unfold kwarg. destruct H as [H|[-> H]].
  - rewrite (proj2 (L _ _) (or_introl H)). reflexivity.
  - destruct (lookup (u "filename") kw) as [w|] eqn:Lk; [|reflexivity]. exfalso. apply L in Lk as [(b & a & r & -> & A & _)|[X _]]; [|discriminate X].
    refine (H a _ w _ A eq_refl). apply in_or_app. right. left. reflexivity.
Qed.
(* An argument without exactly one "=" (such as a file name that contains one) ends the program with ValueError, before anything is printed. *)
Theorem C110_arguments fs args :
  (~ Forall (fun a => exists name value, argument a name value) args -> nmeafile fs args = ([], [], Uncaught ValueError))
  /\ (Forall (fun a => exists name value, argument a name value) args -> exists f, file_named args f
        /\ (forall f', file_named args f' -> f' = f)
        /\ forall fs', fs' f = fs f -> nmeafile fs' args = nmeafile fs args).
Proof.
  split; [intros H; unfold nmeafile; rewrite (command_line_fails args [] H); reflexivity|].
  intros F. destruct (command_line_total args [] F) as (kw & E). destruct (command_line_ok args [] kw E) as [_ L].
  assert (file_named args (kwarg (u "filename") (u "nmeadata.log") kw)) as Nm.
  { unfold kwarg. destruct (lookup (u "filename") kw) as [w|] eqn:Lk.
    - left. apply L in Lk as [H|[X _]]; [exact H|discriminate X].
    - right. split; [reflexivity|]. intros a n v I0 A ->. assert (forall b, In b args -> exists w, given_last args (u "filename") w \/ forall n v, argument b n v -> n <> u "filename") as G0.
      { clear - F. intros b I0. destruct (in_split _ _ I0) as (x & y & ->).
        assert (forall y x, exists w, given_last (x ++ b :: y) (u "filename") w \/ forall n v, argument b n v -> n <> u "filename") as G1.
        { clear. intros y. induction y as [|c y IH] using rev_ind; intros x.
          - destruct (split_all 61 b) as [|k [|v [|? ?]]] eqn:Sp.
            1,2,4: exists []; right; intros n v' A; apply split_argument in A; rewrite A in Sp; discriminate Sp.
            apply split_argument in Sp. exists v. destruct (str_eqb_spec k (u "filename")) as [->|N0].
            + left. exists x, b, []. split; [reflexivity|]. split; [exact Sp|intros ? ? ? []].
            + right. intros n v' A. destruct (argument_inj _ _ _ _ _ Sp A) as [-> _]. exact N0.
          - destruct (split_all 61 c) as [|k [|v [|? ?]]] eqn:Sp.
            1,2,4: destruct (IH x) as (w & [(p1 & q1 & r1 & X & A & H)|H]); [exists w; left; exists p1, q1, (r1 ++ [c]); split; [rewrite app_comm_cons, app_assoc, X, <- app_assoc; reflexivity|split; [exact A|]];
                intros b' n1 v1 I1 B; apply in_app_or in I1 as [I1|[<-|[]]]; [exact (H b' n1 v1 I1 B)|apply split_argument in B; rewrite B in Sp; discriminate Sp]|exists w; right; exact H].
            apply split_argument in Sp. destruct (str_eqb_spec k (u "filename")) as [->|N0].
            + exists v. left. exists (x ++ b :: y), c, []. split; [rewrite <- app_assoc; reflexivity|]. split; [exact Sp|intros ? ? ? []].
            + destruct (IH x) as (w & [(p1 & q1 & r1 & X & A & H)|H]); [|exists w; right; exact H]. exists w. left. exists p1, q1, (r1 ++ [c]).
              split; [rewrite app_comm_cons, app_assoc, X, <- app_assoc; reflexivity|]. split; [exact A|].
              intros b' n v0 I1 B. apply in_app_or in I1 as [I1|[<-|[]]]; [exact (H b' n v0 I1 B)|]. destruct (argument_inj _ _ _ _ _ Sp B) as [-> _]. exact N0. }
        exact (G1 y x). }
      destruct (G0 a I0) as (w & [G1|G1]); [|exact (G1 _ _ A eq_refl)]. pose proof (proj2 (L _ _) (or_introl G1)) as X. congruence. }
  exists (kwarg (u "filename") (u "nmeadata.log") kw). split; [exact Nm|]. split.
  - intros f' H. symmetry. exact (named_lookup args kw f' E H).
  - intros fs' H. unfold nmeafile. rewrite E. cbv zeta. rewrite H. reflexivity.
Qed.

(* -------------------------------------------------------------- printing *)
Lemma print_shown l : Forall (fun m => match m with Some x => exists raw mode v, parse (MBytes raw) mode v [] = Ok (Some x) | None => True end) l ->
  exists ts, print_all l = (ts, None) /\ Forall2 (fun m t => match m with Some m => str_of_msg m = Ok t | None => t = u "None" end) l ts.
Proof.
  induction 1 as [|m l H F (ts & E & F2)]; [exists []; split; [reflexivity|constructor]|]. cbn [print_all].
  assert (exists t, shown_as m = Ok t /\ match m with Some m => str_of_msg m = Ok t | None => t = u "None" end) as (t & Et & Pt).
  { destruct m as [x|]; [|exists (u "None"); split; reflexivity]. destruct H as (raw & mode & v & P).
    destruct (C109_received raw mode v x P) as (_ & (t & Et & _) & _). exists t. split; exact Et. }
  rewrite Et, E. exists (t :: ts). split; [reflexivity|constructor; assumption].
Qed.
Lemma forall2_map {A B C} (f : A -> B) (P : B -> C -> Prop) l ts : Forall2 P (map f l) ts -> Forall2 (fun a t => P (f a) t) l ts.
Proof. revert ts. induction l as [|a l IH]; intros ts H; inversion H; subst; constructor; [assumption|apply IH; assumption]. Qed.

Lemma forall2_length {A B} {P : A -> B -> Prop} {l ts} : Forall2 P l ts -> length l = length ts.
Proof. induction 1; cbn; congruence. Qed.

(* the program after the file is opened *)
Lemma nmeafile_runs fs args f content hs ts0 :
  Forall (fun a => exists name value, argument a name value) args -> file_named args f -> fs f = Some content ->
  tokens [lf] content ts0 -> happens file_cfg ts0 hs ->
  exists texts, Forall2 line_of (fst (policy_ignore hs)) texts
    /\ nmeafile fs args = match snd (policy_ignore hs) with
       | None => (opening f :: texts ++ closing (length texts), [], Completed)
       | Some e => (opening f :: texts, [], Uncaught e)
       end.
Proof.
  intros F Nm Ff T H. destruct (command_line_total args [] F) as (kw & E). unfold nmeafile. rewrite E, (named_lookup args kw f E Nm). cbv zeta. rewrite Ff.
  destruct (C29_ignore file_cfg (S (length content)) (S (length content)) content ts0 hs T H (Nat.lt_succ_diag_r _) (Nat.lt_succ_diag_r _) eq_refl) as (rest & It).
  rewrite It. pose proof (C33_iterate _ _ _ _ _ _ _ _ _ _ _ It) as Pf.
  destruct (print_shown (map snd (fst (policy_ignore hs)))) as (texts & Ep & F2).
  { apply Forall_map. eapply Forall_impl; [|exact Pf]. intros [raw m] P. cbn [fst snd] in *. destruct m as [x|]; [|exact Logic.I]. exists raw, 0, 1. exact P. }
  rewrite Ep. apply forall2_map in F2. exists texts. split; [exact F2|].
  destruct (snd (policy_ignore hs)) as [e|]; [reflexivity|]. unfold closing. rewrite <- (forall2_length F2). reflexivity.
Qed.
(* Whatever the file holds: the program ends, prints for each delivered item of the file (ReaderSpec: the lines that parse, in order) str() of
   the message and, at the end, their number; an error is never reported to the error handler.  Only an IndexError of C07 can end it early. *)
Theorem C110_prints fs args f content :
  Forall (fun a => exists name value, argument a name value) args -> file_named args f -> fs f = Some content ->
  exists ts hs texts, tokens [lf] content ts /\ happens file_cfg ts hs /\ Forall2 line_of (fst (policy_ignore hs)) texts
    /\ ((snd (policy_ignore hs) = None /\ nmeafile fs args = (opening f :: texts ++ closing (length texts), [], Completed))
        \/ (snd (policy_ignore hs) = Some IndexError /\ nmeafile fs args = (opening f :: texts, [], Uncaught IndexError))).
Proof.
  intros F Nm Ff. destruct (C29_history file_cfg content) as (ts & hs & T & H & _).
  destruct (nmeafile_runs fs args f content hs ts F Nm Ff T H) as (texts & F2 & E). exists ts, hs, texts. split; [exact T|]. split; [exact H|]. split; [exact F2|].
  destruct (snd (policy_ignore hs)) as [e|] eqn:X; [right|left; split; [reflexivity|exact E]].
  assert (e = IndexError) as ->; [|split; [reflexivity|exact E]].
  clear - X H. revert X. induction H as [|raw m ts hs P H IH|raw e0 ts hs P Pe H IH|raw e0 ts hs P Pe H IH|c ts hs B H IH|c ts hs B H IH|ts hs H IH]; cbn [policy_ignore].
  - discriminate.
  - destruct (policy_ignore hs) as [l x]. exact IH.
  - exact IH.
  - cbn [snd]. intros Q. injection Q as ->. destruct (C07_exceptions _ _ _ _ _ P) as [->|[->|[[-> _]|[_ (k & d & [] & _)]]]]; [elim Pe; right; right; left; reflexivity|elim Pe; right; left; reflexivity|reflexivity].
  - exact IH.
  - exact IH.
  - exact IH.
Qed.
(* The file is missing: nothing but the announcement, and the exception. *)
Theorem C110_missing fs args f :
  Forall (fun a => exists name value, argument a name value) args -> file_named args f -> fs f = None ->
  nmeafile fs args = ([opening f], [], FileNotFound).
Proof.
  intros F Nm Ff. destruct (command_line_total args [] F) as (kw & E). unfold nmeafile. rewrite E, (named_lookup args kw f E Nm). cbv zeta. rewrite Ff. reflexivity.
Qed.
(* A file of sentences with anything but "$" between them: each is shown once, in order, and counted. *)
Theorem C110_all_shown fs args f gaps lines ms texts tail :
  Forall (fun a => exists name value, argument a name value) args -> file_named args f ->
  fs f = Some (interleave gaps lines ++ tail) -> length gaps = length lines ->
  Forall (fun g => ~ In dollar g) gaps -> ~ In dollar tail -> Forall line_shape lines ->
  Forall2 (fun raw m => parse (MBytes raw) 0 1 [] = Ok (Some m)) lines ms -> Forall2 (fun m t => str_of_msg m = Ok t) ms texts ->
  nmeafile fs args = (opening f :: texts ++ closing (length lines), [], Completed).
Proof.
  intros F Nm Ff Lg Fg Ft Fl Fm F2. set (content := interleave gaps lines ++ tail) in *.
  destruct (command_line_total args [] F) as (kw & E). unfold nmeafile. rewrite E, (named_lookup args kw f E Nm). cbv zeta. rewrite Ff.
  assert (Forall2 (parses file_cfg) lines (map Some ms)) as Fp by (clear - Fm; induction Fm; constructor; assumption).
  change (fiterate file_cfg (S (length content)) (S (length content)) content) with (fiterate file_cfg (S (length content)) (S (length content)) (interleave gaps lines ++ tail)).
  rewrite (C27_all_delivered file_cfg (S (length content)) (S (length content)) gaps lines (map Some ms) tail Lg Fg Ft Fl Fp (Nat.lt_succ_diag_r _) (Nat.lt_succ_diag_r _)).
  assert (length lines = length (map Some ms)) as Ln by (rewrite map_length; exact (forall2_length Fm)).
  assert (forall (a : list bytes) (b : list (option msg)), length a = length b -> map snd (combine a b) = b) as Sc.
  { clear. induction a as [|x a IH]; intros [|y b] L; try discriminate L; [reflexivity|]. cbn. f_equal. apply IH. injection L as L. exact L. }
  rewrite (Sc lines (map Some ms) Ln). assert (print_all (map Some ms) = (texts, None)) as ->.
  { clear - F2. induction F2 as [|m t ms texts Et F2 IH]; [reflexivity|]. cbn [map print_all shown_as]. rewrite Et, IH. reflexivity. }
  unfold closing, opening. rewrite combine_length, <- Ln, Nat.min_id. reflexivity.
Qed.
(* A line that cannot be parsed leaves no trace in what is printed. *)
Theorem C110_hidden fs fs' args f before raw after e :
  Forall (fun a => exists name value, argument a name value) args -> file_named args f ->
  whole before -> line_shape raw -> parse (MBytes raw) 0 1 [] = Raise e -> protocol_error e ->
  fs f = Some (before ++ raw ++ after) -> fs' f = Some (before ++ after) ->
  nmeafile fs args = nmeafile fs' args.
Proof.
  intros F Nm W Sh P Pe E1 E2. destruct (command_line_total args [] F) as (kw & E). unfold nmeafile. rewrite E, (named_lookup args kw f E Nm). cbv zeta. rewrite E1, E2.
  set (c1 := before ++ raw ++ after) in *. set (c2 := before ++ after) in *. assert (length c2 <= length c1)%nat as Le by (unfold c1, c2; rewrite !app_length; lia).
  destruct (C30_resync file_cfg (S (length c1)) (S (length c1)) before raw after e W Sh P Pe (or_introl eq_refl) (Nat.lt_succ_diag_r _) (Nat.lt_succ_diag_r _)) as (items & x & ev & ev' & r & r' & I1 & I2).
  fold c1 in I1. fold c2 in I2.
  destruct (C29_history file_cfg c1) as (ts1 & hs1 & T1 & H1 & _). destruct (C29_history file_cfg c2) as (ts2 & hs2 & T2 & H2 & _).
  destruct (C29_ignore file_cfg (S (length c1)) (S (length c1)) c1 ts1 hs1 T1 H1 (Nat.lt_succ_diag_r _) (Nat.lt_succ_diag_r _) eq_refl) as (r1 & J1).
  destruct (C29_ignore file_cfg (S (length c1)) (S (length c1)) c2 ts2 hs2 T2 H2 ltac:(lia) ltac:(lia) eq_refl) as (r2 & J2).
  destruct (C29_ignore file_cfg (S (length c2)) (S (length c2)) c2 ts2 hs2 T2 H2 (Nat.lt_succ_diag_r _) (Nat.lt_succ_diag_r _) eq_refl) as (r3 & J3).
  rewrite J1 in I1. rewrite J2 in I2. injection I1 as A1 A2 _ _. injection I2 as B1 B2 _ _. rewrite J1, J3, A1, A2, B1, B2. reflexivity.
Qed.
(* ------------------------------------------------------------- examples *)
Definition ex_log : bytes := ex_line ++ [181%N; 98%N] ++ ex_bad ++ ex_line.
Definition ex_files (name : pystr) : option bytes := if str_eqb name (u "a.log") then Some ex_log else if str_eqb name (u "b.log") then Some (ex_line ++ u "$PUBX*1F" ++ [13%N; 10%N] ++ ex_line) else None.
Definition ex_text : pystr := Eval vm_compute in match parse (MBytes ex_line) 0 1 [] with Ok (Some m) => match str_of_msg m with Ok t => t | Raise _ => [] end | _ => [] end.
Example C110_example :
  nmeafile ex_files [u "x=y"; u "filename=a.log"] = ([opening (u "a.log"); ex_text; ex_text] ++ closing 2, [], Completed)
  /\ file_named [u "x=y"; u "filename=a.log"] (u "a.log") /\ ex_text <> [] /\ argument (u "x=y") (u "x") (u "y").
Proof.
  split; [vm_compute; reflexivity|]. split; [left; exists [u "x=y"], (u "filename=a.log"), []; split; [reflexivity|]; split; [|intros ? ? ? []]|].
  - apply split_argument. vm_compute. reflexivity.
  - split; [discriminate|]. apply split_argument. vm_compute. reflexivity.
Qed.
(* A line "$PUBX*1F" (checksum right, no fields) in the log ends the program: what follows is not shown. *)
Theorem C110_pubx_refuted :
  nmeafile ex_files [u "filename=b.log"] = ([opening (u "b.log"); ex_text], [], Uncaught IndexError)
  /\ nmeafile ex_files [u "filename=a=b.log"] = ([], [], Uncaught ValueError).
Proof. split; [vm_compute; reflexivity|vm_compute; reflexivity]. Qed.
