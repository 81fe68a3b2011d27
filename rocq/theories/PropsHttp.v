(* C108: what the web server of the examples sends. *)
From Coq Require Import Lia.
From Verif Require Import Message BaseLemmas TextLemmas NumLemmas PropsWrite XmlProofs JsonSpec JsonProofs Server PropsServer Http.
Local Open Scope Z_scope.

(* the pages: request path, the path whose type is guessed, file *)
Definition pages : list (pystr * pystr * pystr) :=
  [(u "/", u "/index.html", u "index.html"); (u "/index.html", u "/index.html", u "index.html"); (u "/scripts.js", u "/scripts.js", u "scripts.js");
   (u "/styles.css", u "/styles.css", u "styles.css"); (u "/favicon.ico", u "/favicon.ico", u "favicon.ico")].
Definition page_files : list pystr := [u "index.html"; u "scripts.js"; u "styles.css"; u "favicon.ico"].
Definition known_paths : list pystr := [u "/"; u "/index.html"; u "/scripts.js"; u "/styles.css"; u "/favicon.ico"; u "/gps"].

(* every end of line as a line feed *)
Inductive unix_lines : list N -> list N -> Prop :=
| ul_nil : unix_lines [] []
| ul_crlf b b' : unix_lines b b' -> unix_lines (13%N :: 10%N :: b) (10%N :: b')
| ul_cr b b' : hd 0%N b <> 10%N -> unix_lines b b' -> unix_lines (13%N :: b) (10%N :: b')
| ul_char c b b' : c <> 13%N -> unix_lines b b' -> unix_lines (c :: b) (c :: b').

Lemma unix_newlines n : forall s, (length s <= n)%nat -> unix_lines s (newlines s).
Proof.
  induction n as [|n IH]; intros s L; destruct s as [|c r]; try (cbn in L; lia); [constructor|constructor|]. cbn [length] in L. cbn [newlines].
  destruct (N.eqb_spec c 13) as [->|Nc]; [|apply ul_char; [exact Nc|apply IH; lia]].
  destruct r as [|d r']; [apply ul_cr; [discriminate|constructor]|]. cbn [length] in L. destruct (N.eqb_spec d 10) as [->|Nd].
  - apply ul_crlf, IH. lia.
  - apply ul_cr; [exact Nd|apply IH; cbn [length]; lia].
Qed.
Lemma unix_app s : Forall (fun c => c <> 13%N) s -> forall b b', unix_lines b b' -> unix_lines (s ++ b) (s ++ b').
Proof. induction 1 as [|c s Nc F IH]; intros b b' H; [exact H|]. cbn [app]. apply ul_char; [exact Nc|apply IH, H]. Qed.
Lemma unix_same s : Forall (fun c => c <> 13%N) s -> forall b, unix_lines s b -> b = s.
Proof.
  induction 1 as [|c s Nc F IH]; intros b H; inversion H; subst; try (elim Nc; reflexivity); [reflexivity|]. f_equal. apply IH. assumption.
Qed.
Lemma char_high c d : (c <? 128)%N = false -> In d (utf8_char c) -> (128 <= d)%N.
Proof.
  intros H. unfold utf8_char. rewrite H. apply N.ltb_ge in H.
  destruct (c <? 2048)%N; [|destruct (c <? 65536)%N]; cbn [In]; intros I0; repeat (destruct I0 as [<-|I0]; [lia|]); destruct I0.
Qed.
Lemma char_low c : (c <? 128)%N = true -> utf8_char c = [c].
Proof. intros H. unfold utf8_char. rewrite H. reflexivity. Qed.
Lemma char_first c : c <> 10%N -> forall r, hd 0%N (utf8_char c ++ r) <> 10%N.
Proof.
  intros Nc r. destruct (c <? 128)%N eqn:E.
  - rewrite (char_low c E). cbn. exact Nc.
  - pose proof (char_high c) as H. specialize (H (hd 0%N (utf8_char c ++ r)) E).
    assert (In (hd 0%N (utf8_char c ++ r)) (utf8_char c)) as I0 by (unfold utf8_char; rewrite E; destruct (c <? 2048)%N; [|destruct (c <? 65536)%N]; left; reflexivity).
    specialize (H I0). lia.
Qed.
(* ends of lines are the same bytes before and after decoding *)
Lemma unix_encoded s t : unix_lines s t -> unix_lines (flat_map utf8_char s) (flat_map utf8_char t).
Proof.
  induction 1 as [|b b' H IH|b b' Nh H IH|c b b' Nc H IH]; cbn [flat_map].
  - constructor.
  - exact (ul_crlf _ _ IH).
  - apply (ul_cr (flat_map utf8_char b) (flat_map utf8_char b')); [|exact IH]. destruct b as [|d r]; [discriminate|]. cbn [hd] in Nh. cbn [flat_map]. apply char_first, Nh.
  - apply unix_app; [|exact IH]. destruct (c <? 128)%N eqn:E; [rewrite (char_low c E); constructor; [exact Nc|constructor]|].
    apply Forall_forall. intros d I0. apply (char_high c d E) in I0. lia.
Qed.
Lemma unix_scalar s t : unix_lines s t -> forallb is_scalar s = true -> forallb is_scalar t = true.
Proof.
  induction 1 as [|b b' H IH|b b' Nh H IH|c b b' Nc H IH]; cbn [forallb]; intros F; [reflexivity| | |].
  - apply andb_true_iff in F as [_ F]. apply andb_true_iff in F as [_ F]. exact (IH F).
  - apply andb_true_iff in F as [_ F]. exact (IH F).
  - apply andb_true_iff in F as [F1 F]. rewrite F1. exact (IH F).
Qed.
Lemma served b s : utf8_decode b = Some s -> exists b', utf8_encode (newlines s) = Ok b' /\ unix_lines b b'.
Proof.
  intros D. apply utf8_decode_iff in D. unfold utf8_encode in D. destruct (forallb is_scalar s) eqn:F; [|discriminate D]. injection D as <-.
  pose proof (unix_newlines (length s) s (Nat.le_refl _)) as U. exists (flat_map utf8_char (newlines s)).
  split; [unfold utf8_encode; rewrite (unix_scalar s _ U F); reflexivity|apply unix_encoded, U].
Qed.

Lemma pages_step fs guess gps path as_path file mt : In (path, as_path, file) pages -> guess as_path = Ok mt ->
  do_GET fs guess gps path = match read_text fs file with
    | inr f => ([], Some f)
    | inl t => match utf8_encode t with Ok b => ([Head 200 mt; Body b], None) | Raise e => ([Head 200 mt], Some (Failed e)) end
    end.
Proof.
  intros I0 G. unfold do_GET. cbn [pages In] in I0.
  repeat (destruct I0 as [I0|I0]; [injection I0 as <- <- <-; cbv zeta;
    match goal with |- context [guess ?p] => replace (guess p) with (Ok mt : result pystr) by (symmetry; exact G) end;
    match goal with |- context [str_in ?p ?l] => replace (str_in p l) with true by reflexivity end;
    match goal with |- context [read_text fs (tl ?p)] => let v := eval vm_compute in (tl p) in change (tl p) with v end;
    match goal with |- _ = match read_text fs ?n with _ => _ end => let v := eval vm_compute in n in change n with v end;
    destruct (read_text fs _) as [t|f]; reflexivity|]).
  destruct I0.
Qed.

(* The page of a path is its file, the encoding untouched, with every end of line as a line feed. *)
Theorem C108_file fs guess gps path as_path file mt b s :
  In (path, as_path, file) pages -> guess as_path = Ok mt -> fs file = Some b -> utf8_encode s = Ok b ->
  exists b', unix_lines b b' /\ do_GET fs guess gps path = ([Head 200 mt; Body b'], None).
Proof.
  intros I0 G F D. apply utf8_decode_iff in D. destruct (served b s D) as (b' & E & U). exists b'. split; [exact U|].
  rewrite (pages_step fs guess gps path as_path file mt I0 G). unfold read_text. rewrite F, D, E. reflexivity.
Qed.
(* byte for byte, if no carriage return is in it *)
Theorem C108_verbatim fs guess gps path as_path file mt b s :
  In (path, as_path, file) pages -> guess as_path = Ok mt -> fs file = Some b -> utf8_encode s = Ok b -> ~ In 13%N b ->
  do_GET fs guess gps path = ([Head 200 mt; Body b], None).
Proof.
  intros I0 G F D Nc. destruct (C108_file fs guess gps path as_path file mt b s I0 G F D) as (b' & U & ->).
  assert (b' = b) as -> by (apply unix_same; [|exact U]; apply Forall_forall; intros c I1 ->; exact (Nc I1)). reflexivity.
Qed.
(* A file that is missing or is not UTF-8: the request is not answered at all. *)
Theorem C108_unreadable fs guess gps path as_path file :
  In (path, as_path, file) pages -> (fs file = None \/ exists b, fs file = Some b /\ forall s, utf8_encode s <> Ok b) ->
  exists f, do_GET fs guess gps path = ([], Some f).
Proof.
  intros I0 F. destruct (guess as_path) as [mt|e] eqn:G.
  - rewrite (pages_step fs guess gps path as_path file mt I0 G). unfold read_text. destruct F as [->|(b & -> & N0)]; [eexists; reflexivity|].
    apply utf8_decode_None in N0. rewrite N0. eexists. reflexivity.
  - exists (Failed e). cbn [pages In] in I0. repeat (destruct I0 as [I0|I0]; [injection I0 as <- <- <-; unfold do_GET; cbv zeta; match goal with |- context [guess ?p] => replace (guess p) with (Raise e : result pystr) by (symmetry; exact G)end; reflexivity|]). destruct I0.
Qed.
Lemma not_known path : ~ In path known_paths -> str_eqb path (u "/") = false /\ str_in path [HTML; JS; CSS; ICON] = false /\ str_eqb path (u "/gps") = false.
Proof.
  intros Nk. assert (forall p, In p known_paths -> str_eqb path p = false) as H.
  { intros p I0. destruct (str_eqb path p) eqn:E; [|reflexivity]. apply str_eqb_eq in E as ->. elim (Nk I0). }
  split; [apply H; left; reflexivity|]. split; [|apply H; do 5 right; left; reflexivity].
  unfold str_in. cbn [existsb]. rewrite (H HTML), (H JS), (H CSS), (H ICON); [reflexivity|..]; unfold known_paths; cbn [In]; [do 4 right; left|do 3 right; left|do 2 right; left|do 1 right; left]; reflexivity.
Qed.
(* Any other path is refused with status 501, whatever files there are. *)
Theorem C108_unknown fs guess gps path mt :
  ~ In path known_paths -> guess path = Ok mt -> do_GET fs guess gps path = ([Head 501 mt; Body (u "Unknown Request")], None).
Proof.
  intros Nk G. destruct (not_known path Nk) as (A & B & C). unfold do_GET. rewrite A, G, B, C. reflexivity.
Qed.
(* No other file is ever looked at: the answer depends on these four only. *)
Theorem C108_confined fs fs' guess gps path :
  (forall name, In name page_files -> fs name = fs' name) -> do_GET fs guess gps path = do_GET fs' guess gps path.
Proof.
  intros H. assert (forall name, In name page_files -> read_text fs name = read_text fs' name) as R by (intros name I0; unfold read_text; rewrite (H name I0); reflexivity).
  unfold do_GET. set (p := if str_eqb path (u "/") then HTML else path). destruct (guess p) as [mt|e]; [|reflexivity]. cbv zeta.
  destruct (str_in p [HTML; JS; CSS; ICON]) eqn:E; [|reflexivity]. rewrite (R (tl p)); [reflexivity|].
  unfold str_in in E. apply existsb_exists in E as (q & I0 & E). apply str_eqb_eq in E as ->. cbn [In] in I0.
  repeat (destruct I0 as [<-|I0]; [|]); try destruct I0; [left|right; left|do 2 right; left|do 3 right; left]; reflexivity.
Qed.

(* ------------------------------------------------------------------ the data *)
Definition low (c : N) : Prop := (c < 128)%N.
Ltac low_literal := apply Forall_forall; intros ? ?; unfold low; cbn in *; repeat match goal with H : _ \/ _ |- _ => destruct H as [<-|H] end; (lia || tauto).
Lemma low_digits l : Forall (fun d => (d < 10)%N) l -> Forall low (map dec_char l).
Proof. intros F. apply Forall_map. eapply Forall_impl; [|exact F]. unfold low, dec_char. intros d Hd. cbn beta in Hd. lia. Qed.
Lemma low_dec n : Forall low (dec_of_N n).
Proof. apply low_digits, N_digits_lt. lia. Qed.
Lemma low_zeros n : Forall low (repeat 48%N n).
Proof. apply Forall_forall. intros c H. apply repeat_spec in H as ->. unfold low. lia. Qed.
Lemma low_zfill n s : Forall low s -> Forall low (zfill n s).
Proof. intros F. unfold zfill. apply Forall_app. split; [apply low_zeros|exact F]. Qed.
Lemma low_repr ds pt : Forall (fun d => (d < 10)%N) ds -> Forall low (repr_text ds pt).
Proof.
  intros F. apply low_digits in F. unfold repr_text. cbv zeta. set (c := map dec_char ds) in *.
  destruct (_ || _).
  - apply Forall_app. split; [|apply Forall_app; split; [destruct (_ <? _)%Z; low_literal|apply low_zfill, low_dec]].
    destruct c as [|d [|d' r]]; [constructor|exact F|]. inversion F as [|? ? F1 F2]; subst. constructor; [exact F1|]. constructor; [unfold low; lia|exact F2].
  - destruct (_ <=? _)%Z; [|destruct (_ <=? _)%Z].
    + apply Forall_app. split; [low_literal|]. apply Forall_app. split; [apply low_zeros|exact F].
    + apply Forall_app. split; [exact F|]. apply Forall_app. split; [apply low_zeros|low_literal].
    + rewrite <- (firstn_skipn (Z.to_nat pt) c) in F. apply Forall_app in F as [F1 F2]. apply Forall_app. split; [exact F1|]. apply Forall_app. split; [low_literal|exact F2].
Qed.
Lemma low_float x : Forall low (str_of_float x).
Proof.
  destruct x as [s|s| |s m e]; cbn [str_of_float]; [destruct s; low_literal|destruct s; low_literal|low_literal|].
  cbv zeta. assert (Forall low (match shortest 17 m e (dec_point m e) 1 with
    | Some (d, ex) => let ds := N_digits 10 d in repr_text (strip_zeros ds) (ex + Z.of_nat (length ds)) | None => u "?" end)) as G.
  { destruct (shortest _ _ _ _ _) as [[d ex]|]; [|low_literal]. apply low_repr. unfold strip_zeros.
    apply Forall_rev, lstrip_Forall, Forall_rev, N_digits_lt. lia. }
  destruct s; [constructor; [unfold low; lia|exact G]|exact G].
Qed.
Lemma low_json_u c : Forall low (json_u c).
Proof.
  unfold json_u. cbv zeta. apply Forall_app. split; [low_literal|]. apply Forall_app. split; [apply low_zeros|].
  apply Forall_map. eapply Forall_impl; [|apply (N_digits_lt 16); lia]. unfold low, hex_char_lower. intros d Hd. destruct (N.ltb_spec d 10); lia.
Qed.
Lemma low_json_string s : Forall low (json_string s).
Proof.
  unfold json_string. apply Forall_app. split; [low_literal|]. apply Forall_app. split; [|low_literal].
  apply Forall_flat_map, Forall_forall. intros c _. unfold json_escape.
  repeat (match goal with |- Forall _ (if ?b then _ else _) => destruct b eqn:? end; [try low_literal|]).
  - apply low_json_u.
  - cbv zeta. apply Forall_app. split; apply low_json_u.
Qed.
Lemma low_json_value v t : json_value v = Ok t -> Forall low t.
Proof.
  destruct v as [s|z|x|b| |d|t0|d t0]; cbn [json_value]; intros E; try discriminate E.
  - injection E as <-. apply low_json_string.
  - unfold str_of_Z in E. cbv zeta in E. destruct (_ <? _)%N; [discriminate E|]. destruct (z <? 0); injection E as <-; [constructor; [unfold low; lia|]|]; apply low_dec.
  - injection E as <-. destruct x as [s|s| |s m e]; [apply low_float|destruct s; low_literal|low_literal|apply low_float].
  - injection E as <-. destruct b; low_literal.
  - injection E as <-. low_literal.
Qed.
Lemma ok_inj (a b : pystr) : Ok a = Ok b -> a = b.
Proof. intros H. injection H as H. exact H. Qed.
Lemma low_json_items d : forall t, json_items d = Ok t -> Forall low t.
Proof.
  induction d as [|[k v] r IH]; cbn [json_items]; intros t E; [injection E as <-; constructor|].
  destruct (json_value v) as [tv|] eqn:V; [|discriminate E]. cbn [bind] in E. destruct (json_items r) as [ts|]; [|discriminate E]. cbn [bind] in E. apply ok_inj in E as <-.
  apply Forall_app. split; [apply low_json_string|]. apply Forall_app. split; [low_literal|]. apply Forall_app. split; [exact (low_json_value v tv V)|].
  apply Forall_app. split; [destruct r; low_literal|exact (IH ts eq_refl)].
Qed.
Lemma gps_low rs k t : get_data rs k = Ok t -> Forall low t.
Proof.
  unfold get_data. destruct (json_items (gpsdata rs k)) as [ts|] eqn:E; [|discriminate]. cbn [bind]. intros H. apply ok_inj in H as <-.
  apply (Forall_app low (u "{") (ts ++ u "}")). split; [low_literal|]. apply Forall_app. split; [exact (low_json_items _ _ E)|low_literal].
Qed.
(* /gps, whatever files there are: status 200, application/json, and the JSON object of C102 in ASCII. *)
Theorem C108_gps fs guess rs k mt :
  Forall parsed (messages rs) -> guess (u "/gps") = Ok mt ->
  exists t, do_GET fs guess (get_data rs k) (u "/gps") = ([Head 200 (u "application/json"); Body t], None)
    /\ Forall (fun c => (c < 128)%N) t
    /\ ((forall entry x, In (entry, VFloat x) (gpsdata rs k) -> is_fin x = true) -> json_object (gpsdata rs k) t).
Proof.
  intros P G. destruct (C102_json rs k P) as (t & E & J). exists t. pose proof (gps_low rs k t E) as L. split; [|split; [exact L|exact J]].
  rewrite E. unfold do_GET. replace (str_eqb (u "/gps") (u "/")) with false by reflexivity. rewrite G.
  replace (str_in (u "/gps") [HTML; JS; CSS; ICON]) with false by reflexivity. replace (str_eqb (u "/gps") (u "/gps")) with true by reflexivity.
  rewrite ascii_utf8; [reflexivity|]. apply forallb_forall. intros c I0. apply N.ltb_lt. exact (proj1 (Forall_forall _ _) L c I0).
Qed.
(* Every request is answered in full or not at all. *)
Theorem C108_all_or_nothing fs guess rs k path l f :
  Forall parsed (messages rs) -> do_GET fs guess (get_data rs k) path = (l, f) ->
  (f = None /\ exists rc mt b, l = [Head rc mt; Body b] /\ (rc = 200 <-> In path known_paths) /\ (rc = 501 <-> ~ In path known_paths)) \/ (f <> None /\ l = []).
Proof.
  intros P E. destruct (in_dec (list_eq_dec N.eq_dec) path known_paths) as [K|K].
  - destruct (str_eqb path (u "/gps")) eqn:Eg.
    + apply str_eqb_eq in Eg as ->. destruct (guess (u "/gps")) as [mt|e] eqn:G.
      * destruct (C108_gps fs guess rs k mt P G) as (t & D & _). rewrite D in E. injection E as <- <-. left. split; [reflexivity|].
        exists 200, (u "application/json"), t. split; [reflexivity|]. split; [tauto|]. split; [discriminate|intros H; elim (H K)].
      * right. unfold do_GET in E. replace (str_eqb (u "/gps") (u "/")) with false in E by reflexivity. rewrite G in E. injection E as <- <-. split; [discriminate|reflexivity].
    + assert (exists as_path file, In (path, as_path, file) pages) as (as_path & file & I0).
      { unfold known_paths in K. cbn [In] in K. repeat (destruct K as [<-|K]; [|]); [..|destruct K]; try discriminate Eg; eexists _, _; unfold pages; cbn [In];
          [left|right; left|do 2 right; left|do 3 right; left|do 4 right; left]; reflexivity. }
      destruct (guess as_path) as [mt|e] eqn:G.
      * rewrite (pages_step _ _ _ _ _ _ _ I0 G) in E. unfold read_text in E. destruct (fs file) as [b|]; [|injection E as <- <-; right; split; [discriminate|reflexivity]].
        destruct (utf8_decode b) as [s|] eqn:D; [|injection E as <- <-; right; split; [discriminate|reflexivity]].
        destruct (served b s D) as (b' & E' & _). rewrite E' in E. injection E as <- <-. left. split; [reflexivity|]. exists 200, mt, b'.
        split; [reflexivity|]. split; [tauto|]. split; [discriminate|intros H; elim (H K)].
      * right. assert (do_GET fs guess (get_data rs k) path = ([], Some (Failed e))) as Q.
        { cbn [pages In] in I0. repeat (destruct I0 as [I0|I0]; [injection I0 as <- <- <-; unfold do_GET; cbv zeta; match goal with |- context [guess ?p] => replace (guess p) with (Raise e : result pystr) by (symmetry; exact G)end; reflexivity|]). destruct I0. }
        rewrite Q in E. injection E as <- <-. split; [discriminate|reflexivity].
  - destruct (guess path) as [mt|e] eqn:G.
    + rewrite (C108_unknown fs guess (get_data rs k) path mt K G) in E. injection E as <- <-. left. split; [reflexivity|]. exists 501, mt, (u "Unknown Request").
      split; [reflexivity|]. split; [split; [discriminate|intros H; elim (K H)]|tauto].
    + destruct (not_known path K) as (A & _). unfold do_GET in E. rewrite A, G in E. injection E as <- <-. right. split; [discriminate|reflexivity].
Qed.

(* ------------------------------------------------------------------ examples *)
Definition ex_fs (name : pystr) : option bytes :=
  if str_eqb name (u "index.html") then Some (u "<p>" ++ [13; 10; 195; 169; 13; 10]%N ++ u "</p>") else if str_eqb name (u "secret.txt") then Some (u "secret") else None.
Definition ex_guess (_ : pystr) : result pystr := Ok (u "text/html").
Example C108_example :
  do_GET ex_fs ex_guess (get_data ex_readings 16) (u "/") = ([Head 200 (u "text/html"); Body (u "<p>" ++ [10; 195; 169; 10]%N ++ u "</p>")], None)
  /\ utf8_encode (u "<p>" ++ [13; 10; 233; 13; 10]%N ++ u "</p>") = Ok (u "<p>" ++ [13; 10; 195; 169; 13; 10]%N ++ u "</p>")
  /\ do_GET ex_fs ex_guess (get_data ex_readings 16) (u "/styles.css") = ([], Some NoFile)
  /\ do_GET ex_fs ex_guess (get_data ex_readings 16) (u "/secret.txt") = ([Head 501 (u "text/html"); Body (u "Unknown Request")], None)
  /\ ~ In (u "/secret.txt") known_paths /\ Forall parsed (messages ex_readings)
  /\ do_GET ex_fs ex_guess (get_data ex_readings 2) (u "/gps") =
     ([Head 200 (u "application/json"); Body (u "{""date"": ""2021-03-06"", ""time"": ""10:36:07"", ""latitude"": 0.0, ""longitude"": 0.0, ""elevation"": 0.0, ""speed"": 0.0, ""track"": 0, ""siv"": 0, ""pdop"": 99, ""hdop"": 99, ""vdop"": 99, ""fix"": 0}")], None).
Proof.
  split; [vm_compute; reflexivity|]. split; [vm_compute; reflexivity|]. split; [vm_compute; reflexivity|]. split; [vm_compute; reflexivity|].
  split; [intros H; unfold known_paths in H; cbn [In] in H; repeat (destruct H as [H|H]; [apply (f_equal (fun s => str_eqb s (u "/secret.txt"))) in H; vm_compute in H; discriminate H|]); exact H|].
  split; [apply C102_example|]. vm_compute. reflexivity.
Qed.
(* The icon that comes with the server (favicon.ico, its first 84 bytes here) is not UTF-8: asking for it, as the page itself does
   and every browser by itself, gets no answer. *)
Definition icon_start : bytes := [0; 0; 1; 0; 1; 0; 16; 16; 0; 0; 1; 0; 32; 0; 104; 4; 0; 0; 22; 0; 0; 0; 40; 0; 0; 0; 16; 0; 0; 0; 32; 0; 0; 0; 1; 0; 32; 0; 0; 0; 0; 0; 0; 0; 0; 0; 0; 0; 0; 0; 0; 0; 0; 0; 0; 0; 0; 0; 0; 0; 0; 0; 0; 0; 0; 0; 0; 0; 0; 0; 0; 0; 0; 0; 0; 0; 0; 0; 2; 2; 219; 34; 0; 0]%N.
Theorem C108_icon_refuted fs guess gps mt rest :
  guess (u "/favicon.ico") = Ok mt -> fs (u "favicon.ico") = Some (icon_start ++ rest) ->
  do_GET fs guess gps (u "/favicon.ico") = ([], Some NotText).
Proof.
  intros G F. rewrite (pages_step fs guess gps (u "/favicon.ico") (u "/favicon.ico") (u "favicon.ico") mt); [|do 4 right; left; reflexivity|exact G].
  unfold read_text. rewrite F. replace (utf8_decode (icon_start ++ rest)) with (None : option pystr) by (vm_compute; reflexivity). reflexivity.
Qed.
