(* Theorems about NMEAReader over chunked connections (C73) and over connections
   that fail now and then (C74) *)
From Verif Require Import Message Reader Socket BaseLemmas TextLemmas NumLemmas Spec ReaderSpec ReaderProofs SocketSpec SocketProofs ChunkProofs PropsReader PropsSocket.
From Coq Require Import Lia.
Local Open Scope Z_scope.

(* a steady socket of any encoding whose data can be decoded, and all it will hand out *)
Definition gives (k : sock) (s : bytes) : Prop :=
  steady k /\ (Z.testbit (k_encoding k) 0 = true -> clean (k_zlib k) (k_encoding k) (k_partial k) (k_pending k))
  /\ k_buffer k ++ fst (received (k_zlib k) (k_encoding k) (k_partial k) (k_pending k)) = s.

Lemma clean_app z enc a b : forall p, clean z enc p (a ++ b) -> clean z enc (snd (received z enc p a)) b.
Proof.
  induction a as [|r a IH]; intros p H; [exact H|]. destruct r as [[|x d]|]; cbn [app clean received] in *; try (apply IH; exact H).
  destruct H as (_ & H). apply IH in H. destruct (arrive z enc p (x :: d)) as [b1 p1]. cbn [snd] in H.
  destruct (received z enc p1 a) as [b2 p2]. exact H.
Qed.
Lemma gives_not_raised k k' s e used : gives k s -> k_pending k = used ++ k_pending k' -> ~ raised k e used.
Proof.
  intros (_ & Cl & _) P R. pose proof R as (Bt & _). specialize (Cl Bt). rewrite P in Cl. exact (clean_not_raised _ _ _ _ _ _ Cl R).
Qed.
Lemma gives_split k k' used d s :
  gives k s -> k_pending k = used ++ k_pending k' ->
  k_buffer k ++ fst (received (k_zlib k) (k_encoding k) (k_partial k) used) = d ++ k_buffer k' ->
  k_partial k' = snd (received (k_zlib k) (k_encoding k) (k_partial k) used) ->
  k_encoding k' = k_encoding k -> k_zlib k' = k_zlib k ->
  exists s', s = d ++ s' /\ gives k' s' /\ Forall (fun r => exists x, r = RData x /\ x <> []) used.
Proof.
  intros (St & Cl & G) P B Pa En Zl. unfold steady in St. rewrite P in St, G, Cl. apply Forall_app in St as [Su Sp].
  rewrite received_app in G.
  assert (Z.testbit (k_encoding k') 0 = true -> clean (k_zlib k') (k_encoding k') (k_partial k') (k_pending k')) as Cl'.
  { rewrite En, Zl, Pa. intros Bt. exact (clean_app _ _ _ _ _ (Cl Bt)). }
  destruct (received (k_zlib k) (k_encoding k) (k_partial k) used) as [b1 p1]. cbn [fst snd] in *.
  exists (k_buffer k' ++ fst (received (k_zlib k') (k_encoding k') (k_partial k') (k_pending k'))).
  split; [|split; [split; [exact Sp|split; [exact Cl'|reflexivity]]|exact Su]].
  rewrite En, Zl, Pa. destruct (received (k_zlib k) (k_encoding k) p1 (k_pending k')) as [b2 p2]. cbn [fst] in *.
  rewrite app_assoc, <- B, <- app_assoc. symmetry. exact G.
Qed.
Lemma gives_end k s : gives k s -> k_pending k = [] -> k_buffer k = [] -> s = [].
Proof. intros (_ & _ & G) P B. rewrite P, B in G. exact (eq_sym G). Qed.

Lemma gives_read1 k s : gives k s ->
  exists d k', sock_read 1 k = (Ok d, k') /\ match s with [] => d = [] /\ gives k' [] | b :: r => d = [b] /\ gives k' r end.
Proof.
  intros G. destruct (sock_read 1 k) as [d k'] eqn:E.
  destruct (read_spec _ _ _ _ E) as (used & P & B & Pa & En & Zl & C).
  destruct (gives_split _ _ _ _ _ G P B Pa En Zl) as (s' & -> & G' & Su).
  destruct C as [(x & -> & C)|[(-> & Lb & C)|(e & _ & C)]]; [| |destruct (gives_not_raised k k' _ e used G P C)].
  - exists x, k'. split; [reflexivity|]. destruct x as [|b [|? ?]]; try discriminate. split; [reflexivity|exact G'].
  - exists [], k'. split; [reflexivity|]. destruct C as [C|(u0 & r & -> & Fr)]; [|exact (steady_failure _ _ _ Su Fr)].
    assert (s' = []) as -> by (apply (gives_end k' s' G' C); destruct (k_buffer k'); [reflexivity|cbn in Lb; lia]).
    split; [reflexivity|exact G'].
Qed.
Lemma gives_readline k s : gives k s ->
  exists line rest k', sock_readline k = (Ok line, k') /\ first_line crlf s line rest /\ gives k' rest.
Proof.
  intros G. destruct (readline_spec k) as (r0 & d & k' & used & E & P & B & Pa & En & Zl & C0).
  assert (r0 = Ok d /\ ((exists body, d = body ++ [cr; lf] /\ forall a b, d = a ++ [cr; lf] ++ b -> b = [])
        \/ (~ occurs [cr; lf] d /\ k_buffer k' = [] /\ stopped k k' used))) as (-> & C).
  { destruct C0 as [(-> & C)|[(-> & C)|(e & _ & C)]]; [auto|auto|destruct (gives_not_raised k k' _ e used G P C)]. }
  clear C0.
  destruct (gives_split _ _ _ _ _ G P B Pa En Zl) as (s' & -> & G' & Su).
  exists d, s', k'. split; [exact E|]. split; [|exact G'].
  split; [reflexivity|]. destruct C as [C|(C & Bn & Sp')]; [left; exact C|right]. split; [|exact C].
  destruct Sp' as [Sp'|(u0 & r & -> & Fr)]; [|exact (steady_failure _ _ _ Su Fr)].
  exact (gives_end _ _ G' Sp' Bn).
Qed.
Lemma gives_iterate cfg fuel n k s ts hs :
  tokens crlf s ts -> happens cfg ts hs -> gives k s -> (length s < fuel)%nat -> (length s < n)%nat ->
  exists k' s' ts' l x ev hs',
    run cfg hs = (l, x, ev, hs') /\ siterate cfg n fuel k = Some (l, x, ev, k')
    /\ gives k' s' /\ tokens crlf s' ts' /\ happens cfg ts' hs' /\ (x = None -> s' = []).
Proof.
  apply (iterate_tokens sock (sock_read 1) sock_readline crlf gives crlf_nonnil).
  - intros k0 K. destruct (gives_read1 k0 [] K) as (d & k' & E & -> & K'). exists k'. auto.
  - intros k0 b r K. destruct (gives_read1 k0 (b :: r) K) as (d & k' & E & -> & K'). exists k'. auto.
  - exact gives_readline.
Qed.

(* ------------------------------------------------------------------ C73 *)
Lemma init_gives z enc cs fin segs pieces :
  Z.testbit enc 0 = true ->
  Forall chunk_ok cs -> fin = [] \/ fin = u "0" ++ [cr; lf; cr; lf] ->
  Forall (fun d => d <> []) segs -> concat segs = flat_map chunk_text cs ++ fin ->
  (forall a b, segs = a ++ b -> a <> [] -> ~ bad_cut cs (concat a)) ->
  Forall2 (inflated z enc) (map snd cs) pieces ->
  gives (sock_init (map RData segs) enc z) (concat pieces)
  /\ sock_open (map RData segs) enc z = Ok (sock_init (map RData segs) enc z).
Proof.
  intros B F Fin Fs E C P. unfold sock_init, sock_open.
  destruct (sock_recv (mksock (map RData segs) [] [] enc z)) as [ok k1] eqn:E1.
  destruct (recv_spec _ _ _ E1) as (used & P1 & B1 & Pa & En & Zl & _ & _ & Hr).
  assert (gives (mksock (map RData segs) [] [] enc z) (concat pieces)) as G.
  { split.
    - unfold steady. cbn [k_pending]. apply Forall_map. eapply Forall_impl; [|exact Fs]. intros d Nd. exists d. auto.
    - split; [intros _; exact (proj2 (chunks_received z enc fin segs B Fin cs [] F Fs (or_introl eq_refl) E C))|].
      destruct (C38_decoded z enc cs fin segs pieces _ B F Fin Fs E C P eq_refl) as (K & _).
      rewrite drain_spec in K by (cbn; rewrite map_length; apply le_n). exact K. }
  destruct (gives_split _ _ used [] _ G P1 (eq_sym B1) Pa En Zl) as (s' & -> & G' & _). split; [exact G'|]. cbn [snd].
  destruct ok as [b|e]; [reflexivity|exfalso]. destruct (Hr e eq_refl) as (Bt & d & Nd & -> & De).
  apply (gives_not_raised _ _ _ e [RData d] G P1). split; [exact Bt|]. exists [], d. split; [reflexivity|]. split; [exact Nd|exact De].
Qed.

(* reading NMEA from a chunked connection is reading the decoded bytes from a
   connection without encoding, however both are cut into segments *)
Theorem C73_chunked_plain cfg n fuel z enc cs fin segs pieces segs2 enc2 z2 :
  Z.testbit enc 0 = true ->
  Forall chunk_ok cs -> fin = [] \/ fin = u "0" ++ [cr; lf; cr; lf] ->
  Forall (fun d => d <> []) segs -> concat segs = flat_map chunk_text cs ++ fin ->
  (forall a b, segs = a ++ b -> a <> [] -> ~ bad_cut cs (concat a)) ->
  Forall2 (inflated z enc) (map snd cs) pieces ->
  Z.testbit enc2 0 = false -> Forall (fun d => d <> []) segs2 -> concat segs2 = concat pieces ->
  (length (concat pieces) < fuel)%nat -> (length (concat pieces) < n)%nat ->
  exists k0 k20 items x ev k k2,
    sock_open (map RData segs) enc z = Ok k0 /\ sock_open (map RData segs2) enc2 z2 = Ok k20
    /\ siterate cfg n fuel k0 = Some (items, x, ev, k)
    /\ siterate cfg n fuel k20 = Some (items, x, ev, k2).
Proof.
  intros B F Fin Fs E C P B2 Fs2 E2 L1 L2.
  destruct (init_gives z enc cs fin segs pieces B F Fin Fs E C P) as (G & Op).
  pose proof (open_plain (map RData segs2) enc2 z2 B2) as Op2.
  pose proof (init_contents segs2 enc2 z2 B2 Fs2) as G2. rewrite E2 in G2.
  destruct (tokens_total crlf (concat pieces) crlf_nonnil) as (ts & Tk). destruct (happens_total cfg ts) as (hs & Hp).
  destruct (gives_iterate cfg fuel n _ _ ts hs Tk Hp G L1 L2) as (k' & s' & ts' & l & x & ev & hs' & R & A & _).
  destruct (siterate_tokens cfg fuel n _ _ ts hs Tk Hp G2 L1 L2) as (k2 & s2 & ts2 & l2 & x2 & ev2 & hs2 & R2 & A2 & _).
  rewrite R in R2. injection R2 as <- <- <- <-. do 2 eexists. exists l, x, ev, k', k2. split; [exact Op|]. split; [exact Op2|]. auto.
Qed.
(* and, if its lines end CR LF, from a file holding the decoded bytes *)
Theorem C73_chunked_file cfg n fuel z enc cs fin segs pieces :
  Z.testbit enc 0 = true ->
  Forall chunk_ok cs -> fin = [] \/ fin = u "0" ++ [cr; lf; cr; lf] ->
  Forall (fun d => d <> []) segs -> concat segs = flat_map chunk_text cs ++ fin ->
  (forall a b, segs = a ++ b -> a <> [] -> ~ bad_cut cs (concat a)) ->
  Forall2 (inflated z enc) (map snd cs) pieces -> crlf_lines (concat pieces) ->
  (length (concat pieces) < fuel)%nat -> (length (concat pieces) < n)%nat ->
  exists k0 items x ev k rest,
    sock_open (map RData segs) enc z = Ok k0
    /\ siterate cfg n fuel k0 = Some (items, x, ev, k)
    /\ fiterate cfg n fuel (concat pieces) = Some (items, x, ev, rest).
Proof.
  intros B F Fin Fs E C P J L1 L2.
  destruct (init_gives z enc cs fin segs pieces B F Fin Fs E C P) as (G & Op).
  destruct (tokens_total crlf (concat pieces) crlf_nonnil) as (ts & Tk). destruct (happens_total cfg ts) as (hs & Hp).
  destruct (gives_iterate cfg fuel n _ _ ts hs Tk Hp G L1 L2) as (k' & s' & ts' & l & x & ev & hs' & R & A & _).
  destruct (fiterate_tokens cfg fuel n _ ts hs (tokens_crlf _ _ J Tk) Hp L1 L2) as (s2 & ts2 & l2 & x2 & ev2 & hs2 & R2 & A2 & _).
  rewrite R in R2. injection R2 as <- <- <- <-. eexists. exists l, x, ev, k', s2. split; [exact Op|]. auto.
Qed.

(* a sentence spread over two chunks, received in three segments *)
Definition ex_chunked : list chunk := [(u "1e", firstn 30 ex_line); (u "16", skipn 30 ex_line)].
Definition ex_encoded : bytes := flat_map chunk_text ex_chunked ++ u "0" ++ [cr; lf; cr; lf].
Definition ex_segments : list bytes := [firstn 20 ex_encoded; firstn 25 (skipn 20 ex_encoded); skipn 45 ex_encoded].
Lemma ex_chunked_cut s : bad_cut ex_chunked s -> (length s = 34 \/ length s = 35 \/ length s = 62 \/ length s = 63)%nat.
Proof.
  intros (c1 & c & c2 & E & H). destruct c1 as [|x [|y [|? ?]]]; cbn [app] in E; unfold ex_chunked in E.
  - injection E as <- <-. destruct H as [-> | ->]; vm_compute; tauto.
  - injection E as <- <- <-. destruct H as [-> | ->]; vm_compute; tauto.
  - discriminate E.
  - discriminate E.
Qed.
Theorem C73_example :
  Forall chunk_ok ex_chunked /\ Forall (fun d => d <> []) ex_segments
  /\ concat ex_segments = flat_map chunk_text ex_chunked ++ u "0" ++ [cr; lf; cr; lf]
  /\ (forall a b, ex_segments = a ++ b -> a <> [] -> ~ bad_cut ex_chunked (concat a))
  /\ Forall2 (inflated no_zlib 1) (map snd ex_chunked) (map snd ex_chunked)
  /\ concat (map snd ex_chunked) = ex_line /\ crlf_lines ex_line
  /\ sraws (siterate (ex_cfg 1) 300 300 (sock_init (map RData ex_segments) 1 no_zlib)) = [ex_line].
Proof.
  split; [|split; [|split; [|split; [|split; [|split; [|split]]]]]].
  - constructor; [|constructor; [|constructor]]; (split; [discriminate|]); (split; [|vm_compute; reflexivity]).
    + apply (hex_more [49%N] 1 101 14); [apply (hex_one 49 1); split; [reflexivity|left; reflexivity]|split; [reflexivity|right; reflexivity]].
    + apply (hex_more [49%N] 1 54 6); [apply (hex_one 49 1); split; [reflexivity|left; reflexivity]|split; [reflexivity|right; reflexivity]].
  - repeat constructor; discriminate.
  - vm_compute. reflexivity.
  - intros a b E N C. apply ex_chunked_cut in C. unfold ex_segments in E. destruct a as [|x [|y [|w [|? ?]]]]; cbn [app] in E.
    + contradiction.
    + injection E as <- _. vm_compute in C. lia.
    + injection E as <- <- _. vm_compute in C. lia.
    + injection E as <- <- <- _. vm_compute in C. lia.
    + discriminate E.
  - constructor; [|constructor; [|constructor]].
    + apply (inflated_steps no_zlib 1 _ (firstn 30 ex_line) (firstn 30 ex_line)); left; split; reflexivity.
    + apply (inflated_steps no_zlib 1 _ (skipn 30 ex_line) (skipn 30 ex_line)); left; split; reflexivity.
  - vm_compute. reflexivity.
  - apply crlf_lines_check. vm_compute. reflexivity.
  - vm_compute. reflexivity.
Qed.

(* ------------------------------------------------------------------ C74 *)
(* the socket [k] with more to come after its pending results *)
Definition ext (x : list recv_result) (k : sock) : sock :=
  mksock (k_pending k ++ x) (k_buffer k) (k_partial k) (k_encoding k) (k_zlib k).

Lemma recv_ext x k : k_pending k <> [] -> sock_recv (ext x k) = (fst (sock_recv k), ext x (snd (sock_recv k))).
Proof.
  unfold sock_recv, ext. destruct k as [p b q e z]. cbn [k_pending k_buffer k_partial k_encoding k_zlib]. intros N.
  destruct p as [|[[|y d]|] p]; [contradiction|reflexivity| |reflexivity]. cbn [app].
  destruct (negb (Z.land e ENCODE_CHUNKED =? 0)); [|reflexivity]. destruct (dechunk z e (q ++ y :: d)) as [[[c w]|e0]|]; reflexivity.
Qed.
Lemma read_loop_ext x n : forall fuel k d k', (0 < n)%nat ->
  sock_read_loop fuel n k = (d, k') -> length (got d) = n ->
  forall fuel', (fuel <= fuel')%nat -> sock_read_loop fuel' n (ext x k) = (d, ext x k').
Proof.
  induction fuel as [|f IH]; intros k d k' Hn H L fuel' Le.
  - cbn [sock_read_loop] in H. destruct (Nat.ltb_spec (length (k_buffer k)) n) as [Lt|Ge].
    + injection H as <- <-. cbn in L. lia.
    + injection H as <- <-. destruct fuel'; cbn [sock_read_loop ext k_buffer];
        (destruct (Nat.ltb_spec (length (k_buffer k)) n); [lia|reflexivity]).
  - destruct fuel' as [|f']; [lia|]. cbn [sock_read_loop] in H |- *. cbn [ext k_buffer].
    destruct (Nat.ltb_spec (length (k_buffer k)) n) as [Lt|Ge].
    + destruct (k_pending k) as [|r p] eqn:P.
      { unfold sock_recv in H. rewrite P in H. injection H as <- _. cbn in L. lia. }
      fold (ext x k). rewrite recv_ext by congruence. destruct (sock_recv k) as [ok k1]. cbn [fst snd].
      destruct ok as [[|]|e]; [|injection H as <- _; cbn in L; lia|injection H as <- _; cbn in L; lia]. apply (IH k1 d k' Hn H L f'). lia.
    + injection H as <- <-. reflexivity.
Qed.
Lemma read_ext x n k d k' : (0 < n)%nat -> sock_read n k = (d, k') -> length (got d) = n -> sock_read n (ext x k) = (d, ext x k').
Proof.
  intros Hn H L. unfold sock_read in *. apply (read_loop_ext x n _ k d k' Hn H L). cbn [ext k_pending]. rewrite app_length. lia.
Qed.
Lemma readline_loop_ext x : forall fuel line k out k',
  sock_readline_loop fuel line k = Some (Ok out, k') -> ends_crlf out = true -> ends_crlf line = false ->
  forall fuel', (fuel <= fuel')%nat -> sock_readline_loop fuel' line (ext x k) = Some (Ok out, ext x k').
Proof.
  induction fuel as [|f IH]; intros line k out k' H E N fuel' Le; [discriminate|]. destruct fuel' as [|f']; [lia|].
  cbn [sock_readline_loop] in *. destruct (sock_read 1 k) as [d k1] eqn:R.
  destruct d as [[|b [|? ?]]|e]; try discriminate; try (injection H as <- _; congruence).
  rewrite (read_ext x 1 k (Ok [b]) k1 ltac:(lia) R eq_refl). destruct (ends_crlf (line ++ [b])) eqn:Ec.
  - injection H as <- <-. reflexivity.
  - apply (IH (line ++ [b]) k1 out k' H E Ec f'). lia.
Qed.
Lemma readline_ext x k line k' : sock_readline k = (Ok line, k') -> ends_crlf line = true -> sock_readline (ext x k) = (Ok line, ext x k').
Proof.
  unfold sock_readline. intros H E.
  destruct (sock_readline_loop (S (sock_avail k)) [] k) as [[l q]|] eqn:L; [|injection H as <- _; discriminate].
  injection H as -> ->.
  rewrite (readline_loop_ext x _ _ _ _ _ L E eq_refl (S (sock_avail (ext x k)))); [reflexivity|].
  rewrite !avail_spec. cbn [ext k_buffer k_pending k_partial k_encoding k_zlib]. rewrite received_app.
  destruct (received (k_zlib k) (k_encoding k) (k_partial k) (k_pending k)) as [b1 p1].
  destruct (received (k_zlib k) (k_encoding k) p1 x) as [b2 p2]. cbn [fst]. rewrite !app_length. lia.
Qed.

(* nothing but complete lines *)
Definition whole (s : bytes) : Prop := s = [] \/ s = [lf] \/ exists a, s = a ++ [cr; lf].
Lemma whole_tail b s : whole (b :: s) -> whole s.
Proof.
  intros [H|[H|(a & H)]]; [discriminate|injection H as _ ->; left; reflexivity|].
  destruct a as [|x a]; [injection H as _ ->; right; left; reflexivity|]. injection H as _ ->. right. right. exists a. reflexivity.
Qed.
Lemma whole_app l s : whole (l ++ s) -> whole s.
Proof. induction l as [|b l IH]; intros H; [exact H|]. apply IH, (whole_tail b), H. Qed.
Lemma whole_dollar c s : whole (dollar :: c :: s) -> c <> cr -> exists a, s = a ++ [cr; lf].
Proof.
  intros [H|[H|(a & H)]] N; [discriminate|discriminate|]. destruct a as [|x [|y a]]; cbn [app] in H.
  - discriminate.
  - injection H as _ -> _. contradiction.
  - injection H as _ _ ->. exists a. reflexivity.
Qed.

Section Failure.
Variable f : recv_result.
Variable rest : list recv_result.
Hypothesis Hf : failure f.
Variable cfg : rcfg.
Notation E := (ext (f :: rest)).

Definition at_failure (k : sock) : Prop := plain_sock k /\ k_pending k = rest /\ k_buffer k = [].

Lemma read1_at_end k : sock_is k [] -> exists k', sock_read 1 (E k) = (Ok [], k') /\ at_failure k'.
Proof using Hf.
  intros (Pl & St & C). apply app_eq_nil in C as [B D].
  assert (k_pending k = []) as P.
  { destruct (k_pending k) as [|r p] eqn:P; [reflexivity|]. exfalso. unfold steady in St. rewrite P in St.
    inversion St as [|? ? (d & -> & Nd) _]; subst. cbn in D. apply app_eq_nil in D as [D _]. contradiction. }
  unfold E, sock_read. rewrite P, B. cbn [app k_pending length sock_read_loop k_buffer Nat.ltb Nat.leb].
  exists (mksock rest [] (k_partial k) (k_encoding k) (k_zlib k)).
  destruct Hf as [-> | ->]; (split; [reflexivity|split; [exact Pl|split; reflexivity]]).
Qed.

Lemma pass_ext k s : sock_is k s -> whole s ->
  (s = [] /\ fst (pass sock (sock_read 1) sock_readline cfg k) = Raise EOFError
     /\ exists k', pass sock (sock_read 1) sock_readline cfg (E k) = (Raise EOFError, k') /\ at_failure k')
  \/ (exists r k' s', pass sock (sock_read 1) sock_readline cfg k = (r, k')
       /\ pass sock (sock_read 1) sock_readline cfg (E k) = (r, E k')
       /\ r <> Raise EOFError /\ sock_is k' s' /\ whole s' /\ (length s' < length s)%nat).
Proof using Hf.
  intros K W. destruct (sock_read1_ok k s K) as (d & k1 & E1 & H1). destruct s as [|b s].
  - left. destruct H1 as [-> K1]. split; [reflexivity|]. destruct (read1_at_end k K) as (k' & R & A).
    unfold pass, read_byte. rewrite E1, R. split; [reflexivity|]. exists k'. auto.
  - right. destruct H1 as [-> K1]. pose proof (read_ext (f :: rest) 1 k (Ok [b]) k1 ltac:(lia) E1 eq_refl) as X1.
    unfold pass, read_byte. rewrite E1, X1. destruct (negb (str_eqb [b] [c_dollar])) eqn:Db.
    { exists (Ok None), k1, s. repeat (split; [reflexivity || discriminate || exact K1 || exact (whole_tail _ _ W)|]). cbn. lia. }
    apply negb_false_iff, str_eqb_eq in Db. injection Db as ->.
    destruct (sock_read1_ok k1 s K1) as (d2 & k2 & E2 & H2). destruct s as [|c s].
    { exfalso. destruct W as [W|[W|(a & W)]]; [discriminate|discriminate|]. destruct a as [|x [|y a]]; discriminate. }
    destruct H2 as [-> K2]. pose proof (read_ext (f :: rest) 1 k1 (Ok [c]) k2 ltac:(lia) E2 eq_refl) as X2. rewrite E2, X2.
    destruct (hdr_second c) eqn:Hc.
    + assert (c <> cr) as Nc by (intros ->; vm_compute in Hc; discriminate).
      destruct (whole_dollar c s W Nc) as (a & Es).
      destruct (sock_readline_ok k2 s K2) as (line & rst & k3 & E3 & (Fs & Fl) & K3).
      destruct Fl as [(body & Fb & U)|(-> & No)].
      2:{ exfalso. apply No. rewrite app_nil_r in Fs. subst s. exists a, []. symmetry. exact Fs. }
      assert (ends_crlf line = true) as Ec by (apply ends_crlf_iff; exists body; exact Fb).
      pose proof (readline_ext (f :: rest) k2 line k3 E3 Ec) as X3.
      unfold read_line. rewrite E3, X3.
      assert (exists y l, line = y :: l /\ (last line 0%N =? c_lf)%N = true) as (y & l & El & La).
      { subst line. destruct body as [|y l]; [exists cr, [lf]|exists y, (l ++ crlf)]; (split; [reflexivity|]); [reflexivity|].
        unfold crlf. change ((y :: l) ++ [cr; lf]) with ((y :: l) ++ [cr] ++ [lf]). rewrite app_assoc, last_last. reflexivity. }
      rewrite La. rewrite El.
      assert (whole rst) as Wr by (apply (whole_app ([c_dollar; c] ++ line)); rewrite <- app_assoc, <- Fs; exact W).
      assert (length rst < length (c_dollar :: c :: s))%nat as Ll by (rewrite Fs, El; cbn; rewrite app_length; lia).
      destruct (parse _ _ _ _) as [m|e] eqn:Pr.
      * exists (Ok (Some ([c_dollar] ++ [c] ++ y :: l, m))), k3, rst. repeat (split; [reflexivity || discriminate || assumption|]). exact Ll.
      * exists (Raise e), k3, rst. split; [reflexivity|]. split; [reflexivity|]. split; [|auto].
        intros X. injection X as ->. exact (parse_not_eof _ _ _ _ Pr).
    + assert (whole s) as Ws by (apply (whole_app [c_dollar; c]); exact W). cbn [length].
      destruct (r_nmeaonly cfg); eexists _, k2, s; repeat (split; [reflexivity || discriminate || assumption|]); lia.
Qed.

Lemma read_ext_end fuel : forall k s, sock_is k s -> whole s -> (length s < fuel)%nat ->
  exists o ev k' k2 s', sread cfg fuel k = Some (o, ev, k') /\ sread cfg fuel (E k) = Some (o, ev, k2)
    /\ ((o = REnd /\ at_failure k2)
        \/ (o <> REnd /\ k2 = E k' /\ sock_is k' s' /\ whole s' /\ (length s' < length s)%nat)).
Proof using Hf.
  induction fuel as [|g IH]; intros k s K W L; [lia|]. unfold sread in *. cbn [Reader.read].
  destruct (pass_ext k s K W) as [(-> & P & k' & P2 & A)|(r & k' & s' & P & P2 & Nr & K' & W' & L')].
  - destruct (pass sock (sock_read 1) sock_readline cfg k) as [r q]. cbn [fst] in P. subst r. rewrite P2.
    exists REnd, [], q, k', []. auto.
  - rewrite P, P2. destruct r as [[[raw m]|]|e].
    + exists (RMsg raw m), [], k', (E k'), s'. split; [reflexivity|]. split; [reflexivity|]. right. split; [discriminate|auto].
    + destruct (IH k' s' K' W' ltac:(lia)) as (o & ev & q & q2 & s2 & R1 & R2 & C). exists o, ev, q, q2, s2.
      split; [exact R1|]. split; [exact R2|]. destruct C as [C|(C1 & C2 & C3 & C4 & C5)]; [left; exact C|right].
      repeat (split; [assumption|]). lia.
    + assert (e <> EOFError) as Ne by congruence.
      assert (forall X (a b : X), match e with EOFError => a | _ => b end = b) as M by (intros; destruct e; try reflexivity; contradiction).
      rewrite !M. destruct (is_nmea_error e).
      * destruct (do_error cfg e) as [[e'|] ev1].
        -- exists (RRaise e'), ev1, k', (E k'), s'. split; [reflexivity|]. split; [reflexivity|]. right. split; [discriminate|auto].
        -- destruct (IH k' s' K' W' ltac:(lia)) as (o & ev & q & q2 & s2 & R1 & R2 & C). rewrite R1, R2.
           exists o, (ev1 ++ ev), q, q2, s2.
           split; [reflexivity|]. split; [reflexivity|]. destruct C as [C|(C1 & C2 & C3 & C4 & C5)]; [left; exact C|right].
           repeat (split; [assumption|]). lia.
      * exists (RRaise e), [], k', (E k'), s'. split; [reflexivity|]. split; [reflexivity|]. right. split; [discriminate|auto].
Qed.
Lemma iterate_ext_end n : forall fuel k s, sock_is k s -> whole s -> (length s < fuel)%nat -> (length s < n)%nat ->
  exists l x ev k' k2, siterate cfg n fuel k = Some (l, x, ev, k') /\ siterate cfg n fuel (E k) = Some (l, x, ev, k2)
    /\ (x = None -> at_failure k2).
Proof using Hf.
  induction n as [|n IH]; intros fuel k s K W L1 L2; [lia|]. unfold siterate in *. cbn [iterate].
  destruct (read_ext_end fuel k s K W L1) as (o & ev & q & q2 & s2 & R1 & R2 & C). unfold sread in R1, R2. rewrite R1, R2.
  destruct C as [(-> & A)|(C1 & C2 & C3 & C4 & C5)].
  - exists [], None, ev, q, q2. auto.
  - destruct o as [raw m| |e]; [|contradiction|].
    + subst q2. destruct (IH fuel q s2 C3 C4 ltac:(lia) ltac:(lia)) as (l & x & ev2 & k' & k2 & I1 & I2 & A).
      rewrite I1, I2. exists ((raw, m) :: l), x, (ev ++ ev2), k', k2. auto.
    + exists [], (Some e), ev, q, q2. split; [reflexivity|]. split; [reflexivity|]. discriminate.
Qed.
End Failure.

(* A connection delivers segs, whose bytes end with a complete line; then recv()
   fails (timeout, error or b""), then more may follow.  The loop over the reader
   gives what it would give if the connection ended there, and if it is not left
   by an exception nothing is lost: the wrapper's buffer is empty and what follows
   is still to come *)
Theorem C74_failure cfg n fuel segs f rest enc z body :
  Z.testbit enc 0 = false -> Forall (fun d => d <> []) segs -> concat segs = body ++ [cr; lf] -> failure f ->
  (length (concat segs) < fuel)%nat -> (length (concat segs) < n)%nat ->
  exists items x ev k k2,
    siterate cfg n fuel (sock_init (map RData segs) enc z) = Some (items, x, ev, k)
    /\ siterate cfg n fuel (sock_init (map RData segs ++ f :: rest) enc z) = Some (items, x, ev, k2)
    /\ (x = None -> k_pending k2 = rest /\ k_buffer k2 = []).
Proof.
  intros B F Cs Hf L1 L2. pose proof (init_contents segs enc z B F) as K.
  assert (sock_init (map RData segs ++ f :: rest) enc z = ext (f :: rest) (sock_init (map RData segs) enc z)) as ->.
  { destruct segs as [|d segs]; [destruct body; discriminate|]. unfold sock_init.
    change (mksock (map RData (d :: segs) ++ f :: rest) [] [] enc z) with (ext (f :: rest) (mksock (map RData (d :: segs)) [] [] enc z)).
    rewrite recv_ext by discriminate. reflexivity. }
  destruct (iterate_ext_end f rest Hf cfg n fuel _ _ K) as (l & x & ev & k & k2 & I1 & I2 & A); try assumption.
  { right. right. exists body. exact Cs. }
  exists l, x, ev, k, k2. split; [exact I1|]. split; [exact I2|]. intros X. destruct (A X) as (_ & A2 & A3). auto.
Qed.
(* a second loop over the same reader then gives what a new connection that
   delivers the rest would give *)
Theorem C74_resume cfg n fuel segs f segs2 enc z body items ev k :
  Z.testbit enc 0 = false -> Forall (fun d => d <> []) segs -> concat segs = body ++ [cr; lf] -> failure f ->
  (length (concat segs) < fuel)%nat -> (length (concat segs) < n)%nat -> Forall (fun d => d <> []) segs2 ->
  siterate cfg n fuel (sock_init (map RData segs ++ f :: map RData segs2) enc z) = Some (items, None, ev, k) ->
  (length (concat segs2) < fuel)%nat -> (length (concat segs2) < n)%nat ->
  exists items2 x ev2 k1 k2, siterate cfg n fuel k = Some (items2, x, ev2, k1)
    /\ siterate cfg n fuel (sock_init (map RData segs2) enc z) = Some (items2, x, ev2, k2).
Proof.
  intros B F Cs Hf L1 L2 F2 H L3 L4. pose proof (init_contents segs enc z B F) as K.
  assert (sock_init (map RData segs ++ f :: map RData segs2) enc z = ext (f :: map RData segs2) (sock_init (map RData segs) enc z)) as X.
  { destruct segs as [|d segs]; [destruct body; discriminate|]. unfold sock_init.
    change (mksock (map RData (d :: segs) ++ f :: map RData segs2) [] [] enc z)
      with (ext (f :: map RData segs2) (mksock (map RData (d :: segs)) [] [] enc z)).
    rewrite recv_ext by discriminate. reflexivity. }
  destruct (iterate_ext_end f (map RData segs2) Hf cfg n fuel _ _ K) as (l & x & ev' & q & q2 & I1 & I2 & A); try assumption.
  { right. right. exists body. exact Cs. }
  rewrite X, I2 in H. injection H as <- -> <- <-. destruct (A eq_refl) as (Pl & P & Bu).
  assert (sock_is q2 (concat segs2)) as K2.
  { split; [exact Pl|]. split.
    - unfold steady. rewrite P. apply Forall_map. eapply Forall_impl; [|exact F2]. intros d Nd. exists d. auto.
    - unfold contents, data. rewrite P, Bu. cbn [app]. clear. induction segs2 as [|d l IH]; [reflexivity|]. cbn. rewrite IH. reflexivity. }
  pose proof (init_contents segs2 enc z B F2) as K3.
  destruct (tokens_total crlf (concat segs2) crlf_nonnil) as (ts & Tk). destruct (happens_total cfg ts) as (hs & Hp).
  destruct (siterate_tokens cfg fuel n _ _ ts hs Tk Hp K2 L3 L4) as (k1 & s1 & ts1 & l1 & x1 & ev1 & hs1 & R1 & A1 & _).
  destruct (siterate_tokens cfg fuel n _ _ ts hs Tk Hp K3 L3 L4) as (k3 & s3 & ts3 & l3 & x3 & ev3 & hs3 & R3 & A3 & _).
  rewrite R1 in R3. injection R3 as <- <- <- <-. exists l1, x1, ev1, k1, k3. auto.
Qed.
(* a failure inside a line does lose that line (reported as NMEAStreamError) *)
Theorem C74_inside_line_refuted : exists items ev k,
  siterate (ex_cfg 1) 300 300 (sock_init [RData (firstn 20 ex_line); RError; RData (skipn 20 ex_line); RData ex_line] 0 no_zlib)
  = Some (items, None, ev, k) /\ map fst items = [ex_line] /\ ev = [EvHandler NMEAStreamError].
Proof. do 3 eexists. split; [vm_compute; reflexivity|]. split; [vm_compute; reflexivity|reflexivity]. Qed.
Theorem C74_example : concat [firstn 20 ex_line; skipn 20 ex_line] = removelast (removelast ex_line) ++ [cr; lf]
  /\ failure RError
  /\ exists items ev k, siterate (ex_cfg 1) 300 300 (sock_init [RData (firstn 20 ex_line); RData (skipn 20 ex_line); RError; RData ex_line] 0 no_zlib)
     = Some (items, None, ev, k) /\ map fst items = [ex_line] /\ sraws (siterate (ex_cfg 1) 300 300 k) = [ex_line].
Proof.
  split; [vm_compute; reflexivity|]. split; [left; reflexivity|]. do 3 eexists. split; [vm_compute; reflexivity|].
  split; vm_compute; reflexivity.
Qed.
