(* SocketWrapper: what arrives, what is returned *)
From Verif Require Import Message Reader Socket BaseLemmas TextLemmas NumLemmas Spec ReaderSpec ReaderProofs SocketSpec PropsReader.
From Coq Require Import Lia.
Local Open Scope Z_scope.

Lemma flag_bit x (i : Z) : 0 <= i -> (Z.land x (2 ^ i) =? 0) = negb (Z.testbit x i).
Proof.
  intros Hi. destruct (Z.eqb_spec (Z.land x (2 ^ i)) 0) as [E|E].
  - assert (Z.testbit (Z.land x (2 ^ i)) i = false) as B by (rewrite E; apply Z.bits_0).
    rewrite Z.land_spec, Z.pow2_bits_true, andb_true_r in B by exact Hi. rewrite B. reflexivity.
  - destruct (Z.testbit x i) eqn:B; [reflexivity|]. exfalso. apply E.
    apply Z.bits_inj'. intros j Hj. rewrite Z.land_spec, Z.bits_0.
    destruct (Z.eq_dec j i) as [->|N]; [rewrite B; reflexivity|].
    rewrite Z.pow2_bits_false by congruence. apply andb_false_r.
Qed.
Lemma chunked_bit x : (Z.land x ENCODE_CHUNKED =? 0) = negb (Z.testbit x 0).
Proof. apply (flag_bit x 0). lia. Qed.

(* what one recv() adds to the buffer, and the new partial chunk *)
Definition arrive (z : zlib) (enc : Z) (p d : bytes) : bytes * bytes :=
  if Z.testbit enc 0 then match dechunk z enc (p ++ d) with Some (Ok r) => r | _ => ([], p) end else (d, p).
Fixpoint received (z : zlib) (enc : Z) (p : bytes) (l : list recv_result) : bytes * bytes :=
  match l with
  | [] => ([], p)
  | RError :: r | RData [] :: r => received z enc p r
  | RData d :: r => let '(b, p1) := arrive z enc p d in
                    let '(b2, p2) := received z enc p1 r in (b ++ b2, p2)
  end.

Lemma received_app z enc p a b :
  received z enc p (a ++ b) =
  let '(x, p1) := received z enc p a in let '(y, p2) := received z enc p1 b in (x ++ y, p2).
Proof.
  revert p. induction a as [|r a IH]; intros p; cbn [app received].
  - destruct (received z enc p b). reflexivity.
  - destruct r as [[|x d]|]; [apply IH| |apply IH]. destruct (arrive z enc p (x :: d)) as [b1 p1].
    rewrite IH. destruct (received z enc p1 a) as [x1 q]. destruct (received z enc q b) as [y r]. rewrite app_assoc. reflexivity.
Qed.

Lemma received_plain z enc p l : Z.testbit enc 0 = false -> received z enc p l = (data l, p).
Proof.
  intros B. induction l as [|r l IH]; [reflexivity|]. unfold data in *. cbn [received flat_map].
  destruct r as [[|x d]|]; [exact IH| |exact IH]. unfold arrive. rewrite B, IH. reflexivity.
Qed.

Lemma recv_spec k ok k' : sock_recv k = (ok, k') ->
  exists used, k_pending k = used ++ k_pending k'
    /\ k_buffer k' = k_buffer k ++ fst (received (k_zlib k) (k_encoding k) (k_partial k) used)
    /\ k_partial k' = snd (received (k_zlib k) (k_encoding k) (k_partial k) used)
    /\ k_encoding k' = k_encoding k /\ k_zlib k' = k_zlib k
    /\ (ok = Ok true -> exists d, d <> [] /\ used = [RData d])
    /\ (ok = Ok false -> (used = [] /\ k_pending k' = []) \/ (exists r, used = [r] /\ failure r))
    /\ (forall e, ok = Raise e -> Z.testbit (k_encoding k) 0 = true /\ exists d, d <> [] /\ used = [RData d]
          /\ dechunk (k_zlib k) (k_encoding k) (k_partial k ++ d) = Some (Raise e)).
Proof.
  unfold sock_recv. destruct k as [pending buf part enc z]; cbn [k_pending k_buffer k_partial k_encoding k_zlib].
  destruct pending as [|[[|x d]|] p].
  - intros H. injection H as <- <-. exists []. cbn. rewrite app_nil_r. repeat (split; [reflexivity|]).
    split; [discriminate|]. split; [|discriminate]. intros _. left. split; reflexivity.
  - intros H. injection H as <- <-. exists [RData []]. cbn. rewrite app_nil_r. repeat (split; [reflexivity|]).
    split; [discriminate|]. split; [|discriminate]. intros _. right. exists (RData []). split; [reflexivity|]. right. reflexivity.
  - rewrite chunked_bit, negb_involutive. intros H.
    assert ((ok = Ok true \/ exists e, ok = Raise e /\ Z.testbit enc 0 = true /\ dechunk z enc (part ++ x :: d) = Some (Raise e))
            /\ k' = mksock p (buf ++ fst (arrive z enc part (x :: d))) (snd (arrive z enc part (x :: d))) enc z) as [Ho ->].
    { unfold arrive. destruct (Z.testbit enc 0).
      - destruct (dechunk z enc (part ++ x :: d)) as [[[c q]|e]|]; injection H as <- <-; (split; [eauto 6|]); cbn; rewrite ?app_nil_r; reflexivity.
      - injection H as <- <-. split; [left|]; reflexivity. }
    exists [RData (x :: d)]. cbn [received k_pending k_buffer k_partial k_encoding k_zlib].
    destruct (arrive z enc part (x :: d)) as [b1 p1]. cbn. rewrite app_nil_r. repeat (split; [reflexivity|]).
    split; [intros _; exists (x :: d); split; [discriminate|reflexivity]|]. destruct Ho as [->|(e & -> & Bt & De)]; (split; [discriminate|]); [discriminate|].
    intros e' X. injection X as <-. split; [exact Bt|]. exists (x :: d). split; [discriminate|]. split; [reflexivity|exact De].
  - intros H. injection H as <- <-. exists [RError]. cbn. rewrite app_nil_r. repeat (split; [reflexivity|]).
    split; [discriminate|]. split; [|discriminate]. intros _. right. exists RError. split; [reflexivity|]. left. reflexivity.
Qed.

(* read(n) *)
Definition stopped (k k' : sock) (used : list recv_result) : Prop :=
  k_pending k' = [] \/ exists u0 r, used = u0 ++ [r] /\ failure r.

(* a call that raised: the last segment received is not a chunked stream that can be read *)
Definition raised (k : sock) (e : exc) (used : list recv_result) : Prop :=
  Z.testbit (k_encoding k) 0 = true /\ exists u0 d, used = u0 ++ [RData d] /\ d <> []
    /\ dechunk (k_zlib k) (k_encoding k) (snd (received (k_zlib k) (k_encoding k) (k_partial k) u0) ++ d) = Some (Raise e).

Lemma read_loop_spec fuel : forall n k d k',
  (length (k_pending k) < fuel)%nat -> sock_read_loop fuel n k = (d, k') ->
  exists used, k_pending k = used ++ k_pending k'
    /\ k_buffer k ++ fst (received (k_zlib k) (k_encoding k) (k_partial k) used) = got d ++ k_buffer k'
    /\ k_partial k' = snd (received (k_zlib k) (k_encoding k) (k_partial k) used)
    /\ k_encoding k' = k_encoding k /\ k_zlib k' = k_zlib k
    /\ ((exists x, d = Ok x /\ length x = n) \/ (d = Ok [] /\ (length (k_buffer k') < n)%nat /\ stopped k k' used)
        \/ (exists e, d = Raise e /\ raised k e used)).
Proof.
  induction fuel as [|f IH]; intros n k d k' L H; [lia|]. cbn [sock_read_loop] in H.
  destruct (Nat.ltb_spec (length (k_buffer k)) n) as [Lt|Ge].
  - destruct (sock_recv k) as [ok k1] eqn:E. destruct (recv_spec _ _ _ E) as (used & P & B & Pa & En & Zl & Ht & Hf & Hr).
    destruct ok as [[|]|e].
    + destruct (Ht eq_refl) as (x & Nx & ->). rewrite P in L. cbn in L.
      destruct (IH n k1 d k' ltac:(lia) H) as (u2 & P2 & B2 & Pa2 & En2 & Zl2 & C).
      exists ([RData x] ++ u2). rewrite received_app.
      destruct (received (k_zlib k) (k_encoding k) (k_partial k) [RData x]) as [b1 p1] eqn:R1. cbn [fst snd] in *.
      unfold raised in C. rewrite En, Zl, Pa in *. destruct (received (k_zlib k) (k_encoding k) p1 u2) as [b2 p2]. cbn [fst snd] in *.
      rewrite P, P2, <- app_assoc. split; [reflexivity|]. rewrite app_assoc, <- B. split; [exact B2|].
      split; [exact Pa2|]. split; [exact En2|]. split; [exact Zl2|].
      destruct C as [C|[(C1 & Cl & C2)|(e & C1 & Bt & u0 & s & -> & Ns & De)]]; [left; exact C|right; left; split; [exact C1|]; split; [exact Cl|]|right; right].
      * destruct C2 as [C2|(u0 & r & -> & Fr)]; [left; exact C2|right]. exists ([RData x] ++ u0), r. split; [apply app_assoc|exact Fr].
      * exists e. split; [exact C1|]. split; [exact Bt|]. exists ([RData x] ++ u0), s. split; [apply app_assoc|]. split; [exact Ns|].
        rewrite received_app, R1. destruct (received (k_zlib k) (k_encoding k) p1 u0) as [b3 p3]. exact De.
    + injection H as <- <-. exists used. split; [exact P|]. split; [symmetry; exact B|]. repeat (split; [assumption|]). right. left.
      split; [reflexivity|].
      assert (fst (received (k_zlib k) (k_encoding k) (k_partial k) used) = []) as F.
      { destruct (Hf eq_refl) as [(-> & _)|(r & -> & Fr)]; [reflexivity|].
        destruct Fr as [->| ->]; reflexivity. }
      split; [rewrite B, F, app_nil_r; exact Lt|].
      destruct (Hf eq_refl) as [(-> & Q)|(r & -> & Fr)]; [left; exact Q|right; exists [], r; split; [reflexivity|exact Fr]].
    + injection H as <- <-. exists used. split; [exact P|]. split; [symmetry; exact B|]. repeat (split; [assumption|]). right. right.
      exists e. split; [reflexivity|]. destruct (Hr e eq_refl) as (Bt & s & Ns & -> & De). split; [exact Bt|]. exists [], s. split; [reflexivity|]. split; [exact Ns|exact De].
  - injection H as <- <-. exists []. cbn [received fst snd k_pending k_buffer k_partial k_encoding k_zlib got]. split; [reflexivity|].
    split; [rewrite app_nil_r; symmetry; apply firstn_skipn|]. repeat (split; [reflexivity|]). left. eexists. split; [reflexivity|]. apply firstn_length_le, Ge.
Qed.

Lemma read_spec n k d k' : sock_read n k = (d, k') ->
  exists used, k_pending k = used ++ k_pending k'
    /\ k_buffer k ++ fst (received (k_zlib k) (k_encoding k) (k_partial k) used) = got d ++ k_buffer k'
    /\ k_partial k' = snd (received (k_zlib k) (k_encoding k) (k_partial k) used)
    /\ k_encoding k' = k_encoding k /\ k_zlib k' = k_zlib k
    /\ ((exists x, d = Ok x /\ length x = n) \/ (d = Ok [] /\ (length (k_buffer k') < n)%nat /\ stopped k k' used)
        \/ (exists e, d = Raise e /\ raised k e used)).
Proof. apply read_loop_spec. lia. Qed.

(* fuel for readline *)
Lemma drain_spec fuel : forall k, (length (k_pending k) <= fuel)%nat ->
  k_buffer (sock_drain fuel k)
  = k_buffer k ++ fst (received (k_zlib k) (k_encoding k) (k_partial k) (k_pending k)).
Proof.
  induction fuel as [|f IH]; intros k L; cbn [sock_drain].
  - destruct (k_pending k); [|cbn in L; lia]. cbn. rewrite app_nil_r. reflexivity.
  - destruct (sock_recv k) as [ok k1] eqn:E. destruct (recv_spec _ _ _ E) as (used & P & B & Pa & En & Zl & Ht & Hf & Hr).
    cbn [snd]. rewrite IH.
    + rewrite B, En, Zl, Pa, P, received_app.
      destruct (received (k_zlib k) (k_encoding k) (k_partial k) used) as [b1 p1]. cbn [fst snd].
      destruct (received (k_zlib k) (k_encoding k) p1 (k_pending k1)) as [b2 p2]. cbn. rewrite app_assoc. reflexivity.
    + destruct ok as [[|]|e].
      * destruct (Ht eq_refl) as (d & _ & ->). rewrite P in L. cbn in L. lia.
      * destruct (Hf eq_refl) as [(-> & Q)|(r & -> & _)]; rewrite P in L; [rewrite Q; cbn; lia|cbn in L; lia].
      * destruct (Hr e eq_refl) as (_ & d & _ & -> & _). rewrite P in L. cbn in L. lia.
Qed.

Lemma avail_spec k : sock_avail k
  = length (k_buffer k ++ fst (received (k_zlib k) (k_encoding k) (k_partial k) (k_pending k))).
Proof. unfold sock_avail. rewrite drain_spec by apply le_n. reflexivity. Qed.

Lemma read_avail n k d k' : sock_read n k = (d, k') -> sock_avail k = (length (got d) + sock_avail k')%nat.
Proof.
  intros H. destruct (read_spec _ _ _ _ H) as (used & P & B & Pa & En & Zl & _).
  rewrite !avail_spec, P, En, Zl, Pa, received_app.
  destruct (received (k_zlib k) (k_encoding k) (k_partial k) used) as [b1 p1]. cbn [fst snd] in *.
  destruct (received (k_zlib k) (k_encoding k) p1 (k_pending k')) as [b2 p2]. cbn [fst snd].
  rewrite app_assoc, B, !app_length. lia.
Qed.

Lemma ends_crlf_iff l : ends_crlf l = true <-> exists b, l = b ++ [cr; lf].
Proof.
  unfold ends_crlf. split.
  - destruct (rev l) as [|a [|b r]] eqn:E; try discriminate. intros H. apply andb_true_iff in H as [H1 H2].
    apply N.eqb_eq in H1 as ->. apply N.eqb_eq in H2 as ->. exists (rev r).
    rewrite <- (rev_involutive l), E. cbn. rewrite <- app_assoc. reflexivity.
  - intros (b & ->). rewrite rev_app_distr. reflexivity.
Qed.

(* readline(): the line, and why it stopped.  If it raises, what it had read is lost *)
Definition raised_on (z : zlib) (enc : Z) (p : bytes) (e : exc) (used : list recv_result) : Prop :=
  Z.testbit enc 0 = true /\ exists u0 d, used = u0 ++ [RData d] /\ d <> []
    /\ dechunk z enc (snd (received z enc p u0) ++ d) = Some (Raise e).
Lemma raised_on_app z enc p e u1 u2 :
  raised_on z enc (snd (received z enc p u1)) e u2 -> raised_on z enc p e (u1 ++ u2).
Proof.
  intros (Bt & u0 & d & -> & Nd & De). split; [exact Bt|]. exists (u1 ++ u0), d. split; [apply app_assoc|]. split; [exact Nd|].
  rewrite received_app. destruct (received z enc p u1) as [b1 p1]. cbn [snd] in *. destruct (received z enc p1 u0) as [b3 p3]. exact De.
Qed.

Lemma readline_loop_spec fuel : forall line k,
  (sock_avail k < fuel)%nat -> (forall a b, line = a ++ [cr; lf] ++ b -> False) ->
  exists r d k' used,
    sock_readline_loop fuel line k = Some (r, k')
    /\ k_pending k = used ++ k_pending k'
    /\ k_buffer k ++ fst (received (k_zlib k) (k_encoding k) (k_partial k) used) = d ++ k_buffer k'
    /\ k_partial k' = snd (received (k_zlib k) (k_encoding k) (k_partial k) used)
    /\ k_encoding k' = k_encoding k /\ k_zlib k' = k_zlib k
    /\ ((r = Ok (line ++ d) /\ exists body, line ++ d = body ++ [cr; lf] /\ forall a b, line ++ d = a ++ [cr; lf] ++ b -> b = [])
        \/ (r = Ok (line ++ d) /\ (forall a b, line ++ d = a ++ [cr; lf] ++ b -> False) /\ k_buffer k' = [] /\ stopped k k' used)
        \/ (exists e, r = Raise e /\ raised k e used)).
Proof.
  induction fuel as [|f IH]; intros line k L N; [lia|]. cbn [sock_readline_loop].
  destruct (sock_read 1 k) as [d k1] eqn:E. pose proof (read_avail _ _ _ _ E) as Av.
  destruct (read_spec _ _ _ _ E) as (used & P & B & Pa & En & Zl & C).
  destruct C as [(y & -> & C)|[(-> & Lb & St)|(e & -> & Ra)]].
  - destruct y as [|x [|y d]]; try discriminate. cbn [length got] in Av, B.
    assert (forall a b, line ++ [x] = a ++ [cr; lf] ++ b -> b = []) as U.
    { intros a b Eq. destruct b as [|y b _] using rev_ind; [reflexivity|]. exfalso.
      rewrite !app_assoc in Eq. apply app_inj_tail in Eq as [Eq _]. apply (N a b). rewrite Eq, <- app_assoc. reflexivity. }
    destruct (ends_crlf (line ++ [x])) eqn:Ec.
    + apply ends_crlf_iff in Ec as (body & Ec). exists (Ok (line ++ [x])), [x], k1, used. repeat (split; [assumption || reflexivity|]).
      left. split; [reflexivity|]. exists body. split; [exact Ec|exact U].
    + assert (forall a b, line ++ [x] = a ++ [cr; lf] ++ b -> False) as N'.
      { intros a b Eq. pose proof (U _ _ Eq) as ->. rewrite app_nil_r in Eq.
        assert (ends_crlf (line ++ [x]) = true) by (apply ends_crlf_iff; exists a; exact Eq). congruence. }
      destruct (IH (line ++ [x]) k1 ltac:(lia) N') as (r & d & k' & u2 & R & P2 & B2 & Pa2 & En2 & Zl2 & C2).
      exists r, (x :: d), k', (used ++ u2). rewrite <- app_assoc in C2. cbn [app] in C2. split; [exact R|].
      assert ((exists e, r = Raise e /\ raised k1 e u2) -> exists e, r = Raise e /\ raised k e (used ++ u2)) as Rr.
      { intros (e & Re & Ra). exists e. split; [exact Re|]. change (raised_on (k_zlib k1) (k_encoding k1) (k_partial k1) e u2) in Ra. rewrite En, Zl, Pa in Ra.
        change (raised_on (k_zlib k) (k_encoding k) (k_partial k) e (used ++ u2)). apply raised_on_app, Ra. }
      rewrite received_app. rewrite En, Zl, Pa in *.
      destruct (received (k_zlib k) (k_encoding k) (k_partial k) used) as [b1 p1]. cbn [fst snd] in *.
      destruct (received (k_zlib k) (k_encoding k) p1 u2) as [b2 p2]. cbn [fst snd] in *.
      split; [rewrite P, P2, app_assoc; reflexivity|]. split; [rewrite app_assoc, B; cbn; rewrite B2; reflexivity|].
      repeat (split; [assumption|]).
      destruct C2 as [C2|[(C1 & C2 & C3 & C4)|C2]]; [left; exact C2|right; left|right; right; exact (Rr C2)].
      split; [exact C1|]. split; [exact C2|]. split; [exact C3|].
      destruct C4 as [C4|(u0 & r0 & -> & Fr)]; [left; exact C4|right; exists (used ++ u0), r0; split; [apply app_assoc|exact Fr]].
  - exists (Ok line), [], k1, used. rewrite app_nil_r. split; [reflexivity|]. repeat (split; [assumption|]). right. left.
    split; [reflexivity|]. split; [exact N|]. split; [destruct (k_buffer k1); [reflexivity|cbn in Lb; lia]|exact St].
  - exists (Raise e), [], k1, used. split; [reflexivity|]. repeat (split; [assumption|]). right. right. exists e. split; [reflexivity|exact Ra].
Qed.

Lemma readline_spec k : exists r d k' used,
    sock_readline k = (r, k')
    /\ k_pending k = used ++ k_pending k'
    /\ k_buffer k ++ fst (received (k_zlib k) (k_encoding k) (k_partial k) used) = d ++ k_buffer k'
    /\ k_partial k' = snd (received (k_zlib k) (k_encoding k) (k_partial k) used)
    /\ k_encoding k' = k_encoding k /\ k_zlib k' = k_zlib k
    /\ ((r = Ok d /\ exists body, d = body ++ [cr; lf] /\ forall a b, d = a ++ [cr; lf] ++ b -> b = [])
        \/ (r = Ok d /\ ~ occurs [cr; lf] d /\ k_buffer k' = [] /\ stopped k k' used)
        \/ (exists e, r = Raise e /\ raised k e used)).
Proof.
  unfold sock_readline.
  destruct (readline_loop_spec (S (sock_avail k)) [] k ltac:(lia)) as (r & d & k' & used & E & H).
  { intros a b X. symmetry in X. apply app_eq_nil in X as [_ X]. discriminate. }
  cbn [app] in H. rewrite E. exists r, d, k', used. split; [reflexivity|].
  destruct H as (A & B & C & D & F & G). repeat (split; [assumption|]).
  destruct G as [G|[(G0 & G1 & G)|G]]; [left; exact G|right; left; split; [exact G0|]; split; [|exact G]|right; right; exact G].
  intros (a & b & X). exact (G1 a b X).
Qed.

(* a plain socket never raises *)
Lemma plain_not_raised k e used : plain_sock k -> ~ raised k e used.
Proof. intros Pl (Bt & _). unfold plain_sock in Pl. congruence. Qed.

(* the reader over a steady plain socket *)
Definition crlf : bytes := [cr; lf].
Lemma crlf_nonnil : crlf <> []. Proof. discriminate. Qed.
Definition sock_is (k : sock) (s : bytes) : Prop := plain_sock k /\ steady k /\ contents k = s.

Lemma steady_failure l u0 r : Forall (fun r => exists d, r = RData d /\ d <> []) (u0 ++ [r]) -> failure r -> l.
Proof.
  intros H Fr. exfalso. apply Forall_app in H as [_ H]. inversion H as [|? ? (d & -> & Nd) _]; subst.
  destruct Fr as [Fr|Fr]; [discriminate|]. congruence.
Qed.

Lemma sock_read1_ok k s : sock_is k s ->
  exists d k', sock_read 1 k = (Ok d, k') /\ match s with [] => d = [] /\ sock_is k' [] | b :: r => d = [b] /\ sock_is k' r end.
Proof.
  intros (Pl & St & Ct). destruct (sock_read 1 k) as [d k'] eqn:E.
  destruct (read_spec _ _ _ _ E) as (used & P & B & Pa & En & Zl & C).
  assert (exists y, d = Ok y /\ (length y = 1%nat \/ (y = [] /\ (length (k_buffer k') < 1)%nat /\ stopped k k' used))) as (y & -> & C').
  { destruct C as [(y & -> & C)|[(-> & C)|(e & _ & C)]]; [eauto|exists []; split; [reflexivity|]; right; split; [reflexivity|exact C]|destruct (plain_not_raised k e used Pl C)]. }
  clear C. exists y, k'. split; [reflexivity|]. cbn [got] in B. unfold plain_sock, steady, contents in *.
  rewrite received_plain in B by exact Pl. cbn [fst] in B. rewrite P in St. apply Forall_app in St as [Su Sp].
  assert (y ++ contents k' = s) as X.
  { unfold contents. rewrite app_assoc, <- B, <- app_assoc. rewrite <- Ct, P. unfold data. rewrite flat_map_app. reflexivity. }
  assert (sock_is k' (contents k')) as K by (split; [unfold plain_sock; rewrite En; exact Pl|split; [exact Sp|reflexivity]]).
  destruct C' as [C|(-> & Lb & C)].
  - destruct y as [|b [|? ?]]; try discriminate. cbn [app] in X. rewrite <- X. split; [reflexivity|exact K].
  - cbn [app] in X. destruct C as [C|(u0 & r & -> & Fr)]; [|exact (steady_failure _ _ _ Su Fr)].
    assert (contents k' = []) as Z.
    { unfold contents. rewrite C. cbn. rewrite app_nil_r. destruct (k_buffer k'); [reflexivity|cbn in Lb; lia]. }
    rewrite <- X, Z. split; [reflexivity|]. rewrite <- Z. exact K.
Qed.

Lemma sock_readline_ok k s : sock_is k s ->
  exists line rest k', sock_readline k = (Ok line, k') /\ first_line crlf s line rest /\ sock_is k' rest.
Proof.
  intros (Pl & St & Ct). destruct (readline_spec k) as (r & d & k' & used & E & P & B & Pa & En & Zl & C0).
  assert (r = Ok d /\ ((exists body, d = body ++ [cr; lf] /\ forall a b, d = a ++ [cr; lf] ++ b -> b = [])
        \/ (~ occurs [cr; lf] d /\ k_buffer k' = [] /\ stopped k k' used))) as (-> & C).
  { destruct C0 as [(-> & C)|[(-> & C)|(e & _ & C)]]; [auto|auto|destruct (plain_not_raised k e used Pl C)]. }
  clear C0.
  unfold plain_sock, steady in *.
  rewrite received_plain in B by exact Pl. cbn [fst] in B. rewrite P in St. apply Forall_app in St as [Su Sp].
  assert (d ++ contents k' = s) as X.
  { unfold contents in *. rewrite app_assoc, <- B, <- app_assoc. rewrite <- Ct, P. unfold data. rewrite flat_map_app. reflexivity. }
  exists d, (contents k'), k'. split; [exact E|]. split.
  - split; [symmetry; exact X|]. destruct C as [C|(C & Bn & Sp')]; [left; exact C|right]. split; [|exact C].
    destruct Sp' as [Sp'|(u0 & r & -> & Fr)]; [|exact (steady_failure _ _ _ Su Fr)].
    unfold contents. rewrite Bn, Sp'. reflexivity.
  - split; [unfold plain_sock; rewrite En; exact Pl|]. split; [exact Sp|reflexivity].
Qed.

Lemma sread_tokens cfg fuel k s ts hs :
  tokens crlf s ts -> happens cfg ts hs -> sock_is k s -> (length s < fuel)%nat ->
  exists k' s' ts' o ev hs',
    next cfg hs = (o, ev, hs') /\ sread cfg fuel k = Some (o, ev, k')
    /\ sock_is k' s' /\ tokens crlf s' ts' /\ happens cfg ts' hs'
    /\ (length s' <= length s)%nat /\ (o = REnd \/ (length s' < length s)%nat) /\ (o = REnd -> s' = []).
Proof.
  apply (read_tokens sock (sock_read 1) sock_readline crlf sock_is crlf_nonnil).
  - intros k0 K. destruct (sock_read1_ok k0 [] K) as (d & k' & E & -> & K'). exists k'. auto.
  - intros k0 b r K. destruct (sock_read1_ok k0 (b :: r) K) as (d & k' & E & -> & K'). exists k'. auto.
  - exact sock_readline_ok.
Qed.
Lemma siterate_tokens cfg fuel n k s ts hs :
  tokens crlf s ts -> happens cfg ts hs -> sock_is k s -> (length s < fuel)%nat -> (length s < n)%nat ->
  exists k' s' ts' l x ev hs',
    run cfg hs = (l, x, ev, hs') /\ siterate cfg n fuel k = Some (l, x, ev, k')
    /\ sock_is k' s' /\ tokens crlf s' ts' /\ happens cfg ts' hs' /\ (x = None -> s' = []).
Proof.
  apply (iterate_tokens sock (sock_read 1) sock_readline crlf sock_is crlf_nonnil).
  - intros k0 K. destruct (sock_read1_ok k0 [] K) as (d & k' & E & -> & K'). exists k'. auto.
  - intros k0 b r K. destruct (sock_read1_ok k0 (b :: r) K) as (d & k' & E & -> & K'). exists k'. auto.
  - exact sock_readline_ok.
Qed.

(* with CR LF line ends both terminators cut the same lines *)
Lemma crlf_suffix p s : crlf_lines (p ++ s) -> crlf_lines s.
Proof.
  intros H a b E. destruct a as [|x a] using rev_ind; [left; reflexivity|]. right.
  destruct (H (p ++ a ++ [x]) b) as [X|(a' & X)].
  - rewrite E, app_assoc. reflexivity.
  - apply app_eq_nil in X as [_ X]. destruct a; discriminate.
  - rewrite app_assoc in X. apply app_inj_tail in X as [_ ->]. exists a. reflexivity.
Qed.
Lemma second_not_cr : ~ second cr.
Proof. rewrite <- hdr_second_iff. vm_compute. discriminate. Qed.

Lemma first_line_crlf c s line rest : second c -> crlf_lines (dollar :: c :: s) ->
  first_line crlf s line rest -> first_line [lf] s line rest.
Proof.
  intros Sc J (E & H). split; [exact E|]. destruct H as [(body & -> & U)|(-> & N)].
  - left. exists (body ++ [cr]). rewrite <- app_assoc. split; [reflexivity|]. intros a b X.
    assert (a = [] \/ exists a', a = a' ++ [cr]) as [->|(a' & ->)].
    { destruct (J (dollar :: c :: a) (b ++ rest)) as [Y|(a' & Y)].
      - rewrite E, X, <- !app_assoc. reflexivity.
      - discriminate.
      - destruct a as [|z a _] using rev_ind; [left; reflexivity|]. right. exists a.
        change (dollar :: c :: a ++ [z]) with ((dollar :: c :: a) ++ [z]) in Y. apply app_inj_tail in Y as [_ ->]. reflexivity. }
    + exfalso. destruct (J [dollar; c] (b ++ rest)) as [Y|(a' & Y)].
      * rewrite E, X, <- !app_assoc. reflexivity.
      * discriminate.
      * destruct a' as [|q [|q' a']]; try discriminate; cbn in Y; [|destruct a'; discriminate].
        injection Y as _ ->. exact (second_not_cr Sc).
    + apply (U a' b). rewrite X, <- app_assoc. reflexivity.
  - right. split; [reflexivity|]. intros (a & b & X). rewrite app_nil_r in E. subst s.
    destruct (J (dollar :: c :: a) b) as [Y|(a' & Y)].
    + rewrite X. reflexivity.
    + discriminate.
    + destruct a as [|z a _] using rev_ind.
      * destruct a' as [|q [|q' a']]; try discriminate; cbn in Y; [|destruct a'; discriminate].
        injection Y as _ ->. exact (second_not_cr Sc).
      * change (dollar :: c :: a ++ [z]) with ((dollar :: c :: a) ++ [z]) in Y. apply app_inj_tail in Y as [_ ->].
        apply N. exists a, b. rewrite X, <- app_assoc. reflexivity.
Qed.

Lemma tokens_crlf s ts : crlf_lines s -> tokens crlf s ts -> tokens [lf] s ts.
Proof.
  intros J H. induction H as [|b s ts N H IH| |c s ts N H IH|c Sc|c s line rest ts Sc F El H IH|c s line rest ts Sc F Nl El H IH].
  - constructor.
  - apply tok_skip; [exact N|]. apply IH, (crlf_suffix [b] s J).
  - apply tok_dollar.
  - apply tok_other; [exact N|]. apply IH, (crlf_suffix [dollar; c] s J).
  - apply tok_header, Sc.
  - eapply tok_line; [exact Sc|exact (first_line_crlf c s line rest Sc J F)|exact El|].
    apply IH. destruct F as (-> & _). exact (crlf_suffix (dollar :: c :: line) rest J).
  - eapply tok_cut; [exact Sc|exact (first_line_crlf c s line rest Sc J F)|exact Nl|exact El|].
    apply IH. destruct F as (-> & _). exact (crlf_suffix (dollar :: c :: line) rest J).
Qed.
