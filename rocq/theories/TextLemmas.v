(* Lemmas about text: UTF-8, upper-casing. *)
From Verif Require Import PyText BaseLemmas.
Local Open Scope N_scope.

Lemma is_scalar_spec c : is_scalar c = true <-> c <= 1114111 /\ ~ (55296 <= c <= 57343).
Proof. unfold is_scalar. lia. Qed.

Lemma utf8_char_decode c r :
  is_scalar c = true -> utf8_decode (utf8_char c ++ r) = ocons c (utf8_decode r).
Proof.
  intros H. apply is_scalar_spec in H. unfold utf8_char.
  destruct (N.ltb_spec c 128) as [H1|H1].
  { cbn. destruct (N.ltb_spec c 128); [reflexivity|lia]. }
  destruct (N.ltb_spec c 2048) as [H2|H2].
  { cbn [app utf8_decode].
    replace (192 + c / 64 <? 128) with false by lia.
    replace ((194 <=? 192 + c / 64) && (192 + c / 64 <=? 223)) with true by lia.
    replace (is_cont (128 + c mod 64)) with true by (unfold is_cont; lia).
    f_equal. lia. }
  destruct (N.ltb_spec c 65536) as [H3|H3].
  { cbn [app utf8_decode].
    replace (224 + c / 4096 <? 128) with false by lia.
    replace ((194 <=? 224 + c / 4096) && (224 + c / 4096 <=? 223)) with false by lia.
    replace ((224 <=? 224 + c / 4096) && (224 + c / 4096 <=? 239)) with true by lia.
    replace (is_cont (128 + (c / 64) mod 64)) with true by (unfold is_cont; lia).
    replace (is_cont (128 + c mod 64)) with true by (unfold is_cont; lia).
    replace ((224 + c / 4096 - 224) * 4096 + (128 + (c / 64) mod 64 - 128) * 64
             + (128 + c mod 64 - 128)) with c by lia.
    cbv zeta. replace (true && true && (2048 <=? c) && negb ((55296 <=? c) && (c <=? 57343))) with true by lia.
    reflexivity. }
  cbn [app utf8_decode].
  replace (240 + c / 262144 <? 128) with false by lia.
  replace ((194 <=? 240 + c / 262144) && (240 + c / 262144 <=? 223)) with false by lia.
  replace ((224 <=? 240 + c / 262144) && (240 + c / 262144 <=? 239)) with false by lia.
  replace ((240 <=? 240 + c / 262144) && (240 + c / 262144 <=? 244)) with true by lia.
  replace (is_cont (128 + (c / 4096) mod 64)) with true by (unfold is_cont; lia).
  replace (is_cont (128 + (c / 64) mod 64)) with true by (unfold is_cont; lia).
  replace (is_cont (128 + c mod 64)) with true by (unfold is_cont; lia).
  replace ((240 + c / 262144 - 240) * 262144 + (128 + (c / 4096) mod 64 - 128) * 4096
           + (128 + (c / 64) mod 64 - 128) * 64 + (128 + c mod 64 - 128)) with c by lia.
  cbv zeta. replace (true && true && true && (65536 <=? c) && (c <=? 1114111)) with true by lia.
  reflexivity.
Qed.

Lemma utf8_decode_encode s :
  forallb is_scalar s = true -> utf8_decode (flat_map utf8_char s) = Some s.
Proof.
  induction s as [|c s IH]; cbn [forallb flat_map]; intros H; [reflexivity|].
  apply andb_true_iff in H as [H1 H2]. rewrite utf8_char_decode by exact H1.
  rewrite IH by exact H2. reflexivity.
Qed.

Lemma ocons_Some c r s : ocons c r = Some s -> exists s', r = Some s' /\ s = c :: s'.
Proof. destruct r; cbn; intros [= <-]. eexists; split; reflexivity. Qed.

Lemma utf8_encode_decode_aux n b s :
  (length b <= n)%nat -> utf8_decode b = Some s ->
  forallb is_scalar s = true /\ flat_map utf8_char s = b.
Proof.
  revert b s; induction n as [|n IH]; intros b s L H.
  { destruct b; [|cbn in L; lia]. injection H as <-. split; reflexivity. }
  destruct b as [|b0 r0]; cbn [utf8_decode] in H; [injection H as <-; split; reflexivity|].
  cbn [length] in L.
  destruct (N.ltb_spec b0 128) as [H1|H1].
  { apply ocons_Some in H as (s' & H & ->). apply IH in H as [E1 E2]; [|lia].
    cbn [forallb flat_map]. rewrite E1, E2. unfold utf8_char.
    replace (b0 <? 128) with true by lia. split; [|reflexivity].
    rewrite andb_true_r. apply is_scalar_spec. lia. }
  destruct ((194 <=? b0) && (b0 <=? 223)) eqn:R2.
  { destruct r0 as [|b1 r1]; [discriminate|]. destruct (is_cont b1) eqn:C1; [|discriminate].
    unfold is_cont in C1. apply ocons_Some in H as (s' & H & ->). cbn [length] in L.
    apply IH in H as [E1 E2]; [|lia].
    set (c := (b0 - 192) * 64 + (b1 - 128)).
    assert (Ec : c = (b0 - 192) * 64 + (b1 - 128)) by reflexivity. clearbody c.
    cbn [forallb flat_map]. rewrite E1, E2. unfold utf8_char.
    replace (c <? 128) with false by lia. replace (c <? 2048) with true by lia.
    split; [rewrite andb_true_r; apply is_scalar_spec; lia|].
    cbn [app]. f_equal; [lia|]. f_equal; lia. }
  destruct ((224 <=? b0) && (b0 <=? 239)) eqn:R3.
  { destruct r0 as [|b1 [|b2 r2]]; [discriminate..|]. cbn [length] in L.
    set (c := (b0 - 224) * 4096 + (b1 - 128) * 64 + (b2 - 128)) in *.
    assert (Ec : c = (b0 - 224) * 4096 + (b1 - 128) * 64 + (b2 - 128)) by reflexivity. clearbody c.
    cbv zeta in H.
    destruct (is_cont b1 && is_cont b2 && (2048 <=? c) && negb ((55296 <=? c) && (c <=? 57343))) eqn:C;
      [|discriminate]. unfold is_cont in C.
    apply ocons_Some in H as (s' & H & ->). apply IH in H as [E1 E2]; [|lia].
    cbn [forallb flat_map]. rewrite E1, E2. unfold utf8_char.
    replace (c <? 128) with false by lia. replace (c <? 2048) with false by lia.
    replace (c <? 65536) with true by lia.
    split; [rewrite andb_true_r; apply is_scalar_spec; lia|].
    cbn [app]. f_equal; [lia|]. f_equal; [lia|]. f_equal; lia. }
  destruct ((240 <=? b0) && (b0 <=? 244)) eqn:R4; [|discriminate].
  destruct r0 as [|b1 [|b2 [|b3 r3]]]; [discriminate..|]. cbn [length] in L.
  set (c := (b0 - 240) * 262144 + (b1 - 128) * 4096 + (b2 - 128) * 64 + (b3 - 128)) in *.
  assert (Ec : c = (b0 - 240) * 262144 + (b1 - 128) * 4096 + (b2 - 128) * 64 + (b3 - 128)) by reflexivity.
  clearbody c. cbv zeta in H.
  destruct (is_cont b1 && is_cont b2 && is_cont b3 && (65536 <=? c) && (c <=? 1114111)) eqn:C;
    [|discriminate]. unfold is_cont in C.
  apply ocons_Some in H as (s' & H & ->). apply IH in H as [E1 E2]; [|lia].
  cbn [forallb flat_map]. rewrite E1, E2. unfold utf8_char.
  replace (c <? 128) with false by lia. replace (c <? 2048) with false by lia.
  replace (c <? 65536) with false by lia.
  split; [rewrite andb_true_r; apply is_scalar_spec; lia|].
  cbn [app]. f_equal; [lia|]. f_equal; [lia|]. f_equal; [lia|]. f_equal; lia.
Qed.

(* decoding is exactly the inverse of encoding *)
Lemma utf8_decode_iff b s : utf8_decode b = Some s <-> utf8_encode s = Ok b.
Proof.
  unfold utf8_encode. split.
  - intros H. apply (utf8_encode_decode_aux (length b)) in H as [E1 E2]; [|lia].
    rewrite E1, E2. reflexivity.
  - destruct (forallb is_scalar s) eqn:E; [|discriminate]. intros [= <-].
    apply utf8_decode_encode, E.
Qed.

Lemma utf8_decode_None b : utf8_decode b = None <-> forall s, utf8_encode s <> Ok b.
Proof.
  split.
  - intros H s E. apply utf8_decode_iff in E. congruence.
  - intros H. destruct (utf8_decode b) as [s|] eqn:E; [|reflexivity].
    apply utf8_decode_iff in E. exfalso. eapply H, E.
Qed.

Lemma ascii_utf8 s : forallb (fun c => c <? 128) s = true -> utf8_encode s = Ok s.
Proof.
  intros H. apply utf8_decode_iff. induction s as [|c s IH]; cbn in *; [reflexivity|].
  apply andb_true_iff in H as [H1 H2]. rewrite H1, (IH H2). reflexivity.
Qed.

Lemma utf8_encode_app a b x y :
  utf8_encode a = Ok x -> utf8_encode b = Ok y -> utf8_encode (a ++ b) = Ok (x ++ y).
Proof.
  unfold utf8_encode. rewrite forallb_app, flat_map_app.
  destruct (forallb is_scalar a), (forallb is_scalar b); try discriminate.
  intros [= <-] [= <-]. reflexivity.
Qed.

(* a byte of 128 or more between ASCII bytes is not UTF-8 *)
Lemma ascii_broken a d b :
  forallb (fun c => c <? 128) a = true -> forallb (fun c => c <? 128) b = true -> 128 <= d ->
  utf8_decode (a ++ d :: b) = None.
Proof.
  intros Ha Hb Hd. induction a as [|x a IH]; cbn [app].
  - cbn [utf8_decode]. replace (d <? 128) with false by lia.
    destruct b as [|b1 b]; cbn in Hb.
    { repeat (match goal with |- context [if ?e then _ else _] => destruct e end; try reflexivity). }
    apply andb_true_iff in Hb as [H1 _].
    assert (is_cont b1 = false) as C by (unfold is_cont; lia). rewrite C. cbn [andb].
    repeat (match goal with |- context [if ?e then _ else _] => destruct e end; try reflexivity);
    destruct b as [|b2 [|b3 b]]; reflexivity.
  - cbn in Ha. apply andb_true_iff in Ha as [H1 H2]. cbn [utf8_decode]. rewrite H1.
    rewrite IH by exact H2. reflexivity.
Qed.

(* upper-casing *)
Lemma str_upper_app a b : str_upper (a ++ b) = str_upper a ++ str_upper b.
Proof. apply flat_map_app. Qed.

Definition ascii_nolower (c : N) : bool := (c <? 128) && negb ((97 <=? c) && (c <=? 122)).
Lemma str_upper_id s : forallb ascii_nolower s = true -> str_upper s = s.
Proof.
  induction s as [|c s IH]; cbn [forallb]; intros H; [reflexivity|].
  apply andb_true_iff in H as [H1 H2]. unfold str_upper in *. cbn [flat_map].
  rewrite IH by exact H2. unfold upper_char, ascii_nolower in *.
  replace (c <? 128) with true by lia. replace ((97 <=? c) && (c <=? 122)) with false by lia. reflexivity.
Qed.
