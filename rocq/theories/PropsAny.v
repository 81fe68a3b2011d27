(* C89: what the reader does on streams that do not return bytes *)
From Coq Require Import Lia.
From Verif Require Import Message Reader ReaderAny BaseLemmas Spec ReaderSpec ReaderProofs PropsReader.
Local Open Scope nat_scope.

(* ------------------------------------------------------------------ C89 *)
(* on a stream of bytes nothing changes *)
Theorem C89_bytes S (read1 readline : S -> result bytes * S) cfg n fuel s :
  iterate_any S (as_bytes read1) (as_bytes readline) cfg n fuel s = iterate S read1 readline cfg n fuel s.
Proof.
  assert (forall s, pass_any S (as_bytes read1) (as_bytes readline) cfg s = pass S read1 readline cfg s) as P.
  { intros q. unfold pass_any, pass, read_byte_any, read_byte, read_line_any, read_line, as_bytes.
    destruct (read1 q) as [[[|a b1]|e] q1]; try reflexivity. destruct (negb (str_eqb (a :: b1) [c_dollar])); [reflexivity|].
    destruct (read1 q1) as [[[|c b2]|e] q2]; try reflexivity. destruct (match c :: b2 with [x] => hdr_second x | _ => false end); [|reflexivity].
    destruct (readline q2) as [[[|d bn]|e] q3]; reflexivity. }
  assert (forall f s, read_any S (as_bytes read1) (as_bytes readline) cfg f s = read S read1 readline cfg f s) as R.
  { intros f. induction f as [|f IH]; intros q; [reflexivity|]. cbn [read_any read]. rewrite P. destruct (pass S read1 readline cfg q) as [r q1].
    destruct r as [[[raw m]|]|e]; [reflexivity|apply IH|]. rewrite IH. reflexivity. }
  revert s. induction n as [|n IH]; intros q; [reflexivity|]. cbn [iterate_any iterate]. rewrite R.
  destruct (read S read1 readline cfg fuel q) as [[[[raw m| |e] ev] q1]|]; try reflexivity. rewrite IH. reflexivity.
Qed.

(* whatever the methods return: an item is a line of bytes, and its message is what parse()
   makes of that line *)
Theorem C89_item S (read1 readline : S -> result sval * S) cfg fuel : forall s raw m ev s',
  read_any S read1 readline cfg fuel s = Some (RMsg raw m, ev, s') ->
  (exists c body, raw = dollar :: c :: body ++ [lf] /\ second c)
  /\ parse (MBytes raw) (r_mode cfg) (r_validate cfg) (r_userdefined cfg) = Ok m.
Proof.
  induction fuel as [|f IH]; intros s raw m ev s' H; [discriminate|]. cbn [read_any] in H.
  destruct (pass_any S read1 readline cfg s) as [r s1] eqn:E. destruct r as [[[raw' m']|]|e].
  - injection H as <- <- <- <-. unfold pass_any in E.
    destruct (read_byte_any S read1 s) as [[v1|e1] q1]; [|discriminate].
    destruct v1 as [b1|b1|t|]; try discriminate; (destruct (str_eqb b1 [c_dollar]) eqn:D; cbn [negb] in E; [|discriminate]);
      (destruct (read_byte_any S read1 q1) as [[v2|e2] q2]; [|discriminate]); destruct v2 as [b2|b2|t|]; try discriminate;
      (destruct b2 as [|x [|y b2]]; [destruct (r_nmeaonly cfg); discriminate| |destruct (r_nmeaonly cfg); discriminate]);
      (destruct (hdr_second x) eqn:Hx; [|destruct (r_nmeaonly cfg); discriminate]);
      unfold read_line_any in E; destruct (readline q2) as [[v3|e3] q3]; try discriminate; destruct v3 as [[|z l]|[|z l]|[|z l]|]; try discriminate;
      (destruct (N.eqb (last (z :: l) 0%N) c_lf) eqn:L; [|discriminate]);
      (destruct (parse _ _ _ _) as [m0|e0] eqn:Pa; [|discriminate]); injection E as <- <- <-; (split; [|exact Pa]);
      exists x, (removelast (z :: l)); apply str_eqb_eq in D; rewrite D; apply N.eqb_eq in L; (split; [|apply hdr_second_iff, Hx]);
      change lf with c_lf; rewrite <- L, <- app_removelast_last by discriminate; reflexivity.
  - exact (IH _ _ _ _ _ H).
  - assert (e = EOFError \/ forall X (a b : X), match e with EOFError => a | _ => b end = b) as [->|M] by (destruct e; auto); [discriminate|].
    rewrite M in H. clear M. destruct (is_nmea_error e); [|discriminate]. destruct (do_error cfg e) as [[e'|] ev1]; [discriminate|].
    destruct (read_any S read1 readline cfg f s1) as [[[o' ev'] s2]|] eqn:E2; [|discriminate]. injection H as -> <- ->. exact (IH _ _ _ _ _ E2).
Qed.

(* A file opened in text mode: whatever it contains, the loop over the reader ends
   normally with no items and no reports, under every configuration. *)
Theorem C89_text cfg n fuel (s : pystr) : length s < fuel ->
  iterate_any pystr text_read1 text_readline cfg (S n) fuel s = Some ([], None, [], []).
Proof.
  intros L. cbn [iterate_any]. enough (read_any pystr text_read1 text_readline cfg fuel s = Some (REnd, [], [])) as -> by reflexivity.
  revert s L. induction fuel as [|f IH]; intros s L; [lia|]. destruct s as [|c s]; [reflexivity|]. cbn [read_any]. cbn. apply IH. cbn in L. lia.
Qed.

(* A stream of bytearrays: TypeError at the first "$" that is followed by anything, under
   every error policy; nothing is ever delivered. *)
Theorem C89_bytearray cfg n fuel gap c rest : ~ In dollar gap -> length gap < fuel ->
  iterate_any file (as_bytearray file_read1) (as_bytearray file_readline) cfg (S n) fuel (gap ++ dollar :: c :: rest) = Some ([], Some TypeError, [], rest).
Proof.
  intros N L. cbn [iterate_any]. enough (read_any file (as_bytearray file_read1) (as_bytearray file_readline) cfg fuel (gap ++ dollar :: c :: rest) = Some (RRaise TypeError, [], rest)) as -> by reflexivity.
  revert fuel L. induction gap as [|b gap IH]; intros [|f] L; cbn in L; try lia.
  - reflexivity.
  - cbn [app read_any]. unfold pass_any, read_byte_any, as_bytearray at 1. cbn [file_read1].
    assert (str_eqb [b] [c_dollar] = false) as ->.
    { destruct (str_eqb [b] [c_dollar]) eqn:X; [|reflexivity]. apply str_eqb_eq in X. injection X as ->. exfalso. apply N. left. reflexivity. }
    cbn [negb]. apply IH; [|lia]. intros X. apply N. right. exact X.
Qed.

(* read(1) gives None (a non-blocking stream without data): TypeError, under every policy *)
Theorem C89_none S (read1 readline : S -> result sval * S) cfg fuel s s' : read1 s = (Ok SNone, s') ->
  read_any S read1 readline cfg (Datatypes.S fuel) s = Some (RRaise TypeError, [], s').
Proof. intros H. cbn [read_any]. unfold pass_any, read_byte_any. rewrite H. reflexivity. Qed.

(* so a file of sentences that a reader of bytes delivers gives nothing, without any error,
   in text mode *)
Theorem C89_text_mode_refuted :
  raws (fiterate (ex_cfg 1) 300 300 (ex_line ++ ex_line)) = [ex_line; ex_line]
  /\ iterate_any pystr text_read1 text_readline (ex_cfg 2) 300 300 (ex_line ++ ex_line) = Some ([], None, [], []).
Proof. split; vm_compute; reflexivity. Qed.
Example C89_example :
  ~ In dollar (u "xyz")
  /\ iterate_any file (as_bytearray file_read1) (as_bytearray file_readline) (ex_cfg 0) 300 300 (u "xyz" ++ ex_line) = Some ([], Some TypeError, [], skipn 2 ex_line)
  /\ exists m, read_any file (as_bytes file_read1) (as_bytes file_readline) (ex_cfg 1) 300 ex_line = Some (RMsg ex_line m, [], []).
Proof. split; [apply C27_example|]. split; [vm_compute; reflexivity|]. eexists. vm_compute. reflexivity. Qed.
