(* Attributes of standard sentences whose definition has a fixed layout, by position. *)
From Coq Require Import List NArith ZArith Lia Bool.
From Verif Require Import Message Reader Spec ValueSpec BaseLemmas StreamProofs PropsDecode PropsValue PropsTruncate PropsCodes.
Import ListNotations.
Local Open Scope Z_scope.

Lemma nth_firstn_lt {A} (l : list A) n j : (j < n)%nat -> nth_error (firstn n l) j = nth_error l j.
Proof. revert n j. induction l as [|a l IH]; intros [|n] [|j] H; try lia; try reflexivity. cbn. apply IH. lia. Qed.

Lemma standard_slot m content ck talker msgid fields v ud x i k ty d sl c :
  given m content ck talker msgid fields -> parse m 0 v ud = Ok (Some x) ->
  has_key msgid NMEA_MSGIDS = true -> str_in msgid prefixes = false -> lookup (str_upper msgid) NMEA_PAYLOADS_GET = Some d ->
  In c msgid -> ~ In c (u "PSSNSNC") -> fixed_slots d = Some sl -> nth_error sl i = Some (k, ty) ->
  match nth_error fields i with
  | Some f => exists val, str2val f ty = Ok val
      /\ lookup k (m_attrs x) = Some (settle k val (combine (skipn (S i) sl) (skipn (S i) fields)))
      /\ typed ty (settle k val (combine (skipn (S i) sl) (skipn (S i) fields)))
  | None => lookup k (m_attrs x) = None
  end.
Proof.
  intros G Pa K P L C NC FS NS.
  assert (definition_for 0 ud msgid fields = Some d) as D.
  { unfold definition_for, lookup_id. rewrite K, P. exact L. }
  assert (well_formed d) as W.
  { apply (C12_builtin (str_upper msgid)). unfold builtin_definitions. apply lookup_In in L. repeat (apply in_or_app; left). exact L. }
  pose proof (not_stripped talker msgid fields c C NC) as Ks.
  pose proof (fixed_layout (int_attr (m_attrs x)) (length fields) d 0%nat sl FS) as La.
  destruct (C13_decoded _ _ _ _ _ _ _ _ _ _ _ G Pa Ks D W) as (sl' & L' & Dc).
  pose proof (layout_functional _ _ _ _ _ _ La L') as <-. destruct (decode_nth _ _ _ Dc) as [Ln Hn].
  pose proof (proj1 (proj2 W) _ (layout_expands _ _ _ _ _ La)) as U.
  destruct (nth_error fields i) as [f|] eqn:F.
  - destruct (Hn i k ty f NS F) as (val & V & A). exists val. split; [exact V|].
    split; [|exact (C71_attributes _ _ _ _ _ _ _ _ _ _ _ _ _ _ _ _ G Pa Ks D W La NS A)].
    destruct (decoded_attr _ _ _ _ _ _ _ _ _ _ _ _ _ _ _ _ G Pa Ks D W La NS F) as (val' & V' & E). congruence.
  - apply lookup_None. intros H. rewrite (PropsTruncate.decode_names _ _ _ Dc) in H.
    apply nth_error_None in F. apply In_nth_error in H as (j & H).
    assert (j < length (m_attrs x))%nat as J.
    { assert (j < length (firstn (length (m_attrs x)) (map fst sl)))%nat as J by (apply nth_error_Some; congruence). rewrite firstn_length in J. lia. }
    rewrite nth_firstn_lt in H by exact J.
    assert (j = i) as ->; [|lia].
    pose proof (map_nth_error fst _ _ NS) as NS'. cbn [fst] in NS'.
    apply (proj1 (NoDup_nth_error _) U); [|exact (eq_trans H (eq_sym NS'))].
    apply nth_error_Some. congruence.
Qed.
