(* C102: the GPS data that examples/webserver/nmeaserver.py shows. *)
From Coq Require Import List NArith ZArith Lia Bool.
From Verif Require DecodeProofs.
From Verif Require Import Message Reader Spec TimeSpec TimeProofs ValueSpec BaseLemmas FloatProofs StreamProofs PropsValue PropsCodes Server JsonSpec JsonProofs SlotProofs.
Import ListNotations.
Local Open Scope Z_scope.

(* ------------------------------------------------------- specification *)
(* which sentence sets which entry from which attribute; true: as text, as str() gives it *)
Definition sources : list (pystr * pystr * pystr * bool) :=
  [(u "RMC", u "date", u "date", true); (u "RMC", u "time", u "time", true); (u "RMC", u "latitude", u "lat", false);
   (u "RMC", u "longitude", u "lon", false); (u "RMC", u "speed", u "spd", false); (u "RMC", u "track", u "cog", false);
   (u "GGA", u "time", u "time", true); (u "GGA", u "latitude", u "lat", false); (u "GGA", u "longitude", u "lon", false);
   (u "GGA", u "elevation", u "alt", false); (u "GGA", u "siv", u "numSV", false); (u "GGA", u "hdop", u "HDOP", false);
   (u "GSA", u "fix", u "navMode", false); (u "GSA", u "pdop", u "PDOP", false); (u "GSA", u "hdop", u "HDOP", false);
   (u "GSA", u "vdop", u "VDOP", false)].
(* a message of the reader: from some line, with checksum validation *)
Definition parsed (m : msg) : Prop := exists raw, parse raw 0 1 [] = Ok (Some m).
(* all attributes that are asked for are there *)
Definition complete (m : msg) : Prop :=
  forall entry a txt, In (m_msgID m, entry, a, txt) sources -> exists v, lookup a (m_attrs m) = Some v.
(* the value of an entry taken from message m *)
Definition taken (m : msg) (entry : pystr) (w : pyval) : Prop :=
  exists a txt v, In (m_msgID m, entry, a, txt) sources /\ lookup a (m_attrs m) = Some v
    /\ (if txt then exists s, str_of_val v = Ok s /\ w = VStr s else w = v).
Definition does_not_set (m : msg) (entry : pystr) : Prop := forall a txt, ~ In (m_msgID m, entry, a, txt) sources.
(* w is what entry holds when the messages ms have been dealt with: the value taken from the last of them that
   sets it, otherwise the initial value *)
Inductive holds (entry : pystr) : list msg -> pyval -> Prop :=
| holds_initial w : lookup entry gps_initial = Some w -> holds entry [] w
| holds_taken ms m w : taken m entry w -> holds entry (ms ++ [m]) w
| holds_kept ms m w : does_not_set m entry -> holds entry ms w -> holds entry (ms ++ [m]) w.
(* the messages among the results of read() *)
Definition messages (rs : list reading) : list msg := flat_map (fun r => match r with Got (Some m) => [m] | _ => [] end) rs.
(* nothing ends the thread: the errors are of the caught kinds *)
Definition survives (rs : list reading) : Prop :=
  forall e, In (Failed e) rs -> In e [NMEAStreamError; NMEAMessageError; NMEATypeError; NMEAParseError].
Definition entry_names : list pystr :=
  [u "date"; u "time"; u "latitude"; u "longitude"; u "elevation"; u "speed"; u "track"; u "siv"; u "pdop"; u "hdop"; u "vdop"; u "fix"].

(* ------------------------------------------------------------ messages *)
(* message id, attribute, position of its field, type *)
Definition placed : list (pystr * pystr * nat * pystr) :=
  [(u "RMC", u "date", 8%nat, u "DT"); (u "RMC", u "time", 0%nat, u "TM"); (u "RMC", u "lat", 2%nat, u "LA");
   (u "RMC", u "lon", 4%nat, u "LN"); (u "RMC", u "spd", 6%nat, u "DE"); (u "RMC", u "cog", 7%nat, u "DE");
   (u "GGA", u "time", 0%nat, u "TM"); (u "GGA", u "lat", 1%nat, u "LA"); (u "GGA", u "lon", 3%nat, u "LN");
   (u "GGA", u "alt", 8%nat, u "DE"); (u "GGA", u "numSV", 6%nat, u "IN"); (u "GGA", u "HDOP", 7%nat, u "DE");
   (u "GSA", u "navMode", 1%nat, u "IN"); (u "GSA", u "PDOP", 14%nat, u "DE"); (u "GSA", u "HDOP", 15%nat, u "DE");
   (u "GSA", u "VDOP", 16%nat, u "DE")].
Definition the_slots (msgid : pystr) : list slot :=
  match lookup msgid NMEA_PAYLOADS_GET with Some d => match fixed_slots d with Some sl => sl | None => [] end | None => [] end.
Lemma placed_slot m content ck talker msgid fields v ud x a i ty :
  given m content ck talker msgid fields -> parse m 0 v ud = Ok (Some x) -> In (msgid, a, i, ty) placed ->
  match nth_error fields i with
  | Some f => exists val later, str2val f ty = Ok val /\ lookup a (m_attrs x) = Some (settle a val later) /\ typed ty (settle a val later)
  | None => lookup a (m_attrs x) = None
  end.
Proof.
  intros G P H.
  assert (In msgid [u "RMC"; u "GGA"; u "GSA"] /\ nth_error (the_slots msgid) i = Some (a, ty)) as [Hid NS].
  { repeat (destruct H as [H|H]; [inversion H; subst; split; [vm_compute; tauto|vm_compute; reflexivity]|]). destruct H. }
  assert (exists d c, has_key msgid NMEA_MSGIDS = true /\ str_in msgid prefixes = false /\ lookup (str_upper msgid) NMEA_PAYLOADS_GET = Some d
    /\ In c msgid /\ ~ In c (u "PSSNSNC") /\ fixed_slots d = Some (the_slots msgid)) as (d & c & K1 & K2 & K3 & K4 & K5 & K6).
  { destruct Hid as [<-|[<-|[<-|[]]]].
    - exists def_g_RMC, 82%N. split; [vm_compute; reflexivity|]. split; [vm_compute; reflexivity|]. split; [vm_compute; reflexivity|]. split; [present|]. split; [absent|vm_compute; reflexivity].
    - exists def_g_GGA, 71%N. split; [vm_compute; reflexivity|]. split; [vm_compute; reflexivity|]. split; [vm_compute; reflexivity|]. split; [present|]. split; [absent|vm_compute; reflexivity].
    - exists def_g_GSA, 71%N. split; [vm_compute; reflexivity|]. split; [vm_compute; reflexivity|]. split; [vm_compute; reflexivity|]. split; [present|]. split; [absent|vm_compute; reflexivity]. }
  pose proof (standard_slot m content ck talker msgid fields v ud x i a ty d _ c G P K1 K2 K3 K4 K5 K6 NS) as Q.
  destruct (nth_error fields i); [|exact Q]. destruct Q as (val & V & L & T). exists val. eexists. split; [exact V|]. split; [exact L|exact T].
Qed.
Lemma source_placed id entry a txt : In (id, entry, a, txt) sources ->
  exists i ty, In (id, a, i, ty) placed /\ (if txt then In ty [u "DT"; u "TM"] else In ty [u "DE"; u "LA"; u "LN"; u "IN"]).
Proof.
  intros H.
  repeat (destruct H as [H|H]; [inversion H; subst; do 2 eexists; split; [vm_compute; repeat first [left; reflexivity|right]|vm_compute; tauto]|]). destruct H.
Qed.

(* values that json.dumps writes *)
Definition writable (w : pyval) : Prop :=
  (exists s, w = VStr s /\ json_chars s) \/ (exists z t, w = VInt z /\ str_of_Z z = Ok t) \/ (exists x, w = VFloat x /\ binary64 x).
Lemma json_lit s : forallb (fun c => (32 <=? c) && (c <=? 126) && negb (c =? 34) && negb (c =? 92))%N s = true -> json_chars s.
Proof. intros H. apply Forall_forall. intros c C. pose proof (proj1 (forallb_forall _ _) H c C) as Q. cbn beta in Q. lia. Qed.
Lemma json_pad n z : json_chars (pad n z).
Proof. destruct (zfill_dec n (Z.to_N z)) as [_ F]. eapply Forall_impl; [|exact F]. cbn. lia. Qed.
Ltac jlit := apply json_lit; vm_compute; reflexivity.
Ltac jparts := unfold json_chars; repeat match goal with |- Forall _ (_ ++ _) => apply Forall_app; split end.
Lemma json_date d : json_chars (str_of_date d).
Proof. unfold str_of_date. jparts; first [apply json_pad|jlit]. Qed.
Lemma json_time t : json_chars (str_of_time t).
Proof.
  unfold str_of_time. jparts; try apply json_pad; try jlit.
  destruct (_ =? _); [constructor|]. jparts; [jlit|apply json_pad].
Qed.
Lemma settled_float a val later x : settle a val later = VFloat x -> (forall y, val = VFloat y -> binary64 y) -> binary64 x.
Proof.
  intros E V.
  assert (forall neg h, with_sign neg h val = VFloat x -> binary64 x) as A.
  { intros neg [h|] W; [|apply V; exact W]. unfold with_sign in W. destruct val; try discriminate.
    match type of W with VFloat ?y = _ => assert (x = y) as -> by congruence end.
    destruct (str_eqb h neg); [apply opp_valid|]; apply abs_valid, V; reflexivity. }
  unfold settle in E. destruct (str_eqb a (u "lat")); [exact (A _ _ E)|]. destruct (str_eqb a (u "lon")); [exact (A _ _ E)|]. apply V, E.
Qed.
Lemma settled_int a val later z : settle a val later = VInt z -> a <> u "lat" -> a <> u "lon" -> val = VInt z.
Proof. intros E A B. rewrite PropsDecode.C12_settle_other in E by assumption. exact E. Qed.
Lemma str2val_integer f z : str2val f (u "IN") = Ok (VInt z) -> int_of_str f = Ok z.
Proof.
  change (str2val f (u "IN")) with (match f with [] => Ok (VStr []) | _ => let! z := int_of_str f in Ok (VInt z) end).
  destruct f; [discriminate|]. destruct (int_of_str _); [|discriminate]. cbn [bind]. congruence.
Qed.
Lemma source_value m entry a txt v : parsed m -> In (m_msgID m, entry, a, txt) sources -> lookup a (m_attrs m) = Some v ->
  exists w, (if txt then exists s, str_of_val v = Ok s /\ w = VStr s else w = v) /\ writable w.
Proof.
  intros [raw P] H L. destruct (source_placed _ _ _ _ H) as (i & ty & Pl & T).
  destruct (parse_given _ _ _ _ _ P) as (content & ck & talker & msgid & fields & G & _ & _ & _ & _ & _ & Mi & _). rewrite Mi in Pl.
  pose proof (placed_slot _ _ _ _ _ _ _ _ _ _ _ _ G P Pl) as Q. destruct (nth_error fields i) as [f|]; [|congruence].
  destruct Q as (val & later & V & L' & Ty). assert (v = settle a val later) as Ev by congruence. rewrite <- Ev in Ty.
  destruct txt.
  - destruct Ty as [->|[[T' _]|[[-> _]|[[T' _]|[[_ [t [-> _]]]|[_ [d [-> _]]]]]]]].
    + exists (VStr []). split; [exists []; split; reflexivity|]. left. exists []. split; [reflexivity|constructor].
    + exfalso. clear - T T'. vm_compute in T, T'. rows; congruence.
    + exfalso. clear - T. vm_compute in T. rows; congruence.
    + exfalso. clear - T T'. vm_compute in T, T'. rows; congruence.
    + exists (VStr (str_of_time t)). split; [exists (str_of_time t); split; reflexivity|]. left. exists (str_of_time t). split; [reflexivity|apply json_time].
    + exists (VStr (str_of_date d)). split; [exists (str_of_date d); split; reflexivity|]. left. exists (str_of_date d). split; [reflexivity|apply json_date].
  - exists v. split; [reflexivity|].
    destruct Ty as [->|[[T' _]|[[-> [z ->]]|[[_ [x ->]]|[[-> _]|[T' _]]]]]].
    + left. exists []. split; [reflexivity|constructor].
    + exfalso. clear - T T'. vm_compute in T, T'. rows; congruence.
    + right. left. assert (val = VInt z) as ->.
      { eapply settled_int; [symmetry; exact Ev| |]; clear - Pl; intros ->; vm_compute in Pl; rows; discriminate. }
      apply str2val_integer in V. destruct (int_writes _ _ V) as (t & Et). exists z, t. split; [reflexivity|exact Et].
    + right. right. exists x. split; [reflexivity|]. eapply settled_float; [symmetry; exact Ev|]. intros y ->. exact (str2val_valid _ _ _ V).
    + exfalso. clear - T. vm_compute in T. rows; congruence.
    + exfalso. clear - T T'. vm_compute in T, T'. rows; congruence.
Qed.

(* ---------------------------------------------------------- dictionary *)
Definition after (d : list (pystr * pyval)) (ws : list (pystr * pyval)) := fold_left (fun d w => put (fst w) (snd w) d) ws d.
Lemma put_same k v d : lookup k (put k v d) = Some v.
Proof.
  induction d as [|[k' v'] d IH]; cbn [put lookup]; [rewrite str_eqb_refl; reflexivity|].
  destruct (str_eqb k k') eqn:E; cbn [lookup]; rewrite E; [reflexivity|exact IH].
Qed.
Lemma put_other k v d j : j <> k -> lookup j (put k v d) = lookup j d.
Proof.
  intros N. induction d as [|[k' v'] d IH]; cbn [put lookup]; [apply str_eqb_neq in N; rewrite N; reflexivity|].
  destruct (str_eqb_spec k k') as [<-|D]; cbn [lookup]; [apply str_eqb_neq in N; rewrite N; reflexivity|].
  rewrite IH. reflexivity.
Qed.
Lemma put_keys k v d : In k (map fst d) -> map fst (put k v d) = map fst d.
Proof.
  induction d as [|[k' v'] d IH]; cbn [put map fst]; [contradiction|]. intros [E|H].
  - subst. rewrite str_eqb_refl. reflexivity.
  - destruct (str_eqb k k'); [reflexivity|]. cbn [map fst]. rewrite IH by exact H. reflexivity.
Qed.
Lemma after_keys ws : forall d, (forall k, In k (map fst ws) -> In k (map fst d)) -> map fst (after d ws) = map fst d.
Proof.
  induction ws as [|[k v] ws IH]; intros d H; [reflexivity|]. cbn [after fold_left fst snd]. fold (after (put k v d) ws).
  assert (map fst (put k v d) = map fst d) as E by (apply put_keys, H; left; reflexivity).
  rewrite IH; [exact E|]. intros j J. rewrite E. apply H. right. exact J.
Qed.
Lemma after_lookup ws : forall d j, NoDup (map fst ws) ->
  lookup j (after d ws) = match lookup j ws with Some w => Some w | None => lookup j d end.
Proof.
  induction ws as [|[k v] ws IH]; intros d j N; [reflexivity|]. cbn [after fold_left fst snd]. fold (after (put k v d) ws).
  cbn [map fst] in N. inversion N as [|? ? N1 N2]; subst. rewrite IH by exact N2. cbn [lookup].
  destruct (str_eqb_spec j k) as [->|D].
  - rewrite (proj2 (lookup_None k ws) N1). apply put_same.
  - rewrite put_other by exact D. reflexivity.
Qed.

(* ------------------------------------------------------------- one message *)
Lemma assignments_sources id k a txt : In (k, a, txt) (assignments id) <-> In (id, k, a, txt) sources.
Proof.
  unfold assignments. split.
  - intros H. destruct (str_eqb_spec id (u "RMC")) as [->|_].
    { repeat (destruct H as [H|H]; [inversion H; subst; vm_compute; tauto|]). destruct H. }
    destruct (str_eqb_spec id (u "GGA")) as [->|_].
    { repeat (destruct H as [H|H]; [inversion H; subst; vm_compute; tauto|]). destruct H. }
    destruct (str_eqb_spec id (u "GSA")) as [->|_]; [|destruct H].
    repeat (destruct H as [H|H]; [inversion H; subst; vm_compute; tauto|]). destruct H.
  - intros H. repeat (destruct H as [H|H]; [inversion H; subst; vm_compute; tauto|]). destruct H.
Qed.
Lemma assignments_nodup id : NoDup (map (fun p => fst (fst p)) (assignments id)).
Proof.
  unfold assignments. destruct (str_eqb id (u "RMC")); [|destruct (str_eqb id (u "GGA")); [|destruct (str_eqb id (u "GSA")); [|constructor]]];
    apply TableProofs.nodupb_ok; vm_compute; reflexivity.
Qed.
Lemma source_entry id entry a txt : In (id, entry, a, txt) sources -> In entry entry_names.
Proof. intros H. repeat (destruct H as [H|H]; [inversion H; subst; vm_compute; tauto|]). destruct H. Qed.

(* what set_data assigns for a message of the reader: values taken from it, in order; all of them, or up to the
   first attribute that is missing *)
Lemma assigned_ok m l : parsed m -> (forall k a txt, In (k, a, txt) l -> In (m_msgID m, k, a, txt) sources) ->
  exists ws e, assigned m l = (ws, e) /\ map fst ws = firstn (length ws) (map (fun p => fst (fst p)) l)
    /\ Forall (fun w => taken m (fst w) (snd w) /\ writable (snd w)) ws
    /\ ((e = None /\ length ws = length l /\ forall k a txt, In (k, a, txt) l -> exists v, lookup a (m_attrs m) = Some v)
        \/ (e = Some AttributeError /\ exists k a txt, In (k, a, txt) l /\ lookup a (m_attrs m) = None)).
Proof.
  intros P. induction l as [|[[k a] txt] l IH]; intros H; cbn [assigned].
  - exists [], None. repeat split; [constructor|]. left. split; [reflexivity|]. split; [reflexivity|]. intros ? ? ? [].
  - destruct (lookup a (m_attrs m)) as [v|] eqn:L.
    + destruct (source_value m k a txt v P (H _ _ _ (or_introl eq_refl)) L) as (w & W & Wr).
      assert ((if txt then let! t := str_of_val v in Ok (VStr t) else Ok v) = Ok w) as E.
      { destruct txt; [destruct W as (s & -> & ->); reflexivity|congruence]. }
      rewrite E. destruct IH as (ws & e & -> & K & F & C); [intros ? ? ? Q; apply H; right; exact Q|].
      exists ((k, w) :: ws), e. split; [reflexivity|]. cbn [map fst length firstn]. rewrite <- K. split; [reflexivity|]. split.
      * constructor; [|exact F]. cbn [fst snd]. split; [|exact Wr]. exists a, txt, v. split; [apply H; left; reflexivity|]. split; [exact L|exact W].
      * destruct C as [(-> & C1 & C2)|(-> & k' & a' & t' & C1 & C2)].
        -- left. split; [reflexivity|]. split; [lia|]. intros k' a' t' [Q|Q]; [inversion Q; subst; exists v; exact L|exact (C2 _ _ _ Q)].
        -- right. split; [reflexivity|]. exists k', a', t'. split; [right; exact C1|exact C2].
    + exists [], (Some AttributeError). repeat split; [constructor|]. right. split; [reflexivity|]. exists k, a, txt. split; [left; reflexivity|exact L].
Qed.
Lemma firstn_nodup {A} (l : list A) n : NoDup l -> NoDup (firstn n l).
Proof. intros H. rewrite <- (firstn_skipn n l) in H. apply DecodeProofs.NoDup_prefix in H. exact H. Qed.
Lemma In_firstn {A} (l : list A) n a : In a (firstn n l) -> In a l.
Proof. intros H. rewrite <- (firstn_skipn n l). apply in_or_app. left. exact H. Qed.
Lemma set_data_ok m : parsed m ->
  exists ws e, set_data m = (ws, e) /\ NoDup (map fst ws) /\ (forall k, In k (map fst ws) -> In k entry_names)
    /\ Forall (fun w => taken m (fst w) (snd w) /\ writable (snd w)) ws
    /\ ((e = None /\ complete m /\ forall k, lookup k ws = None -> does_not_set m k)
        \/ (e = Some AttributeError /\ ~ complete m)).
Proof.
  intros P. destruct (assigned_ok m (assignments (m_msgID m)) P) as (ws & e & E & K & F & C).
  { intros k a txt. apply assignments_sources. }
  exists ws, e. split; [exact E|]. split; [rewrite K; apply firstn_nodup, assignments_nodup|]. split.
  { intros k H. rewrite K in H. apply In_firstn in H. apply in_map_iff in H as ([[k' a] txt] & <- & H). apply assignments_sources in H.
    exact (source_entry _ _ _ _ H). }
  split; [exact F|]. destruct C as [(-> & C1 & C2)|(-> & k & a & txt & C1 & C2)].
  - left. split; [reflexivity|]. split; [intros k a txt H; apply assignments_sources in H; exact (C2 _ _ _ H)|].
    intros k L a txt H. apply assignments_sources in H. apply lookup_None in L. apply L. rewrite K, C1, <- (map_length (fun p => fst (fst p))), firstn_all.
    apply in_map_iff. exists (k, a, txt). split; [reflexivity|exact H].
  - right. split; [reflexivity|]. intros Q. apply assignments_sources in C1. destruct (Q _ _ _ C1) as (v & V). congruence.
Qed.

(* ------------------------------------------------------------ histories *)
Definition good_state (done : list msg) (d : list (pystr * pyval)) : Prop :=
  map fst d = entry_names /\ forall entry, In entry entry_names -> exists w, lookup entry d = Some w /\ holds entry done w /\ writable w.
Lemma initial_state : good_state [] gps_initial.
Proof.
  split; [vm_compute; reflexivity|]. intros entry H.
  assert (exists w, lookup entry gps_initial = Some w /\ writable w) as (w & L & W).
  { repeat (destruct H as [<-|H]; [eexists; split; [vm_compute; reflexivity|]|]); [..|destruct H].
    all: try (left; eexists; split; [reflexivity|jlit]).
    all: try (right; left; do 2 eexists; split; [reflexivity|vm_compute; reflexivity]).
    all: right; right; eexists; split; reflexivity. }
  exists w. split; [exact L|]. split; [apply holds_initial, L|exact W].
Qed.
Lemma lookup_mem {A} k (l : list (pystr * A)) v : lookup k l = Some v -> In (k, v) l.
Proof. apply lookup_In. Qed.
Lemma step_message m ws e done d : parsed m -> set_data m = (ws, e) -> good_state done d ->
  (e = None -> good_state (done ++ [m]) (after d ws))
  /\ (forall k, let d' := after d (firstn k ws) in map fst d' = entry_names
      /\ forall entry, In entry entry_names -> exists w, lookup entry d' = Some w /\ (holds entry done w \/ holds entry (done ++ [m]) w) /\ writable w).
Proof.
  intros P E [Kd Hd]. destruct (set_data_ok m P) as (ws' & e' & E' & N & Kn & F & C). rewrite E in E'.
  assert (ws' = ws) as -> by congruence. assert (e' = e) as -> by congruence. split.
  - intros ->. destruct C as [(_ & Cm & Q)|(X & _)]; [|discriminate]. split.
    + rewrite after_keys; [exact Kd|]. intros k K. rewrite Kd. exact (Kn _ K).
    + intros entry He. rewrite after_lookup by exact N. destruct (lookup entry ws) as [w|] eqn:L.
      * exists w. split; [reflexivity|]. apply lookup_mem in L. rewrite Forall_forall in F. destruct (F _ L) as [T W]. cbn [fst snd] in *.
        split; [apply holds_taken, T|exact W].
      * destruct (Hd entry He) as (w & Lw & Hw & W). exists w. split; [exact Lw|]. split; [apply holds_kept; [apply Q, L|exact Hw]|exact W].
  - intros k d'. assert (NoDup (map fst (firstn k ws))) as N' by (rewrite <- firstn_map; apply firstn_nodup, N). split.
    + unfold d'. rewrite after_keys; [exact Kd|]. intros j J. rewrite Kd. apply Kn. rewrite <- firstn_map in J. exact (In_firstn _ _ _ J).
    + intros entry He. unfold d'. rewrite after_lookup by exact N'. destruct (lookup entry (firstn k ws)) as [w|] eqn:L.
      * exists w. split; [reflexivity|]. apply lookup_mem, In_firstn in L. rewrite Forall_forall in F. destruct (F _ L) as [T W]. cbn [fst snd] in *.
        split; [right; apply holds_taken, T|exact W].
      * destruct (Hd entry He) as (w & Lw & Hw & W). exists w. split; [exact Lw|]. split; [left; exact Hw|exact W].
Qed.
Lemma after_app d a b : after d (a ++ b) = after (after d a) b.
Proof. apply fold_left_app. Qed.

Lemma serve_all rs : forall done d, Forall parsed (messages rs) -> Forall complete (messages rs) -> survives rs -> good_state done d ->
  snd (serve rs) = None /\ good_state (done ++ messages rs) (after d (fst (serve rs))).
Proof.
  induction rs as [|[[m|]|x] rs IH]; intros done d P C Sv G; cbn [serve messages flat_map app] in *.
  - rewrite app_nil_r. split; [reflexivity|exact G].
  - inversion P as [|? ? P1 P2]; subst. inversion C as [|? ? C1 C2]; subst.
    destruct (set_data m) as [ws e] eqn:E. destruct (step_message m ws e done d P1 E G) as [S1 _].
    destruct (set_data_ok m P1) as (ws' & e' & E' & _ & _ & _ & Q). rewrite E in E'.
    assert (e = None) as ->. { assert (e' = e) as -> by congruence. destruct Q as [(-> & _)|(_ & Q)]; [reflexivity|contradiction]. }
    destruct (IH (done ++ [m]) (after d ws) P2 C2) as [I1 I2]; [intros e0 H0; apply Sv; right; exact H0|exact (S1 eq_refl)|].
    destruct (serve rs) as [ws2 e2]. cbn [fst snd] in *. split; [exact I1|]. rewrite after_app. rewrite <- app_assoc in I2. exact I2.
  - apply IH; try assumption. intros e0 H0. apply Sv. right. exact H0.
  - assert (server_catches x = true) as ->.
    { specialize (Sv x (or_introl eq_refl)). cbn [In] in Sv. destruct Sv as [<-|[<-|[<-|[<-|[]]]]]; reflexivity. }
    apply IH; try assumption. intros e0 H0. apply Sv. right. exact H0.
Qed.
Lemma serve_prefix rs : forall done d k, Forall parsed (messages rs) -> good_state done d ->
  let d' := after d (firstn k (fst (serve rs))) in
  map fst d' = entry_names /\ exists seen more, messages rs = seen ++ more /\
    forall entry, In entry entry_names -> exists w, lookup entry d' = Some w /\ writable w
      /\ (holds entry (done ++ seen) w \/ exists m r, more = m :: r /\ holds entry (done ++ seen ++ [m]) w).
Proof.
  induction rs as [|[[m|]|x] rs IH]; intros done d k P G; cbn [serve messages flat_map app] in *.
  - rewrite firstn_nil. split; [apply G|]. exists [], []. split; [reflexivity|]. intros entry H. destruct G as [_ G].
    destruct (G entry H) as (w & L & Hw & W). exists w. rewrite !app_nil_r. split; [exact L|]. split; [exact W|]. left. exact Hw.
  - inversion P as [|? ? P1 P2]; subst. destruct (set_data m) as [ws e] eqn:E. destruct (step_message m ws e done d P1 E G) as [S1 S2].
    destruct (set_data_ok m P1) as (ws' & e' & E' & _ & _ & _ & Q). rewrite E in E'. assert (e' = e) as -> by congruence.
    assert (forall k, map fst (after d (firstn k ws)) = entry_names /\ exists seen more, m :: messages rs = seen ++ more /\
      forall entry, In entry entry_names -> exists w, lookup entry (after d (firstn k ws)) = Some w /\ writable w
      /\ (holds entry (done ++ seen) w \/ exists m r, more = m :: r /\ holds entry (done ++ seen ++ [m]) w)) as Inside.
    { intros j. destruct (S2 j) as [Kj Hj]. split; [exact Kj|]. exists [], (m :: messages rs). split; [reflexivity|]. intros entry He.
      destruct (Hj entry He) as (w & L & Hw & W). exists w. split; [exact L|]. split; [exact W|]. rewrite app_nil_r. cbn [app].
      destruct Hw as [Hw|Hw]; [left; exact Hw|right; exists m, (messages rs); split; [reflexivity|exact Hw]]. }
    destruct Q as [(-> & _)|(-> & _)].
    + destruct (serve rs) as [ws2 e2] eqn:Sr. cbn [fst]. rewrite firstn_app, after_app.
      destruct (Nat.le_gt_cases k (length ws)) as [L|L].
      * replace (k - length ws)%nat with 0%nat by lia. cbn [firstn]. exact (Inside k).
      * rewrite (firstn_all2 ws) by lia. specialize (IH (done ++ [m]) (after d ws) (k - length ws)%nat P2 (S1 eq_refl)). cbn [fst] in IH.
        destruct IH as (I1 & seen & more & I2 & I3). split; [exact I1|]. exists (m :: seen), more. split; [fold (messages rs); rewrite I2; reflexivity|].
        intros entry He. destruct (I3 entry He) as (w & Lw & W & Hw). exists w. split; [exact Lw|]. split; [exact W|].
        replace ((done ++ [m]) ++ seen) with (done ++ m :: seen) in Hw by (rewrite <- app_assoc; reflexivity).
        destruct Hw as [Hw|(m0 & r & -> & Hw)]; [left; exact Hw|right; exists m0, r; split; [reflexivity|]].
        rewrite <- app_assoc in Hw. exact Hw.
    + cbn [server_catches fst]. exact (Inside k).
  - apply IH; assumption.
  - destruct (server_catches x); [apply IH; assumption|]. cbn [fst]. rewrite firstn_nil. split; [apply G|]. exists [], (messages rs). split; [reflexivity|].
    intros entry H. destruct G as [_ G]. destruct (G entry H) as (w & L & Hw & W). exists w. rewrite app_nil_r. split; [exact L|]. split; [exact W|]. left. exact Hw.
Qed.

(* ------------------------------------------------------------- theorems *)
(* As long as the readings end in messages, None or one of the caught errors and no sentence is too short, the
   thread lives, and once all assignments are made every entry holds what the last message that sets it gave, or
   its initial value. *)
Theorem C102_latest rs k :
  Forall parsed (messages rs) -> Forall complete (messages rs) -> survives rs -> (length (fst (serve rs)) <= k)%nat ->
  snd (serve rs) = None /\ map fst (gpsdata rs k) = entry_names
  /\ forall entry, In entry entry_names -> exists w, lookup entry (gpsdata rs k) = Some w /\ holds entry (messages rs) w.
Proof.
  intros P C Sv L. destruct (serve_all rs [] gps_initial P C Sv initial_state) as [E [G1 G2]]. split; [exact E|].
  assert (gpsdata rs k = after gps_initial (fst (serve rs))) as ->.
  { unfold gpsdata, after. rewrite firstn_all2 by exact L. reflexivity. }
  split; [exact G1|]. intros entry He. destruct (G2 entry He) as (w & Lw & Hw & _). exists w. split; [exact Lw|exact Hw].
Qed.
(* Whenever the page is asked for, however the thread fares: the same twelve entries, and each holds its value as of
   some common point of the message sequence, or as of one message later. *)
Theorem C102_snapshot rs k :
  Forall parsed (messages rs) ->
  map fst (gpsdata rs k) = entry_names
  /\ exists seen more, messages rs = seen ++ more
     /\ forall entry, In entry entry_names -> exists w, lookup entry (gpsdata rs k) = Some w
        /\ (holds entry seen w \/ exists m r, more = m :: r /\ holds entry (seen ++ [m]) w).
Proof.
  intros P. destruct (serve_prefix rs [] gps_initial k P initial_state) as (K & seen & more & E & H). split; [exact K|].
  exists seen, more. split; [exact E|]. intros entry He. destruct (H entry He) as (w & L & _ & Hw). exists w. split; [exact L|exact Hw].
Qed.
(* A sentence that stops before a field that is asked for ends the thread with AttributeError: nothing that comes
   later has any effect. *)
Theorem C102_dies rs m later :
  Forall parsed (messages rs) -> Forall complete (messages rs) -> survives rs -> parsed m -> ~ complete m ->
  snd (serve (rs ++ Got (Some m) :: later)) = Some AttributeError
  /\ forall k, gpsdata (rs ++ Got (Some m) :: later) k = gpsdata (rs ++ [Got (Some m)]) k.
Proof.
  intros P C Sv Pm Cm.
  assert (forall l, serve (rs ++ Got (Some m) :: l) = (fst (serve rs) ++ fst (set_data m), Some AttributeError)) as Q.
  { intros l. induction rs as [|[[m'|]|x] rs IH]; cbn [serve messages flat_map app] in *.
    - destruct (set_data_ok m Pm) as (ws & e & -> & _ & _ & _ & [(_ & X & _)|(-> & _)]); [contradiction|]. reflexivity.
    - inversion P as [|? ? P1 P2]; subst. inversion C as [|? ? C1 C2]; subst.
      destruct (set_data_ok m' P1) as (ws & e & -> & _ & _ & _ & [(-> & _ & _)|(_ & X)]); [|contradiction].
      rewrite IH; [|assumption..|intros e0 H0; apply Sv; right; exact H0]. destruct (serve rs) as [ws2 e2]. cbn [fst]. rewrite app_assoc. reflexivity.
    - apply IH; try assumption. intros e0 H0. apply Sv. right. exact H0.
    - assert (server_catches x = true) as ->.
      { specialize (Sv x (or_introl eq_refl)). cbn [In] in Sv. destruct Sv as [<-|[<-|[<-|[<-|[]]]]]; reflexivity. }
      apply IH; try assumption. intros e0 H0. apply Sv. right. exact H0. }
  split; [rewrite Q; reflexivity|]. intros k. unfold gpsdata. rewrite !Q. reflexivity.
Qed.
(* which sentences are long enough *)
Theorem C102_sentences raw content ck talker msgid fields m :
  given raw content ck talker msgid fields -> parse raw 0 1 [] = Ok (Some m) ->
  (complete m <-> (msgid = u "RMC" -> (9 <= length fields)%nat) /\ (msgid = u "GGA" -> (9 <= length fields)%nat)
                  /\ (msgid = u "GSA" -> (17 <= length fields)%nat)).
Proof.
  intros G P.
  assert (m_msgID m = msgid) as Mi.
  { destruct (parse_given _ _ _ _ _ P) as (c2 & k2 & t2 & i2 & f2 & G2 & _ & _ & _ & _ & _ & M2 & _).
    destruct (PropsDecode.given_functional _ _ _ _ _ _ _ _ _ _ _ G G2) as (_ & _ & _ & -> & _). exact M2. }
  assert (forall a i ty, In (msgid, a, i, ty) placed -> ((exists v, lookup a (m_attrs m) = Some v) <-> (i < length fields)%nat)) as Q.
  { intros a i ty Pl. pose proof (placed_slot _ _ _ _ _ _ _ _ _ _ _ _ G P Pl) as R. destruct (nth_error fields i) as [f|] eqn:N.
    - destruct R as (val & lt & _ & L & _). split; [intros _; apply nth_error_Some; congruence|intros _; eexists; exact L].
    - apply nth_error_None in N. rewrite R. split; [intros [v V]; discriminate|lia]. }
  unfold complete. rewrite Mi. split.
  - intros C. split; [|split]; intros ->.
    + destruct (Q (u "date") 8%nat (u "DT")) as [Q1 _]; [vm_compute; tauto|]. enough (8 < length fields)%nat by lia. apply Q1, (C (u "date") _ true). vm_compute; tauto.
    + destruct (Q (u "alt") 8%nat (u "DE")) as [Q1 _]; [vm_compute; tauto|]. enough (8 < length fields)%nat by lia. apply Q1, (C (u "elevation") _ false). vm_compute; tauto.
    + destruct (Q (u "VDOP") 16%nat (u "DE")) as [Q1 _]; [vm_compute; tauto|]. enough (16 < length fields)%nat by lia. apply Q1, (C (u "vdop") _ false). vm_compute; tauto.
  - intros (C1 & C2 & C3) entry a txt H.
    assert (exists i ty, In (msgid, a, i, ty) placed /\ (i < length fields)%nat) as (i & ty & Pl & L).
    { clear - C1 C2 C3 H.
      repeat (destruct H as [H|H]; [inversion H; subst;
        first [specialize (C1 eq_refl)|specialize (C2 eq_refl)|specialize (C3 eq_refl)];
        do 2 eexists; split; [vm_compute; repeat first [left; reflexivity|right]|lia]|]). destruct H. }
    apply (Q a i ty Pl). exact L.
Qed.
Lemma json_escape_plain s : json_chars s -> flat_map json_escape s = s.
Proof.
  induction 1 as [|c s (A & B & D) F IH]; [reflexivity|]. cbn [flat_map]. rewrite IH. unfold json_escape.
  rewrite !(proj2 (N.eqb_neq _ _)) by lia. rewrite !(proj2 (N.leb_le _ _)) by lia. reflexivity.
Qed.
Lemma json_string_plain s : json_chars s -> json_string s = u """" ++ s ++ u """".
Proof. intros H. unfold json_string. rewrite json_escape_plain by exact H. reflexivity. Qed.
Lemma value_json w : writable w -> exists t, json_value w = Ok t /\ ((forall x, w = VFloat x -> is_fin x = true) -> json_text w t).
Proof.
  intros [(s & -> & C)|[(z & t & -> & E)|(x & -> & B)]]; cbn [json_value json_text].
  - eexists. split; [reflexivity|]. intros _. split; [exact C|apply json_string_plain, C].
  - exists t. split; [exact E|]. intros _. exact (integer_json _ _ E).
  - eexists. split; [reflexivity|]. intros F. specialize (F x eq_refl). destruct x; try discriminate; apply float_json; auto.
Qed.
Lemma items_json d : d <> [] -> Forall (fun p => json_chars (fst p) /\ writable (snd p)) d ->
  exists t, json_items d = Ok t /\ ((forall n x, In (n, VFloat x) d -> is_fin x = true) -> json_members d t).
Proof.
  induction d as [|[n v] d IH]; [congruence|]. intros _ F. inversion F as [|? ? [F1 F2] F3]; subst. cbn [fst snd] in *.
  destruct (value_json v F2) as (t & E & J). cbn [json_items]. rewrite E. cbn [bind]. rewrite json_string_plain by exact F1.
  destruct d as [|q d].
  - cbn [json_items bind]. eexists. split; [reflexivity|]. intros Fi. cbn [app]. rewrite !app_nil_r.
    match goal with |- json_members _ ?x => replace x with (u """" ++ n ++ u """: " ++ t) end.
    + apply jm_one; [exact F1|]. apply J. intros x ->. apply (Fi n x). left. reflexivity.
    + rewrite <- !app_assoc. reflexivity.
  - destruct IH as (ts & Es & Js); [discriminate|exact F3|]. rewrite Es. cbn [bind]. eexists. split; [reflexivity|]. intros Fi.
    pose proof (jm_more n v t (q :: d) ts F1) as M. 
    match goal with |- json_members _ ?x => replace x with (u """" ++ n ++ u """: " ++ t ++ u ", " ++ ts) end.
    + apply M; [apply J; intros x ->; apply (Fi n x); left; reflexivity|]. apply Js. intros n' x H. apply (Fi n' x). right. exact H.
    + rewrite <- !app_assoc. reflexivity.
Qed.
(* The page can always be produced, and if no entry is infinite or not a number it is a JSON object with the twelve
   entries: texts in quotes, integers as decimal numerals, floats as numbers that read back as the same float. *)
Theorem C102_json rs k :
  Forall parsed (messages rs) ->
  exists t, get_data rs k = Ok t
    /\ ((forall entry x, In (entry, VFloat x) (gpsdata rs k) -> is_fin x = true) -> json_object (gpsdata rs k) t).
Proof.
  intros P. destruct (serve_prefix rs [] gps_initial k P initial_state) as (K & seen & more & _ & H). fold (gpsdata rs k) in K, H.
  change (after gps_initial (firstn k (fst (serve rs)))) with (gpsdata rs k) in *.
  assert (Forall (fun p => json_chars (fst p) /\ writable (snd p)) (gpsdata rs k)) as F.
  { assert (NoDup (map fst (gpsdata rs k))) as N by (rewrite K; apply TableProofs.nodupb_ok; vm_compute; reflexivity).
    apply Forall_forall. intros [n v] Q. cbn [fst snd]. assert (In n entry_names) as I by (rewrite <- K; apply in_map_iff; exists (n, v); auto).
    destruct (H n I) as (w & L & W & _). rewrite (lookup_NoDup _ _ _ N Q) in L. assert (v = w) as -> by congruence. split; [|exact W].
    clear - I. repeat (destruct I as [<-|I]; [jlit|]). destruct I. }
  destruct (items_json (gpsdata rs k)) as (t & E & J); [intros E0; rewrite E0 in K; discriminate|exact F|].
  unfold get_data. rewrite E. cbn [bind]. eexists. split; [reflexivity|]. intros Fi. exists t. split; [exact (J Fi)|reflexivity].
Qed.
(* what the server's reader gives: messages as above, and no exception of the four kinds that the loop catches - an
   exception of read() comes from the port and ends the thread *)
Theorem C102_readings S rd rl fuel (s : S) o ev s' :
  read S rd rl server_cfg fuel s = Some (o, ev, s') ->
  match o with
  | RMsg _ (Some m) => parsed m
  | RRaise e => ~ In e [NMEAStreamError; NMEAMessageError; NMEATypeError; NMEAParseError]
  | _ => True
  end.
Proof.
  revert s o ev s'. induction fuel as [|fuel IH]; intros s o ev s' E; [discriminate|]. cbn [read] in E.
  destruct (pass S rd rl server_cfg s) as [r s1] eqn:Pa. destruct r as [[[raw m]|]|e].
  - match type of E with Some (?a, _, _) = Some (_, _, _) => assert (o = a) as -> by congruence end. destruct m as [m|]; [|exact I].
    unfold pass in Pa. destruct (read_byte S rd s) as [[b1|] sa]; [|congruence]. destruct (negb (str_eqb b1 _)); [congruence|].
    destruct (read_byte S rd sa) as [[b2|] sb]; [|congruence]. 
    match type of Pa with (if ?c then _ else _) = _ => destruct c end.
    + destruct (read_line S rl sb) as [[bn|] sc]; [|congruence]. cbv zeta in Pa.
      destruct (parse (MBytes (b1 ++ b2 ++ bn)) _ _ _) as [m0|] eqn:Q; [|congruence].
      assert (m0 = Some m) as -> by congruence. exists (MBytes (b1 ++ b2 ++ bn)). exact Q.
    + destruct (r_nmeaonly server_cfg); congruence.
  - exact (IH _ _ _ _ E).
  - assert (is_nmea_error e = false -> ~ In e [NMEAStreamError; NMEAMessageError; NMEATypeError; NMEAParseError]) as Q.
    { intros Q H. cbn [In] in H. destruct H as [<-|[<-|[<-|[<-|[]]]]]; discriminate. }
    destruct (is_nmea_error e) eqn:Ne.
    + assert (match read S rd rl server_cfg fuel s1 with Some (o, ev', s2) => Some (o, [EvLog e] ++ ev', s2) | None => None end = Some (o, ev, s')) as E2
        by (destruct e; try discriminate; exact E).
      destruct (read S rd rl server_cfg fuel s1) as [[[o2 ev2] s2]|] eqn:Rd; [|discriminate].
      assert (o2 = o) as -> by congruence. exact (IH _ _ _ _ Rd).
    + specialize (Q eq_refl). destruct e; try discriminate; match type of E with Some (?a, _, _) = Some (_, _, _) => assert (o = a) as -> by congruence end; first [exact I|exact Q].
Qed.

(* --------------------------------------------------------------- cases *)
Definition crlf : bytes := [13%N; 10%N].
Definition ex_rmc : bytes := u "$GNRMC,103607.00,A,5327.03942,N,00214.42462,W,0.046,12.5,060321,,,A*6D" ++ crlf.
Definition ex_gga : bytes := u "$GNGGA,103607.00,5327.03942,N,00214.42462,W,1,06,5.88,56.0,M,48.5,M,,*64" ++ crlf.
Definition ex_nan : bytes := u "$GNGGA,103607.00,5327.03942,N,00214.42462,W,1,06,5.88,nan,M,48.5,M,,*18" ++ crlf.
Definition ex_gsa : bytes := u "$GNGSA,A,3,23,24,20,12,,,,,,,,,9.62,5.88,7.62,1*0C" ++ crlf.
Definition ex_short : bytes := u "$GNGGA,103607.00,5327.03942,N,00214.42462,W,1,06*59" ++ crlf.
Definition from_line (raw : bytes) : reading :=
  match parse (MBytes raw) 0 1 [] with Ok o => Got o | Raise e => Failed e end.
Lemma from_line_parsed raw m : from_line raw = Got (Some m) -> parsed m.
Proof.
  unfold from_line. intros E. exists (MBytes raw). destruct (parse _ _ _ _) as [o|]; [|discriminate].
  assert (o = Some m) as -> by congruence. reflexivity.
Qed.
Lemma lines_parsed ls : Forall parsed (messages (map from_line ls)).
Proof.
  induction ls as [|l ls IH]; [constructor|]. cbn [map messages flat_map]. fold (messages (map from_line ls)).
  destruct (from_line l) as [[m|]|] eqn:E; try exact IH. constructor; [exact (from_line_parsed _ _ E)|exact IH].
Qed.
Definition has_all (m : msg) : bool :=
  forallb (fun p => match lookup (snd (fst p)) (m_attrs m) with Some _ => true | None => false end) (assignments (m_msgID m)).
Lemma has_all_ok m : has_all m = true -> complete m.
Proof.
  intros H entry a txt I0. apply assignments_sources in I0. pose proof (proj1 (forallb_forall _ _) H _ I0) as Q. cbn [fst snd] in Q.
  destruct (lookup a (m_attrs m)) as [v|]; [exists v; reflexivity|discriminate].
Qed.
Lemma lines_complete ls : forallb has_all (messages (map from_line ls)) = true -> Forall complete (messages (map from_line ls)).
Proof. intros H. apply Forall_forall. intros m M. apply has_all_ok. exact (proj1 (forallb_forall _ _) H m M). Qed.
Definition ex_readings : list reading := map from_line [ex_rmc; ex_gga; ex_gsa].
Example C102_example :
  Forall parsed (messages ex_readings) /\ Forall complete (messages ex_readings) /\ survives ex_readings
  /\ length (messages ex_readings) = 3%nat
  /\ get_data ex_readings 16 = Ok (u "{""date"": ""2021-03-06"", ""time"": ""10:36:07"", ""latitude"": 53.450657, ""longitude"": -2.2404103333, ""elevation"": 56.0, ""speed"": 0.046, ""track"": 12.5, ""siv"": 6, ""pdop"": 9.62, ""hdop"": 5.88, ""vdop"": 7.62, ""fix"": 3}").
Proof.
  split; [apply lines_parsed|]. split; [apply lines_complete; vm_compute; reflexivity|].
  split; [intros e H; vm_compute in H; destruct H as [H|[H|[H|[]]]]; discriminate|]. split; [vm_compute; reflexivity|]. vm_compute. reflexivity.
Qed.
(* The entries of one page need not belong together: while a sentence is dealt with, the latitude can be new and the
   longitude still old. *)
Lemma holds_nil entry w : holds entry [] w -> lookup entry gps_initial = Some w.
Proof. intros H. inversion H as [? L|ms m ? T E|ms m ? D Q E]; [exact L|destruct ms; discriminate|destruct ms; discriminate]. Qed.
Lemma holds_one entry m w : holds entry [m] w -> taken m entry w \/ does_not_set m entry.
Proof.
  intros H. inversion H as [? L|ms m' ? T E|ms m' ? D Q E].
  - left. apply (app_inj_tail ms []) in E as [_ ->]. exact T.
  - right. apply (app_inj_tail ms []) in E as [_ ->]. exact D.
Qed.
Theorem C102_consistent_refuted :
  ~ forall rs k, Forall parsed (messages rs) -> Forall complete (messages rs) -> survives rs ->
    exists seen more, messages rs = seen ++ more
      /\ forall entry, In entry entry_names -> exists w, lookup entry (gpsdata rs k) = Some w /\ holds entry seen w.
Proof.
  intros H. destruct (H (map from_line [ex_rmc]) 3%nat) as (seen & more & E & Q).
  { apply lines_parsed. } { apply lines_complete. vm_compute. reflexivity. }
  { intros e I0. vm_compute in I0. destruct I0 as [I0|[]]. discriminate I0. }
  destruct (Q (u "latitude")) as (w1 & L1 & H1); [vm_compute; tauto|].
  destruct (Q (u "longitude")) as (w2 & L2 & H2); [vm_compute; tauto|]. clear Q H.
  destruct seen as [|m seen].
  - apply holds_nil in H1. rewrite <- L1 in H1. vm_compute in H1. discriminate H1.
  - assert (seen = []) as -> by (apply (f_equal (@length msg)) in E; destruct seen; [reflexivity|vm_compute in E; discriminate E]).
    assert (m_msgID m = u "RMC" /\ lookup (u "lon") (m_attrs m) <> Some w2) as [I0 N].
    { cbn [app] in E. split.
      - assert (option_map m_msgID (hd_error (messages (map from_line [ex_rmc]))) = Some (m_msgID m)) as Y by (rewrite E; reflexivity).
        exact (eq_sym (f_equal (fun o => match o with Some x => x | None => [] end) Y)).
      - assert (option_map (fun m => lookup (u "lon") (m_attrs m)) (hd_error (messages (map from_line [ex_rmc]))) = Some (lookup (u "lon") (m_attrs m))) as Y by (rewrite E; reflexivity).
        intros N. rewrite N, <- L2 in Y. vm_compute in Y. discriminate Y. }
    apply holds_one in H2 as [(a & txt & v & R & L & T)|D].
    + rewrite I0 in R. repeat (destruct R as [R|R]; [inversion R; subst a txt; try (subst v; congruence)|]). destruct R.
    + apply (D (u "lon") false). rewrite I0. vm_compute. tauto.
Qed.
(* A field such as "nan" is accepted, and the page is then not JSON. *)
Theorem C102_nan_refuted :
  Forall parsed (messages [from_line ex_nan]) /\ Forall complete (messages [from_line ex_nan]) /\ survives [from_line ex_nan]
  /\ get_data [from_line ex_nan] 6 = Ok (u "{""date"": ""1900-01-01"", ""time"": ""10:36:07"", ""latitude"": 53.450657, ""longitude"": -2.2404103333, ""elevation"": NaN, ""speed"": 0.0, ""track"": 0, ""siv"": 6, ""pdop"": 99, ""hdop"": 5.88, ""vdop"": 99, ""fix"": 0}").
Proof.
  split; [apply (lines_parsed [ex_nan])|]. split; [apply (lines_complete [ex_nan]); vm_compute; reflexivity|].
  split; [intros e H; vm_compute in H; destruct H as [H|[]]; discriminate|]. vm_compute. reflexivity.
Qed.
(* A GGA sentence that stops before the altitude, with a valid checksum, ends the thread. *)
Theorem C102_short_refuted :
  exists m, from_line ex_short = Got (Some m) /\ parsed m /\ ~ complete m
    /\ snd (serve [from_line ex_short; from_line ex_gga]) = Some AttributeError
    /\ lookup (u "elevation") (gpsdata [from_line ex_short; from_line ex_gga] 12) = Some (VFloat (S754_zero false)).
Proof.
  destruct (from_line ex_short) as [[m|]|] eqn:E; try (vm_compute in E; discriminate E). exists m. split; [reflexivity|].
  split; [exact (from_line_parsed _ _ E)|]. rewrite <- E. split.
  - intros C. assert (set_data m = set_data (match from_line ex_short with Got (Some x) => x | _ => m end)) as X by (rewrite E; reflexivity).
    destruct (set_data_ok m (from_line_parsed _ _ E)) as (ws & e & Q & _ & _ & _ & [(-> & _)|(_ & N)]); [|contradiction].
    rewrite Q in X. vm_compute in X. congruence.
  - split; [vm_compute; reflexivity|]. vm_compute. reflexivity.
Qed.
