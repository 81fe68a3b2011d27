(* The expectations about error texts of the project's own unit tests (self.assertTrue(EXPECTED_ERROR in str(context.exception)), log.output),
   evaluated in the model ErrorText.v.  Tests of the translation, not proofs.  Not here: the texts of set-after-construction, nomval, val2str
   and knots2spd (test_constructor.py:173, test_static.py:255, 402, 437), which ErrorText.v does not model. *)
From Verif Require Import Message Reader ErrorText.
From Verif Require Conformance.
Local Open Scope Z_scope.
Notation crlf := Conformance.crlf.
Fixpoint begins (a s : pystr) : bool :=
  match a, s with [], _ => true | x :: a, y :: s => N.eqb x y && begins a s | _, _ => false end.
Fixpoint contains (a s : pystr) : bool := begins a s || match s with [] => false | _ :: r => contains a r end.
Definition says (t : option pystr) (expected : pystr) : bool := match t with Some s => contains expected s | None => false end.
Definition error_of {A} (r : tres A) (expected : pystr) : option exc :=
  match r with TRaise e t => if says t expected then Some e else None | TOk _ => None end.
Definition read_error (cfg : rcfg) (s : bytes) (expected : pystr) : option exc :=
  match fiterate_t cfg None (S (length s)) (S (length s)) s with
  | Some (_, Some (e, t), _, _) => if says t expected then Some e else None
  | _ => None
  end.
Definition read_log (cfg : rcfg) (s : bytes) : option (list event_t) :=
  match fiterate_t cfg None (S (length s)) (S (length s)) s with
  | Some (_, _, ev, _) => Some ev
  | None => None
  end.
Definition build (t i : pystr) (mode v : Z) (payload : option (list pystr)) (kw : kwargs) : tres msg :=
  NMEAMessage_t no_clock t i mode false v [] None payload kw.

(* test_constructor.py:186-195 *)
Example testFill_BADMODE : error_of (build (u "GN") (u "GLL") 4 1 (Some [u "5327.04319"; u "S"; u "00214.41396"; u "E"; u "223232.00"; u "A"; u "A"]) [])
  (u "Invalid msgmode 4 - must be 0, 1 or 2.") = Some NMEAMessageError.
Proof. vm_compute. reflexivity. Qed.
(* test_constructor.py:241-247 *)
Example testFill_PUBX_nomsgid : error_of (build (u "P") (u "UBX") 1 1 None [(u "id", VInt 3); (u "rus1", VInt 1); (u "rusb", VInt 1)])
  (u "PUBX message definitions must include payload or msgId keyword arguments.") = Some NMEAMessageError.
Proof. vm_compute. reflexivity. Qed.
(* test_constructor.py:249-253 (the payload holds ints there) *)
Example testFill_UNKNOWN : error_of (build (u "GN") (u "XXX") 0 2 (Some [u "0"; u "0"; u "0"]) []) (u "Unknown msgID GNXXX, msgmode GET.") = Some NMEAMessageError.
Proof. vm_compute. reflexivity. Qed.
(* test_constructor.py:255-261 *)
Example testFill_UNKNOWN2 : error_of (build (u "XX") (u "XXX") 0 3 (Some [u "0"; u "0"; u "0"]) []) (u "Unknown talker XX.") = Some NMEAMessageError.
Proof. vm_compute. reflexivity. Qed.
(* test_constructor.py:268-272 *)
Example testFill_UNKNOWN4 : error_of (build (u "GN") (u "UBX") 0 2 (Some [u "08"; u "0"; u "0"]) []) (u "Unknown msgID UBX08 msgmode GET.") = Some NMEAMessageError.
Proof. vm_compute. reflexivity. Qed.
(* test_parse.py:84-90 *)
Example testParseNK : error_of (parse_t (MBytes (u "$GNXXX,5327.04319,S,00214.41396,E,223232.00,A,A*77" ++ crlf)) 0 3 []) (u "Unknown msgID GNXXX, msgmode GET.") = Some NMEAParseError.
Proof. vm_compute. reflexivity. Qed.
(* test_parse.py:99-103 *)
Example testParseBADMODE : error_of (parse_t (MBytes (u "$GNGLL,5327.04319,S,00214.41396,E,223232.00,A,A*68" ++ crlf)) 4 1 []) (u "Invalid parse mode 4 - must be 0, 1 or 2.") = Some NMEAParseError.
Proof. vm_compute. reflexivity. Qed.
(* test_parse.py:105-109 *)
Example testParseBADCK : error_of (parse_t (MBytes (u "$GNGLL,5327.04319,S,00214.41396,E,223232.00,A,A*22" ++ crlf)) 0 1 []) (u "Message GNGLL invalid checksum 22 - should be 68.") = Some NMEAParseError.
Proof. vm_compute. reflexivity. Qed.
(* test_static.py:128-132 *)
Example testGetPartsBAD : error_of (get_parts_t (MStr (u "$GNRMC,,%$" ++ [163%N]))) (u "Badly formed message $GNRMC,,%$" ++ [163%N]) = Some NMEAMessageError.
Proof. vm_compute. reflexivity. Qed.
(* test_stream.py:230-243 *)
Example testMIXED2 : read_error (mkrcfg 0 1 true 2 None []) Conformance.log_pygpsdata_mixed (u "Unknown protocol header b'$\x11'") = Some NMEAParseError.
Proof. vm_compute. reflexivity. Qed.
(* test_stream.py:320-334 *)
Example testNMEAITERATE_ERR1 : read_error (mkrcfg 0 1 false 2 None []) Conformance.log_pygpsdata_nmeabadck2 (u "Message GNVTG invalid checksum 3) - should be 30") = Some NMEAParseError.
Proof. vm_compute. reflexivity. Qed.
(* test_stream.py:371-384 *)
Example testNMEAFOO1 : read_error (mkrcfg 0 1 false 2 None []) Conformance.log_pygpsdata_nmeafoo1 (u "Unknown attribute type Z2") = Some NMEATypeError.
Proof. vm_compute. reflexivity. Qed.
(* test_stream.py:386-395 *)
Example testNMEAFOO2 : read_error (mkrcfg 0 1 false 2 None []) Conformance.log_pygpsdata_nmeafoo2 (u "Incorrect type for attribute spd in msgID RMC") = Some NMEATypeError.
Proof. vm_compute. reflexivity. Qed.
(* test_stream.py:397-402 *)
Example testNMEABADMODE : error_of (reader_init_t (mkrcfg 4 1 false 1 None [])) (u "Invalid stream mode 4 - must be 0, 1 or 2.") = Some NMEAParseError.
Proof. vm_compute. reflexivity. Qed.
(* test_stream.py:723-731 *)
Example testBADHDR_FAIL : read_error (mkrcfg 0 1 true 2 None []) Conformance.log_pygpsdata_BADHDR (u "Unknown protocol header b'$&'.") = Some NMEAParseError.
Proof. vm_compute. reflexivity. Qed.
(* test_stream.py:733-743 *)
Example testBADHDR_LOG : read_log (mkrcfg 0 1 true 1 None []) Conformance.log_pygpsdata_BADHDR = Some [TvLog NMEAParseError (Some (u "Unknown protocol header b'$&'."))].
Proof. vm_compute. reflexivity. Qed.
