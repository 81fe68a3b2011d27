(* Tests of the translation (not proofs): the outputs that README.md and examples/pynmeagps_usage.py document.  Left out are those of README.md that
   the code no longer gives (fewer digits of lat and lon at 187, 204; quotes at 160, 270; times of the day). *)
From Verif Require Import Message Helpers Conformance.
Local Open Scope Z_scope.

(* README.md:217-221 documents a message with eight NOMINAL fields for this one; but ACN is defined now (nmeatypes_get.py:85-92), and "A" is no alertnum *)
Example readme_nominal_outdated : parsed (u "$GNACN,103607.00,ECN,E,A,W,A,test,C*67" ++ crlf) 0 1 = Raise NMEATypeError.
Proof. vm_compute. reflexivity. Qed.
Example readme_nominal : parsed (u "$GNZZZ,103607.00,ECN,E,A,W,A,test,C*67" ++ crlf) 0 0
  = Ok (u "<NMEA(GNZZZ, NOMINAL, field_01=103607.00, field_02=ECN, field_03=E, field_04=A, field_05=W, field_06=A, field_07=test, field_08=C)>").
Proof. vm_compute. reflexivity. Qed.
(* README.md:253-259 *)
Example readme_payload : made_text (u "GN") (u "GLL") 0 false 1 (Some [u "4330.00000"; u "N"; u "00245.000000"; u "W"; u "120425.234"; u "A"; u "A"]) []
  = Ok (u "<NMEA(GNGLL, lat=43.5, NS=N, lon=-2.75, EW=W, time=12:04:25.234000, status=A, posMode=A)>").
Proof. vm_compute. reflexivity. Qed.
(* README.md:273-279, 307-314 *)
Example readme_poll : made_text (u "EI") (u "GNQ") 2 false 1 None [(u "msgId", VStr (u "RMC"))] = Ok (u "<NMEA(EIGNQ, msgId=RMC)>").
Proof. vm_compute. reflexivity. Qed.
Example readme_poll_bytes : made_bytes (u "EI") (u "GNQ") 2 false 1 None [(u "msgId", VStr (u "RMC"))] = Ok (u "$EIGNQ,RMC*24" ++ crlf).
Proof. vm_compute. reflexivity. Qed.
(* README.md:284-293, with the times 09:50:45.78 and 09:48:24.88 given *)
Example readme_standard : made_payload (u "GN") (u "GLL") 0 false 1 None
    [(u "lat", VFloat (f_of_dec false 43123456789 (-9))); (u "lon", VFloat (f_of_dec true 2987654321 (-9))); (u "time", VTime (mktime 9 50 45 780000)); (u "status", VStr (u "A")); (u "posMode", VStr (u "A"))]
  = Ok [u "4307.40741"; u "N"; u "00259.25926"; u "W"; u "095045.78"; u "A"; u "A"].
Proof. vm_compute. reflexivity. Qed.
Example readme_high_precision : made_payload (u "GN") (u "GLL") 0 true 1 None
    [(u "lat", VFloat (f_of_dec true 43123456789 (-9))); (u "lon", VFloat (f_of_dec false 2987654321 (-9))); (u "time", VTime (mktime 9 48 24 880000)); (u "status", VStr (u "A")); (u "posMode", VStr (u "A"))]
  = Ok [u "4307.4074073"; u "S"; u "00259.2592593"; u "E"; u "094824.88"; u "A"; u "A"].
Proof. vm_compute. reflexivity. Qed.

(* examples/pynmeagps_usage.py:22-36 *)
Definition usage_kw date time : kwargs :=
  [(u "lat", VFloat (f_of_dec false 3723345 (-5))); (u "lon", VFloat (f_of_dec true 11581513 (-5))); (u "date", date); (u "time", time); (u "rcvr_cmd", VStr (u "D"))].
Example usage_text_A : made_text (u "P") (u "GRMI") 1 false 1 None (usage_kw (VStr (u "2025-09-12")) (VStr (u "12:15:34")))
  = Ok (u "<NMEA(PGRMI, lat=37.23345, NS=N, lon=-115.81513, EW=W, date=2025-09-12, time=12:15:34, rcvr_cmd=D)>").
Proof. vm_compute. reflexivity. Qed.
Example usage_bytes_A : made_bytes (u "P") (u "GRMI") 1 false 1 None (usage_kw (VStr (u "2025-09-12")) (VStr (u "12:15:34")))
  = Ok (u "$PGRMI,3714.00700,N,11548.90780,W,120925,121534,D*04" ++ crlf).
Proof. vm_compute. reflexivity. Qed.
(* examples/pynmeagps_usage.py:39-52 *)
Example usage_text_B : made_text (u "P") (u "GRMI") 1 false 1 None (usage_kw (VDate (mkdate 2025 9 12)) (VTime (mktime 12 15 34 0)))
  = Ok (u "<NMEA(PGRMI, lat=37.23345, NS=N, lon=-115.81513, EW=W, date=2025-09-12, time=12:15:34, rcvr_cmd=D)>").
Proof. vm_compute. reflexivity. Qed.
Example usage_bytes_B : made_bytes (u "P") (u "GRMI") 1 false 1 None (usage_kw (VDate (mkdate 2025 9 12)) (VTime (mktime 12 15 34 0)))
  = Ok (u "$PGRMI,3714.00700,N,11548.90780,W,120925,121534.00,D*2A" ++ crlf).
Proof. vm_compute. reflexivity. Qed.
(* examples/pynmeagps_usage.py:54-66: the date and the time left out, taken from the clock *)
Definition usage_clock : clock := fun _ => (mkdate 2025 9 18, mktime 15 19 31 240234).
Definition usage_C : result msg := NMEAMessage usage_clock (u "P") (u "GRMI") 1 false 1 [] None None
  [(u "lat", VFloat (f_of_dec false 3723345 (-5))); (u "lon", VFloat (f_of_dec true 11581513 (-5))); (u "rcvr_cmd", VStr (u "D"))].
Example usage_text_C : (let! m := usage_C in str_of_msg m)
  = Ok (u "<NMEA(PGRMI, lat=37.23345, NS=N, lon=-115.81513, EW=W, date=2025-09-18, time=15:19:31.240234, rcvr_cmd=D)>").
Proof. vm_compute. reflexivity. Qed.
Example usage_bytes_C : (let! m := usage_C in serialize m) = Ok (u "$PGRMI,3714.00700,N,11548.90780,W,180925,151931.24,D*28" ++ crlf).
Proof. vm_compute. reflexivity. Qed.
