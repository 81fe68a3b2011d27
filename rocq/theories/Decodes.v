(* Generated by tools/gen_decodes.py from src/pynmeagps/nmeatypes_decodes.py: the
   decode dictionaries, in source order.  A Python str key is VStr, an int key VInt. *)
From Coq Require Import String.
From Verif Require Import PyBase Message.
Local Open Scope Z_scope.
Local Open Scope string_scope.

(* nmeatypes_decodes.py:15-23 FIXTYPE_GGA *)
Definition FIXTYPE_GGA : list (pyval * pystr) :=
  [(VInt 0, u "NO FIX");
   (VInt 1, u "2D");
   (VInt 2, u "3D");
   (VInt 3, u "N/A");
   (VInt 4, u "RTK FIXED");
   (VInt 5, u "RTK FLOAT");
   (VInt 6, u "DR ONLY")].
(* nmeatypes_decodes.py:15 the same dictionary under another name *)
Definition QUALITY := FIXTYPE_GGA.

(* nmeatypes_decodes.py:26-33 POSMODE *)
Definition POSMODE : list (pyval * pystr) :=
  [(VStr (u "A"), u "2D");
   (VStr (u "N"), u "N/A");
   (VStr (u "E"), u "DR");
   (VStr (u "D"), u "3D");
   (VStr (u "F"), u "RTK FLOAT");
   (VStr (u "R"), u "RTK FIXED")].

(* nmeatypes_decodes.py:36-45 GNSSLIST *)
Definition GNSSLIST : list (pyval * pystr) :=
  [(VInt 0, u "GPS");
   (VInt 1, u "SBAS");
   (VInt 2, u "Galileo");
   (VInt 3, u "BeiDou");
   (VInt 4, u "IMES");
   (VInt 5, u "QZSS");
   (VInt 6, u "GLONASS");
   (VInt 7, u "NAVIC")].

(* nmeatypes_decodes.py:48-55 SYSTEMID *)
Definition SYSTEMID : list (pyval * pystr) :=
  [(VStr (u "1"), u "GPS");
   (VStr (u "2"), u "GLONASS");
   (VStr (u "3"), u "Galileo");
   (VStr (u "4"), u "Beidou");
   (VStr (u "5"), u "QZSS");
   (VStr (u "6"), u "NavIC")].

(* nmeatypes_decodes.py:58-80 SIGNALID *)
Definition SIGNALID : list ((pyval * pyval) * pystr) :=
  [((VStr (u "1"), VStr (u "1")), u "GPS L1C/A2");
   ((VStr (u "1"), VStr (u "6")), u "GPS L2 CL");
   ((VStr (u "1"), VStr (u "5")), u "GPS L2 CM");
   ((VStr (u "1"), VStr (u "7")), u "GPS L5 I");
   ((VStr (u "1"), VStr (u "8")), u "GPS L5 Q");
   ((VStr (u "3"), VStr (u "7")), u "Galileo E1 B2/C2");
   ((VStr (u "3"), VStr (u "1")), u "Galileo E5 aI/aQ");
   ((VStr (u "3"), VStr (u "2")), u "Galileo E5 bI/bQ");
   ((VStr (u "4"), VStr (u "1")), u "BeiDou B1I D12/D22");
   ((VStr (u "4"), VStr (u "B")), u "BeiDou B2I D1/D2");
   ((VStr (u "4"), VStr (u "3")), u "BeiDou B1 Cp/Cd");
   ((VStr (u "4"), VStr (u "5")), u "BeiDou B2 ap/ad");
   ((VStr (u "5"), VStr (u "1")), u "QZSS L1C/A2");
   ((VStr (u "5"), VStr (u "4")), u "QZSS L1S");
   ((VStr (u "5"), VStr (u "5")), u "QZSS L2 CM");
   ((VStr (u "5"), VStr (u "6")), u "QZSS L2 CL");
   ((VStr (u "5"), VStr (u "7")), u "QZSS L5 I");
   ((VStr (u "5"), VStr (u "8")), u "QZSS L5 Q");
   ((VStr (u "2"), VStr (u "1")), u "GLONASS L1 OF");
   ((VStr (u "2"), VStr (u "3")), u "GLONASS L2 OF");
   ((VStr (u "6"), VStr (u "1")), u "NavIC L5 A")].

(* nmeatypes_decodes.py:83-102 FMI_STATUS *)
Definition FMI_STATUS : list (pyval * (pystr * pystr)) :=
  [(VInt 1, (u "Finit", u "Filter uninitialized flag"));
   (VInt 2, (u "Ready", u "Filter convergence completion flag"));
   (VInt 4, (u "Inaccurate", u "Filter convergence is in process"));
   (VInt 8, (u "TiltReject", u "Tilt angle over threshold"));
   (VInt 16, (u "GnssReject", u "RTK data poor quality"));
   (VInt 32, (u "FReset", u "Filter reset flag"));
   (VInt 64, (u "FixRlsStage1", u "Installation angle estimation stage 1"));
   (VInt 128, (u "FixRlsStage2", u "Installation angle estimation stage 2"));
   (VInt 256, (u "FixRlsStage3", u "Installation angle estimation stage 3"));
   (VInt 512, (u "FixRlsStage4", u "Installation angle estimation stage 4"));
   (VInt 1024, (u "FixRlsOK", u "Installation angle estimation complete"));
   (VInt 8192, (u "Direction1", u "Shake RTK pole to initialize direction 1"));
   (VInt 16384, (u "Direction2", u "Shake RTK pole to initialize direction 2"));
   (VInt 65536, (u "GnssLost", u "Invalid RTK data or RTK data missing"));
   (VInt 131072, (u "FInitOk", u "Filter initialization completed"));
   (VInt 262144, (u "PPSReady", u "PPS signal detected"));
   (VInt 524288, (u "SyncReady", u "Module time synchronized with PPS"));
   (VInt 1048576, (u "GnssConnect", u "Serial connection with RTK established"))].
