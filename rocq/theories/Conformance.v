(* Generated by tools/gen_conformance.py from the text of /repo/tests: the expectations of
   the project's own unit tests, evaluated in the model.  Tests of the translation, not proofs. *)
From Verif Require Import Socket Repr.
Local Open Scope Z_scope.
Definition crlf : pystr := [13%N; 10%N].
Definition texts (l : list (bytes * option msg)) : list (result pystr) :=
  map (fun p => match snd p with Some m => str_of_msg m | None => Ok (u "None") end) l.
Definition same (a b : result pystr) : bool :=
  match a, b with Ok x, Ok y => str_eqb x y | _, _ => false end.
Fixpoint all2 {A B} (f : A -> B -> bool) (a : list A) (b : list B) : bool :=
  match a, b with [], [] => true | x :: a, y :: b => f x y && all2 f a b | _, _ => false end.
(* a for loop over the reader: the printed messages, and the exception that ends it *)
Definition run (cfg : rcfg) (s : bytes) : option (list (result pystr) * option exc) :=
  match fiterate cfg (S (length s)) (S (length s)) s with
  | Some (l, e, _, _) => Some (texts l, e)
  | None => None
  end.
Definition prints (cfg : rcfg) (s : bytes) (expected : list pystr) : bool :=
  match run cfg s with Some (l, None) => all2 (fun a b => same a (Ok b)) l expected | _ => false end.
Definition count (cfg : rcfg) (s : bytes) : nat :=
  match run cfg s with Some (l, None) => length l | _ => 0%nat end.
Definition fails (cfg : rcfg) (s : bytes) : option exc :=
  match run cfg s with Some (_, e) => e | None => None end.
Definition parsed (s : pystr) (mode v : Z) : result pystr :=
  match parse (MStr s) mode v [] with Ok (Some m) => str_of_msg m | Ok None => Ok (u "None") | Raise e => Raise e end.
Definition made (t i : pystr) (mode : Z) (hp : bool) (v : Z) (p : option (list pystr)) (kw : kwargs) : result msg :=
  NMEAMessage no_clock t i mode hp v [] None p kw.
Definition made_text t i mode hp v p kw : result pystr := let! m := made t i mode hp v p kw in str_of_msg m.
Definition made_bytes t i mode hp v p kw : result bytes := let! m := made t i mode hp v p kw in serialize m.
Definition made_payload t i mode hp v p kw : result (list pystr) := let! m := made t i mode hp v p kw in Ok (m_payload m).

(* tests/pygpsdata-nmeastartup.log *)
Definition log_pygpsdata_nmeastartup : bytes := concat [
  (u "$GNRMC,,V,,,,,,,,,,N,V*37" ++ crlf);
  (u "$GNVTG,,,,,,,,,N*2E" ++ crlf);
  (u "$GNGGA,,,,,,0,00,99.99,,,,,,*56" ++ crlf);
  (u "$GNGSA,A,1,,,,,,,,,,,,,99.99,99.99,99.99,1*33" ++ crlf);
  (u "$GNGSA,A,1,,,,,,,,,,,,,99.99,99.99,99.99,2*30" ++ crlf);
  (u "$GNGSA,A,1,,,,,,,,,,,,,99.99,99.99,99.99,3*31" ++ crlf);
  (u "$GNGSA,A,1,,,,,,,,,,,,,99.99,99.99,99.99,4*36" ++ crlf);
  (u "$GPGSV,1,1,00,1*64" ++ crlf);
  (u "$GLGSV,1,1,00,1*78" ++ crlf);
  (u "$GAGSV,1,1,00,7*73" ++ crlf);
  (u "$GBGSV,1,1,00,1*76" ++ crlf);
  (u "$GNGLL,,,,,,V,N*7A" ++ crlf)].
(* test_stream.py:62 testNMEASTARTUP *)
Example testNMEASTARTUP : prints (mkrcfg 0 1 false 1 None []) log_pygpsdata_nmeastartup [
  (u "<NMEA(GNRMC, time=, status=V, lat=, NS=, lon=, EW=, spd=, cog=, date=, mv=, mvEW=, posMode=N, navStatus=V)>");
  (u "<NMEA(GNVTG, cogt=, cogtUnit=, cogm=, cogmUnit=, sogn=, sognUnit=, sogk=, sogkUnit=, posMode=N)>");
  (u "<NMEA(GNGGA, time=, lat=, NS=, lon=, EW=, quality=0, numSV=0, HDOP=99.99, alt=, altUnit=, sep=, sepUnit=, diffAge=, diffStation=)>");
  (u "<NMEA(GNGSA, opMode=A, navMode=1, svid_01=, svid_02=, svid_03=, svid_04=, svid_05=, svid_06=, svid_07=, svid_08=, svid_09=, svid_10=, svid_11=, svid_12=, PDOP=99.99, HDOP=99.99, VDOP=99.99, systemId=1)>");
  (u "<NMEA(GNGSA, opMode=A, navMode=1, svid_01=, svid_02=, svid_03=, svid_04=, svid_05=, svid_06=, svid_07=, svid_08=, svid_09=, svid_10=, svid_11=, svid_12=, PDOP=99.99, HDOP=99.99, VDOP=99.99, systemId=2)>");
  (u "<NMEA(GNGSA, opMode=A, navMode=1, svid_01=, svid_02=, svid_03=, svid_04=, svid_05=, svid_06=, svid_07=, svid_08=, svid_09=, svid_10=, svid_11=, svid_12=, PDOP=99.99, HDOP=99.99, VDOP=99.99, systemId=3)>");
  (u "<NMEA(GNGSA, opMode=A, navMode=1, svid_01=, svid_02=, svid_03=, svid_04=, svid_05=, svid_06=, svid_07=, svid_08=, svid_09=, svid_10=, svid_11=, svid_12=, PDOP=99.99, HDOP=99.99, VDOP=99.99, systemId=4)>");
  (u "<NMEA(GPGSV, numMsg=1, msgNum=1, numSV=0, signalID=1)>");
  (u "<NMEA(GLGSV, numMsg=1, msgNum=1, numSV=0, signalID=1)>");
  (u "<NMEA(GAGSV, numMsg=1, msgNum=1, numSV=0, signalID=7)>");
  (u "<NMEA(GBGSV, numMsg=1, msgNum=1, numSV=0, signalID=1)>");
  (u "<NMEA(GNGLL, lat=, NS=, lon=, EW=, time=, status=V, posMode=N)>")] = true.
Proof. vm_compute. reflexivity. Qed.
(* tests/pygpsdata-nmea4.log *)
Definition log_pygpsdata_nmea4 : bytes := concat [
  (u "$GNDTM,W84,,0.0,N,0.0,E,0.0,W84*71" ++ crlf);
  (u "$GNRMC,103607.00,A,5327.03942,N,10214.42462,W,0.046,,060321,,,A,V*0E" ++ crlf);
  (u "$GPRTE,2,1,c,0,PBRCPK,PBRTO,PTELGR,PPLAND,PYAMBU,PPFAIR,PWARRN,PMORTL,PLISMR*73" ++ crlf);
  (u "$GNRLM,00000078A9FBAD5,083559.00,3,C45B*06" ++ crlf);
  (u "$GNVTG,,T,,M,0.046,N,0.085,K,A*32" ++ crlf);
  (u "$GNGNS,103607.00,5327.03942,N,00214.42462,W,AANN,06,5.88,56.0,48.5,,,V*34" ++ crlf);
  (u "$GNGGA,103607.00,5327.03942,N,00214.42462,W,1,06,5.88,56.0,M,48.5,M,,*64" ++ crlf);
  (u "$GNGSA,A,3,23,24,20,12,,,,,,,,,9.62,5.88,7.62,1*0C" ++ crlf);
  (u "$GNGSA,A,3,66,76,,,,,,,,,,,9.62,5.88,7.62,2*08" ++ crlf);
  (u "$GNGSA,A,3,,,,,,,,,,,,,9.62,5.88,7.62,3*08" ++ crlf);
  (u "$GNGSA,A,3,,,,,,,,,,,,,9.62,5.88,7.62,4*0F" ++ crlf);
  (u "$GPGSV,3,1,11,01,06,014,08,12,43,207,28,14,06,049,,15,44,171,23,1*6B" ++ crlf);
  (u "$GPGSV,3,2,11,17,32,064,16,19,33,094,,20,20,251,31,21,04,354,,1*63" ++ crlf);
  (u "$GPGSV,3,3,11,23,27,251,31,24,89,268,26,25,05,223,,1*5A" ++ crlf);
  (u "$GLGSV,3,1,10,65,07,176,,66,57,223,35,67,42,315,23,68,00,341,29,1*7A" ++ crlf);
  (u "$GLGSV,3,2,10,75,37,057,,76,78,303,18,77,27,253,21,84,19,018,,B*07" ++ crlf);
  (u "$GLGSV,3,3,10,85,22,078,,86,01,121,,1*76" ++ crlf);
  (u "$GAGSV,1,1,00,7*73" ++ crlf);
  (u "$GBGSV,1,1,02,21,,,15,25,,,28,1*7E" ++ crlf);
  (u "$GNGLL,5327.03942,N,00214.42462,W,103607.00,A,A*68" ++ crlf);
  (u "$GNGRS,103607.00,1,-2.1,0.2,2.7,-0.4,,,,,,,,,1,1*53" ++ crlf);
  (u "$GNGRS,103607.00,1,0.6,5.1,,,,,,,,,,,2,1*52" ++ crlf);
  (u "$GNGRS,103607.00,1,,,,,,,,,,,,,3,7*57" ++ crlf);
  (u "$GNGRS,103607.00,1,,,,,,,,,,,,,4,1*56" ++ crlf);
  (u "$GNGST,103607.00,38,60,38,89,15,24,31*63" ++ crlf);
  (u "$GNZDA,103607.00,06,03,2021,00,00*7F" ++ crlf);
  (u "$GNGBS,103607.00,15.1,24.2,31.0,,,,,,*6F" ++ crlf);
  (u "$GNVLW,,N,,N,0.000,N,0.000,N*44" ++ crlf);
  (u "$PUBX,00,103607.00,5327.03942,N,00214.42462,W,104.461,G3,29,31,0.085,39.63,-0.007,,5.88,7.62,8.09,6,0,0*69" ++ crlf);
  (u "$PUBX,03,23,1,-,014,06,08,000,12,U,207,43,28,009,14,-,049,06,,000,15,-,171,44,23,000,17,-,064,32,16,000,19,-,094,33,,000,20,U,251,20,31,038,21,-,354,04,,000,23,U,251,27,31,064,24,U,268,89,26,000,25,-,223,05,,000,48,-,,,15,000,52,-,,,28,013,65,-,176,07,,000,66,U,223,57,35,064,67,-,315,42,23,000,68,-,341,00,29,000,75,-,057,37,,000,76,U,303,78,18,000,77,-,253,27,21,000,84,-,018,19,,000,85,-,078,22,,000,86,-,121,01,,000*02" ++ crlf);
  (u "$PUBX,04,103607.00,060321,556567.00,2147,18,-384839,-53.623,16*2C" ++ crlf);
  (u "$GPWPL,4917.16,N,12310.64,W,003*65" ++ crlf);
  (u "$GPRMA,A,5327.03942,N,11214.42462,W,,,23.1,23,14.8,W*58" ++ crlf);
  (u "$GPRMB,A,0.66,L,003,004,4917.24,N,12309.57,W,001.3,052.5,000.5,V*20" ++ crlf);
  (u "$PGRME,15.0,M,45.0,M,25.0,M*1C" ++ crlf);
  (u "$PGRMM,NAD27 Canada*2F" ++ crlf);
  (u "$PGRMZ,246,f,3*1B" ++ crlf);
  (u "$GPXTE,A,A,4.07,L,N*6D" ++ crlf);
  (u "$GPVBW,12.3,0.07,A,11.78,0.12,A*6F" ++ crlf);
  (u "$GPSTN,34*75" ++ crlf);
  (u "$GPBWC,220516,5130.02,N,00046.34,W,213.8,T,218.0,M,0004.6,N,EGLM*21" ++ crlf);
  (u "$GPBOD,097.0,T,103.2,M,POINTB,POINTA*4A" ++ crlf);
  (u "$GPBOD,099.3,T,105.6,M,POINTB,*48" ++ crlf);
  (u "$GPAAM,A,A,0.10,N,WPTNME*32" ++ crlf);
  (u "$GPAPB,A,A,0.10,R,N,V,V,011,M,DEST,011,M,011,M*3C" ++ crlf);
  (u "$GPMSK,318.0,A,100,M,2*45" ++ crlf);
  (u "$GPMSS,55,27,318.0,100,*66" ++ crlf);
  (u "$GBGSV,2,2,06,14,55,175,46,40,29,043,18,B*06" ++ crlf);
  (u "$INGGA,103607.00,5327.03942,N,00214.42462,W,1,06,5.88,56.0,M,48.5,M,,*6A" ++ crlf);
  (u "$ANNAK,UP,AID,999999990,11,*1E" ++ crlf);
  (u "$GPGBS,235503.00,1.6,1.4,3.2,,,,,,*40" ++ crlf);
  (u "$GPGBS,235458.00,1.4,1.3,3.1,03,,-21.4,3.8,1,0*5A" ++ crlf);
  (u "$GPHDT,274.07,T*03" ++ crlf);
  (u "$GPHDM,223.12,M*05" ++ crlf);
  (u "$IIHDM,70.6,M*13" ++ crlf);
  (u "$IIHDG,70.6,,,,W*2F" ++ crlf);
  (u "$IIROT,-7.3,A*0F" ++ crlf)].
(* test_stream.py:91 testNMEA4 *)
Example testNMEA4 : prints (mkrcfg 0 3 false 1 None []) log_pygpsdata_nmea4 [
  (u "<NMEA(GNDTM, datum=W84, subDatum=, latOfset=0.0, NS=N, lonOfset=0.0, EW=E, alt=0.0, refDatum=W84)>");
  (u "<NMEA(GNRMC, time=10:36:07, status=A, lat=53.450657, NS=N, lon=-102.2404103333, EW=W, spd=0.046, cog=, date=2021-03-06, mv=, mvEW=, posMode=A, navStatus=V)>");
  (u "<NMEA(GPRTE, numMsg=2, msgNum=1, status=c, routeid=0, wpt_01=PBRCPK, wpt_02=PBRTO, wpt_03=PTELGR, wpt_04=PPLAND, wpt_05=PYAMBU, wpt_06=PPFAIR, wpt_07=PWARRN, wpt_08=PMORTL, wpt_09=PLISMR)>");
  (u "<NMEA(GNRLM, beacon=00000078A9FBAD5, time=08:35:59, code=3, body=C45B)>");
  (u "<NMEA(GNVTG, cogt=, cogtUnit=T, cogm=, cogmUnit=M, sogn=0.046, sognUnit=N, sogk=0.085, sogkUnit=K, posMode=A)>");
  (u "<NMEA(GNGNS, time=10:36:07, lat=53.450657, NS=N, lon=-2.2404103333, EW=W, posMode=AANN, numSV=6, HDOP=5.88, alt=56.0, sep=48.5, diffAge=, diffStation=, navStatus=V)>");
  (u "<NMEA(GNGGA, time=10:36:07, lat=53.450657, NS=N, lon=-2.2404103333, EW=W, quality=1, numSV=6, HDOP=5.88, alt=56.0, altUnit=M, sep=48.5, sepUnit=M, diffAge=, diffStation=)>");
  (u "<NMEA(GNGSA, opMode=A, navMode=3, svid_01=23, svid_02=24, svid_03=20, svid_04=12, svid_05=, svid_06=, svid_07=, svid_08=, svid_09=, svid_10=, svid_11=, svid_12=, PDOP=9.62, HDOP=5.88, VDOP=7.62, systemId=1)>");
  (u "<NMEA(GNGSA, opMode=A, navMode=3, svid_01=66, svid_02=76, svid_03=, svid_04=, svid_05=, svid_06=, svid_07=, svid_08=, svid_09=, svid_10=, svid_11=, svid_12=, PDOP=9.62, HDOP=5.88, VDOP=7.62, systemId=2)>");
  (u "<NMEA(GNGSA, opMode=A, navMode=3, svid_01=, svid_02=, svid_03=, svid_04=, svid_05=, svid_06=, svid_07=, svid_08=, svid_09=, svid_10=, svid_11=, svid_12=, PDOP=9.62, HDOP=5.88, VDOP=7.62, systemId=3)>");
  (u "<NMEA(GNGSA, opMode=A, navMode=3, svid_01=, svid_02=, svid_03=, svid_04=, svid_05=, svid_06=, svid_07=, svid_08=, svid_09=, svid_10=, svid_11=, svid_12=, PDOP=9.62, HDOP=5.88, VDOP=7.62, systemId=4)>");
  (u "<NMEA(GPGSV, numMsg=3, msgNum=1, numSV=11, svid_01=1, elv_01=6, az_01=14, cno_01=8, svid_02=12, elv_02=43, az_02=207, cno_02=28, svid_03=14, elv_03=6, az_03=49, cno_03=, svid_04=15, elv_04=44, az_04=171, cno_04=23, signalID=1)>");
  (u "<NMEA(GPGSV, numMsg=3, msgNum=2, numSV=11, svid_01=17, elv_01=32, az_01=64, cno_01=16, svid_02=19, elv_02=33, az_02=94, cno_02=, svid_03=20, elv_03=20, az_03=251, cno_03=31, svid_04=21, elv_04=4, az_04=354, cno_04=, signalID=1)>");
  (u "<NMEA(GPGSV, numMsg=3, msgNum=3, numSV=11, svid_01=23, elv_01=27, az_01=251, cno_01=31, svid_02=24, elv_02=89, az_02=268, cno_02=26, svid_03=25, elv_03=5, az_03=223, cno_03=, signalID=1)>");
  (u "<NMEA(GLGSV, numMsg=3, msgNum=1, numSV=10, svid_01=65, elv_01=7, az_01=176, cno_01=, svid_02=66, elv_02=57, az_02=223, cno_02=35, svid_03=67, elv_03=42, az_03=315, cno_03=23, svid_04=68, elv_04=0, az_04=341, cno_04=29, signalID=1)>");
  (u "<NMEA(GLGSV, numMsg=3, msgNum=2, numSV=10, svid_01=75, elv_01=37, az_01=57, cno_01=, svid_02=76, elv_02=78, az_02=303, cno_02=18, svid_03=77, elv_03=27, az_03=253, cno_03=21, svid_04=84, elv_04=19, az_04=18, cno_04=, signalID=B)>");
  (u "<NMEA(GLGSV, numMsg=3, msgNum=3, numSV=10, svid_01=85, elv_01=22, az_01=78, cno_01=, svid_02=86, elv_02=1, az_02=121, cno_02=, signalID=1)>");
  (u "<NMEA(GAGSV, numMsg=1, msgNum=1, numSV=0, signalID=7)>");
  (u "<NMEA(GBGSV, numMsg=1, msgNum=1, numSV=2, svid_01=21, elv_01=, az_01=, cno_01=15, svid_02=25, elv_02=, az_02=, cno_02=28, signalID=1)>");
  (u "<NMEA(GNGLL, lat=53.450657, NS=N, lon=-2.2404103333, EW=W, time=10:36:07, status=A, posMode=A)>");
  (u "<NMEA(GNGRS, time=10:36:07, mode=1, residual_01=-2.1, residual_02=0.2, residual_03=2.7, residual_04=-0.4, residual_05=, residual_06=, residual_07=, residual_08=, residual_09=, residual_10=, residual_11=, residual_12=, systemId=1, signalId=1)>");
  (u "<NMEA(GNGRS, time=10:36:07, mode=1, residual_01=0.6, residual_02=5.1, residual_03=, residual_04=, residual_05=, residual_06=, residual_07=, residual_08=, residual_09=, residual_10=, residual_11=, residual_12=, systemId=2, signalId=1)>");
  (u "<NMEA(GNGRS, time=10:36:07, mode=1, residual_01=, residual_02=, residual_03=, residual_04=, residual_05=, residual_06=, residual_07=, residual_08=, residual_09=, residual_10=, residual_11=, residual_12=, systemId=3, signalId=7)>");
  (u "<NMEA(GNGRS, time=10:36:07, mode=1, residual_01=, residual_02=, residual_03=, residual_04=, residual_05=, residual_06=, residual_07=, residual_08=, residual_09=, residual_10=, residual_11=, residual_12=, systemId=4, signalId=1)>");
  (u "<NMEA(GNGST, time=10:36:07, rangeRms=38.0, stdMajor=60.0, stdMinor=38.0, orient=89.0, stdLat=15.0, stdLong=24.0, stdAlt=31.0)>");
  (u "<NMEA(GNZDA, time=10:36:07, day=6, month=3, year=2021, ltzh=00, ltzn=00)>");
  (u "<NMEA(GNGBS, time=10:36:07, errLat=15.1, errLon=24.2, errAlt=31.0, svid=, prob=, bias=, stddev=, systemId=, signalId=)>");
  (u "<NMEA(GNVLW, twd=, twdUnit=N, wd=, wdUnit=N, tgd=0.0, tgdUnit=N, gd=0.0, gdUnit=N)>");
  (u "<NMEA(PUBX00, msgId=00, time=10:36:07, lat=53.450657, NS=N, lon=-2.2404103333, EW=W, altRef=104.461, navStat=G3, hAcc=29.0, vAcc=31.0, SOG=0.085, COG=39.63, vVel=-0.007, diffAge=, HDOP=5.88, VDOP=7.62, TDOP=8.09, numSVs=6, reserved=0, DR=0)>");
  (u "<NMEA(PUBX03, msgId=03, numSv=23, svid_01=1, status_01=-, azi_01=14.0, ele_01=6.0, cno_01=8, lck_01=0, svid_02=12, status_02=U, azi_02=207.0, ele_02=43.0, cno_02=28, lck_02=9, svid_03=14, status_03=-, azi_03=49.0, ele_03=6.0, cno_03=, lck_03=0, svid_04=15, status_04=-, azi_04=171.0, ele_04=44.0, cno_04=23, lck_04=0, svid_05=17, status_05=-, azi_05=64.0, ele_05=32.0, cno_05=16, lck_05=0, svid_06=19, status_06=-, azi_06=94.0, ele_06=33.0, cno_06=, lck_06=0, svid_07=20, status_07=U, azi_07=251.0, ele_07=20.0, cno_07=31, lck_07=38, svid_08=21, status_08=-, azi_08=354.0, ele_08=4.0, cno_08=, lck_08=0, svid_09=23, status_09=U, azi_09=251.0, ele_09=27.0, cno_09=31, lck_09=64, svid_10=24, status_10=U, azi_10=268.0, ele_10=89.0, cno_10=26, lck_10=0, svid_11=25, status_11=-, azi_11=223.0, ele_11=5.0, cno_11=, lck_11=0, svid_12=48, status_12=-, azi_12=, ele_12=, cno_12=15, lck_12=0, svid_13=52, status_13=-, azi_13=, ele_13=, cno_13=28, lck_13=13, svid_14=65, status_14=-, azi_14=176.0, ele_14=7.0, cno_14=, lck_14=0, svid_15=66, status_15=U, azi_15=223.0, ele_15=57.0, cno_15=35, lck_15=64, svid_16=67, status_16=-, azi_16=315.0, ele_16=42.0, cno_16=23, lck_16=0, svid_17=68, status_17=-, azi_17=341.0, ele_17=0.0, cno_17=29, lck_17=0, svid_18=75, status_18=-, azi_18=57.0, ele_18=37.0, cno_18=, lck_18=0, svid_19=76, status_19=U, azi_19=303.0, ele_19=78.0, cno_19=18, lck_19=0, svid_20=77, status_20=-, azi_20=253.0, ele_20=27.0, cno_20=21, lck_20=0, svid_21=84, status_21=-, azi_21=18.0, ele_21=19.0, cno_21=, lck_21=0, svid_22=85, status_22=-, azi_22=78.0, ele_22=22.0, cno_22=, lck_22=0, svid_23=86, status_23=-, azi_23=121.0, ele_23=1.0, cno_23=, lck_23=0)>");
  (u "<NMEA(PUBX04, msgId=04, time=10:36:07, date=2021-03-06, utcTow=556567.00, utcWk=2147, leapSec=18, clkBias=-384839.0, clkDrift=-53.623, tpGran=16)>");
  (u "<NMEA(GPWPL, lat=49.286, NS=N, lon=-123.1773333333, EW=W, wpt=003)>");
  (u "<NMEA(GPRMA, status=A, lat=53.450657, NS=N, lon=-112.2404103333, EW=W, reserved1=, reserved2=, sog=23.1, cog=23.0, var=14.8, dirvar=W)>");
  (u "<NMEA(GPRMB, status=A, ctrkerr=0.66, dirs=L, wptO=003, wptD=004, lat=49.2873333333, NS=N, lon=-123.1595, EW=W, range=1.3, bearing=52.5, velclos=0.5, arrstatus=V)>");
  (u "<NMEA(PGRME, HPE=15.0, HPEUnit=M, VPE=45.0, VPEUnit=M, EPE=25.0, EPEUnit=M)>");
  (u "<NMEA(PGRMM, dtm=NAD27 Canada)>");
  (u "<NMEA(PGRMZ, alt=246.0, altUnit=f, fix=3)>");
  (u "<NMEA(GPXTE, gwarn=A, LCcwarn=A, ctrkerr=4.07, dirs=L, disUnit=N)>");
  (u "<NMEA(GPVBW, longwaterspd=12.3, transwaterspd=0.07, waterspdstatus=A, longgroundspd=11.78, transgroundspd=0.12, groundspdstatus=A)>");
  (u "<NMEA(GPSTN, talkerId=34)>");
  (u "<NMEA(GPBWC, fixutc=22:05:16, lat=51.5003333333, NS=N, lon=-0.7723333333, EW=W, bearT=213.8, bearTu=T, bearM=218.0, bearMu=M, dist=4.6, distUnit=N, wpt=EGLM)>");
  (u "<NMEA(GPBOD, bearT=97.0, bearTu=T, bearM=103.2, bearMu=M, wptD=POINTB, wptO=POINTA)>");
  (u "<NMEA(GPBOD, bearT=99.3, bearTu=T, bearM=105.6, bearMu=M, wptD=POINTB, wptO=)>");
  (u "<NMEA(GPAAM, arrce=A, perp=A, crad=0.1, cUnit=N, wpt=WPTNME)>");
  (u "<NMEA(GPAPB, LCgwarn=A, LCcwarn=A, ctrkerr=0.1, dirs=R, ctrkUnit=N, aalmcirc=V, aalmperp=V, bearO2D=11.0, bearO2Du=M, wpt=DEST, bearD=11.0, bearDu=M, bearS=11.0, bearSu=M)>");
  (u "<NMEA(GPMSK, freq=318.0, fmode=A, beacbps=100, bpsmode=M, MMSfreq=2.0)>");
  (u "<NMEA(GPMSS, strength=55, snr=27, freq=318.0, beacbps=100, channel=)>");
  (u "<NMEA(GBGSV, numMsg=2, msgNum=2, numSV=6, svid_01=14, elv_01=55, az_01=175, cno_01=46, svid_02=40, elv_02=29, az_02=43, cno_02=18, signalID=B)>");
  (u "<NMEA(INGGA, time=10:36:07, lat=53.450657, NS=N, lon=-2.2404103333, EW=W, quality=1, numSV=6, HDOP=5.88, alt=56.0, altUnit=M, sep=48.5, sepUnit=M, diffAge=, diffStation=)>");
  (u "<NMEA(ANNAK, talkerid=UP, formatter=AID, identifier=999999990, reason=11, text=)>");
  (u "<NMEA(GPGBS, time=23:55:03, errLat=1.6, errLon=1.4, errAlt=3.2, svid=, prob=, bias=, stddev=, systemId=, signalId=)>");
  (u "<NMEA(GPGBS, time=23:54:58, errLat=1.4, errLon=1.3, errAlt=3.1, svid=3, prob=, bias=-21.4, stddev=3.8, systemId=1, signalId=0)>");
  (u "<NMEA(GPHDT, headingT=274.07, headingTu=T)>");
  (u "<NMEA(GPHDM, headingM=223.12, headingMag=M)>");
  (u "<NMEA(IIHDM, headingM=70.6, headingMag=M)>");
  (u "<NMEA(IIHDG, headingM=70.6, deviation=, deviationEW=, variation=, variationEW=W)>");
  (u "<NMEA(IIROT, rot=-7.3, valid=A)>")] = true.
Proof. vm_compute. reflexivity. Qed.
(* tests/pygpsdata-nmea2.log *)
Definition log_pygpsdata_nmea2 : bytes := concat [
  (u "$GPTXT,01,01,02,u-blox ag - www.u-blox.com*50" ++ crlf);
  (u "$GPTXT,01,01,02,HW  UBX-G70xx   00070000 *77" ++ crlf);
  (u "$GPTXT,01,01,02,ROM CORE 1.00 (59842) Jun 27 2012 17:43:52*59" ++ crlf);
  (u "$GPTXT,01,01,02,PROTVER 14.00*1E" ++ crlf);
  (u "$GPTXT,01,01,02,ANTSUPERV=AC SD PDoS SR*20" ++ crlf);
  (u "$GPTXT,01,01,02,ANTSTATUS=OK*3B" ++ crlf);
  (u "$GPTXT,01,01,02,LLC FFFFFFFF-FFFFFFFD-FFFFFFFF-FFFFFFFF-FFFFFFF9*53" ++ crlf);
  (u "$GPRMC,102929.00,A,5327.04024,N,00214.41560,W,0.273,,070321,,,A*62" ++ crlf);
  (u "$GPVTG,,T,,M,0.273,N,0.506,K,A*26" ++ crlf);
  (u "$GPGGA,102929.00,5327.04024,N,00214.41560,W,1,08,1.16,36.3,M,48.5,M,,*7E" ++ crlf);
  (u "$GPGSA,A,3,17,15,10,24,20,12,19,23,,,,,2.36,1.16,2.05*09" ++ crlf);
  (u "$GPGSV,4,1,15,01,06,015,,10,30,290,27,12,42,207,26,13,19,141,23*7C" ++ crlf);
  (u "$GPGSV,4,2,15,14,07,049,21,15,45,171,27,17,32,065,22,19,33,095,25*77" ++ crlf);
  (u "$GPGSV,4,3,15,20,21,251,31,21,04,355,,23,28,252,33,24,88,273,36*70" ++ crlf);
  (u "$GPGSV,4,4,15,25,05,223,,28,14,049,26,32,10,313,16*4C" ++ crlf);
  (u "$GPGLL,5327.04024,N,00214.41560,W,102929.00,A,A*7A" ++ crlf);
  (u "$GPRMC,102930.00,A,5327.04033,N,00214.41550,W,0.099,,070321,,,A*69" ++ crlf)].
(* test_stream.py:166 testNMEA2 *)
Example testNMEA2 : prints (mkrcfg 0 1 false 1 None []) log_pygpsdata_nmea2 [
  (u "<NMEA(GPTXT, numMsg=1, msgNum=1, msgType=2, text=u-blox ag - www.u-blox.com)>");
  (u "<NMEA(GPTXT, numMsg=1, msgNum=1, msgType=2, text=HW  UBX-G70xx   00070000 )>");
  (u "<NMEA(GPTXT, numMsg=1, msgNum=1, msgType=2, text=ROM CORE 1.00 (59842) Jun 27 2012 17:43:52)>");
  (u "<NMEA(GPTXT, numMsg=1, msgNum=1, msgType=2, text=PROTVER 14.00)>");
  (u "<NMEA(GPTXT, numMsg=1, msgNum=1, msgType=2, text=ANTSUPERV=AC SD PDoS SR)>");
  (u "<NMEA(GPTXT, numMsg=1, msgNum=1, msgType=2, text=ANTSTATUS=OK)>");
  (u "<NMEA(GPTXT, numMsg=1, msgNum=1, msgType=2, text=LLC FFFFFFFF-FFFFFFFD-FFFFFFFF-FFFFFFFF-FFFFFFF9)>");
  (u "<NMEA(GPRMC, time=10:29:29, status=A, lat=53.4506706667, NS=N, lon=-2.24026, EW=W, spd=0.273, cog=, date=2021-03-07, mv=, mvEW=, posMode=A)>");
  (u "<NMEA(GPVTG, cogt=, cogtUnit=T, cogm=, cogmUnit=M, sogn=0.273, sognUnit=N, sogk=0.506, sogkUnit=K, posMode=A)>");
  (u "<NMEA(GPGGA, time=10:29:29, lat=53.4506706667, NS=N, lon=-2.24026, EW=W, quality=1, numSV=8, HDOP=1.16, alt=36.3, altUnit=M, sep=48.5, sepUnit=M, diffAge=, diffStation=)>");
  (u "<NMEA(GPGSA, opMode=A, navMode=3, svid_01=17, svid_02=15, svid_03=10, svid_04=24, svid_05=20, svid_06=12, svid_07=19, svid_08=23, svid_09=, svid_10=, svid_11=, svid_12=, PDOP=2.36, HDOP=1.16, VDOP=2.05)>");
  (u "<NMEA(GPGSV, numMsg=4, msgNum=1, numSV=15, svid_01=1, elv_01=6, az_01=15, cno_01=, svid_02=10, elv_02=30, az_02=290, cno_02=27, svid_03=12, elv_03=42, az_03=207, cno_03=26, svid_04=13, elv_04=19, az_04=141, cno_04=23)>");
  (u "<NMEA(GPGSV, numMsg=4, msgNum=2, numSV=15, svid_01=14, elv_01=7, az_01=49, cno_01=21, svid_02=15, elv_02=45, az_02=171, cno_02=27, svid_03=17, elv_03=32, az_03=65, cno_03=22, svid_04=19, elv_04=33, az_04=95, cno_04=25)>");
  (u "<NMEA(GPGSV, numMsg=4, msgNum=3, numSV=15, svid_01=20, elv_01=21, az_01=251, cno_01=31, svid_02=21, elv_02=4, az_02=355, cno_02=, svid_03=23, elv_03=28, az_03=252, cno_03=33, svid_04=24, elv_04=88, az_04=273, cno_04=36)>");
  (u "<NMEA(GPGSV, numMsg=4, msgNum=4, numSV=15, svid_01=25, elv_01=5, az_01=223, cno_01=, svid_02=28, elv_02=14, az_02=49, cno_02=26, svid_03=32, elv_03=10, az_03=313, cno_03=16)>");
  (u "<NMEA(GPGLL, lat=53.4506706667, NS=N, lon=-2.24026, EW=W, time=10:29:29, status=A, posMode=A)>");
  (u "<NMEA(GPRMC, time=10:29:30, status=A, lat=53.4506721667, NS=N, lon=-2.2402583333, EW=W, spd=0.099, cog=, date=2021-03-07, mv=, mvEW=, posMode=A)>")] = true.
Proof. vm_compute. reflexivity. Qed.
(* tests/pygpsdata-mixed.log *)
Definition log_pygpsdata_mixed : bytes := concat [
  ([181%N] ++ u "b" ++ [1%N;7%N] ++ u "\" ++ [0%N] ++ u "xSK" ++ [2%N;229%N;7%N;3%N;7%N;10%N]);
  (u ")" ++ [13%N;247%N] ++ u "\" ++ [4%N;0%N;0%N;5%N;9%N;254%N;255%N;3%N;1%N;171%N;5%N] ++ u "t%" ++ [170%N;254%N;201%N;233%N;219%N;31%N;210%N;188%N;1%N;0%N] ++ u "n" ++ [255%N;0%N;0%N;246%N;164%N;0%N;0%N;241%N] ++ u "n" ++ [0%N;0%N;13%N;0%N;0%N;0%N] ++ u "+" ++ [0%N;0%N;0%N;1%N;0%N;0%N;0%N] ++ u "-" ++ [0%N;0%N;0%N;0%N;0%N;0%N;0%N] ++ u "H" ++ [3%N;0%N;0%N] ++ u "hy" ++ [248%N;0%N;231%N;4%N;0%N;0%N;238%N;19%N] ++ u "O/" ++ [0%N;0%N;0%N;0%N;0%N;0%N;0%N;0%N;158%N] ++ u "`" ++ [181%N] ++ u "b" ++ [1%N] ++ u "5" ++ [176%N;0%N] ++ u "xSK" ++ [2%N;1%N;14%N;0%N;0%N;0%N;10%N]);
  ([30%N;29%N;28%N;1%N;232%N;255%N;31%N] ++ u "Y" ++ [0%N;0%N;0%N;20%N] ++ u "$" ++ [17%N;247%N;0%N;7%N;0%N;31%N] ++ u "Y" ++ [0%N;0%N;0%N;23%N] ++ u "&" ++ [24%N;247%N;0%N;240%N;255%N;31%N] ++ u "Y" ++ [0%N;0%N;0%N;28%N;7%N;10%N]);
  (u "1" ++ [0%N;0%N;0%N;19%N;18%N;0%N;0%N;1%N] ++ u "{" ++ [0%N;22%N;140%N;0%N;0%N;0%N;1%N;7%N;0%N;0%N;1%N;127%N;0%N;10%N]);
  (u "u" ++ [0%N;0%N;0%N;1%N;7%N;0%N;0%N;1%N;136%N;0%N;29%N;171%N;0%N;0%N;0%N;1%N;7%N;0%N;0%N;6%N;2%N;0%N;10%N]);
  ([179%N;0%N;0%N;0%N;17%N;18%N;0%N;0%N;6%N;3%N;22%N] ++ u "4" ++ [218%N;0%N;0%N;0%N;20%N;18%N;0%N;0%N;6%N;4%N;30%N] ++ u ".5" ++ [1%N] ++ u "." ++ [0%N;31%N] ++ u "Y" ++ [0%N;0%N;6%N;5%N;17%N;5%N] ++ u "T" ++ [1%N;0%N;0%N;20%N;18%N;0%N;0%N;6%N;14%N] ++ u "!" ++ [30%N;255%N;0%N] ++ u "+" ++ [0%N;31%N;9%N;0%N;0%N;6%N;21%N;0%N;19%N;18%N;0%N;0%N;0%N;17%N;18%N;0%N;0%N;6%N;22%N;0%N;25%N] ++ u "G" ++ [0%N;0%N;0%N;17%N;18%N;0%N;0%N;249%N;135%N] ++ u "$GNGGA,104113.00,5327.03557,N,00214.42234,W,1,05,8.68,65.4,M,48.5,M,,*68" ++ crlf);
  (u "$GNGSA,A,3,20,10,23,,,,,,,,,,12.55,8.68,9.07,1*38" ++ crlf);
  (u "$GNGSA,A,3,78,68,,,,,,,,,,,12.55,8.68,9.07,2*38" ++ crlf);
  (u "$GNGSA,A,3,,,,,,,,,,,,,12.55,8.68,9.07,3*38" ++ crlf);
  (u "$GNGSA,A,3,,,,,,,,,,,,,12.55,8.68,9.07,4*3F" ++ crlf);
  (u "$GPGSV,1,1,04,10,29,284,30,20,17,247,36,23,24,247,38,28,10,049,07,1*6B" ++ crlf);
  (u "$GLGSV,2,1,07,66,10,179,,67,52,218,22,68,46,309,30,69,05,340,17,1*71" ++ crlf);
  (u "$GLGSV,2,2,07,78,30,255,33,85,19,018,,86,25,071,,1*42" ++ crlf);
  (u "$GAGSV,1,1,00,7*73" ++ crlf);
  (u "$GBGSV,1,1,00,1*76" ++ crlf);
  ([181%N] ++ u "b" ++ [1%N;7%N] ++ u "\" ++ [0%N] ++ u "`WK" ++ [2%N;229%N;7%N;3%N;7%N;10%N]);
  (u ")" ++ [14%N;247%N] ++ u "\" ++ [4%N;0%N;0%N] ++ u "@" ++ [9%N;254%N;255%N;3%N;1%N;171%N;5%N;230%N] ++ u "%" ++ [170%N;254%N;199%N;233%N;219%N;31%N] ++ u "5" ++ [188%N;1%N;0%N;209%N;254%N;0%N;0%N] ++ u "%" ++ [164%N;0%N;0%N] ++ u "ao" ++ [0%N;0%N;248%N;255%N;255%N;255%N;17%N;0%N;0%N;0%N;1%N;0%N;0%N;0%N;19%N;0%N;0%N;0%N;0%N;0%N;0%N;0%N;166%N;3%N;0%N;0%N] ++ u "~" ++ [131%N;248%N;0%N;231%N;4%N;0%N;0%N;238%N;19%N] ++ u "O/" ++ [0%N;0%N;0%N;0%N;0%N;0%N;0%N;0%N;205%N;6%N;181%N] ++ u "b" ++ [1%N] ++ u "5" ++ [176%N;0%N] ++ u "`WK" ++ [2%N;1%N;14%N;0%N;0%N;0%N;10%N]);
  ([30%N;29%N;28%N;1%N;229%N;255%N;31%N] ++ u "Y" ++ [0%N;0%N;0%N;20%N] ++ u "$" ++ [17%N;247%N;0%N;5%N;0%N;31%N] ++ u "Y" ++ [0%N;0%N;0%N;23%N] ++ u "%" ++ [24%N;247%N;0%N;240%N;255%N;31%N] ++ u "Y" ++ [0%N;0%N;0%N;28%N;7%N;10%N]);
  (u "1" ++ [0%N;0%N;0%N;19%N;18%N;0%N;0%N;1%N] ++ u "{" ++ [0%N;22%N;140%N;0%N;0%N;0%N;1%N;7%N;0%N;0%N;1%N;127%N;0%N;10%N]);
  (u "u" ++ [0%N;0%N;0%N;1%N;7%N;0%N;0%N;1%N;136%N;0%N;29%N;171%N;0%N;0%N;0%N;1%N;7%N;0%N;0%N;6%N;2%N;0%N;10%N]);
  ([179%N;0%N;0%N;0%N;17%N;18%N;0%N;0%N;6%N;3%N;20%N] ++ u "4" ++ [218%N;0%N;0%N;0%N;20%N;18%N;0%N;0%N;6%N;4%N;30%N] ++ u ".5" ++ [1%N] ++ u ">" ++ [0%N;31%N] ++ u "Y" ++ [0%N;0%N;6%N;5%N;17%N;5%N] ++ u "T" ++ [1%N;0%N;0%N;20%N;18%N;0%N;0%N;6%N;14%N;30%N;30%N;255%N;0%N] ++ u "," ++ [0%N;31%N;9%N;0%N;0%N;6%N;21%N;17%N;19%N;18%N;0%N;0%N;0%N;19%N;18%N;0%N;0%N;6%N;22%N;0%N;25%N] ++ u "G" ++ [0%N;0%N;0%N;17%N;18%N;0%N;0%N;254%N] ++ u "E$GNGGA,104114.00,5327.03556,N,00214.42166,W,1,05,8.68,65.2,M,48.5,M,,*6C" ++ crlf);
  (u "$GNGSA,A,3,20,10,23,,,,,,,,,,12.55,8.68,9.06,1*39" ++ crlf);
  (u "$GNGSA,A,3,78,68,,,,,,,,,,,12.55,8.68,9.06,2*39" ++ crlf);
  (u "$GNGSA,A,3,,,,,,,,,,,,,12.55,8.68,9.06,3*39" ++ crlf);
  (u "$GNGSA,A,3,,,,,,,,,,,,,12.55,8.68,9.06,4*3E" ++ crlf)].
(* test_stream.py:198 testMIXED *)
Example testMIXED : prints (mkrcfg 0 1 false 1 None []) log_pygpsdata_mixed [
  (u "<NMEA(GNGGA, time=10:41:13, lat=53.4505928333, NS=N, lon=-2.2403723333, EW=W, quality=1, numSV=5, HDOP=8.68, alt=65.4, altUnit=M, sep=48.5, sepUnit=M, diffAge=, diffStation=)>");
  (u "<NMEA(GNGSA, opMode=A, navMode=3, svid_01=20, svid_02=10, svid_03=23, svid_04=, svid_05=, svid_06=, svid_07=, svid_08=, svid_09=, svid_10=, svid_11=, svid_12=, PDOP=12.55, HDOP=8.68, VDOP=9.07, systemId=1)>");
  (u "<NMEA(GNGSA, opMode=A, navMode=3, svid_01=78, svid_02=68, svid_03=, svid_04=, svid_05=, svid_06=, svid_07=, svid_08=, svid_09=, svid_10=, svid_11=, svid_12=, PDOP=12.55, HDOP=8.68, VDOP=9.07, systemId=2)>");
  (u "<NMEA(GNGSA, opMode=A, navMode=3, svid_01=, svid_02=, svid_03=, svid_04=, svid_05=, svid_06=, svid_07=, svid_08=, svid_09=, svid_10=, svid_11=, svid_12=, PDOP=12.55, HDOP=8.68, VDOP=9.07, systemId=3)>");
  (u "<NMEA(GNGSA, opMode=A, navMode=3, svid_01=, svid_02=, svid_03=, svid_04=, svid_05=, svid_06=, svid_07=, svid_08=, svid_09=, svid_10=, svid_11=, svid_12=, PDOP=12.55, HDOP=8.68, VDOP=9.07, systemId=4)>");
  (u "<NMEA(GPGSV, numMsg=1, msgNum=1, numSV=4, svid_01=10, elv_01=29, az_01=284, cno_01=30, svid_02=20, elv_02=17, az_02=247, cno_02=36, svid_03=23, elv_03=24, az_03=247, cno_03=38, svid_04=28, elv_04=10, az_04=49, cno_04=7, signalID=1)>");
  (u "<NMEA(GLGSV, numMsg=2, msgNum=1, numSV=7, svid_01=66, elv_01=10, az_01=179, cno_01=, svid_02=67, elv_02=52, az_02=218, cno_02=22, svid_03=68, elv_03=46, az_03=309, cno_03=30, svid_04=69, elv_04=5, az_04=340, cno_04=17, signalID=1)>");
  (u "<NMEA(GLGSV, numMsg=2, msgNum=2, numSV=7, svid_01=78, elv_01=30, az_01=255, cno_01=33, svid_02=85, elv_02=19, az_02=18, cno_02=, svid_03=86, elv_03=25, az_03=71, cno_03=, signalID=1)>");
  (u "<NMEA(GAGSV, numMsg=1, msgNum=1, numSV=0, signalID=7)>");
  (u "<NMEA(GBGSV, numMsg=1, msgNum=1, numSV=0, signalID=1)>");
  (u "<NMEA(GNGGA, time=10:41:14, lat=53.4505926667, NS=N, lon=-2.240361, EW=W, quality=1, numSV=5, HDOP=8.68, alt=65.2, altUnit=M, sep=48.5, sepUnit=M, diffAge=, diffStation=)>");
  (u "<NMEA(GNGSA, opMode=A, navMode=3, svid_01=20, svid_02=10, svid_03=23, svid_04=, svid_05=, svid_06=, svid_07=, svid_08=, svid_09=, svid_10=, svid_11=, svid_12=, PDOP=12.55, HDOP=8.68, VDOP=9.06, systemId=1)>");
  (u "<NMEA(GNGSA, opMode=A, navMode=3, svid_01=78, svid_02=68, svid_03=, svid_04=, svid_05=, svid_06=, svid_07=, svid_08=, svid_09=, svid_10=, svid_11=, svid_12=, PDOP=12.55, HDOP=8.68, VDOP=9.06, systemId=2)>");
  (u "<NMEA(GNGSA, opMode=A, navMode=3, svid_01=, svid_02=, svid_03=, svid_04=, svid_05=, svid_06=, svid_07=, svid_08=, svid_09=, svid_10=, svid_11=, svid_12=, PDOP=12.55, HDOP=8.68, VDOP=9.06, systemId=3)>");
  (u "<NMEA(GNGSA, opMode=A, navMode=3, svid_01=, svid_02=, svid_03=, svid_04=, svid_05=, svid_06=, svid_07=, svid_08=, svid_09=, svid_10=, svid_11=, svid_12=, PDOP=12.55, HDOP=8.68, VDOP=9.06, systemId=4)>")] = true.
Proof. vm_compute. reflexivity. Qed.
(* test_stream.py:230 testMIXED2 *)
Example testMIXED2 : fails (mkrcfg 0 1 true 2 None []) log_pygpsdata_mixed = Some NMEAParseError.
Proof. vm_compute. reflexivity. Qed.
(* tests/pygpsdata-maritime.log *)
Definition log_pygpsdata_maritime : bytes := concat [
  (u "$IIALF,1,1,0,124304.50,A,W,A,,192,1,1,0,LOST TARGET*14" ++ crlf);
  (u "$IIALF,2,1,1,081950.10,B,A,S,XYZ,0512,1,2,0,HEADING LOST*2D" ++ crlf);
  (u "$IIALF,2,2,1,,,,,XYZ,0512,1,2,0,NO SYSTEM HEADING AVAILABLE*0D" ++ crlf);
  (u "$AIEPV,R,AI,503123450,101,38400*05" ++ crlf);
  (u "$VRGEN,0000,011200.00,0123,4567,89AB,CDEF,0123,4567,89AB,CDEF*64" ++ crlf);
  (u "$VRGEN,0008,011200.00,0123,4567*6C" ++ crlf);
  (u "$INNRM,2,1,00001E1F,00000023,C*38" ++ crlf);
  (u "$CRNRX,007,001,00,IE69,1,135600,27,06,2001,241,3,A,============================*09" ++ crlf);
  (u "$CRNRX,007,002,00,,,,,,,,,,========^0D^0AISSUED ON SATURDAY 06 JANUARY 2001.*29" ++ crlf);
  (u "$CSSM3,123456,005213,798,0,3,14,00,2012,04,05,14,30,3400,N,076,W,300*39" ++ crlf);
  (u "$CSSMB,008,001,0,123456,FROM:Maritime Rescue Coordination Centre xxx^0D)0ATO:*48" ++ crlf);
  (u "$IISPW,EPV,211000001,2,SESAME*1A" ++ crlf);
  (u "$IIEPV,C,AI,211000001,111,HEUREKA143*55" ++ crlf);
  (u "$AIEPV,R,AI,211000001,111,HEUREKA143*4C" ++ crlf);
  (u "$HCXDR,A,171,D,PITCH,A,-37,D,ROLL,G,367,,MAGX,G,2420,,MAGY,G,-8984,,MAGZ*41" ++ crlf)].
(* test_stream.py:245 testNMEAMARITIME *)
Example testNMEAMARITIME : prints (mkrcfg 0 1 true 2 None []) log_pygpsdata_maritime [
  (u "<NMEA(IIALF, numSen=1, senNum=1, seqmid=0, timelastchange=12:43:04.500000, alertcat=A, alertpriority=W, alertstate=A, mfrcode=, alertid=192, alertinst=1, revisionctr=1, escalationctr=0, alerttxt=LOST TARGET)>");
  (u "<NMEA(IIALF, numSen=2, senNum=1, seqmid=1, timelastchange=08:19:50.100000, alertcat=B, alertpriority=A, alertstate=S, mfrcode=XYZ, alertid=0512, alertinst=1, revisionctr=2, escalationctr=0, alerttxt=HEADING LOST)>");
  (u "<NMEA(IIALF, numSen=2, senNum=2, seqmid=1, timelastchange=, alertcat=, alertpriority=, alertstate=, mfrcode=XYZ, alertid=0512, alertinst=1, revisionctr=2, escalationctr=0, alerttxt=NO SYSTEM HEADING AVAILABLE)>");
  (u "<NMEA(AIEPV, status=R, equipmenttype=AI, equipmentid=503123450, propertyid=101, value=38400)>");
  (u "<NMEA(VRGEN, index=0000, time=01:12:00, data_01=0123, data_02=4567, data_03=89AB, data_04=CDEF, data_05=0123, data_06=4567, data_07=89AB, data_08=CDEF)>");
  (u "<NMEA(VRGEN, index=0008, time=01:12:00, data_01=0123, data_02=4567)>");
  (u "<NMEA(INNRM, function=2, freqtable=1, txcovermask=00001E1F, msgtypemask=00000023, status=C)>");
  (u "<NMEA(CRNRX, numSen=7, senNum=1, seqid=0, msgcode=IE69, freqtable=1, time=13:56:00, day=27, month=6, year=2001, totalchar=241.0, totalbad=3.0, status=A, body=============================)>");
  (u "<NMEA(CRNRX, numSen=7, senNum=2, seqid=0, msgcode=, freqtable=, time=, day=, month=, year=, totalchar=, totalbad=, status=, body=========^0D^0AISSUED ON SATURDAY 06 JANUARY 2001.)>");
  (u "<NMEA(CSSM3, MSIstatus=123456, msgnum=5213, LESseqnum=798, LESid=0, oceanregioncode=3, prioritycode=14, servicecode=0, presentationcode=2012, year=4, month=5, day=14, hour=30, minute=3400, circarealat=, circareaNS=076, circarealon=, circareaEW=300)>");
  (u "<NMEA(CSSMB, numSen=8, senNum=1, seqid=0, msgnum=123456, body=FROM:Maritime Rescue Coordination Centre xxx^0D)0ATO:)>");
  (u "<NMEA(IISPW, pwdprotectsentence=EPV, id=211000001, pwdlevel=2, password=SESAME)>");
  (u "<NMEA(IIEPV, status=C, equipmenttype=AI, equipmentid=211000001, propertyid=111, value=HEUREKA143)>");
  (u "<NMEA(AIEPV, status=R, equipmenttype=AI, equipmentid=211000001, propertyid=111, value=HEUREKA143)>");
  (u "<NMEA(HCXDR, tdrtype_01=A, data_01=171.0, dataunit_01=D, tdrid_01=PITCH, tdrtype_02=A, data_02=-37.0, dataunit_02=D, tdrid_02=ROLL, tdrtype_03=G, data_03=367.0, dataunit_03=, tdrid_03=MAGX, tdrtype_04=G, data_04=2420.0, dataunit_04=, tdrid_04=MAGY, tdrtype_05=G, data_05=-8984.0, dataunit_05=, tdrid_05=MAGZ)>")] = true.
Proof. vm_compute. reflexivity. Qed.
(* tests/pygpsdata-nmea4sm.log *)
Definition log_pygpsdata_nmea4sm : bytes := concat [
  (u "$GNDTM,W84,,0.0,N,0.0,E,0.0,W84*71" ++ crlf);
  (u "$GNRMC,103607.00,A,5327.03942,N,00214.42462,W,0.046,,060321,,,A,V*0F" ++ crlf);
  (u "$GNVTG,,T,,M,0.046,N,0.085,K,A*32" ++ crlf);
  (u "$GNGNS,103607.00,5327.03942,N,00214.42462,W,AANN,06,5.88,56.0,48.5,,,V*34" ++ crlf);
  (u "$GNGGA,103607.00,5327.03942,N,00214.42462,W,1,06,5.88,56.0,M,48.5,M,,*64" ++ crlf);
  (u "$GNGSA,A,3,23,24,20,12,,,,,,,,,9.62,5.88,7.62,1*0C" ++ crlf);
  (u "$GPGSV,3,1,11,01,06,014,08,12,43,207,28,14,06,049,,15,44,171,23,1*6B" ++ crlf);
  (u "$GPTHS,23.34,A*31" ++ crlf)].
(* test_stream.py:275 testNMEAITER *)
Example testNMEAITER : prints (mkrcfg 0 1 false 1 None []) log_pygpsdata_nmea4sm [
  (u "<NMEA(GNDTM, datum=W84, subDatum=, latOfset=0.0, NS=N, lonOfset=0.0, EW=E, alt=0.0, refDatum=W84)>");
  (u "<NMEA(GNRMC, time=10:36:07, status=A, lat=53.450657, NS=N, lon=-2.2404103333, EW=W, spd=0.046, cog=, date=2021-03-06, mv=, mvEW=, posMode=A, navStatus=V)>");
  (u "<NMEA(GNVTG, cogt=, cogtUnit=T, cogm=, cogmUnit=M, sogn=0.046, sognUnit=N, sogk=0.085, sogkUnit=K, posMode=A)>");
  (u "<NMEA(GNGNS, time=10:36:07, lat=53.450657, NS=N, lon=-2.2404103333, EW=W, posMode=AANN, numSV=6, HDOP=5.88, alt=56.0, sep=48.5, diffAge=, diffStation=, navStatus=V)>");
  (u "<NMEA(GNGGA, time=10:36:07, lat=53.450657, NS=N, lon=-2.2404103333, EW=W, quality=1, numSV=6, HDOP=5.88, alt=56.0, altUnit=M, sep=48.5, sepUnit=M, diffAge=, diffStation=)>");
  (u "<NMEA(GNGSA, opMode=A, navMode=3, svid_01=23, svid_02=24, svid_03=20, svid_04=12, svid_05=, svid_06=, svid_07=, svid_08=, svid_09=, svid_10=, svid_11=, svid_12=, PDOP=9.62, HDOP=5.88, VDOP=7.62, systemId=1)>");
  (u "<NMEA(GPGSV, numMsg=3, msgNum=1, numSV=11, svid_01=1, elv_01=6, az_01=14, cno_01=8, svid_02=12, elv_02=43, az_02=207, cno_02=28, svid_03=14, elv_03=6, az_03=49, cno_03=, svid_04=15, elv_04=44, az_04=171, cno_04=23, signalID=1)>");
  (u "<NMEA(GPTHS, headt=23.34, mi=A)>")] = true.
Proof. vm_compute. reflexivity. Qed.
(* test_stream.py:297 testNMEAITERATE *)
Example testNMEAITERATE : prints (mkrcfg 0 1 false 1 None []) log_pygpsdata_nmea4sm [
  (u "<NMEA(GNDTM, datum=W84, subDatum=, latOfset=0.0, NS=N, lonOfset=0.0, EW=E, alt=0.0, refDatum=W84)>");
  (u "<NMEA(GNRMC, time=10:36:07, status=A, lat=53.450657, NS=N, lon=-2.2404103333, EW=W, spd=0.046, cog=, date=2021-03-06, mv=, mvEW=, posMode=A, navStatus=V)>");
  (u "<NMEA(GNVTG, cogt=, cogtUnit=T, cogm=, cogmUnit=M, sogn=0.046, sognUnit=N, sogk=0.085, sogkUnit=K, posMode=A)>");
  (u "<NMEA(GNGNS, time=10:36:07, lat=53.450657, NS=N, lon=-2.2404103333, EW=W, posMode=AANN, numSV=6, HDOP=5.88, alt=56.0, sep=48.5, diffAge=, diffStation=, navStatus=V)>");
  (u "<NMEA(GNGGA, time=10:36:07, lat=53.450657, NS=N, lon=-2.2404103333, EW=W, quality=1, numSV=6, HDOP=5.88, alt=56.0, altUnit=M, sep=48.5, sepUnit=M, diffAge=, diffStation=)>");
  (u "<NMEA(GNGSA, opMode=A, navMode=3, svid_01=23, svid_02=24, svid_03=20, svid_04=12, svid_05=, svid_06=, svid_07=, svid_08=, svid_09=, svid_10=, svid_11=, svid_12=, PDOP=9.62, HDOP=5.88, VDOP=7.62, systemId=1)>");
  (u "<NMEA(GPGSV, numMsg=3, msgNum=1, numSV=11, svid_01=1, elv_01=6, az_01=14, cno_01=8, svid_02=12, elv_02=43, az_02=207, cno_02=28, svid_03=14, elv_03=6, az_03=49, cno_03=, svid_04=15, elv_04=44, az_04=171, cno_04=23, signalID=1)>");
  (u "<NMEA(GPTHS, headt=23.34, mi=A)>")] = true.
Proof. vm_compute. reflexivity. Qed.
(* tests/pygpsdata-nmeabadck2.log *)
Definition log_pygpsdata_nmeabadck2 : bytes := concat [
  (u "$GNRMC,115934.00,A,5327.03889,N,00214.41531,W,0.145,,200122,,,A,V*02" ++ crlf);
  (u "$GNVTG,,T,,M,0.145,N,0.269,K,A*3)" ++ crlf);
  (u "$GNGGA,115934.00,5327.03889,N,00214.41531,W,1,12,0.67,37.0,M,48.5,M,,*68" ++ crlf);
  (u "$GNGSA,A,3,14,23,17,15,19,24,13,,,,,,1.25,0.67,1.05,1*08" ++ crlf);
  (u "$GNGSA,A,3,66,68,85,77,76,67,,,,,,,1.25,0.67,1.05,2*02" ++ crlf);
  (u "$GNGSA,A,3,25,02,08,07,03,30,,,,,,,1.25,0.67,1.05,3*0A" ++ crlf);
  (u "$GNGSA,A,3,20,23,32,,,,,,,,,,1.25,0.67,1.05,4*05" ++ crlf);
  (u "$GPGSV,3,1,11,01,00,032,,10,27,310,,12,19,205,19,13,38,134,21,1*68" ++ crlf)].
(* test_stream.py:319 testNMEAITERATE_ERR1 *)
Example testNMEAITERATE_ERR1 : fails (mkrcfg 0 1 false 2 None []) log_pygpsdata_nmeabadck2 = Some NMEAParseError.
Proof. vm_compute. reflexivity. Qed.
(* test_stream.py:336 testNMEAITERATE_ERR2 *)
Example testNMEAITERATE_ERR2 : match run (mkrcfg 0 1 false 1 (Some (fun _ => None)) []) log_pygpsdata_nmeabadck2 with Some (l, None) => same (last l (Raise EOFError)) (Ok (u "<NMEA(GPGSV, numMsg=3, msgNum=1, numSV=11, svid_01=1, elv_01=0, az_01=32, cno_01=, svid_02=10, elv_02=27, az_02=310, cno_02=, svid_03=12, elv_03=19, az_03=205, cno_03=19, svid_04=13, elv_04=38, az_04=134, cno_04=21, signalID=1)>")) | _ => false end = true.
Proof. vm_compute. reflexivity. Qed.
(* test_stream.py:354 testNMEAITERATE_ERR3 *)
Example testNMEAITERATE_ERR3 : match run (mkrcfg 0 1 false 0 None []) log_pygpsdata_nmeabadck2 with Some (l, None) => same (last l (Raise EOFError)) (Ok (u "<NMEA(GPGSV, numMsg=3, msgNum=1, numSV=11, svid_01=1, elv_01=0, az_01=32, cno_01=, svid_02=10, elv_02=27, az_02=310, cno_02=, svid_03=12, elv_03=19, az_03=205, cno_03=19, svid_04=13, elv_04=38, az_04=134, cno_04=21, signalID=1)>")) | _ => false end = true.
Proof. vm_compute. reflexivity. Qed.
(* tests/pygpsdata-nmeafoo1.log *)
Definition log_pygpsdata_nmeafoo1 : bytes := concat [
  (u "$GNRMC,121614.00,A,5327.04173,N,00214.41443,W,0.138,,200122,,,A,V*0D" ++ crlf);
  (u "$GNVTG,,T,,M,0.138,N,0.255,K,A*35" ++ crlf);
  (u "$GNGGA,121614.00,5327.04173,N,00214.41443,W,1,12,0.66,37.4,M,48.5,M,,*68" ++ crlf);
  (u "$GNGSA,A,3,14,23,10,17,15,19,24,13,,,,,1.18,0.66,0.98,1*03" ++ crlf);
  (u "$GNGSA,A,3,66,68,85,77,78,76,67,,,,,,1.18,0.66,0.98,2*07" ++ crlf);
  (u "$GNGSA,A,3,02,08,07,30,,,,,,,,,1.18,0.66,0.98,3*04" ++ crlf);
  (u "$GNGSA,A,3,20,23,32,25,10,,,,,,,,1.18,0.66,0.98,4*09" ++ crlf);
  (u "$GNFOO,,*4F" ++ crlf)].
(* test_stream.py:371 testNMEAFOO1 *)
Example testNMEAFOO1 : fails (mkrcfg 0 1 false 2 None []) log_pygpsdata_nmeafoo1 = Some NMEATypeError.
Proof. vm_compute. reflexivity. Qed.
(* tests/pygpsdata-nmeafoo2.log *)
Definition log_pygpsdata_nmeafoo2 : bytes := concat [
  (u "$GNRMC,121614.00,A,5327.04173,N,00214.41443,W,X.138,,200122,,,A,V*65" ++ crlf);
  (u "$GNVTG,,T,,M,0.138,N,0.255,K,A*35" ++ crlf);
  (u "$GNGGA,121614.00,5327.04173,N,00214.41443,W,1,12,0.66,37.4,M,48.5,M,,*68" ++ crlf);
  (u "$GNGSA,A,3,14,23,10,17,15,19,24,13,,,,,1.18,0.66,0.98,1*03" ++ crlf);
  (u "$GNGSA,A,3,66,68,85,77,78,76,67,,,,,,1.18,0.66,0.98,2*07" ++ crlf);
  (u "$GNGSA,A,3,02,08,07,30,,,,,,,,,1.18,0.66,0.98,3*04" ++ crlf);
  (u "$GNGSA,A,3,20,23,32,25,10,,,,,,,,1.18,0.66,0.98,4*09" ++ crlf);
  (u "$GNFOO,,*4F" ++ crlf)].
(* test_stream.py:386 testNMEAFOO2 *)
Example testNMEAFOO2 : fails (mkrcfg 0 1 false 2 None []) log_pygpsdata_nmeafoo2 = Some NMEATypeError.
Proof. vm_compute. reflexivity. Qed.
(* test_stream.py:397 testNMEABADMODE *)
Example testNMEABADMODE : reader_init (mkrcfg 4 1 false 1 None []) = Raise NMEAParseError.
Proof. vm_compute. reflexivity. Qed.
(* tests/pygpsdata-badeof.log *)
Definition log_pygpsdata_badeof : bytes := concat [
  (u "$GNDTM,W84,,0.0,N,0.0,E,0.0,W84*71" ++ [10%N]);
  (u "$GNRMC,103607.00,A,5327.03942,N,00214.42462,W,0.046,,060321,,,A,V*0F" ++ [10%N]);
  (u "$GNVTG,,T,,M,0.046,N,0.085,K,A*32" ++ [10%N]);
  (u "$GNGNS,103607.00,5327.03942,N,00214.42462,W,AANN,06,5.88,56.0,48.5,,,V*34" ++ [10%N]);
  (u "$")].
(* test_stream.py:404 testBADEOF *)
Example testBADEOF : prints (mkrcfg 0 1 false 1 None []) log_pygpsdata_badeof [
  (u "<NMEA(GNDTM, datum=W84, subDatum=, latOfset=0.0, NS=N, lonOfset=0.0, EW=E, alt=0.0, refDatum=W84)>");
  (u "<NMEA(GNRMC, time=10:36:07, status=A, lat=53.450657, NS=N, lon=-2.2404103333, EW=W, spd=0.046, cog=, date=2021-03-06, mv=, mvEW=, posMode=A, navStatus=V)>");
  (u "<NMEA(GNVTG, cogt=, cogtUnit=T, cogm=, cogmUnit=M, sogn=0.046, sognUnit=N, sogk=0.085, sogkUnit=K, posMode=A)>");
  (u "<NMEA(GNGNS, time=10:36:07, lat=53.450657, NS=N, lon=-2.2404103333, EW=W, posMode=AANN, numSV=6, HDOP=5.88, alt=56.0, sep=48.5, diffAge=, diffStation=, navStatus=V)>")] = true.
Proof. vm_compute. reflexivity. Qed.
(* tests/trimble_nmea.log *)
Definition log_trimble_nmea : bytes := concat [
  (u "$GPLLQ,034137.00,210712,23.45,M,13.07,M,3,15,0.011,3.14,M*08" ++ crlf);
  (u "$GPROT,35.6,A*01" ++ crlf);
  (u "$PFUGDP,GN,033615.00,3953.88002,N,10506.75324,W,13,9,FF,0.1,0.1,149,0.1*13" ++ crlf);
  (u "$PTNL,AVR,212405.20,+52.1531,Yaw,-0.0806,Tilt,,,12.575,3,1.4,16*39" ++ crlf);
  (u "$PTNL,AVR,212604.30,+52.1800,Yaw,,,-0.0807,Roll,12.579,3,1.4,16*21" ++ crlf);
  (u "$PTNL,BPQ,224445.06,021207,3723.09383914,N,12200.32620132,W,EHT-5.923,M,5*60" ++ crlf);
  (u "$PTNL,DG,44.0,33.0,287.0,100,0,4,1,0,,,*12" ++ crlf);
  (u "$PTNL,DG,124.0,10.5,1557855.0,1200,2,4,0,3,,,*10" ++ crlf);
  (u "$PTNL,EVT,221212.000008,1,5026,1893,1,17*4F" ++ crlf);
  (u "$PTNL,EVT,221213.000008,1,5027,1893,1,17*4F" ++ crlf);
  (u "$PTNL,GGK,102939.00,051910,5000.97323841,N,00827.62010742,E,5,09,1.9,EHT150.790,M*73" ++ crlf);
  (u "$PTNL,PJK,202831.50,011112,+805083.350,N,+388997.346,E,10,09,1.5,GHT+25.478,M*77" ++ crlf);
  (u "$PTNL,PJK,010717.00,081796,+732646.511,N,+1731051.091,E,1,05,2.7,EHT+28.345,M*7A" ++ crlf);
  (u "$PTNL,PJT,NAD83(Conus),California Zone 4 0404,*5D" ++ crlf);
  (u "$PTNL,VHD,030556.00,093098,187.718,-22.138,-76.929,-5.015,0.033,0.006,3,07,2.4,M*22" ++ crlf);
  (u "$PTNL,VGK,160159.00,010997,-0000.161,00009.985,-0000.002,3,07,1,4,M*09" ++ crlf);
  (u "$PASHR,ARR,1,3,12,160159.00,123.45,123.45,-123.45,12.34,12.34,12.34,2.34,2.34,-2.34,S,0,2,1*72" ++ crlf);
  (u "$PASHR,BTS,C,1,btsdev1,hs-344-fg,87,H,1,btsdev2,pc-377xs,68,T,0,,,*5F" ++ crlf);
  (u "$PGPPADV,110,39.88113582,-105.07838455,1614.125*71" ++ crlf);
  (u "$PGPPADV,120,21,76.82,68.51,29,20.66,317.47,28,52.38,276.81,22,42.26,198.96*67" ++ crlf);
  (u "$PASHR,142509.000,179.885,T,-0.624,0.245,,0.029,0.029,0.502,2,3*17" ++ crlf)].
(* test_stream.py:422 testNMEATRIMBLE *)
Example testNMEATRIMBLE : prints (mkrcfg 0 1 false 1 None []) log_trimble_nmea [
  (u "<NMEA(GPLLQ, utctime=03:41:37, utcdate=2012-07-21, easting=23.45, eunit=M, northing=13.07, nunit=M, gpsQual=3, sip=15, posQual=0.011, height=3.14, hunit=M)>");
  (u "<NMEA(GPROT, rot=35.6, valid=A)>");
  (u "<NMEA(PFUGDP, type=GN, utctime=03:36:15, lat=39.8980003333, NS=N, lon=-105.112554, EW=W, siv=13, dpvoaQual=9, dgnssMode=FF, smajErr=0.1, sminErr=0.1, dirErr=149)>");
  (u "<NMEA(PTNLAVR, msgId=AVR, utctime=21:24:05.200000, yaw=52.1531, yawc=Yaw, tilt=-0.0806, tiltc=Tilt, roll=, rollc=, range=12.575, gpsQual=3, PDOP=1.4, sip=16)>");
  (u "<NMEA(PTNLAVR, msgId=AVR, utctime=21:26:04.300000, yaw=52.18, yawc=Yaw, tilt=, tiltc=, roll=-0.0807, rollc=Roll, range=12.579, gpsQual=3, PDOP=1.4, sip=16)>");
  (u "<NMEA(PTNLBPQ, msgId=BPQ, utctime=22:44:45.060000, utcdate=2007-12-02, lat=37.384897319, NS=N, lon=-122.0054366887, EW=W, height=EHT-5.923, hunit=M, gpsQual=5)>");
  (u "<NMEA(PTNLDG, msgId=DG, strength=44.0, snr=33.0, freq=287.0, bitRate=100, chan=0, trkStatus=4, trkPerf=1)>");
  (u "<NMEA(PTNLDG, msgId=DG, strength=124.0, snr=10.5, freq=1557855.0, bitRate=1200, chan=2, trkStatus=4, trkPerf=0)>");
  (u "<NMEA(PTNLEVT, msgId=EVT, utctime=22:12:12.000008, port=1, numEvents=5026, wno=1893, dow=1, leaps=17)>");
  (u "<NMEA(PTNLEVT, msgId=EVT, utctime=22:12:13.000008, port=1, numEvents=5027, wno=1893, dow=1, leaps=17)>");
  (u "<NMEA(PTNLGGK, msgId=GGK, utctime=10:29:39, utcdate=, lat=50.0162206402, NS=N, lon=8.4603351237, EW=E, gpsQual=5, sip=9, DOP=1.9, height=EHT150.790, hunit=M)>");
  (u "<NMEA(PTNLPJK, msgId=PJK, utctime=20:28:31.500000, utcdate=2012-11-01, northing=805083.35, nunit=N, easting=388997.346, eunit=E, gpsQual=10, sip=9, DOP=1.5, height=GHT+25.478, hunit=M)>");
  (u "<NMEA(PTNLPJK, msgId=PJK, utctime=01:07:17, utcdate=, northing=732646.511, nunit=N, easting=1731051.091, eunit=E, gpsQual=1, sip=5, DOP=2.7, height=EHT+28.345, hunit=M)>");
  (u "<NMEA(PTNLPJT, msgId=PJT, coordName=NAD83(Conus), projName=California Zone 4 0404)>");
  (u "<NMEA(PTNLVHD, msgId=VHD, utctime=03:05:56, utcdate=1998-09-30, azi=187.718, aziRate=-22.138, ele=-76.929, eleRate=-5.015, range=0.033, rangeRate=0.006, gpsQual=3, sip=7, PDOP=2.4, unit=M)>");
  (u "<NMEA(PTNLVGK, msgId=VGK, utctime=16:01:59, utcdate=1997-01-09, vectE=-0.161, vectN=9.985, vectV=-0.002, gpsQual=3, sip=7, DOP=1.0, vunit=4)>");
  (u "<NMEA(PASHRARR, msgId=ARR, vectNum=1, vectMode=3, sip=12, utctime=16:01:59, antEcefX=123.45, antEcefY=123.45, antEcefZ=-123.45, coord1std=12.34, coord2std=12.34, coord3std=12.34, coord12corr=2.34, coord13corr=2.34, coord23corr=-2.34, refId=S, vectFrame=0, vectOpt=2, clkAssum=1)>");
  (u "<NMEA(PASHRBTS, msgId=BTS, port_01=C, connected_01=1, name_01=btsdev1, addr_01=hs-344-fg, linkQual_01=87, port_02=H, connected_02=1, name_02=btsdev2, addr_02=pc-377xs, linkQual_02=68, port_03=T, connected_03=0, name_03=, addr_03=, linkQual_03=)>");
  (u "<NMEA(PGPPADV110, msgId=110, lat=39.88113582, lon=-105.07838455, height=1614.125)>");
  (u "<NMEA(PGPPADV120, msgId=120, prn_01=21, ele_01=76.82, azi_01=68.51, prn_02=29, ele_02=20.66, azi_02=317.47)>");
  (u "<NMEA(PASHR, utctime=14:25:09, trueHdg=179.885, trueHdgInd=T, roll=-0.624, pitch=0.245, reserved=, rollAcc=0.029, pitchAcc=0.029, hdgAcc=0.502, gnssQual=2, imuAlign=3)>")] = true.
Proof. vm_compute. reflexivity. Qed.
(* tests/furuno_nmea.log *)
Definition log_furuno_nmea : bytes := concat [
  (u "$PFEC,GPatt,12.345,23.456,34.567,*50" ++ crlf);
  (u "$PFEC,GPhve,12.345,A*0E" ++ crlf)].
(* test_stream.py:458 testNMEAFURUNO *)
Example testNMEAFURUNO : prints (mkrcfg 0 1 false 2 None []) log_furuno_nmea [
  (u "<NMEA(PFECGPatt, msgId=GPatt, yaw=12.345, pitch=23.456, roll=34.567)>");
  (u "<NMEA(PFECGPhve, msgId=GPhve, heave=12.345, status=A)>")] = true.
Proof. vm_compute. reflexivity. Qed.
(* tests/kenwood_nmea.log *)
Definition log_kenwood_nmea : bytes := concat [
  (u "$PKWDWPL,150803,V,4237.14,N,07120.83,W,,,190316,,test,5,/'*30" ++ crlf);
  (u "$PKLDS,001235,A,3544.6650,N,13940.1900,E,015.0,038.8,110498,10.80,W00,100,2000,15,00,*7E" ++ crlf);
  (u "$PKNDS,124640,A,4954.1458,N,11923.5992,W,000.0,000.0,120223,19.20,W00,U00002,207,00,*29" ++ crlf);
  (u "$PKLSH,4000.0000,N,13500.0000,E,021720,A,100,2000,*2C" ++ crlf);
  (u "$PKNSH,4000.0000,N,13500.0000,E,021720,A,U00001,*55" ++ crlf)].
(* test_stream.py:475 testNMEAKENWOOD *)
Example testNMEAKENWOOD : prints (mkrcfg 0 1 false 2 None []) log_kenwood_nmea [
  (u "<NMEA(PKWDWPL, time=15:08:03, status=V, lat=42.619, NS=N, lon=-71.3471666667, EW=W, sog=, cog=, date=2016-03-19, alt=, wpt=test, ts=5)>");
  (u "<NMEA(PKLDS, time=00:12:35, status=A, lat=35.7444166667, NS=N, lon=139.6698333333, EW=E, sog=15.0, cog=38.8, dat=1998-04-11, declination=10.8, dec_dir=W00, fleet=100.0, senderid=2000, senderstatus=15.0, reserved=0.0)>");
  (u "<NMEA(PKNDS, time=12:46:40, status=A, lat=49.90243, NS=N, lon=-119.39332, EW=W, sog=0.0, cog=0.0, date=2023-02-12, declination=19.2, dec_dir=W00, senderid=U00002, senderstatus=207.0, reserved=0.0)>");
  (u "<NMEA(PKLSH, lat=40.0, NS=N, lon=135.0, EW=E, time=02:17:20, status=A, fleetId=100, deviceId=2000)>");
  (u "<NMEA(PKNSH, lat=40.0, NS=N, lon=135.0, EW=E, time=02:17:20, status=A, senderid=U00001)>")] = true.
Proof. vm_compute. reflexivity. Qed.
(* tests/locosys_get_nmea.log *)
Definition log_locosys_get_nmea : bytes := concat [
  (u "$PLSVD,1,0,-16,16,15,13*77" ++ [10%N]);
  (u "$PLSR,SLOPE,1,OK*41" ++ [10%N]);
  (u "$PLSR,SLOPE,0,OK*40" ++ [10%N]);
  (u "$PLSR,MEMS,1,OK*12" ++ [10%N]);
  (u "$PLSR,MEMS,0,OK*13" ++ [10%N]);
  (u "$PLSR,ATTIT,1,OK*58" ++ [10%N]);
  (u "$PLSR,ATTIT,0,OK*59" ++ [10%N]);
  (u "$PINVMSTR,0*05" ++ [10%N]);
  (u "$PINVMSLOPE,-3.13,-0.05,0.93,54.42,2.60,1.86*3B" ++ [10%N]);
  (u "$PINVMIMU,1114.106,-0.36990,1.51074,9.81383,0.67139,0.61035,-0.30518*22" ++ [10%N]);
  (u "$PINVMATTIT,-20.652,32.265,0.000*3C" ++ crlf)].
(* test_stream.py:495 testNMEALOCOSYSGET *)
Example testNMEALOCOSYSGET : prints (mkrcfg 0 1 false 2 None []) log_locosys_get_nmea [
  (u "<NMEA(PLSVD, velE=1.0, velN=0.0, velD=-16.0, velEdev=16.0, velNdev=15.0, velDdev=13.0)>");
  (u "<NMEA(PLSR, msgType=SLOPE, value=1, response=OK)>");
  (u "<NMEA(PLSR, msgType=SLOPE, value=0, response=OK)>");
  (u "<NMEA(PLSR, msgType=MEMS, value=1, response=OK)>");
  (u "<NMEA(PLSR, msgType=MEMS, value=0, response=OK)>");
  (u "<NMEA(PLSR, msgType=ATTIT, value=1, response=OK)>");
  (u "<NMEA(PLSR, msgType=ATTIT, value=0, response=OK)>");
  (u "<NMEA(PINVMSTR, value=0)>");
  (u "<NMEA(PINVMSLOPE, slope=-3.13, altDiff=-0.05, moveDist=0.93, slopeAccu=54.42, altDiffAccu=2.6, moveDistAccu=1.86)>");
  (u "<NMEA(PINVMIMU, timeSecond=1114.106, accelX=-0.3699, accelY=1.51074, accelZ=9.81383, gyroX=0.67139, gyroY=0.61035, gyroZ=-0.30518)>");
  (u "<NMEA(PINVMATTIT, roll=-20.652, pitch=32.265, yaw=0.0)>")] = true.
Proof. vm_compute. reflexivity. Qed.
(* tests/locosys_set_nmea.log *)
Definition log_locosys_set_nmea : bytes := concat [
  (u "$PINVCRES,0*1A" ++ [10%N]);
  (u "$PINVCSTR,14*3E" ++ [10%N]);
  (u "$PLSC,SLOPE,1*78" ++ [10%N]);
  (u "$PLSC,SLOPE,0*79" ++ [10%N]);
  (u "$PLSC,MEMS,1*2B" ++ [10%N]);
  (u "$PLSC,MEMS,0*2A" ++ [10%N]);
  (u "$PLSC,ATTIT,1*61" ++ [10%N]);
  (u "$PLSC,ATTIT,0*60" ++ [10%N]);
  (u "$PLSC,VER*61" ++ crlf)].
(* test_stream.py:520 testNMEALOCOSYSSET *)
Example testNMEALOCOSYSSET : prints (mkrcfg 1 1 false 2 None []) log_locosys_set_nmea [
  (u "<NMEA(PINVCRES, value=0)>");
  (u "<NMEA(PINVCSTR, value=14)>");
  (u "<NMEA(PLSC, msgType=SLOPE, value=1)>");
  (u "<NMEA(PLSC, msgType=SLOPE, value=0)>");
  (u "<NMEA(PLSC, msgType=MEMS, value=1)>");
  (u "<NMEA(PLSC, msgType=MEMS, value=0)>");
  (u "<NMEA(PLSC, msgType=ATTIT, value=1)>");
  (u "<NMEA(PLSC, msgType=ATTIT, value=0)>");
  (u "<NMEA(PLSC, msgType=VER)>")] = true.
Proof. vm_compute. reflexivity. Qed.
(* tests/septentriox5_nmea.log *)
Definition log_septentriox5_nmea : bytes := concat [
  (u "$PSSN,HRP,104751.00,230324,23.455,1.954,0.0125,0.123,0.0234,0.03765,11,0,4.56453,W*20" ++ [10%N]);
  (u "$PSSN,TFM,104751.00,2,1021,1023,1025*5F" ++ [10%N]);
  (u "$PSSN,SNC,[0,379359000,1840,[1,2,0,0]]*4C" ++ [10%N]);
  (u "$PSSN,SNC,[0,379359123,1841,[1,2,0,0],[2,3,0,0]]*4A" ++ [10%N])].
(* test_stream.py:543 testNMEASEPX5GET *)
Example testNMEASEPX5GET : prints (mkrcfg 0 1 false 2 None []) log_septentriox5_nmea [
  (u "<NMEA(PSSNHRP, msgId=HRP, utc=10:47:51, date=2024-03-23, hdg=23.455, roll=1.954, pitch=0.0125, hdgstd=0.123, rollstd=0.0234, pitchstd=0.03765, sip=11, attmode=0, magvar=4.56453, magvardir=W)>");
  (u "<NMEA(PSSNTFM, msgId=TFM, utc=10:47:51, heightind=2, usage2122=1021, usage2324=1023, usage252627=1025)>");
  (u "<NMEA(PSSNSNC, msgId=SNC, rev=0, tim=379359000, week=1840, cdidx_01=1, status_01=2, errcode_01=0, info_01=0)>");
  (u "<NMEA(PSSNSNC, msgId=SNC, rev=0, tim=379359123, week=1841, cdidx_01=1, status_01=2, errcode_01=0, info_01=0, cdidx_02=2, status_02=3, errcode_02=0, info_02=0)>")] = true.
Proof. vm_compute. reflexivity. Qed.
(* tests/feyman_nmea.log *)
Definition log_feyman_nmea : bytes := concat [
  (u "$GPFMI,160224.40,0.0,0.0,0.0,0.05268,0.001,0.17453,0.17,12,0,2,001C0001*1A" ++ crlf);
  (u "$GPFMI,160224.60,0.0,0.0,0.0,0.05268,0.001,0.17453,0.17,12,0,2,001C0001*18" ++ crlf);
  (u "$GPFMI,213937.46,13.423023,113.193168,45.890494,0.2896,-0.13526,0.06786,0.17,26,5,2,001C0001*30" ++ crlf);
  (u "$GPFMI,213937.46,13.512547,113.637276,45.767895,-0.06149,-0.12598,0.1613,0.17,27,5,2,001C0001*16" ++ crlf);
  (u "$GPFMI,213937.46,13.19525,113.882219,45.719773,0.08723,-0.1516,0.01618,0.17,27,3,2,001C0001*0B" ++ crlf);
  (u "$GPFMI,213937.46,13.092634,113.283257,45.018596,0.14348,0.08538,-0.08735,0.17,26,4,2,001C0001*05" ++ crlf);
  (u "$GPFMI,213937.46,13.254565,113.288853,45.661074,0.12346,0.05322,-0.08051,0.17,25,3,2,001C0001*07" ++ crlf);
  (u "$GPFMI,213937.46,13.509901,113.138161,45.996202,-0.06133,-0.09084,0.15226,0.17,27,3,2,001C0001*25" ++ crlf);
  (u "$GPFMI,213937.46,13.76182,113.482807,45.764244,-0.08238,0.11154,-0.14273,0.17,26,2,2,001C0001*15" ++ crlf);
  (u "$GPFMI,213937.46,13.934536,113.034356,45.252132,0.29458,0.04115,-0.05138,0.17,27,2,2,001C0001*07" ++ crlf);
  (u "$GPFMI,213937.46,13.639909,113.402712,45.615865,0.20085,0.16486,0.06866,0.17,27,5,2,001C0001*26" ++ crlf);
  (u "$GPFMI,213937.46,13.269057,113.727968,45.891641,-0.00148,0.1202,-0.28122,0.17,25,2,2,001C0001*16" ++ crlf);
  (u "$GPFMI,213937.46,13.457734,113.13478,45.028494,0.11935,0.03962,0.15073,0.17,24,4,2,001C0001*12" ++ crlf);
  (u "$GPFMI,213937.46,13.114631,113.083719,45.146318,0.11355,0.1324,-0.05383,0.17,26,4,2,001C0001*37" ++ crlf);
  (u "$GPFMI,213937.46,13.561758,113.504337,45.81872,-0.33798,0.02763,-0.13261,0.17,25,3,2,001C0001*12" ++ crlf);
  (u "$GPFMI,213937.46,13.484163,113.286151,45.117093,-0.13497,0.05618,-0.21773,0.17,24,3,2,001C0001*22" ++ crlf);
  (u "$GPFMI,213937.46,13.077227,113.853113,45.633862,0.28419,-0.17017,0.22197,0.17,24,5,2,001C0001*0A" ++ crlf);
  (u "$GPFMI,213937.46,13.256628,113.893556,45.736646,-0.22785,-0.11589,0.09098,0.17,26,2,2,001C00E1*57" ++ crlf);
  (u "$GPFMI,213937.46,13.327387,113.710465,45.119112,-0.27196,0.01461,-0.14661,0.17,24,2,2,001C0001*24" ++ crlf);
  (u "$GPFMI,213937.46,13.238952,113.301512,45.781582,0.00436,0.12186,-0.06835,0.17,26,4,2,001C0001*07" ++ crlf);
  (u "$GPFMI,213937.46,13.8632,113.998859,45.163301,0.09648,-0.03866,0.2807,0.17,24,2,2,001A0001*36" ++ crlf);
  (u "$GPFMI,213937.46,13.952284,113.441564,45.696884,-0.21893,-0.06943,-0.04883,0.17,25,2,2,001A0001*02" ++ crlf)].
(* test_stream.py:561 testNMEAGPFMI *)
Example testNMEAGPFMI : prints (mkrcfg 0 1 false 2 None []) log_feyman_nmea [
  (u "<NMEA(GPFMI, time=16:02:24.400000, lat=0.0, lon=0.0, alt=0.0, roll=0.05268, pitch=0.001, yaw=0.17453, hrms=0.17, numSV=12, diffAge=0, navmod=2, status=001C0001)>");
  (u "<NMEA(GPFMI, time=16:02:24.600000, lat=0.0, lon=0.0, alt=0.0, roll=0.05268, pitch=0.001, yaw=0.17453, hrms=0.17, numSV=12, diffAge=0, navmod=2, status=001C0001)>");
  (u "<NMEA(GPFMI, time=21:39:37.460000, lat=13.423023, lon=113.193168, alt=45.890494, roll=0.2896, pitch=-0.13526, yaw=0.06786, hrms=0.17, numSV=26, diffAge=5, navmod=2, status=001C0001)>");
  (u "<NMEA(GPFMI, time=21:39:37.460000, lat=13.512547, lon=113.637276, alt=45.767895, roll=-0.06149, pitch=-0.12598, yaw=0.1613, hrms=0.17, numSV=27, diffAge=5, navmod=2, status=001C0001)>");
  (u "<NMEA(GPFMI, time=21:39:37.460000, lat=13.19525, lon=113.882219, alt=45.719773, roll=0.08723, pitch=-0.1516, yaw=0.01618, hrms=0.17, numSV=27, diffAge=3, navmod=2, status=001C0001)>");
  (u "<NMEA(GPFMI, time=21:39:37.460000, lat=13.092634, lon=113.283257, alt=45.018596, roll=0.14348, pitch=0.08538, yaw=-0.08735, hrms=0.17, numSV=26, diffAge=4, navmod=2, status=001C0001)>");
  (u "<NMEA(GPFMI, time=21:39:37.460000, lat=13.254565, lon=113.288853, alt=45.661074, roll=0.12346, pitch=0.05322, yaw=-0.08051, hrms=0.17, numSV=25, diffAge=3, navmod=2, status=001C0001)>");
  (u "<NMEA(GPFMI, time=21:39:37.460000, lat=13.509901, lon=113.138161, alt=45.996202, roll=-0.06133, pitch=-0.09084, yaw=0.15226, hrms=0.17, numSV=27, diffAge=3, navmod=2, status=001C0001)>");
  (u "<NMEA(GPFMI, time=21:39:37.460000, lat=13.76182, lon=113.482807, alt=45.764244, roll=-0.08238, pitch=0.11154, yaw=-0.14273, hrms=0.17, numSV=26, diffAge=2, navmod=2, status=001C0001)>");
  (u "<NMEA(GPFMI, time=21:39:37.460000, lat=13.934536, lon=113.034356, alt=45.252132, roll=0.29458, pitch=0.04115, yaw=-0.05138, hrms=0.17, numSV=27, diffAge=2, navmod=2, status=001C0001)>");
  (u "<NMEA(GPFMI, time=21:39:37.460000, lat=13.639909, lon=113.402712, alt=45.615865, roll=0.20085, pitch=0.16486, yaw=0.06866, hrms=0.17, numSV=27, diffAge=5, navmod=2, status=001C0001)>");
  (u "<NMEA(GPFMI, time=21:39:37.460000, lat=13.269057, lon=113.727968, alt=45.891641, roll=-0.00148, pitch=0.1202, yaw=-0.28122, hrms=0.17, numSV=25, diffAge=2, navmod=2, status=001C0001)>");
  (u "<NMEA(GPFMI, time=21:39:37.460000, lat=13.457734, lon=113.13478, alt=45.028494, roll=0.11935, pitch=0.03962, yaw=0.15073, hrms=0.17, numSV=24, diffAge=4, navmod=2, status=001C0001)>");
  (u "<NMEA(GPFMI, time=21:39:37.460000, lat=13.114631, lon=113.083719, alt=45.146318, roll=0.11355, pitch=0.1324, yaw=-0.05383, hrms=0.17, numSV=26, diffAge=4, navmod=2, status=001C0001)>");
  (u "<NMEA(GPFMI, time=21:39:37.460000, lat=13.561758, lon=113.504337, alt=45.81872, roll=-0.33798, pitch=0.02763, yaw=-0.13261, hrms=0.17, numSV=25, diffAge=3, navmod=2, status=001C0001)>");
  (u "<NMEA(GPFMI, time=21:39:37.460000, lat=13.484163, lon=113.286151, alt=45.117093, roll=-0.13497, pitch=0.05618, yaw=-0.21773, hrms=0.17, numSV=24, diffAge=3, navmod=2, status=001C0001)>");
  (u "<NMEA(GPFMI, time=21:39:37.460000, lat=13.077227, lon=113.853113, alt=45.633862, roll=0.28419, pitch=-0.17017, yaw=0.22197, hrms=0.17, numSV=24, diffAge=5, navmod=2, status=001C0001)>");
  (u "<NMEA(GPFMI, time=21:39:37.460000, lat=13.256628, lon=113.893556, alt=45.736646, roll=-0.22785, pitch=-0.11589, yaw=0.09098, hrms=0.17, numSV=26, diffAge=2, navmod=2, status=001C00E1)>");
  (u "<NMEA(GPFMI, time=21:39:37.460000, lat=13.327387, lon=113.710465, alt=45.119112, roll=-0.27196, pitch=0.01461, yaw=-0.14661, hrms=0.17, numSV=24, diffAge=2, navmod=2, status=001C0001)>");
  (u "<NMEA(GPFMI, time=21:39:37.460000, lat=13.238952, lon=113.301512, alt=45.781582, roll=0.00436, pitch=0.12186, yaw=-0.06835, hrms=0.17, numSV=26, diffAge=4, navmod=2, status=001C0001)>");
  (u "<NMEA(GPFMI, time=21:39:37.460000, lat=13.8632, lon=113.998859, alt=45.163301, roll=0.09648, pitch=-0.03866, yaw=0.2807, hrms=0.17, numSV=24, diffAge=2, navmod=2, status=001A0001)>");
  (u "<NMEA(GPFMI, time=21:39:37.460000, lat=13.952284, lon=113.441564, alt=45.696884, roll=-0.21893, pitch=-0.06943, yaw=-0.04883, hrms=0.17, numSV=25, diffAge=2, navmod=2, status=001A0001)>")] = true.
Proof. vm_compute. reflexivity. Qed.
(* tests/unicore_nmea.log *)
Definition log_unicore_nmea : bytes := concat [
  (u "$GNGGAH,073346.00,4004.73874301,N,11614.19077585,E,1,28,0.6,64.2831,M,8.4925,M,,*35" ++ crlf);
  (u "$GNGLLH,4004.73814597,N,11614.19908275,E,054501.00,A,D*37" ++ crlf);
  (u "$GNGNSH,074444.00,4004.73864213,N,11614.19082153,E,ANAAA,28,0.7,64.6536,8.4925,,,S*25" ++ crlf);
  (u "$GNGRSH,055209.00,0,0.0,0.8,0.1,,0.1,2.2,0.2,,,,,,1,1*18" ++ crlf);
  (u "$GNGRSH,055209.00,0,0.1,0.4,0.1,,0.1,1.5,0.2,,,,,,1,4*14" ++ crlf);
  (u "$GNGRSH,055209.00,0,0.0,0.2,,,0.0,0.1,,,,,,,1,8*18" ++ crlf);
  (u "$GNGRSH,055209.00,0,0.1,0.4,0.1,0.1,,,,,,,,,2,1*14" ++ crlf);
  (u "$GNGRSH,055209.00,0,0.1,0.1,0.1,0.3,,,,,,,,,2,3*11" ++ crlf);
  (u "$GNGRSH,055209.00,0,0.6,0.7,0.3,0.8,0.1,0.1,,,,,,,3,7*1C" ++ crlf);
  (u "$GNGRSH,055209.00,0,0.2,0.2,0.1,0.2,0.0,0.0,,,,,,,3,1*13" ++ crlf);
  (u "$GNGRSH,055209.00,0,0.1,0.1,0.1,0.1,0.0,0.0,,,,,,,3,2*13" ++ crlf);
  (u "$GNGRSH,055209.00,0,0.3,0.2,0.6,0.1,0.4,0.8,1.2,0.9,0.4,0.4,1.0,2.0,4,1*14" ++ crlf);
  (u "$GNGRSH,055209.00,0,0.9,0.6,0.6,0.4,0.3,0.2,0.8,1.3,0.2,,,,4,1*3D" ++ crlf);
  (u "$GNGRSH,055209.00,0,0.2,0.1,0.1,0.1,0.1,0.2,0.2,0.2,0.1,0.1,0.2,0.2,4,8*1E" ++ crlf);
  (u "$GNGRSH,055209.00,0,0.2,0.2,0.2,0.1,0.1,0.1,0.2,0.2,0.1,,,,4,8*32" ++ crlf);
  (u "$GNGRSH,055209.00,0,,,0.1,0.0,,0.2,,,,,,,4,11*0B" ++ crlf);
  (u "$GNGRSH,055209.00,0,0.2,0.1,0.1,,,0.1,0.2,,0.1,,,,4,11*26" ++ crlf);
  (u "$GNGRSH,055209.00,0,0.3,0.2,0.1,,,,,,,,,,5,1*38" ++ crlf);
  (u "$GNGRSH,055209.00,0,1.2,0.4,0.1,,,,,,,,,,5,6*39" ++ crlf);
  (u "$GNGRSH,055209.00,0,0.2,0.0,0.1,,,,,,,,,,5,8*32" ++ crlf);
  (u "$GNGSAH,M,3,26,29,31,32,,,,,,,,,1.1,0.6,0.9,1*76" ++ crlf);
  (u "$GNGSAH,M,3,01,04,09,19,21,31,,,,,,,1.1,0.6,0.9,3*7D" ++ crlf);
  (u "$GNGSAH,M,3,01,03,04,06,07,09,16,19,20,22,28,36,1.1,0.6,0.9,4*73" ++ crlf);
  (u "$GNGSAH,M,3,37,39,40,46,59,60,,,,,,,1.1,0.6,0.9,4*7D" ++ crlf);
  (u "$GNGSTH,055543.00,0.45,0.01,0.01,127.6430,0.010,0.010,0.019*0F" ++ crlf);
  (u "$GPGSVH,2,1,08,16,28,217,38,32,39,140,45,03,29,290,32,31,66,033,50,1*2F" ++ crlf);
  (u "$GPGSVH,2,2,08,04,12,313,34,26,69,220,46,25,16,046,34,29,28,071,37,1*2A" ++ crlf);
  (u "$GPGSVH,2,1,07,32,39,140,41,03,29,290,37,31,66,033,46,04,12,313,35,4*21" ++ crlf);
  (u "$GPGSVH,2,2,07,26,69,220,46,25,16,046,35,29,28,071,41,4*11" ++ crlf);
  (u "$GLGSVH,2,1,05,74,15,049,37,66,38,321,45,76,41,264,42,72,21,168,35,1*3F" ++ crlf);
  (u "$GLGSVH,2,2,05,65,63,206,44,1*07" ++ crlf);
  (u "$GLGSVH,1,1,04,66,38,321,42,76,41,264,43,72,21,168,36,65,63,206,43,3*31" ++ crlf);
  (u "$GBGSVH,6,1,21,27,15,113,36,46,73,006,50,06,81,019,49,07,43,199,36,1*36" ++ crlf);
  (u "$GBGSVH,6,2,21,16,79,068,51,19,55,235,42,10,33,205,34,28,13,062,34,1*3A" ++ crlf);
  (u "$GBGSVH,6,3,21,36,40,265,35,59,38,145,43,40,52,184,43,20,24,178,35,1*3B" ++ crlf);
  (u "$GBGSVH,6,4,21,22,31,308,40,04,25,124,36,03,42,188,35,01,34,140,41,1*37" ++ crlf);
  (u "$GBGSVH,6,5,21,60,28,227,38,39,74,097,51,09,72,329,46,02,32,224,35,1*3A" ++ crlf);
  (u "$GBGSVH,6,6,21,37,24,062,35,1*0D" ++ crlf);
  (u "$GBGSVH,6,1,21,27,15,113,39,46,73,006,52,06,81,019,49,07,43,199,41,8*32" ++ crlf);
  (u "$GBGSVH,6,2,21,16,79,068,48,19,55,235,47,10,33,205,36,28,13,062,39,8*31" ++ crlf);
  (u "$GBGSVH,6,3,21,36,40,265,45,59,38,145,43,40,52,184,46,20,24,178,37,8*32" ++ crlf);
  (u "$GBGSVH,6,4,21,22,31,308,41,04,25,124,37,03,42,188,38,01,34,140,39,8*3C" ++ crlf);
  (u "$GBGSVH,6,5,21,60,28,227,40,39,74,097,53,09,72,329,47,02,32,224,35,8*3F" ++ crlf);
  (u "$GBGSVH,6,6,21,37,24,062,44,8*02" ++ crlf);
  (u "$GBGSVH,3,1,09,06,81,019,50,07,43,199,43,16,79,068,50,10,33,205,40,B*42" ++ crlf);
  (u "$GBGSVH,3,2,09,04,25,124,40,03,42,188,42,01,34,140,40,09,72,329,49,B*49" ++ crlf);
  (u "$GBGSVH,3,3,09,02,32,224,39,B*79" ++ crlf);
  (u "$GAGSVH,2,1,06,19,27,146,38,04,79,220,51,09,34,312,39,31,44,232,43,2*32" ++ crlf);
  (u "$GAGSVH,2,2,06,21,25,048,44,01,76,038,52,2*3C" ++ crlf);
  (u "$GAGSVH,2,1,06,19,27,146,34,04,79,220,48,09,34,312,40,31,44,232,38,7*31" ++ crlf);
  (u "$GAGSVH,2,2,06,21,25,048,36,01,76,038,50,7*3E" ++ crlf);
  (u "$GQGSVH,1,1,03,03,13,146,35,02,71,090,49,07,42,163,35,1*19" ++ crlf);
  (u "$GQGSVH,1,1,03,03,13,146,32,02,71,090,49,07,42,163,42,6*19" ++ crlf);
  (u "$GNRMCH,055808.00,A,4004.73817916,N,11614.19891207,E,0.004,99.7,311221,6.9,W,D,V*3A" ++ crlf);
  (u "$GNVTGH,113.125,T,120.041,M,0.01474,N,0.02730,K,D*73" ++ crlf);
  (u "$GNTHS2,88.3640,T*0F" ++ crlf);
  (u "$GNHPR,074615.00,320.9610,-66.1712,000.0000,4,47,0.00,0999*45" ++ crlf);
  (u "$GNHPR2,-00001.00,088.3640,-00.0873,000.0000,4,32,0.00,0401*63" ++ crlf);
  (u "$GNTRA2,090415.00,88.36,-0.09,0.00,4,30,0.00,0000*7D" ++ crlf);
  (u "$GNROT2,-0.0,A*30" ++ crlf);
  (u "$GPHPD,2319,462170.00,251.77,-48.16,178.48,40.0789783,116.2365145,63.03,0.001,0.000,-0.003,-0.001,-0.002,-0.001,0.000,48,48*76" ++ crlf)].
(* test_stream.py:631 testNMEAUnicore *)
Example testNMEAUnicore : prints (mkrcfg 0 1 false 2 None []) log_unicore_nmea [
  (u "<NMEA(GNGGAH, time=07:33:46, lat=40.0789790502, NS=N, lon=116.2365129308, EW=E, quality=1, numSV=28, HDOP=0.6, alt=64.2831, altUnit=M, sep=8.4925, sepUnit=M, diffAge=, diffStation=)>");
  (u "<NMEA(GNGLLH, lat=40.0789690995, NS=N, lon=116.2366513792, EW=E, time=05:45:01, status=A, posMode=D)>");
  (u "<NMEA(GNGNSH, time=07:44:44, lat=40.0789773688, NS=N, lon=116.2365136922, EW=E, posMode=ANAAA, numSV=28, HDOP=0.7, alt=64.6536, sep=8.4925, diffAge=, diffStation=, navStatus=S)>");
  (u "<NMEA(GNGRSH, time=05:52:09, mode=0, residual_01=0.0, residual_02=0.8, residual_03=0.1, residual_04=, residual_05=0.1, residual_06=2.2, residual_07=0.2, residual_08=, residual_09=, residual_10=, residual_11=, residual_12=, systemId=1, signalId=1)>");
  (u "<NMEA(GNGRSH, time=05:52:09, mode=0, residual_01=0.1, residual_02=0.4, residual_03=0.1, residual_04=, residual_05=0.1, residual_06=1.5, residual_07=0.2, residual_08=, residual_09=, residual_10=, residual_11=, residual_12=, systemId=1, signalId=4)>");
  (u "<NMEA(GNGRSH, time=05:52:09, mode=0, residual_01=0.0, residual_02=0.2, residual_03=, residual_04=, residual_05=0.0, residual_06=0.1, residual_07=, residual_08=, residual_09=, residual_10=, residual_11=, residual_12=, systemId=1, signalId=8)>");
  (u "<NMEA(GNGRSH, time=05:52:09, mode=0, residual_01=0.1, residual_02=0.4, residual_03=0.1, residual_04=0.1, residual_05=, residual_06=, residual_07=, residual_08=, residual_09=, residual_10=, residual_11=, residual_12=, systemId=2, signalId=1)>");
  (u "<NMEA(GNGRSH, time=05:52:09, mode=0, residual_01=0.1, residual_02=0.1, residual_03=0.1, residual_04=0.3, residual_05=, residual_06=, residual_07=, residual_08=, residual_09=, residual_10=, residual_11=, residual_12=, systemId=2, signalId=3)>");
  (u "<NMEA(GNGRSH, time=05:52:09, mode=0, residual_01=0.6, residual_02=0.7, residual_03=0.3, residual_04=0.8, residual_05=0.1, residual_06=0.1, residual_07=, residual_08=, residual_09=, residual_10=, residual_11=, residual_12=, systemId=3, signalId=7)>");
  (u "<NMEA(GNGRSH, time=05:52:09, mode=0, residual_01=0.2, residual_02=0.2, residual_03=0.1, residual_04=0.2, residual_05=0.0, residual_06=0.0, residual_07=, residual_08=, residual_09=, residual_10=, residual_11=, residual_12=, systemId=3, signalId=1)>");
  (u "<NMEA(GNGRSH, time=05:52:09, mode=0, residual_01=0.1, residual_02=0.1, residual_03=0.1, residual_04=0.1, residual_05=0.0, residual_06=0.0, residual_07=, residual_08=, residual_09=, residual_10=, residual_11=, residual_12=, systemId=3, signalId=2)>");
  (u "<NMEA(GNGRSH, time=05:52:09, mode=0, residual_01=0.3, residual_02=0.2, residual_03=0.6, residual_04=0.1, residual_05=0.4, residual_06=0.8, residual_07=1.2, residual_08=0.9, residual_09=0.4, residual_10=0.4, residual_11=1.0, residual_12=2.0, systemId=4, signalId=1)>");
  (u "<NMEA(GNGRSH, time=05:52:09, mode=0, residual_01=0.9, residual_02=0.6, residual_03=0.6, residual_04=0.4, residual_05=0.3, residual_06=0.2, residual_07=0.8, residual_08=1.3, residual_09=0.2, residual_10=, residual_11=, residual_12=, systemId=4, signalId=1)>");
  (u "<NMEA(GNGRSH, time=05:52:09, mode=0, residual_01=0.2, residual_02=0.1, residual_03=0.1, residual_04=0.1, residual_05=0.1, residual_06=0.2, residual_07=0.2, residual_08=0.2, residual_09=0.1, residual_10=0.1, residual_11=0.2, residual_12=0.2, systemId=4, signalId=8)>");
  (u "<NMEA(GNGRSH, time=05:52:09, mode=0, residual_01=0.2, residual_02=0.2, residual_03=0.2, residual_04=0.1, residual_05=0.1, residual_06=0.1, residual_07=0.2, residual_08=0.2, residual_09=0.1, residual_10=, residual_11=, residual_12=, systemId=4, signalId=8)>");
  (u "<NMEA(GNGRSH, time=05:52:09, mode=0, residual_01=, residual_02=, residual_03=0.1, residual_04=0.0, residual_05=, residual_06=0.2, residual_07=, residual_08=, residual_09=, residual_10=, residual_11=, residual_12=, systemId=4, signalId=11)>");
  (u "<NMEA(GNGRSH, time=05:52:09, mode=0, residual_01=0.2, residual_02=0.1, residual_03=0.1, residual_04=, residual_05=, residual_06=0.1, residual_07=0.2, residual_08=, residual_09=0.1, residual_10=, residual_11=, residual_12=, systemId=4, signalId=11)>");
  (u "<NMEA(GNGRSH, time=05:52:09, mode=0, residual_01=0.3, residual_02=0.2, residual_03=0.1, residual_04=, residual_05=, residual_06=, residual_07=, residual_08=, residual_09=, residual_10=, residual_11=, residual_12=, systemId=5, signalId=1)>");
  (u "<NMEA(GNGRSH, time=05:52:09, mode=0, residual_01=1.2, residual_02=0.4, residual_03=0.1, residual_04=, residual_05=, residual_06=, residual_07=, residual_08=, residual_09=, residual_10=, residual_11=, residual_12=, systemId=5, signalId=6)>");
  (u "<NMEA(GNGRSH, time=05:52:09, mode=0, residual_01=0.2, residual_02=0.0, residual_03=0.1, residual_04=, residual_05=, residual_06=, residual_07=, residual_08=, residual_09=, residual_10=, residual_11=, residual_12=, systemId=5, signalId=8)>");
  (u "<NMEA(GNGSAH, opMode=M, navMode=3, svid_01=26, svid_02=29, svid_03=31, svid_04=32, svid_05=, svid_06=, svid_07=, svid_08=, svid_09=, svid_10=, svid_11=, svid_12=, PDOP=1.1, HDOP=0.6, VDOP=0.9, systemId=1)>");
  (u "<NMEA(GNGSAH, opMode=M, navMode=3, svid_01=1, svid_02=4, svid_03=9, svid_04=19, svid_05=21, svid_06=31, svid_07=, svid_08=, svid_09=, svid_10=, svid_11=, svid_12=, PDOP=1.1, HDOP=0.6, VDOP=0.9, systemId=3)>");
  (u "<NMEA(GNGSAH, opMode=M, navMode=3, svid_01=1, svid_02=3, svid_03=4, svid_04=6, svid_05=7, svid_06=9, svid_07=16, svid_08=19, svid_09=20, svid_10=22, svid_11=28, svid_12=36, PDOP=1.1, HDOP=0.6, VDOP=0.9, systemId=4)>");
  (u "<NMEA(GNGSAH, opMode=M, navMode=3, svid_01=37, svid_02=39, svid_03=40, svid_04=46, svid_05=59, svid_06=60, svid_07=, svid_08=, svid_09=, svid_10=, svid_11=, svid_12=, PDOP=1.1, HDOP=0.6, VDOP=0.9, systemId=4)>");
  (u "<NMEA(GNGSTH, time=05:55:43, rangeRms=0.45, stdMajor=0.01, stdMinor=0.01, orient=127.643, stdLat=0.01, stdLong=0.01, stdAlt=0.019)>");
  (u "<NMEA(GPGSVH, numMsg=2, msgNum=1, numSV=8, svid_01=16, elv_01=28, az_01=217, cno_01=38, svid_02=32, elv_02=39, az_02=140, cno_02=45, svid_03=3, elv_03=29, az_03=290, cno_03=32, svid_04=31, elv_04=66, az_04=33, cno_04=50, signalID=1)>");
  (u "<NMEA(GPGSVH, numMsg=2, msgNum=2, numSV=8, svid_01=4, elv_01=12, az_01=313, cno_01=34, svid_02=26, elv_02=69, az_02=220, cno_02=46, svid_03=25, elv_03=16, az_03=46, cno_03=34, svid_04=29, elv_04=28, az_04=71, cno_04=37, signalID=1)>");
  (u "<NMEA(GPGSVH, numMsg=2, msgNum=1, numSV=7, svid_01=32, elv_01=39, az_01=140, cno_01=41, svid_02=3, elv_02=29, az_02=290, cno_02=37, svid_03=31, elv_03=66, az_03=33, cno_03=46, svid_04=4, elv_04=12, az_04=313, cno_04=35, signalID=4)>");
  (u "<NMEA(GPGSVH, numMsg=2, msgNum=2, numSV=7, svid_01=26, elv_01=69, az_01=220, cno_01=46, svid_02=25, elv_02=16, az_02=46, cno_02=35, svid_03=29, elv_03=28, az_03=71, cno_03=41, signalID=4)>");
  (u "<NMEA(GLGSVH, numMsg=2, msgNum=1, numSV=5, svid_01=74, elv_01=15, az_01=49, cno_01=37, svid_02=66, elv_02=38, az_02=321, cno_02=45, svid_03=76, elv_03=41, az_03=264, cno_03=42, svid_04=72, elv_04=21, az_04=168, cno_04=35, signalID=1)>");
  (u "<NMEA(GLGSVH, numMsg=2, msgNum=2, numSV=5, svid_01=65, elv_01=63, az_01=206, cno_01=44, signalID=1)>");
  (u "<NMEA(GLGSVH, numMsg=1, msgNum=1, numSV=4, svid_01=66, elv_01=38, az_01=321, cno_01=42, svid_02=76, elv_02=41, az_02=264, cno_02=43, svid_03=72, elv_03=21, az_03=168, cno_03=36, svid_04=65, elv_04=63, az_04=206, cno_04=43, signalID=3)>");
  (u "<NMEA(GBGSVH, numMsg=6, msgNum=1, numSV=21, svid_01=27, elv_01=15, az_01=113, cno_01=36, svid_02=46, elv_02=73, az_02=6, cno_02=50, svid_03=6, elv_03=81, az_03=19, cno_03=49, svid_04=7, elv_04=43, az_04=199, cno_04=36, signalID=1)>");
  (u "<NMEA(GBGSVH, numMsg=6, msgNum=2, numSV=21, svid_01=16, elv_01=79, az_01=68, cno_01=51, svid_02=19, elv_02=55, az_02=235, cno_02=42, svid_03=10, elv_03=33, az_03=205, cno_03=34, svid_04=28, elv_04=13, az_04=62, cno_04=34, signalID=1)>");
  (u "<NMEA(GBGSVH, numMsg=6, msgNum=3, numSV=21, svid_01=36, elv_01=40, az_01=265, cno_01=35, svid_02=59, elv_02=38, az_02=145, cno_02=43, svid_03=40, elv_03=52, az_03=184, cno_03=43, svid_04=20, elv_04=24, az_04=178, cno_04=35, signalID=1)>");
  (u "<NMEA(GBGSVH, numMsg=6, msgNum=4, numSV=21, svid_01=22, elv_01=31, az_01=308, cno_01=40, svid_02=4, elv_02=25, az_02=124, cno_02=36, svid_03=3, elv_03=42, az_03=188, cno_03=35, svid_04=1, elv_04=34, az_04=140, cno_04=41, signalID=1)>");
  (u "<NMEA(GBGSVH, numMsg=6, msgNum=5, numSV=21, svid_01=60, elv_01=28, az_01=227, cno_01=38, svid_02=39, elv_02=74, az_02=97, cno_02=51, svid_03=9, elv_03=72, az_03=329, cno_03=46, svid_04=2, elv_04=32, az_04=224, cno_04=35, signalID=1)>");
  (u "<NMEA(GBGSVH, numMsg=6, msgNum=6, numSV=21, svid_01=37, elv_01=24, az_01=62, cno_01=35, signalID=1)>");
  (u "<NMEA(GBGSVH, numMsg=6, msgNum=1, numSV=21, svid_01=27, elv_01=15, az_01=113, cno_01=39, svid_02=46, elv_02=73, az_02=6, cno_02=52, svid_03=6, elv_03=81, az_03=19, cno_03=49, svid_04=7, elv_04=43, az_04=199, cno_04=41, signalID=8)>");
  (u "<NMEA(GBGSVH, numMsg=6, msgNum=2, numSV=21, svid_01=16, elv_01=79, az_01=68, cno_01=48, svid_02=19, elv_02=55, az_02=235, cno_02=47, svid_03=10, elv_03=33, az_03=205, cno_03=36, svid_04=28, elv_04=13, az_04=62, cno_04=39, signalID=8)>");
  (u "<NMEA(GBGSVH, numMsg=6, msgNum=3, numSV=21, svid_01=36, elv_01=40, az_01=265, cno_01=45, svid_02=59, elv_02=38, az_02=145, cno_02=43, svid_03=40, elv_03=52, az_03=184, cno_03=46, svid_04=20, elv_04=24, az_04=178, cno_04=37, signalID=8)>");
  (u "<NMEA(GBGSVH, numMsg=6, msgNum=4, numSV=21, svid_01=22, elv_01=31, az_01=308, cno_01=41, svid_02=4, elv_02=25, az_02=124, cno_02=37, svid_03=3, elv_03=42, az_03=188, cno_03=38, svid_04=1, elv_04=34, az_04=140, cno_04=39, signalID=8)>");
  (u "<NMEA(GBGSVH, numMsg=6, msgNum=5, numSV=21, svid_01=60, elv_01=28, az_01=227, cno_01=40, svid_02=39, elv_02=74, az_02=97, cno_02=53, svid_03=9, elv_03=72, az_03=329, cno_03=47, svid_04=2, elv_04=32, az_04=224, cno_04=35, signalID=8)>");
  (u "<NMEA(GBGSVH, numMsg=6, msgNum=6, numSV=21, svid_01=37, elv_01=24, az_01=62, cno_01=44, signalID=8)>");
  (u "<NMEA(GBGSVH, numMsg=3, msgNum=1, numSV=9, svid_01=6, elv_01=81, az_01=19, cno_01=50, svid_02=7, elv_02=43, az_02=199, cno_02=43, svid_03=16, elv_03=79, az_03=68, cno_03=50, svid_04=10, elv_04=33, az_04=205, cno_04=40, signalID=B)>");
  (u "<NMEA(GBGSVH, numMsg=3, msgNum=2, numSV=9, svid_01=4, elv_01=25, az_01=124, cno_01=40, svid_02=3, elv_02=42, az_02=188, cno_02=42, svid_03=1, elv_03=34, az_03=140, cno_03=40, svid_04=9, elv_04=72, az_04=329, cno_04=49, signalID=B)>");
  (u "<NMEA(GBGSVH, numMsg=3, msgNum=3, numSV=9, svid_01=2, elv_01=32, az_01=224, cno_01=39, signalID=B)>");
  (u "<NMEA(GAGSVH, numMsg=2, msgNum=1, numSV=6, svid_01=19, elv_01=27, az_01=146, cno_01=38, svid_02=4, elv_02=79, az_02=220, cno_02=51, svid_03=9, elv_03=34, az_03=312, cno_03=39, svid_04=31, elv_04=44, az_04=232, cno_04=43, signalID=2)>");
  (u "<NMEA(GAGSVH, numMsg=2, msgNum=2, numSV=6, svid_01=21, elv_01=25, az_01=48, cno_01=44, svid_02=1, elv_02=76, az_02=38, cno_02=52, signalID=2)>");
  (u "<NMEA(GAGSVH, numMsg=2, msgNum=1, numSV=6, svid_01=19, elv_01=27, az_01=146, cno_01=34, svid_02=4, elv_02=79, az_02=220, cno_02=48, svid_03=9, elv_03=34, az_03=312, cno_03=40, svid_04=31, elv_04=44, az_04=232, cno_04=38, signalID=7)>");
  (u "<NMEA(GAGSVH, numMsg=2, msgNum=2, numSV=6, svid_01=21, elv_01=25, az_01=48, cno_01=36, svid_02=1, elv_02=76, az_02=38, cno_02=50, signalID=7)>");
  (u "<NMEA(GQGSVH, numMsg=1, msgNum=1, numSV=3, svid_01=3, elv_01=13, az_01=146, cno_01=35, svid_02=2, elv_02=71, az_02=90, cno_02=49, svid_03=7, elv_03=42, az_03=163, cno_03=35, signalID=1)>");
  (u "<NMEA(GQGSVH, numMsg=1, msgNum=1, numSV=3, svid_01=3, elv_01=13, az_01=146, cno_01=32, svid_02=2, elv_02=71, az_02=90, cno_02=49, svid_03=7, elv_03=42, az_03=163, cno_03=42, signalID=6)>");
  (u "<NMEA(GNRMCH, time=05:58:08, status=A, lat=40.0789696527, NS=N, lon=116.2366485345, EW=E, spd=0.004, cog=99.7, date=2021-12-31, mv=6.9, mvEW=W, posMode=D, navStatus=V)>");
  (u "<NMEA(GNVTGH, cogt=113.125, cogtUnit=T, cogm=120.041, cogmUnit=M, sogn=0.01474, sognUnit=N, sogk=0.0273, sogkUnit=K, posMode=D)>");
  (u "<NMEA(GNTHS2, headt=88.364, mi=T)>");
  (u "<NMEA(GNHPR, time=07:46:15, heading=320.961, pitch=-66.1712, roll=0.0, quality=4, svid=47, diffAge=0.0, stationID=0999)>");
  (u "<NMEA(GNHPR2, time=, heading=88.364, pitch=-0.0873, roll=0.0, quality=4, svid=32, diffAge=0.0, stationID=0401)>");
  (u "<NMEA(GNTRA2, time=09:04:15, heading=88.36, pitch=-0.09, roll=0.0, quality=4, svid=30, diffAge=0.0, stationID=0000)>");
  (u "<NMEA(GNROT2, rot=-0.0, valid=A)>");
  (u "<NMEA(GPHPD, wno=2319, tow=462170.0, heading=251.77, pitch=-48.16, cog=178.48, lat=40.0789783, lon=116.2365145, alt=63.03, velE=0.001, velN=0.0, velU=-0.003, veldeltaE=-0.001, veldeltaN=-0.002, veldeltaU=-0.001, baseline=0.0, sivmain=48, sivsecond=48)>")] = true.
Proof. vm_compute. reflexivity. Qed.
(* tests/pygpsdata-um981.log *)
Definition log_pygpsdata_um981 : bytes := concat [
  (u "$GNGGA,130058.00,5327.03598945,N,00214.41467156,W,1,08,7.5,36.3017,M,51.6775,M,,*5B" ++ crlf);
  (u "$GNGLL,5327.03598945,N,-0214.41467156,W,130058.00,A,A*7E" ++ crlf);
  (u "$GNRMC,130058.00,A,5327.03598945,N,00214.41467156,W,0.097,125.7,240226,0.2,W,A,C*4F" ++ crlf);
  (u "$GNGGA,130059.00,5327.03598242,N,00214.41468053,W,1,08,7.5,36.3232,M,51.6775,M,,*58" ++ crlf);
  (u "$GNGLL,5327.03598242,N,-0214.41468053,W,130059.00,A,A*78" ++ crlf);
  (crlf)].
(* test_stream.py:705 testNMEAUM981 *)
Example testNMEAUM981 : prints (mkrcfg 0 1 false 2 None []) log_pygpsdata_um981 [
  (u "<NMEA(GNGGA, time=13:00:58, lat=53.4505998242, NS=N, lon=-2.240244526, EW=W, quality=1, numSV=8, HDOP=7.5, alt=36.3017, altUnit=M, sep=51.6775, sepUnit=M, diffAge=, diffStation=)>");
  (u "<NMEA(GNGLL, lat=53.4505998242, NS=N, lon=-2.240244526, EW=W, time=13:00:58, status=A, posMode=A)>");
  (u "<NMEA(GNRMC, time=13:00:58, status=A, lat=53.4505998242, NS=N, lon=-2.240244526, EW=W, spd=0.097, cog=125.7, date=2026-02-24, mv=0.2, mvEW=W, posMode=A, navStatus=C)>");
  (u "<NMEA(GNGGA, time=13:00:59, lat=53.450599707, NS=N, lon=-2.2402446755, EW=W, quality=1, numSV=8, HDOP=7.5, alt=36.3232, altUnit=M, sep=51.6775, sepUnit=M, diffAge=, diffStation=)>");
  (u "<NMEA(GNGLL, lat=53.450599707, NS=N, lon=-2.2402446755, EW=W, time=13:00:59, status=A, posMode=A)>")] = true.
Proof. vm_compute. reflexivity. Qed.
(* tests/pygpsdata-BADHDR.log *)
Definition log_pygpsdata_BADHDR : bytes := concat [
  (u "$GPTXT,01,01,02,HW  UBX-G70xx   00070000 *77" ++ crlf);
  (u "$GPTXT,01,01,02,ROM CORE 1.00 (59842) Jun 27 2012 17:43:52*59" ++ crlf);
  (u "$GPTXT,01,01,02,PROTVER 14.00*1E" ++ crlf);
  (u "$GPTXT,01,01,02,ANTSUPERV=AC SD PDoS SR*20" ++ crlf);
  (u "$GPTXT,01,01,02,ANTSTATUS=OK*3B" ++ crlf);
  (u "$&bTXT,01,01,02,LLC FFFFFFFF-FFFFFFFD-FFFFFFFF-FFFFFFFF-FFFFFFF9*53" ++ crlf);
  (u "$GPRMC,102929.00,A,5327.04024,N,00214.41560,W,0.273,,070321,,,A*62" ++ crlf);
  (u "$GPVTG,,T,,M,0.273,N,0.506,K,A*26" ++ crlf);
  (u "$GPGGA,102929.00,5327.04024,N,00214.41560,W,1,08,1.16,36.3,M,48.5,M,,*7E" ++ crlf);
  (u "$GPGSA,A,3,17,15,10,24,20,12,19,23,,,,,2.36,1.16,2.05*09" ++ crlf);
  (u "$GPGSV,4,1,15,01,06,015,,10,30,290,27,12,42,207,26,13,19,141,23*7C" ++ crlf);
  (u "$GPGSV,4,2,15,14,07,049,21,15,45,171,27,17,32,065,22,19,33,095,25*77" ++ crlf);
  (u "$GPGSV,4,3,15,20,21,251,31,21,04,355,,23,28,252,33,24,88,273,36*70" ++ crlf);
  (u "$GPGSV,4,4,15,25,05,223,,28,14,049,26,32,10,313,16*4C" ++ crlf);
  (u "$GPGLL,5327.04024,N,00214.41560,W,102929.00,A,A*7A" ++ crlf);
  (u "$GPRMC,102930.00,A,5327.04033,N,00214.41550,W,0.099,,070321,,,A*69" ++ crlf)].
(* test_stream.py:723 testBADHDR_FAIL *)
Example testBADHDR_FAIL : fails (mkrcfg 0 1 true 2 None []) log_pygpsdata_BADHDR = Some NMEAParseError.
Proof. vm_compute. reflexivity. Qed.
(* test_stream.py:745 testBADHDR_IGNORE *)
Example testBADHDR_IGNORE : count (mkrcfg 0 1 true 0 None []) log_pygpsdata_BADHDR = 15%nat.
Proof. vm_compute. reflexivity. Qed.
(* tests/pygpsdata-nmea4lc.log *)
Definition log_pygpsdata_nmea4lc : bytes := concat [
  (u "$GNRMC,103607.00,A,5327.03942,N,10214.42462,W,0.046,,060321,,,A,V*0e" ++ crlf);
  (u "$GPGSV,3,1,11,01,06,014,08,12,43,207,28,14,06,049,,15,44,171,23,1*6b" ++ crlf);
  (u "$GNZDA,103607.00,06,03,2021,00,00*7f" ++ crlf);
  (u "$GNGBS,103607.00,15.1,24.2,31.0,,,,,,*6f" ++ crlf);
  (u "$GNVLW,,N,,N,0.000,N,0.000,N*44" ++ crlf)].
(* test_stream.py:753 testLCCHECKSUM *)
Example testLCCHECKSUM : prints (mkrcfg 0 1 false 2 None []) log_pygpsdata_nmea4lc [
  (u "<NMEA(GNRMC, time=10:36:07, status=A, lat=53.450657, NS=N, lon=-102.2404103333, EW=W, spd=0.046, cog=, date=2021-03-06, mv=, mvEW=, posMode=A, navStatus=V)>");
  (u "<NMEA(GPGSV, numMsg=3, msgNum=1, numSV=11, svid_01=1, elv_01=6, az_01=14, cno_01=8, svid_02=12, elv_02=43, az_02=207, cno_02=28, svid_03=14, elv_03=6, az_03=49, cno_03=, svid_04=15, elv_04=44, az_04=171, cno_04=23, signalID=1)>");
  (u "<NMEA(GNZDA, time=10:36:07, day=6, month=3, year=2021, ltzh=00, ltzn=00)>");
  (u "<NMEA(GNGBS, time=10:36:07, errLat=15.1, errLon=24.2, errAlt=31.0, svid=, prob=, bias=, stddev=, systemId=, signalId=)>");
  (u "<NMEA(GNVLW, twd=, twdUnit=N, wd=, wdUnit=N, tgd=0.0, tgdUnit=N, gd=0.0, gdUnit=N)>")] = true.
Proof. vm_compute. reflexivity. Qed.
(* tests/pygpsdata-userdefined.log *)
Definition log_pygpsdata_userdefined : bytes := concat [
  (u "$U1XYZ,102929.00,4427.04024,N,00114.41560,W*10" ++ [10%N]);
  (u "$U2ZYX,103829.00,somedata,somemoredata*2A" ++ [10%N])].
(* test_stream.py:770 testuserdefined *)
Example testuserdefined : prints (mkrcfg 0 1 true 2 None [((u "XYZ"), [((u "fixutc"), ASingle (u "TM")); ((u "lat"), ASingle (u "LA")); ((u "NS"), ASingle (u "LAD")); ((u "lon"), ASingle (u "LN")); ((u "EW"), ASingle (u "LND"))]); ((u "ZYX"), [((u "fixutc"), ASingle (u "TM")); ((u "data1"), ASingle (u "ST")); ((u "data2"), ASingle (u "ST"))])]) log_pygpsdata_userdefined [
  (u "<NMEA(U1XYZ, fixutc=10:29:29, lat=44.4506706667, NS=N, lon=-1.24026, EW=W)>");
  (u "<NMEA(U2ZYX, fixutc=10:38:29, data1=somedata, data2=somemoredata)>")] = true.
Proof. vm_compute. reflexivity. Qed.
(* tests/quectel_nmea_get.log *)
Definition log_quectel_nmea_get : bytes := concat [
  (u "$PQTMVER,1,MODULE,LG290P03AANR01A03S,2024/04/30,10:53:07*32" ++ [10%N]);
  (u "$PQTMVERNO,LG290P03AANR01A03S,2024/04/30,10:53:07*18" ++ [10%N]);
  (u "$PQTMEPE,2,1.000,1.000,1.000,1.414,1.732*52" ++ [10%N]);
  (u "$PQTMVEL,1,154512.100,1.251,2.452,1.245,2.752,3.021,180.512,0.124,0.254,0.250*67" ++ [10%N]);
  (u "$PQTMGEOFENCESTATUS,1,124521.000,1,2,2,2*27" ++ [10%N]);
  (u "$PQTMTXT,1,01,01,01,0x105f0cf810417c00*1B" ++ [10%N]);
  (u "$PQTMSVINSTATUS,1,1000,1,,01,20,100,-2484434.3645,4875976.9741,3266161.3412,1.2415*3C" ++ [10%N]);
  (u "$PQTMPVT,1,1000,20221225,163355.000,,0,00,,,,,,,,,,,99.99,99.99*79" ++ [10%N]);
  (u "$PQTMPVT,1,31075000,20221225,083737.000,,3,09,18,31.12738291,117.26372910,34.212,5.267,3.212,2.928,0.238,4.346,34.12,2.16,4.38*51" ++ [10%N]);
  (u "$PQTMDOP,1,570643000,1.01,0.88,0.49,0.73,0.50,0.36,0.35*7C" ++ [10%N]);
  (u "$PQTMDOP,1,,99.99,99.99,99.99,99.99,99.99,99.99,99.99*70" ++ [10%N]);
  (u "$PQTMPL,1,55045200,5.00,1,1,2879,2718,4766,5344,4323,10902,,,*1C" ++ [10%N]);
  (u "$PQTMODO,1,120635.000,1,112.3*6E" ++ [10%N]);
  (u "$PQTMLS,1,195494,1,2299,18,0,1,,137,7,18*2C" ++ [10%N]);
  (u "$PQTMQVER,OK,1,MODULE,LC29HCANR11A07S_DSA4,2025/06/03,15:28:01*52" ++ [10%N]);
  (u "$PQTMJAMMINGSTATUS,1,1*47" ++ [10%N]);
  (u "$PQTMSTD,1,131137.000,2368,393115,5.36,4.62,12.12,,0.13,0.13,0.14,0.23,,,*77" ++ [10%N]);
  (u "$PQTMSTD,1,131523.314,0,393341,,,,,,,,,,,*66" ++ [10%N]);
  (u "$PQTMGETUTC,OK,2024,10,22,2,52,30,295,,18*0C" ++ [10%N]);
  (u "$PQTMSN,OK,1,16,1234567890ABCDEF*31" ++ [10%N]);
  (u "$PQTMDRCAL,1,0,1*5C" ++ [10%N]);
  (u "$PQTMIMUTYPE,1,2*52" ++ [10%N]);
  (u "$PQTMVEHMSG,2,153954,100,1*27" ++ [10%N]);
  (u "$PQTMINS,240951,1,31.82222216,117.11578436,62.555605,-0.004233,0.005535,-0.004011,0.00,0.00,127.41*40" ++ [10%N]);
  (u "$PQTMIMU,45454,-1.356730,-0.210568,9.757930,0.564879,0.549612,-0.412209,0,0*77" ++ [10%N]);
  (u "$PQTMGPS,86139,94183,31.82218794,117.11579022,65.755080,0.027,94.68,2.533952,0.555471,0.886183,29,3*6B" ++ [10%N]);
  (u "$PQTMCFGEINSMSG,1,1,1,1,10*3F" ++ [10%N]);
  (u "$PQTMVEHMOT,1,0.288124,0.159930*0A" ++ [10%N]);
  (u "$PQTMSENMSG,2,1000,22.21,0.124521,1.241541,0.912451,0.145785,1.241541,8.954214*2D" ++ [10%N]);
  (u "$PQTMSENMSG,4,1000,22.21,0.124521,1.241541,0.912451,0.145785,1.241541,8.954214*2B" ++ [10%N]);
  (u "$PQTMCFGDRRTD,OK,600,10000*21" ++ [10%N]);
  (u "$PQTMCFGIMUTC,OK,1*29" ++ [10%N]);
  (u "$PQTMDRPVA,1,1000,163355.000,0,,,,,,,,,,,*7C" ++ [10%N]);
  (u "$PQTMDRPVA,1,75000,083737.000,2,31.12738291,117.26372910,34.212,5.267,3.212,2.928,0.238,4.346,0.392663,1.300793,0.030088*5E" ++ [10%N]);
  (u "$PQTMCFGDRHOT,OK,1*2A" ++ [10%N]);
  (u "$PQTMCFGDR,OK,1*79" ++ [10%N]);
  (u "$PQTMCFGIMUINT,OK,1,1,0,1,64*5F" ++ [10%N]);
  (u "$PQTMCFGLA,OK,1,0.212,0.514,0.113*62" ++ [10%N]);
  (u "$PQTMCFGLAM,OK,2*2C" ++ [10%N]);
  (u "$PQTMCFGRTKSRCTYPE,OK,1*78" ++ [10%N]);
  (u "$PQTMCFGSTATICHOLD,OK,1*78" ++ [10%N]);
  (u "$PQTMCFGVEHMOT,OK,1,1*7F" ++ [10%N]);
  (u "$PQTMDRCLR,OK*7B" ++ [10%N]);
  (u "$PQTMDRSAVE,OK*27" ++ [10%N]);
  (u "$PQTMVEHATT,1,1000,10.002154,20.235412,160.145185,1.254123,5.451214,5.102154*3D" ++ [10%N]);
  (u "$PQTMANTENNASTATUS,1,1,1*4E" ++ [10%N]);
  (u "$PQTMCFGANTDELTA,OK,0.0000,0.0000,0.0000*43" ++ [10%N]);
  (u "$PQTMCFGANTINF,OK,,0,*74" ++ [10%N]);
  (u "$PQTMCFGBLD,OK,1.000*3B" ++ [10%N]);
  (u "$PQTMCFGELETHD,OK,5.0*61" ++ [10%N]);
  (u "$PQTMCFGGEOSEP,OK,0,0.0000*57" ++ [10%N]);
  (u "$PQTMCFGSBAS,OK,003F*28" ++ [10%N]);
  (u "$PQTMCFGSIGGRP,OK,1*77" ++ [10%N]);
  (u "$PQTMCFGSIGNAL2,OK,07,03,0F,3F,07,01*5F" ++ [10%N]);
  (u "$PQTMCFGWN,OK,2346*44" ++ [10%N]);
  (u "$PQTMNAV,1,1,1,190423.000,20241224,212681000,2346,18,,,12,,31.45874521,117.41532415,45.1254,-6.1245,,,1.2451,2.1254,5.1242,,,290,1.0,,78,56,,,,,,,1.2101,1.2148,0.4578,1.1547,,,45.124,,*43" ++ [10%N]);
  (u "$PQTMEOE,1,190423.000,20241224,2346,212681000*65" ++ [10%N]);
  (u "$PQTMTAR,1,165034.000,4,,0.860,1.124780,1.254125,50.968541,0.254125,0.125485,0.012547,21*52" ++ [10%N]);
  (u "$PQTMANTENNASTATUS,1,1,1*4E" ++ [10%N]);
  (u "$PQTMCFGANTDELTA,OK,0.0000,0.0000,0.0000*43" ++ [10%N]);
  (u "$PQTMCFGANTINF,OK,,0,*74" ++ [10%N]);
  (u "$PQTMCFGBLD,OK,1.000*3B" ++ [10%N]);
  (u "$PQTMCFGELETHD,OK,5.0*61" ++ [10%N]);
  (u "$PQTMCFGGEOSEP,OK,0,0.0000*57" ++ [10%N]);
  (u "$PQTMCFGSBAS,OK,003F*28" ++ [10%N]);
  (u "$PQTMCFGSIGGRP,OK,1*77" ++ [10%N]);
  (u "$PQTMCFGSIGNAL2,OK,07,03,0F,3F,07,01*5F" ++ [10%N]);
  (u "$PQTMCFGWN,OK,2346*44" ++ [10%N]);
  (u "$PQTMNAV,1,1,1,190423.000,20241224,212681000,2346,18,,,12,,31.45874521,117.41532415,45.1254,-6.1245,,,1.2451,2.1254,5.1242,,,290,1.0,,78,56,,,,,,,1.2101,1.2148,0.4578,1.1547,,,45.124,,*43" ++ [10%N]);
  (u "$PQTMEOE,1,190423.000,20241224,2346,212681000*65" ++ [10%N]);
  (u "$PQTMTAR,1,165034.000,4,,0.860,1.124780,1.254125,50.968541,0.254125,0.125485,0.012547,21*52" ++ [10%N]);
  (u "$PQTMCFGMSGRATE,OK,GGA,1*59" ++ [10%N]);
  (u "$PQTMCFGMSGRATE,OK,PQTMEPE,1,2*4E" ++ [10%N]);
  (u "$PQTMCFGMSGRATE,OK,RTCM3-1005,1*0A" ++ [10%N]);
  (u "$PQTMCFGMSGRATE,OK,RTCM3-107X,1,0*7C" ++ [10%N]);
  (u "$PQTMCFGMSGRATE,OK,RTCM3-1019,1*07" ++ [10%N]);
  (u "$PQTMCFGMSGRATE,OK,1,1,GGA,1*59" ++ [10%N]);
  (u "$PQTMCFGMSGRATE,OK,1,1,0AB2,1,1*04" ++ [10%N]);
  (u "$PSTMPPSDATA,1,1,1,0,1,0,0.500000,0,350,305,818,841,0,0,0,0,22665,40,3,17,18,0,0,0,1.432e-09,65473968.17,26000003.91,4*11" ++ [10%N]);
  (u "$PSTMCPU,51.47,0,261*5C" ++ [10%N]);
  (u "$PSTMTG,2206,283972.00000004,0,4168902594,9,-47355.8601,a02a,88205,0,0,2206,283972.00000004,10,126,9.026,-2147483507,18,708337484,4075040,864102909*04" ++ [10%N]);
  (u "$PSTMTS,2,146,39046353.062,-45299.46,-203324611.195,21511,33,245073,730,1622,0,0,26*1F" ++ [10%N]);
  (u "$PSTMSBAS,1,2,129,45,141,19*1D" ++ [10%N]);
  (u "$PSTMTEMP,31,134,1*3F" ++ [10%N]);
  (u "$PSTMDRCONFID,100.00,100.00,180.0419,0.1004,0.00,0.0857,0.000993,0.050002,100.3594,100.0,100.0,90.0,0.0*0A" ++ [10%N]);
  (u "$PSTMDRBSD,073922.000,1837870321,0.058,0.058,0.019,0.078,0.077,0.058*42" ++ [10%N]);
  (u "$PSTMDRGPS,31.853778470,117.253363350,0.69824,-3.58118,1.254,0.793,0.969,30.811,0.520,-0.07642,28.7*76" ++ [10%N]);
  (u "$PSTMDRPVA,064420.000,24295094,31.8222713,117.1157794,33.1,0.00,0.00,0.21,1.64,-2.10,26.61*48" ++ [10%N]);
  (u "$PSTMDRPVASD,064420.000,24295094,17.9,22.0,13.5,2.83,1.77,1.80,0.00,0.00,180.01,11.5,7.2,8.9,1.32,0.61,0.79*78" ++ [10%N]);
  (u "$PSTMDRSINT,100,100,0,0,1.000,1.000,0.000,-0.42,0.79,-0.07,0.26,0.35,10.05,0.00*05" ++ [10%N]);
  (u "$PSTMDRSVF,064420.000,24295094,0.00,0.00,0.00,0.00,0.00,0.00*50" ++ [10%N]);
  (u "$PSTMDRSTYPE,3*58" ++ [10%N]);
  (u "$PSTMDRCAL,1,1,1,1,ff,1,1,F*04" ++ [10%N]);
  (u "$PSTMDR1,-1.63,-1.67,-91.75,1.009,-0.754,-0.197,0.118,-0.029,0.254,0.176,0.081,0.000,0.000*39" ++ [10%N]);
  (u "$PSTMDR2,CC,AA,2,0,1,0.48,2.23,1,0.000,0*2D" ++ [10%N]);
  (u "$PSTMDREPE,141.42,-1.00*72" ++ [10%N]);
  (u "$PSTMDRDEBUG,0.6,-2.0,-8.7,0.0,10.5,0.0*62" ++ [10%N]);
  (u "$PSTMDRMMFBKF,85064305,846411,-9,0,0,0.00,0.00,0.00,0.00,0.00,0.00,0,0.00,0.00,0.00*14" ++ [10%N]);
  (u "$PSTMDRSENMSG,3,1924310999,0,0*3B" ++ [10%N]);
  (u "$PSTMDRSENMSG,24,3248649605,-486,1*28" ++ [10%N]);
  (u "$PSTMDRSENMSG,30,3248512115,299,-35,16514*02" ++ [10%N]);
  (u "$PSTMDRSENMSG,31,5855224,62,-119,-49*2A" ++ [10%N]);
  (u "$PQTMSN,1,16,OK,1234567890ABCDEF*31" ++ [10%N])].
(* test_quectel.py:53 testNMEAQUECTELGET *)
Example testNMEAQUECTELGET : prints (mkrcfg 0 3 false 2 None []) log_quectel_nmea_get [
  (u "<NMEA(PQTMVER, msgver=1, vername=MODULE, verstr=LG290P03AANR01A03S, builddate=2024/04/30, buildtime=10:53:07)>");
  (u "<NMEA(PQTMVERNO, verstr=LG290P03AANR01A03S, builddate=2024/04/30, buildtime=10:53:07)>");
  (u "<NMEA(PQTMEPE, msgver=2, epenorth=1.0, epeeast=1.0, epedown=1.0, epe2d=1.414, epe3d=1.732)>");
  (u "<NMEA(PQTMVEL, msgver=1, time=15:45:12.100000, veln=1.251, vele=2.452, veld=1.245, gndspd=2.752, spd=3.021, hdg=180.512, gndspdacc=0.124, spdacc=0.254, hdgacc=0.25)>");
  (u "<NMEA(PQTMGEOFENCESTATUS, msgver=1, time=12:45:21, staten_01=1, staten_02=2, staten_03=2, staten_04=2)>");
  (u "<NMEA(PQTMTXT, msgver=1, totalsennum=1, sennum=1, textid=1, text=0x105f0cf810417c00)>");
  (u "<NMEA(PQTMSVINSTATUS, msgver=1, tow=1000, valid=1, reserved0=, reserved1=1, obs=20, cfgdur=100, meanx=-2484434.3645, meany=4875976.9741, meanz=3266161.3412, meanacc=1.2415)>");
  (u "<NMEA(PQTMPVT, msgver=1, tow=1000, date=20221225, time=16:33:55, reserved=, fixtype=0, numsv=0, leaps=, lat=, lon=, alt=, sep=, veln=, vele=, veld=, spd=, hdg=, hdop=99.99, pdop=99.99)>");
  (u "<NMEA(PQTMPVT, msgver=1, tow=31075000, date=20221225, time=08:37:37, reserved=, fixtype=3, numsv=9, leaps=18, lat=31.12738291, lon=117.2637291, alt=34.212, sep=5.267, veln=3.212, vele=2.928, veld=0.238, spd=4.346, hdg=34.12, hdop=2.16, pdop=4.38)>");
  (u "<NMEA(PQTMDOP, msgver=1, tow=570643000, gdop=1.01, pdop=0.88, tdop=0.49, vdop=0.73, hdop=0.5, ndop=0.36, edop=0.35)>");
  (u "<NMEA(PQTMDOP, msgver=1, tow=, gdop=99.99, pdop=99.99, tdop=99.99, vdop=99.99, hdop=99.99, ndop=99.99, edop=99.99)>");
  (u "<NMEA(PQTMPL, msgver=1, tow=55045200, pul=5.0, reserved1=1, reserved2=1, plposn=2879.0, plpose=2718.0, plposd=4766.0, plveln=5344.0, plvele=4323.0, plveld=10902.0, reserved3=, reserved4=, pltime=)>");
  (u "<NMEA(PQTMODO, msgver=1, time=12:06:35, state=1, dist=112.3)>");
  (u "<NMEA(PQTMLS, msgver=1, tow=195494, lsRef=1, wno=2299, leapsecond=18, flag=0, lsfRef=1, reserved=, wnlsf=137, dn=7, lsf=18)>");
  (u "<NMEA(PQTMQVER, status=OK, msgver=1, description=MODULE, version=LC29HCANR11A07S_DSA4, buildDate=2025/06/03, buildTime=15:28:01)>");
  (u "<NMEA(PQTMJAMMINGSTATUS, msgver=1, jammingstatus=1)>");
  (u "<NMEA(PQTMSTD, reserved=1, utc=13:11:37, wno=2368, tow=393115, stdLat=5.36, stdLon=4.62, stdAlt=12.12, stdSep=, stdVelN=0.13, stdVelE=0.13, stdVelD=0.14, stdSpd=0.23, stdRoll=, stdPitch=, stdHeading=)>");
  (u "<NMEA(PQTMSTD, reserved=1, utc=13:15:23.314000, wno=0, tow=393341, stdLat=, stdLon=, stdAlt=, stdSep=, stdVelN=, stdVelE=, stdVelD=, stdSpd=, stdRoll=, stdPitch=, stdHeading=)>");
  (u "<NMEA(PQTMGETUTC, status=OK, year=2024, month=10, day=22, hour=2, minute=52, second=30, millisecond=295, reserved=, leapsecond=18)>");
  (u "<NMEA(PQTMSN, status=OK, snid=1, length=16, serialno=1234567890ABCDEF)>");
  (u "<NMEA(PQTMDRCAL, msgver=1, calstate=0, navtype=1)>");
  (u "<NMEA(PQTMIMUTYPE, msgver=1, imustatus=2)>");
  (u "<NMEA(PQTMVEHMSG, msgver=2, timestamp=153954, vehicle_info_01=100.0, vehicle_info_02=1.0)>");
  (u "<NMEA(PQTMINS, timestamp=240951, soltype=1, lat=31.82222216, lon=117.11578436, height=62.555605, velN=-0.004233, velE=0.005535, velD=-0.004011, roll=0.0, pitch=0.0, yaw=127.41)>");
  (u "<NMEA(PQTMIMU, timestamp=45454, accX=-1.35673, accY=-0.210568, accZ=9.75793, angrateX=0.564879, angrateY=0.549612, angrateZ=-0.412209, wheeltick=0, last_tick_timestamp=0)>");
  (u "<NMEA(PQTMGPS, timestamp=86139, tow=94183, lat=31.82218794, lon=117.11579022, alt=65.75508, speed=0.027, heading=94.68, accuracy=2.533952, HDOP=0.555471, PDOP=0.886183, numSv=29, fixMode=3)>");
  (u "<NMEA(PQTMCFGEINSMSG, type=1, ins_enabled=1, imu_enabled=1, gps_enabled=1, rate=10)>");
  (u "<NMEA(PQTMVEHMOT, msgver=1, vehicle_info_01=0.288124, vehicle_info_02=0.15993)>");
  (u "<NMEA(PQTMSENMSG, msgver=2, timestamp=1000, sensor_info_01=22.21, sensor_info_02=0.124521, sensor_info_03=1.241541, sensor_info_04=0.912451, sensor_info_05=0.145785, sensor_info_06=1.241541, sensor_info_07=8.954214)>");
  (u "<NMEA(PQTMSENMSG, msgver=4, timestamp=1000, sensor_info_01=22.21, sensor_info_02=0.124521, sensor_info_03=1.241541, sensor_info_04=0.912451, sensor_info_05=0.145785, sensor_info_06=1.241541, sensor_info_07=8.954214)>");
  (u "<NMEA(PQTMCFGDRRTD, status=OK, time=600, distance=10000)>");
  (u "<NMEA(PQTMCFGIMUTC, status=OK, imustatus=1)>");
  (u "<NMEA(PQTMDRPVA, msgver=1, timestamp=1000, time=163355.0, solType=0, lat=, lon=, alt=, sep=, velN=, velE=, velD=, speed=, roll=, pitch=, heading=)>");
  (u "<NMEA(PQTMDRPVA, msgver=1, timestamp=75000, time=83737.0, solType=2, lat=31.12738291, lon=117.2637291, alt=34.212, sep=5.267, velN=3.212, velE=2.928, velD=0.238, speed=4.346, roll=0.392663, pitch=1.300793, heading=0.030088)>");
  (u "<NMEA(PQTMCFGDRHOT, status=OK, mode=1)>");
  (u "<NMEA(PQTMCFGDR, status=OK, drstate=1)>");
  (u "<NMEA(PQTMCFGIMUINT, status=OK, index=1, mode=1, reserved=0, actLevel=1)>");
  (u "<NMEA(PQTMCFGLA, status=OK, type=1, laX=0.212, laY=0.514, laZ=0.113)>");
  (u "<NMEA(PQTMCFGLAM, status=OK, mode=2)>");
  (u "<NMEA(PQTMCFGRTKSRCTYPE, status=OK, srctype=1)>");
  (u "<NMEA(PQTMCFGSTATICHOLD, status=OK, shstate=1)>");
  (u "<NMEA(PQTMCFGVEHMOT, status=OK, mode=1, vehtype=1)>");
  (u "<NMEA(PQTMDRCLR, status=OK)>");
  (u "<NMEA(PQTMDRSAVE, status=OK)>");
  (u "<NMEA(PQTMVEHATT, msgver=1, timestamp=1000, roll=10.002154, pitch=20.235412, heading=160.145185, acc_Roll=1.254123, acc_Pitch=5.451214, acc_Heading=5.102154)>");
  (u "<NMEA(PQTMANTENNASTATUS, msgver=1, antennastatus=1, antennapowerind=1)>");
  (u "<NMEA(PQTMCFGANTDELTA, status=OK, east=0.0, north=0.0, height=0.0)>");
  (u "<NMEA(PQTMCFGANTINF, status=OK, antennadesc=, antennasetupid=0, antennasn=)>");
  (u "<NMEA(PQTMCFGBLD, status=OK, distance=1.0)>");
  (u "<NMEA(PQTMCFGELETHD, status=OK, elevation=5.0)>");
  (u "<NMEA(PQTMCFGGEOSEP, status=OK, mode=0, geosep=0.0)>");
  (u "<NMEA(PQTMCFGSBAS, status=OK, value=003F)>");
  (u "<NMEA(PQTMCFGSIGGRP, status=OK, siggrpnum=1)>");
  (u "<NMEA(PQTMCFGSIGNAL2, status=OK, gpssig=07, glonasssig=03, galileosig=0F, beidousig=3F, qzsssig=07, navicsig=01)>");
  (u "<NMEA(PQTMCFGWN, status=OK, weekno=2346)>");
  (u "<NMEA(PQTMNAV, msgver=1, timestatus=1, timeref=1, utc=190423.0, date=20241224, tow=212681000, wn=2346, leapsec=18, reserved1=, reserved2=, soltype=12, reserved3=, lat=31.45874521, lon=117.41532415, alt=45.1254, sep=-6.1245, reserved4=, reserved5=, latstd=1.2451, lonstd=2.1254, altstd=5.1242, reserved6=, reserved7=, diffid=290.0, diffAge=1.0, reserved8=, siv=78, sip=56, reserved9=, reserved10=, reserved11=, reserved12=, reserved13=, reserved14=, hvel=1.2101, vvel=1.2148, hvelstd=0.4578, vvelstd=1.1547, reserved15=, reserved16=, cog=45.124, reserved17=, reserved18=)>");
  (u "<NMEA(PQTMEOE, msgver=1, utc=190423.0, Date=20241224, WN=2346, TOW=212681000)>");
  (u "<NMEA(PQTMTAR, msgver=1, time=165034.0, quality=4.0, res=, length=0.86, pitch=1.12478, roll=1.254125, heading=50.968541, accpitch=0.254125, accroll=0.125485, accheading=0.012547, usedsv=21)>");
  (u "<NMEA(PQTMANTENNASTATUS, msgver=1, antennastatus=1, antennapowerind=1)>");
  (u "<NMEA(PQTMCFGANTDELTA, status=OK, east=0.0, north=0.0, height=0.0)>");
  (u "<NMEA(PQTMCFGANTINF, status=OK, antennadesc=, antennasetupid=0, antennasn=)>");
  (u "<NMEA(PQTMCFGBLD, status=OK, distance=1.0)>");
  (u "<NMEA(PQTMCFGELETHD, status=OK, elevation=5.0)>");
  (u "<NMEA(PQTMCFGGEOSEP, status=OK, mode=0, geosep=0.0)>");
  (u "<NMEA(PQTMCFGSBAS, status=OK, value=003F)>");
  (u "<NMEA(PQTMCFGSIGGRP, status=OK, siggrpnum=1)>");
  (u "<NMEA(PQTMCFGSIGNAL2, status=OK, gpssig=07, glonasssig=03, galileosig=0F, beidousig=3F, qzsssig=07, navicsig=01)>");
  (u "<NMEA(PQTMCFGWN, status=OK, weekno=2346)>");
  (u "<NMEA(PQTMNAV, msgver=1, timestatus=1, timeref=1, utc=190423.0, date=20241224, tow=212681000, wn=2346, leapsec=18, reserved1=, reserved2=, soltype=12, reserved3=, lat=31.45874521, lon=117.41532415, alt=45.1254, sep=-6.1245, reserved4=, reserved5=, latstd=1.2451, lonstd=2.1254, altstd=5.1242, reserved6=, reserved7=, diffid=290.0, diffAge=1.0, reserved8=, siv=78, sip=56, reserved9=, reserved10=, reserved11=, reserved12=, reserved13=, reserved14=, hvel=1.2101, vvel=1.2148, hvelstd=0.4578, vvelstd=1.1547, reserved15=, reserved16=, cog=45.124, reserved17=, reserved18=)>");
  (u "<NMEA(PQTMEOE, msgver=1, utc=190423.0, Date=20241224, WN=2346, TOW=212681000)>");
  (u "<NMEA(PQTMTAR, msgver=1, time=165034.0, quality=4.0, res=, length=0.86, pitch=1.12478, roll=1.254125, heading=50.968541, accpitch=0.254125, accroll=0.125485, accheading=0.012547, usedsv=21)>");
  (u "<NMEA(PQTMCFGMSGRATE, status=OK, msgname=GGA, rate=1)>");
  (u "<NMEA(PQTMCFGMSGRATE, status=OK, msgname=PQTMEPE, rate=1, msgver=2)>");
  (u "<NMEA(PQTMCFGMSGRATE, status=OK, msgname=RTCM3-1005, rate=1)>");
  (u "<NMEA(PQTMCFGMSGRATE, status=OK, msgname=RTCM3-107X, rate=1, msgver=0)>");
  (u "<NMEA(PQTMCFGMSGRATE, status=OK, msgname=RTCM3-1019, rate=1)>");
  (u "<NMEA(PQTMCFGMSGRATE, status=OK, porttype=1, portid=1, msgname=GGA, rate=1)>");
  (u "<NMEA(PQTMCFGMSGRATE, status=OK, porttype=1, portid=1, msgname=0AB2, rate=1, msgver=1)>");
  (u "<NMEA(PSTMPPSDATA, onoff=1, ppsvalid=1, syncvalid=1, outmode=0, reftime=1, refconst=0, pulseduration=0.5, pulsedelay=0.0, gpsdelay=350.0, reserved1=305, bdsdelay=818.0, galileodelay=841.0, invertedpolarity=0, fixcond=0, satth=0.0, elevmask=0.0, constmask=22665, refsec=40.0, fixstatus=3.0, usedsats=17.0, gpsutcdeltas=18.0, gpsutcdeltans=0.0, reserved2=0, galileoutcdeltans=0.0, quantizationerror=1.432e-09, ppsclockfreq=65473968.17, tcxoclockfreq=26000003.91, bdsutcdeltatimes=4.0)>");
  (u "<NMEA(PSTMCPU, cpuusage=51.47, pllonoff=0, cpuspeed=261)>");
  (u "<NMEA(PSTMTG, wno=2206, tow=283972.00000004, reserved1=0, cputime=4168902594.0, timevalid=9, nco=-47355.8601, configstatus=a02a, constmask=88205, timebestsattype=0, timemastersattype=0, timemasterwn=2206, timemastertow=283972.00000004, timemastervalidity=10.0, tgauxflags=126, clockbias=9.026, mfreqconfigmask=-2147483507.0, leapsec=18, ppsedge=708337484.0, mtbms=4075040.0, mtbtimestamp=864102909.0)>");
  (u "<NMEA(PSTMTS, dspdat=2, satid=146, psr=39046353.062, freq=-45299.46, cp=-203324611.195, dspflags=21511, satcn0=33.0, ttim=245073.0, codenoise=730.0, phasenoise=1622.0, cycleslipcnt=0.0, reserved1=0, elev=26.0)>");
  (u "<NMEA(PSTMSBAS, status=1, sattrk=2, satid=129, elev=45.0, azim=141.0, satcn0=19.0)>");
  (u "<NMEA(PSTMTEMP, temperature=31.0, rawtemperature=134.0, calibration=1)>");
  (u "<NMEA(PSTMDRCONFID, latstddev=100.0, lonstddev=100.0, headingstddev=180.0419, reserved1=0.1004, gyrobiasstddev=0.0, odoscalestddev=0.0857, reserved2=0.000993, accoffsetstddev=0.050002, heightstddev=100.3594, majorsemiaxis=100.0, minorsemiaxis=100.0, ellipseangle=90.0, speedstddev=0.0)>");
  (u "<NMEA(PSTMDRBSD, timestamp=73922.0, cputime=1837870321, gyroxbiassd=0.058, gyroybiassd=0.058, gyrozbiassd=0.019, accxbiassd=0.078, accybiassd=0.077, acczbiassd=0.058)>");
  (u "<NMEA(PSTMDRGPS, lat=31.85377847, lon=117.25336335, vn=0.69824, ve=-3.58118, pdop=1.254, hdop=0.793, vdop=0.969, rmsposresidual=30.811, rmsvelresidual=0.52, vup=-0.07642, height=28.7)>");
  (u "<NMEA(PSTMDRPVA, timestamp=64420.0, cputime=24295094, latitude=31.8222713, longitude=117.1157794, height=33.1, vnorth=0.0, veast=0.0, vup=0.21, pitch=1.64, roll=-2.1, heading=26.61)>");
  (u "<NMEA(PSTMDRPVASD, timestamp=64420.0, cputime=24295094, latitudesd=17.9, longitudesd=22.0, heightsd=13.5, vnorthsd=2.83, veastsd=1.77, vupsd=1.8, pitchsd=0.0, rollsd=0.0, headingsd=180.01, pnesd=11.5, pnusd=7.2, peusd=8.9, vnesd=1.32, vnusd=0.61, veusd=0.79)>");
  (u "<NMEA(PSTMDRSINT, gyrosamplecount=100, accsamplecount=100, pressamplecount=0, odometercount=0, gyrointtime=1.0, accinttime=1.0, pressureinttime=0.0, gyroxavg=-0.42, gyroyavg=0.79, gyrozavg=-0.07, accxavg=0.26, accyavg=0.35, acczavg=10.05, presavg=0.0)>");
  (u "<NMEA(PSTMDRSVF, timestamp=64420.0, cputime=24295094, xacceleration=0.0, yacceleration=0.0, zacceleration=0.0, xangularrate=0.0, yangularrate=0.0, zangularrate=0.0)>");
  (u "<NMEA(PSTMDRSTYPE, sensortype=3)>");
  (u "<NMEA(PSTMDRCAL, driscalib=1, odoiscalib=1, gyrosensitivityiscalib=1, gyrobiasiscalib=1, imuflag=ff, gyrointegrityflag=1, accintegrity=1, calstate=F)>");
  (u "<NMEA(PSTMDR1, mpitch=-1.63, mroll=-1.67, myaw=-91.75, gsz=1.009, gbx=-0.754, gby=-0.197, gbz=0.118, abx=-0.029, aby=0.254, abz=0.176, odometerscale=0.081, res1baro=0.0, res2baro=0.0)>");
  (u "<NMEA(PSTMDR2, imucal=CC, ascal=AA, motionstatus=2, errcode=0, sysready=1, crosstrackerror=0.48, alongtrackerror=2.23, sysaligned=1, vrows=0.0, vrost=0)>");
  (u "<NMEA(PSTMDREPE, ehpe=141.42, reserved1=-1.00)>");
  (u "<NMEA(PSTMDRDEBUG, laterror=0.6, lonerror=-2.0, headingerror=-8.7, speederror=0.0, heighterror=10.5, vverror=0.0)>");
  (u "<NMEA(PSTMDRMMFBKF, cputime=85064305.0, elapsedtime=846411.0, utcdeltaseconds=-9.0, utcdeltams=0.0, posaccepted=0.0, reserved1=0.00, reserved2=0.00, measurementnoiselat=0.0, posmeasurementnoiselon=0.0, reserved3=0.00, reserved4=0.00, headingaccepted=0.0, reserved5=0.00, headingmeasurementnoise=0.0, reserved6=0.00)>");
  (u "<NMEA(PSTMDRSENMSG, msgtype=3, timestamp=1924310999, odometer=0.0, reverse=0)>");
  (u "<NMEA(PSTMDRSENMSG, msgtype=24, timestamp=3248649605, temperature=-486.0, validity=1)>");
  (u "<NMEA(PSTMDRSENMSG, msgtype=30, timestamp=3248512115, xacc=299.0, yacc=-35.0, zacc=16514.0)>");
  (u "<NMEA(PSTMDRSENMSG, msgtype=31, timestamp=5855224, xgyro=62.0, ygyro=-119.0, zgyro=-49.0)>");
  (u "<NMEA(PQTMSN, snid=1, length=16, status=OK, serialno=1234567890ABCDEF)>")] = true.
Proof. vm_compute. reflexivity. Qed.
(* tests/quectel_nmea_poll.log *)
Definition log_quectel_nmea_poll : bytes := concat [
  (u "$PQTMCFGUART,R*36" ++ [10%N]);
  (u "$PQTMCFGUART,R,1*2B" ++ [10%N]);
  (u "$PQTMCFGPPS,R,1*6A" ++ [10%N]);
  (u "$PQTMCFGPROT,R,1,1*3D" ++ [10%N]);
  (u "$PQTMCFGNMEADP,R*37" ++ [10%N]);
  (u "$PQTMCFGMSGRATE,R,GGA*12" ++ [10%N]);
  (u "$PQTMCFGMSGRATE,R,PQTMEPE,2*05" ++ [10%N]);
  (u "$PQTMCFGMSGRATE,R,RTCM3-1005*41" ++ [10%N]);
  (u "$PQTMCFGMSGRATE,R,RTCM3-107X*2B" ++ [10%N]);
  (u "$PQTMCFGMSGRATE,R,RTCM3-1019*4C" ++ [10%N]);
  (u "$PQTMCFGGEOFENCE,R,0*3E" ++ [10%N]);
  (u "$PQTMCFGSVIN,R*26" ++ [10%N]);
  (u "$PQTMCFGRCVRMODE,R*32" ++ [10%N]);
  (u "$PQTMCFGFIXRATE,R*71" ++ [10%N]);
  (u "$PQTMCFGRTK,R*69" ++ [10%N]);
  (u "$PQTMCFGCNST,R*2E" ++ [10%N]);
  (u "$PQTMCFGODO,R*60" ++ [10%N]);
  (u "$PQTMCFGSIGNAL,R*3A" ++ [10%N]);
  (u "$PQTMCFGSAT,R,1,1*62" ++ [10%N]);
  (u "$PQTMCFGSAT,R,4,1*67" ++ [10%N]);
  (u "$PQTMCFGRSID,R*28" ++ [10%N]);
  (u "$PQTMGETUTC*0C" ++ [10%N]);
  (u "$PQTMSN*05" ++ [10%N]);
  (u "$PQTMCFGAIC,R*6F" ++ [10%N]);
  (u "$PQTMCFGNAVMODE,R*7E" ++ [10%N]);
  (u "$PQTMCFGNMEATID,R*7A" ++ [10%N]);
  (u "$PQTMQVER,1*15" ++ [10%N]);
  (u "$PQTMCFGDR,R*32" ++ [10%N]);
  (u "$PQTMCFGIMUINT,R,1*3B" ++ [10%N]);
  (u "$PQTMCFGLA,R,1*34" ++ [10%N]);
  (u "$PQTMCFGLAM,R*64" ++ [10%N]);
  (u "$PQTMCFGRTKSRCTYPE,R*33" ++ [10%N]);
  (u "$PQTMCFGSTATICHOLD,R*33" ++ [10%N]);
  (u "$PQTMCFGVEHMOT,R*29" ++ [10%N]);
  (u "$PQTMCFGMSGRATE,R,GGA*12" ++ [10%N]);
  (u "$PQTMCFGMSGRATE,R,PQTMEPE,2*05" ++ [10%N]);
  (u "$PQTMCFGMSGRATE,R,RTCM3-1005*41" ++ [10%N]);
  (u "$PQTMCFGMSGRATE,R,RTCM3-107X*2B" ++ [10%N]);
  (u "$PQTMCFGMSGRATE,R,RTCM3-1019*4C" ++ [10%N]);
  (u "$PQTMCFGMSGRATE,R,1,1,GGA*12" ++ [10%N]);
  (u "$PQTMCFGMSGRATE,R,1,1,0AB2,1*4F" ++ [10%N])].
(* test_quectel.py:172 testNMEAQUECTELPOLL *)
Example testNMEAQUECTELPOLL : prints (mkrcfg 2 3 false 2 None []) log_quectel_nmea_poll [
  (u "<NMEA(PQTMCFGUART, status=R)>");
  (u "<NMEA(PQTMCFGUART, status=R, portid=1)>");
  (u "<NMEA(PQTMCFGPPS, status=R, ppsindex=1)>");
  (u "<NMEA(PQTMCFGPROT, status=R, porttype=1, portid=1)>");
  (u "<NMEA(PQTMCFGNMEADP, status=R)>");
  (u "<NMEA(PQTMCFGMSGRATE, status=R, msgname=GGA)>");
  (u "<NMEA(PQTMCFGMSGRATE, status=R, msgname=PQTMEPE, msgver=2)>");
  (u "<NMEA(PQTMCFGMSGRATE, status=R, msgname=RTCM3-1005)>");
  (u "<NMEA(PQTMCFGMSGRATE, status=R, msgname=RTCM3-107X)>");
  (u "<NMEA(PQTMCFGMSGRATE, status=R, msgname=RTCM3-1019)>");
  (u "<NMEA(PQTMCFGGEOFENCE, status=R, geofenceindex=0)>");
  (u "<NMEA(PQTMCFGSVIN, status=R)>");
  (u "<NMEA(PQTMCFGRCVRMODE, status=R)>");
  (u "<NMEA(PQTMCFGFIXRATE, status=R)>");
  (u "<NMEA(PQTMCFGRTK, status=R)>");
  (u "<NMEA(PQTMCFGCNST, status=R)>");
  (u "<NMEA(PQTMCFGODO, status=R)>");
  (u "<NMEA(PQTMCFGSIGNAL, status=R)>");
  (u "<NMEA(PQTMCFGSAT, status=R, systemid=1, signalid=1)>");
  (u "<NMEA(PQTMCFGSAT, status=R, systemid=4, signalid=1)>");
  (u "<NMEA(PQTMCFGRSID, status=R)>");
  (u "<NMEA(PQTMGETUTC)>");
  (u "<NMEA(PQTMSN)>");
  (u "<NMEA(PQTMCFGAIC, status=R)>");
  (u "<NMEA(PQTMCFGNAVMODE, status=R)>");
  (u "<NMEA(PQTMCFGNMEATID, status=R)>");
  (u "<NMEA(PQTMQVER, msgver=1)>");
  (u "<NMEA(PQTMCFGDR, status=R)>");
  (u "<NMEA(PQTMCFGIMUINT, status=R)>");
  (u "<NMEA(PQTMCFGLA, status=R)>");
  (u "<NMEA(PQTMCFGLAM, status=R)>");
  (u "<NMEA(PQTMCFGRTKSRCTYPE, status=R)>");
  (u "<NMEA(PQTMCFGSTATICHOLD, status=R)>");
  (u "<NMEA(PQTMCFGVEHMOT, status=R)>");
  (u "<NMEA(PQTMCFGMSGRATE, status=R, msgname=GGA)>");
  (u "<NMEA(PQTMCFGMSGRATE, status=R, msgname=PQTMEPE, msgver=2)>");
  (u "<NMEA(PQTMCFGMSGRATE, status=R, msgname=RTCM3-1005)>");
  (u "<NMEA(PQTMCFGMSGRATE, status=R, msgname=RTCM3-107X)>");
  (u "<NMEA(PQTMCFGMSGRATE, status=R, msgname=RTCM3-1019)>");
  (u "<NMEA(PQTMCFGMSGRATE, status=R, porttype=1, portid=1, msgname=GGA)>");
  (u "<NMEA(PQTMCFGMSGRATE, status=R, porttype=1, portid=1, msgname=0AB2, msgver=1)>")] = true.
Proof. vm_compute. reflexivity. Qed.
(* tests/quectel_nmea_command.log *)
Definition log_quectel_nmea_command : bytes := concat [
  (u "$PQTMCOLD*1C" ++ [10%N]);
  (u "$PQTMWARM*11" ++ [10%N]);
  (u "$PQTMHOT*4B" ++ [10%N]);
  (u "$PQTMSRR*4B" ++ [10%N]);
  (u "$PQTMSAVEPAR*5A" ++ [10%N]);
  (u "$PQTMRESTOREPAR*13" ++ [10%N]);
  (u "$PQTMCFGUART,W,115200*18" ++ [10%N]);
  (u "$PQTMCFGUART,W,1,115200*05" ++ [10%N]);
  (u "$PQTMCFGUART,W,115200,8,0,1,0*11" ++ [10%N]);
  (u "$PQTMCFGUART,W,1,115200,8,0,1,0*0C" ++ [10%N]);
  (u "$PQTMCFGPPS,W,1,1,100,1,1,0*73" ++ [10%N]);
  (u "$PQTMCFGPPS,W,1,0*73" ++ [10%N]);
  (u "$PQTMCFGPROT,W,1,1,00000005,00000005*38" ++ [10%N]);
  (u "$PQTMCFGNMEADP,W,3,8,3,2,3,2*39" ++ [10%N]);
  (u "$PQTMCFGMSGRATE,W,GGA,1*0A" ++ [10%N]);
  (u "$PQTMCFGMSGRATE,W,PQTMEPE,1,2*1D" ++ [10%N]);
  (u "$PQTMCFGMSGRATE,W,RTCM3-1005,1*59" ++ [10%N]);
  (u "$PQTMCFGMSGRATE,W,RTCM3-107X,1,0*2F" ++ [10%N]);
  (u "$PQTMCFGMSGRATE,W,RTCM3-1019,1*54" ++ [10%N]);
  (u "$PQTMCFGGEOFENCE,W,0,0*27" ++ [10%N]);
  (u "$PQTMGNSSSTART*51" ++ [10%N]);
  (u "$PQTMGNSSSTOP*09" ++ [10%N]);
  (u "$PQTMCFGSVIN,W,1,3600,1.2,-2519265.0514,4849534.9045,3277834.6432*01" ++ [10%N]);
  (u "$PQTMCFGRCVRMODE,W,2*29" ++ [10%N]);
  (u "$PQTMDEBUGON*48" ++ [10%N]);
  (u "$PQTMDEBUGOFF*06" ++ [10%N]);
  (u "$PQTMCFGFIXRATE,W,1000*59" ++ [10%N]);
  (u "$PQTMCFGRTK,W,1,1*6C" ++ [10%N]);
  (u "$PQTMCFGCNST,W,1,1,1,1,0,0*2B" ++ [10%N]);
  (u "$PQTMCFGODO,W,1,10.5*4E" ++ [10%N]);
  (u "$PQTMRESETODO*09" ++ [10%N]);
  (u "$PQTMCFGSIGNAL,W,7,3,F,3F,7,1*0E" ++ [10%N]);
  (u "$PQTMCFGSAT,W,1,1,FFFFFFFF*4B" ++ [10%N]);
  (u "$PQTMCFGSAT,W,4,1,BFFCBFFF,1C003FFF*60" ++ [10%N]);
  (u "$PQTMCFGRSID,W,1024*06" ++ [10%N]);
  (u "$PQTMCFGRTCM,W,4,0,-90,07,06,1,0*25" ++ [10%N]);
  (u "$PQTMBKP,66*6D" ++ [10%N]);
  (u "$PQTMCFGAIC,W,1*77" ++ [10%N]);
  (u "$PQTMCFGNAVMODE,W,10*56" ++ [10%N]);
  (u "$PQTMCFGNMEATID,W,GP,0*58" ++ [10%N]);
  (u "$PQTMCFGDR,W,1*2A" ++ [10%N]);
  (u "$PQTMCFGIMUINT,W,1,1,0,1,64*0C" ++ [10%N]);
  (u "$PQTMCFGLA,W,1,0.212,0.514,0.113*31" ++ [10%N]);
  (u "$PQTMCFGLAM,W,2*7F" ++ [10%N]);
  (u "$PQTMCFGRTKSRCTYPE,W,1*2B" ++ [10%N]);
  (u "$PQTMCFGSTATICHOLD,W,1*2B" ++ [10%N]);
  (u "$PQTMCFGVEHMOT,W,1,1*2C" ++ [10%N]);
  (u "$PQTMDRCLR*53" ++ [10%N]);
  (u "$PQTMDRSAVE*0F" ++ [10%N]);
  (u "$PQTMCFGANTDELTA,W,0.0000,0.0000,0.0000*10" ++ [10%N]);
  (u "$PQTMCFGANTINF,W,,0,*27" ++ [10%N]);
  (u "$PQTMCFGBLD,W,1.000*68" ++ [10%N]);
  (u "$PQTMCFGELETHD,W,5.0*32" ++ [10%N]);
  (u "$PQTMCFGGEOSEP,W,0,0.0000*04" ++ [10%N]);
  (u "$PQTMCFGSBAS,W,003F*7B" ++ [10%N]);
  (u "$PQTMCFGSIGGRP,W,1*24" ++ [10%N]);
  (u "$PQTMCFGSIGNAL2,W,7,3,F,3F,7,1*3C" ++ [10%N]);
  (u "$PQTMCFGWN,W,2346*17" ++ [10%N]);
  (u "$PQTMCFGMSGRATE,W,GGA,1*0A" ++ [10%N]);
  (u "$PQTMCFGMSGRATE,W,PQTMEPE,1,2*1D" ++ [10%N]);
  (u "$PQTMCFGMSGRATE,W,RTCM3-1005,1*59" ++ [10%N]);
  (u "$PQTMCFGMSGRATE,W,RTCM3-107X,1,0*2F" ++ [10%N]);
  (u "$PQTMCFGMSGRATE,W,RTCM3-1019,1*54" ++ [10%N]);
  (u "$PQTMCFGMSGRATE,W,1,1,GGA,1*0A" ++ [10%N]);
  (u "$PQTMCFGMSGRATE,W,1,1,0AB2,1,1*57" ++ [10%N]);
  (u "$PSTMCOLD*1E" ++ [10%N]);
  (u "$PSTMWARM*13" ++ [10%N]);
  (u "$PSTMHOT*49" ++ [10%N]);
  (u "$PSTMSRR*49" ++ [10%N]);
  (u "$PSTMSAVEPAR*58" ++ [10%N]);
  (u "$PSTMRESTOREPAR*11" ++ [10%N]);
  (u "$PSTMIMUSELFTESTCMD,1*16" ++ [10%N]);
  (u "$PSTMDRMMFB,160836.000,1,1,1,1,45.4567890,9.4567890,180.5,90.0,10.1,10.2,4.7,0.3*3E" ++ [10%N]);
  (u "$PSTMSETPAR,35,0,0,0,F*47" ++ [10%N]);
  (u "$PSTMSETPAR,35,0,2,0,1*32" ++ [10%N]);
  (u "$PSTMSETPAR,32,3,0,1,0x40*48" ++ [10%N]);
  (u "$PSTMSETPAR,32,3,0,1,0x4*78" ++ [10%N]);
  (u "$PSTMSETPAR,32,3,0,1,0x100000*4D" ++ [10%N]);
  (u "$PSTMSETPAR,32,6,0,1,0x400000*4D" ++ [10%N]);
  (u "$PSTMINITGPS,3149.121,N,11707.883,E,0530,05,08,2022,09,44,12*5E" ++ [10%N]);
  (u "$PSTMINITTIME,05,08,2022,09,44,12*10" ++ [10%N]);
  (u "$PSTMEPHEM,12,64,0f06bc34bc3437373790f40045a7ff00fcf5d522480b4bf71b00fbff8931000096126f271f869101c3870ca107afce79a763e13e360a1ce8e7003100380ff903*36" ++ [10%N])].
(* test_quectel.py:229 testNMEAQUECTELCOMMAND *)
Example testNMEAQUECTELCOMMAND : prints (mkrcfg 1 3 false 2 None []) log_quectel_nmea_command [
  (u "<NMEA(PQTMCOLD)>");
  (u "<NMEA(PQTMWARM)>");
  (u "<NMEA(PQTMHOT)>");
  (u "<NMEA(PQTMSRR)>");
  (u "<NMEA(PQTMSAVEPAR)>");
  (u "<NMEA(PQTMRESTOREPAR)>");
  (u "<NMEA(PQTMCFGUART, status=W, baudrate=115200)>");
  (u "<NMEA(PQTMCFGUART, status=W, portid=1, baudrate=115200)>");
  (u "<NMEA(PQTMCFGUART, status=W, baudrate=115200, databit=8, parity=0, stopbit=1, flowctrl=0)>");
  (u "<NMEA(PQTMCFGUART, status=W, portid=1, baudrate=115200, databit=8, parity=0, stopbit=1, flowctrl=0)>");
  (u "<NMEA(PQTMCFGPPS, status=W, ppsindex=1, enable=1, duration=100, ppsmode=1, polarity=1, reserved=0)>");
  (u "<NMEA(PQTMCFGPPS, status=W, ppsindex=1, enable=0)>");
  (u "<NMEA(PQTMCFGPROT, status=W, porttype=1, portid=1, inputprot=00000005, outputprot=00000005)>");
  (u "<NMEA(PQTMCFGNMEADP, status=W, utcdp=3, posdp=8, altdp=3, dopdp=2, spddp=3, cogdp=2)>");
  (u "<NMEA(PQTMCFGMSGRATE, status=W, msgname=GGA, rate=1)>");
  (u "<NMEA(PQTMCFGMSGRATE, status=W, msgname=PQTMEPE, rate=1, msgver=2)>");
  (u "<NMEA(PQTMCFGMSGRATE, status=W, msgname=RTCM3-1005, rate=1)>");
  (u "<NMEA(PQTMCFGMSGRATE, status=W, msgname=RTCM3-107X, rate=1, msgver=0)>");
  (u "<NMEA(PQTMCFGMSGRATE, status=W, msgname=RTCM3-1019, rate=1)>");
  (u "<NMEA(PQTMCFGGEOFENCE, status=W, geofenceindex=0, geofencemode=0)>");
  (u "<NMEA(PQTMGNSSSTART)>");
  (u "<NMEA(PQTMGNSSSTOP)>");
  (u "<NMEA(PQTMCFGSVIN, status=W, svinmode=1, cfgcnt=3600, acclimit=1.2, ecefx=-2519265.0514, ecefy=4849534.9045, ecefz=3277834.6432)>");
  (u "<NMEA(PQTMCFGRCVRMODE, status=W, rcvrmode=2)>");
  (u "<NMEA(PQTMDEBUGON)>");
  (u "<NMEA(PQTMDEBUGOFF)>");
  (u "<NMEA(PQTMCFGFIXRATE, status=W, fixinterval=1000)>");
  (u "<NMEA(PQTMCFGRTK, status=W, diffmode=1, relmode=1)>");
  (u "<NMEA(PQTMCFGCNST, status=W, gps=1, glonass=1, galileo=1, beidou=1, qzss=0, navic=0)>");
  (u "<NMEA(PQTMCFGODO, status=W, state=1, initdist=10.5)>");
  (u "<NMEA(PQTMRESETODO)>");
  (u "<NMEA(PQTMCFGSIGNAL, status=W, gpssig=7, glonasssig=3, galileosig=F, beidousig=3F, qzsssig=7, navicsig=1)>");
  (u "<NMEA(PQTMCFGSAT, status=W, systemid=1, signalid=1, masklow=FFFFFFFF)>");
  (u "<NMEA(PQTMCFGSAT, status=W, systemid=4, signalid=1, masklow=BFFCBFFF, maskhigh=1C003FFF)>");
  (u "<NMEA(PQTMCFGRSID, status=W, rsid=1024)>");
  (u "<NMEA(PQTMCFGRTCM, status=W, msmtype=4, msmmode=0, msmelevthd=-90.0, reserved1=07, reserved2=06, ephmode=1, ephinterval=0)>");
  (u "<NMEA(PQTMBKP, second=66)>");
  (u "<NMEA(PQTMCFGAIC, status=W, state=1)>");
  (u "<NMEA(PQTMCFGNAVMODE, status=W, mode=10)>");
  (u "<NMEA(PQTMCFGNMEATID, status=W, mainTalker=GP, gsvTalker=0)>");
  (u "<NMEA(PQTMCFGDR, status=W, drstate=1)>");
  (u "<NMEA(PQTMCFGIMUINT, status=W, index=1, mode=1, reserved=0, actLevel=1)>");
  (u "<NMEA(PQTMCFGLA, status=W, type=1, laX=0.212, laY=0.514, laZ=0.113)>");
  (u "<NMEA(PQTMCFGLAM, status=W, mode=2)>");
  (u "<NMEA(PQTMCFGRTKSRCTYPE, status=W, srctype=1)>");
  (u "<NMEA(PQTMCFGSTATICHOLD, status=W, shstate=1)>");
  (u "<NMEA(PQTMCFGVEHMOT, status=W, mode=1, vehtype=1)>");
  (u "<NMEA(PQTMDRCLR)>");
  (u "<NMEA(PQTMDRSAVE)>");
  (u "<NMEA(PQTMCFGANTDELTA, status=W, east=0.0, north=0.0, height=0.0)>");
  (u "<NMEA(PQTMCFGANTINF, status=W, antennadesc=, antennasetupid=0, antennasn=)>");
  (u "<NMEA(PQTMCFGBLD, status=W, distance=1.0)>");
  (u "<NMEA(PQTMCFGELETHD, status=W, elevation=5.0)>");
  (u "<NMEA(PQTMCFGGEOSEP, status=W, mode=0, geosep=0.0)>");
  (u "<NMEA(PQTMCFGSBAS, status=W, value=003F)>");
  (u "<NMEA(PQTMCFGSIGGRP, status=W, siggrpnum=1)>");
  (u "<NMEA(PQTMCFGSIGNAL2, status=W, gpssig=7, glonasssig=3, galileosig=F, beidousig=3F, qzsssig=7, navicsig=1)>");
  (u "<NMEA(PQTMCFGWN, status=W, weekno=2346)>");
  (u "<NMEA(PQTMCFGMSGRATE, status=W, msgname=GGA, rate=1)>");
  (u "<NMEA(PQTMCFGMSGRATE, status=W, msgname=PQTMEPE, rate=1, msgver=2)>");
  (u "<NMEA(PQTMCFGMSGRATE, status=W, msgname=RTCM3-1005, rate=1)>");
  (u "<NMEA(PQTMCFGMSGRATE, status=W, msgname=RTCM3-107X, rate=1, msgver=0)>");
  (u "<NMEA(PQTMCFGMSGRATE, status=W, msgname=RTCM3-1019, rate=1)>");
  (u "<NMEA(PQTMCFGMSGRATE, status=W, porttype=1, portid=1, msgname=GGA, rate=1)>");
  (u "<NMEA(PQTMCFGMSGRATE, status=W, porttype=1, portid=1, msgname=0AB2, rate=1, msgver=1)>");
  (u "<NMEA(PSTMCOLD)>");
  (u "<NMEA(PSTMWARM)>");
  (u "<NMEA(PSTMHOT)>");
  (u "<NMEA(PSTMSRR)>");
  (u "<NMEA(PSTMSAVEPAR)>");
  (u "<NMEA(PSTMRESTOREPAR)>");
  (u "<NMEA(PSTMIMUSELFTESTCMD, imucat=1)>");
  (u "<NMEA(PSTMDRMMFB, timestamp=160836.0, latval=1, lonval=1, heightval=1, headingval=1, lat=45.456789, lon=9.456789, height=180.5, heading=90.0, laterr=10.1, lonerr=10.2, heighterr=4.7, headingerr=0.3)>");
  (u "<NMEA(PSTMSETPAR, parm1=35, parm2=0, parm3=0, parm4=0, parm5=F)>");
  (u "<NMEA(PSTMSETPAR, parm1=35, parm2=0, parm3=2, parm4=0, parm5=1)>");
  (u "<NMEA(PSTMSETPAR, parm1=32, parm2=3, parm3=0, parm4=1, parm5=0x40)>");
  (u "<NMEA(PSTMSETPAR, parm1=32, parm2=3, parm3=0, parm4=1, parm5=0x4)>");
  (u "<NMEA(PSTMSETPAR, parm1=32, parm2=3, parm3=0, parm4=1, parm5=0x100000)>");
  (u "<NMEA(PSTMSETPAR, parm1=32, parm2=6, parm3=0, parm4=1, parm5=0x400000)>");
  (u "<NMEA(PSTMINITGPS, lat=31.8186833333, NS=N, lon=117.1313833333, EW=E, alt=530.0, day=5, month=8, year=2022, hour=9, minute=44, second=12)>");
  (u "<NMEA(PSTMINITTIME, day=5, month=8, year=2022, hour=9, minute=44, second=12)>");
  (u "<NMEA(PSTMEPHEM, satID=12, ephdatalen=64, ephdata=0f06bc34bc3437373790f40045a7ff00fcf5d522480b4bf71b00fbff8931000096126f271f869101c3870ca107afce79a763e13e360a1ce8e7003100380ff903)>")] = true.
Proof. vm_compute. reflexivity. Qed.
(* tests/quectel_nmea_response.log *)
Definition log_quectel_nmea_response : bytes := concat [
  (u "$PQTMVER,1,MODULE,LG290P03AANR01A03S,2024/04/30,10:53:07*32" ++ [10%N]);
  (u "$PQTMUNIQID,OK,16,81D62010EE0AF375BDF5952CDC3757A1*3E" ++ [10%N]);
  (u "$PQTMSAVEPAR,OK*72" ++ [10%N]);
  (u "$PQTMRESTOREPAR,OK*3B" ++ [10%N]);
  (u "$PQTMVERNO,LG290P03AANR01A03S,2024/04/30,10:53:07*18" ++ [10%N]);
  (u "$PQTMCFGUART,OK*60" ++ [10%N]);
  (u "$PQTMCFGUART,OK*60" ++ [10%N]);
  (u "$PQTMCFGUART,OK*60" ++ [10%N]);
  (u "$PQTMCFGUART,OK*60" ++ [10%N]);
  (u "$PQTMCFGUART,OK,1,115200,8,0,1,0*5F" ++ [10%N]);
  (u "$PQTMCFGUART,OK,1,115200,8,0,1,0*5F" ++ [10%N]);
  (u "$PQTMCFGPPS,OK*21" ++ [10%N]);
  (u "$PQTMCFGPPS,OK,1,1,100,1,1,0*20" ++ [10%N]);
  (u "$PQTMCFGPPS,OK*21" ++ [10%N]);
  (u "$PQTMCFGPROT,OK*6B" ++ [10%N]);
  (u "$PQTMCFGPROT,OK,1,1,00000005,00000005*6B" ++ [10%N]);
  (u "$PQTMCFGNMEADP,OK*61" ++ [10%N]);
  (u "$PQTMCFGNMEADP,OK,3,8,3,2,3,2*6A" ++ [10%N]);
  (u "$PQTMEPE,2,1.000,1.000,1.000,1.414,1.732*52" ++ [10%N]);
  (u "$PQTMCFGMSGRATE,OK*29" ++ [10%N]);
  (u "$PQTMCFGMSGRATE,OK,GGA,1,*75" ++ [10%N]);
  (u "$PQTMCFGMSGRATE,OK*29" ++ [10%N]);
  (u "$PQTMCFGMSGRATE,OK,PQTMEPE,1,2*4E" ++ [10%N]);
  (u "$PQTMCFGMSGRATE,OK*29" ++ [10%N]);
  (u "$PQTMCFGMSGRATE,OK,RTCM3-1005,1*0A" ++ [10%N]);
  (u "$PQTMCFGMSGRATE,OK*29" ++ [10%N]);
  (u "$PQTMCFGMSGRATE,OK,RTCM3-107X,1,0*7C" ++ [10%N]);
  (u "$PQTMCFGMSGRATE,OK*29" ++ [10%N]);
  (u "$PQTMCFGMSGRATE,OK,RTCM3-1019,1*07" ++ [10%N]);
  (u "$PQTMVEL,1,154512.100,1.251,2.452,1.245,2.752,3.021,180.512,0.124,0.254,0.250*67" ++ [10%N]);
  (u "$PQTMCFGGEOFENCE,OK*74" ++ [10%N]);
  (u "$PQTMCFGGEOFENCE,OK*74" ++ [10%N]);
  (u "$PQTMCFGGEOFENCE,OK,0,1,0,0,31.451248,117.451245,100.5*4B" ++ [10%N]);
  (u "$PQTMCFGGEOFENCE,OK,0,0*74" ++ [10%N]);
  (u "$PQTMGEOFENCESTATUS,1,124521.000,1,2,2,2*27" ++ [10%N]);
  (u "$PQTMGNSSSTART,OK*79" ++ [10%N]);
  (u "$PQTMGNSSSTOP,OK*21" ++ [10%N]);
  (u "$PQTMTXT,1,01,01,01,0x105f0cf810417c00*1B" ++ [10%N]);
  (u "$PQTMCFGSVIN,OK*70" ++ [10%N]);
  (u "$PQTMCFGSVIN,OK,1,3600,1.2,-2519265.0514,4849534.9045,3277834.6432*52" ++ [10%N]);
  (u "$PQTMSVINSTATUS,1,1000,1,,01,20,100,-2484434.3645,4875976.9741,3266161.3412,1.2415*3C" ++ [10%N]);
  (u "$PQTMPVT,1,1000,20221225,163355.000,,0,00,,,,,,,,,,,99.99,99.99*79" ++ [10%N]);
  (u "$PQTMPVT,1,31075000,20221225,083737.000,,3,09,18,31.12738291,117.26372910,34.212,5.267,3.212,2.928,0.238,4.346,34.12,2.16,4.38*51" ++ [10%N]);
  (u "$PQTMCFGRCVRMODE,OK*64" ++ [10%N]);
  (u "$PQTMCFGRCVRMODE,OK,2*7A" ++ [10%N]);
  (u "$PQTMDEBUGON,OK*60" ++ [10%N]);
  (u "$PQTMDEBUGOFF,OK*2E" ++ [10%N]);
  (u "$PQTMCFGFIXRATE,OK*27" ++ [10%N]);
  (u "$PQTMCFGFIXRATE,OK,1000*0A" ++ [10%N]);
  (u "$PQTMCFGRTK,OK*3F" ++ [10%N]);
  (u "$PQTMCFGRTK,OK,1,1*3F" ++ [10%N]);
  (u "$PQTMCFGCNST,OK*78" ++ [10%N]);
  (u "$PQTMCFGCNST,OK,1,1,1,1,0,0*78" ++ [10%N]);
  (u "$PQTMDOP,1,570643000,1.01,0.88,0.49,0.73,0.50,0.36,0.35*7C" ++ [10%N]);
  (u "$PQTMDOP,1,,99.99,99.99,99.99,99.99,99.99,99.99,99.99*70" ++ [10%N]);
  (u "$PQTMPL,1,55045200,5.00,1,1,2879,2718,4766,5344,4323,10902,,,*1C" ++ [10%N]);
  (u "$PQTMCFGODO,OK*36" ++ [10%N]);
  (u "$PQTMCFGODO,ERROR,1*77" ++ [10%N]);
  (u "$PQTMCFGODO,OK,1,10.5*1D" ++ [10%N]);
  (u "$PQTMRESETODO,OK*21" ++ [10%N]);
  (u "$PQTMODO,1,120635.000,1,112.3*6E" ++ [10%N]);
  (u "$PQTMCFGSIGNAL,OK*6C" ++ [10%N]);
  (u "$PQTMCFGSIGNAL,OK,07,03,0F,3F,07,01*6D" ++ [10%N]);
  (u "$PQTMCFGSAT,OK*34" ++ [10%N]);
  (u "$PQTMCFGSAT,OK,1,01,FFFFFFFF*28" ++ [10%N]);
  (u "$PQTMCFGSAT,OK*34" ++ [10%N]);
  (u "$PQTMCFGSAT,ERROR,2*76" ++ [10%N]);
  (u "$PQTMCFGRSID,OK*7E" ++ [10%N]);
  (u "$PQTMCFGRSID,OK,1024*55" ++ [10%N]);
  (u "$PQTMCFGRTCM,OK*7A" ++ [10%N]);
  (u "$PQTMCFGGEOFENCE,R,0,1,0,3,31.451248,117.451245,100.5,12.36,85.24,118.72,56.45,140.13*19" ++ [10%N]);
  (u "$PQTMCFGDR,OK*64" ++ [10%N]);
  (u "$PQTMCFGDR,OK,1*79" ++ [10%N]);
  (u "$PQTMCFGIMUINT,OK*70" ++ [10%N]);
  (u "$PQTMCFGIMUINT,OK,1,1,0,1,64*5F" ++ [10%N]);
  (u "$PQTMCFGLA,OK*7F" ++ [10%N]);
  (u "$PQTMCFGLA,OK,1,0.212,0.514,0.113*62" ++ [10%N]);
  (u "$PQTMCFGLAM,OK*32" ++ [10%N]);
  (u "$PQTMCFGLAM,OK,2*2C" ++ [10%N]);
  (u "$PQTMCFGRTKSRCTYPE,OK*65" ++ [10%N]);
  (u "$PQTMCFGRTKSRCTYPE,OK,1*78" ++ [10%N]);
  (u "$PQTMCFGSTATICHOLD,OK*65" ++ [10%N]);
  (u "$PQTMCFGSTATICHOLD,OK,1*78" ++ [10%N]);
  (u "$PQTMCFGVEHMOT,OK*7F" ++ [10%N]);
  (u "$PQTMCFGVEHMOT,OK,1,1*7F" ++ [10%N]);
  (u "$PQTMDRCLR,OK*7B" ++ [10%N]);
  (u "$PQTMDRSAVE,OK*27" ++ [10%N]);
  (u "$PQTMCFGMSGRATE,OK,GGA,1*59" ++ [10%N]);
  (u "$PQTMCFGMSGRATE,OK,PQTMEPE,1,2*4E" ++ [10%N]);
  (u "$PQTMCFGMSGRATE,OK,RTCM3-1005,1*0A" ++ [10%N]);
  (u "$PQTMCFGMSGRATE,OK,RTCM3-107X,1,0*7C" ++ [10%N]);
  (u "$PQTMCFGMSGRATE,OK,RTCM3-1019,1*07" ++ [10%N]);
  (u "$PQTMCFGMSGRATE,OK,1,1,GGA,1*59" ++ [10%N]);
  (u "$PQTMCFGMSGRATE,OK,1,1,0AB2,1,1*04" ++ [10%N]);
  (u "$PSTMSETPAROK,P01,L15,F00,0000000a*11" ++ [10%N]);
  (u "$PSTMSETPAROK,P35,L00,F00,0000000f*15" ++ [10%N]);
  (u "$PSTMSETPAROK,P35,L00,F02,00000001*40" ++ [10%N]);
  (u "$PSTMSETPAROK,P35,L00,F00,00000007*44" ++ [10%N]);
  (u "$PSTMINITGPSOK*40" ++ [10%N]);
  (u "$PSTMINITTIMEOK*11" ++ [10%N])].
(* test_quectel.py:329 testNMEAQUECTELRESPONSE *)
Example testNMEAQUECTELRESPONSE : prints (mkrcfg 0 3 false 1 None []) log_quectel_nmea_response [
  (u "<NMEA(PQTMVER, msgver=1, vername=MODULE, verstr=LG290P03AANR01A03S, builddate=2024/04/30, buildtime=10:53:07)>");
  (u "<NMEA(PQTMUNIQID, status=OK, length=16, ID=81D62010EE0AF375BDF5952CDC3757A1)>");
  (u "<NMEA(PQTMSAVEPAR, status=OK)>");
  (u "<NMEA(PQTMRESTOREPAR, status=OK)>");
  (u "<NMEA(PQTMVERNO, verstr=LG290P03AANR01A03S, builddate=2024/04/30, buildtime=10:53:07)>");
  (u "<NMEA(PQTMCFGUART, status=OK)>");
  (u "<NMEA(PQTMCFGUART, status=OK)>");
  (u "<NMEA(PQTMCFGUART, status=OK)>");
  (u "<NMEA(PQTMCFGUART, status=OK)>");
  (u "<NMEA(PQTMCFGUART, status=OK, portid=1, baudrate=115200, databit=8, parity=0, stopbit=1, flowctrl=0)>");
  (u "<NMEA(PQTMCFGUART, status=OK, portid=1, baudrate=115200, databit=8, parity=0, stopbit=1, flowctrl=0)>");
  (u "<NMEA(PQTMCFGPPS, status=OK)>");
  (u "<NMEA(PQTMCFGPPS, status=OK, ppsindex=1, enable=1, duration=100, ppsmode=1, polarity=1, reserved=0)>");
  (u "<NMEA(PQTMCFGPPS, status=OK)>");
  (u "<NMEA(PQTMCFGPROT, status=OK)>");
  (u "<NMEA(PQTMCFGPROT, status=OK, porttype=1, portid=1, inputprot=00000005, outputprot=00000005)>");
  (u "<NMEA(PQTMCFGNMEADP, status=OK)>");
  (u "<NMEA(PQTMCFGNMEADP, status=OK, utcdp=3, posdp=8, altdp=3, dopdp=2, spddp=3, cogdp=2)>");
  (u "<NMEA(PQTMEPE, msgver=2, epenorth=1.0, epeeast=1.0, epedown=1.0, epe2d=1.414, epe3d=1.732)>");
  (u "<NMEA(PQTMCFGMSGRATE, status=OK)>");
  (u "<NMEA(PQTMCFGMSGRATE, status=OK, msgname=GGA, rate=1, msgver=)>");
  (u "<NMEA(PQTMCFGMSGRATE, status=OK)>");
  (u "<NMEA(PQTMCFGMSGRATE, status=OK, msgname=PQTMEPE, rate=1, msgver=2)>");
  (u "<NMEA(PQTMCFGMSGRATE, status=OK)>");
  (u "<NMEA(PQTMCFGMSGRATE, status=OK, msgname=RTCM3-1005, rate=1)>");
  (u "<NMEA(PQTMCFGMSGRATE, status=OK)>");
  (u "<NMEA(PQTMCFGMSGRATE, status=OK, msgname=RTCM3-107X, rate=1, msgver=0)>");
  (u "<NMEA(PQTMCFGMSGRATE, status=OK)>");
  (u "<NMEA(PQTMCFGMSGRATE, status=OK, msgname=RTCM3-1019, rate=1)>");
  (u "<NMEA(PQTMVEL, msgver=1, time=15:45:12.100000, veln=1.251, vele=2.452, veld=1.245, gndspd=2.752, spd=3.021, hdg=180.512, gndspdacc=0.124, spdacc=0.254, hdgacc=0.25)>");
  (u "<NMEA(PQTMCFGGEOFENCE, status=OK)>");
  (u "<NMEA(PQTMCFGGEOFENCE, status=OK)>");
  (u "<NMEA(PQTMCFGGEOFENCE, status=OK, geofenceindex=0, geofencemode=1, reserved=0, shape=0, lat0=31.451248, lon0=117.451245, radiuslat1=100.5)>");
  (u "<NMEA(PQTMCFGGEOFENCE, status=OK, geofenceindex=0, geofencemode=0)>");
  (u "<NMEA(PQTMGEOFENCESTATUS, msgver=1, time=12:45:21, staten_01=1, staten_02=2, staten_03=2, staten_04=2)>");
  (u "<NMEA(PQTMGNSSSTART, status=OK)>");
  (u "<NMEA(PQTMGNSSSTOP, status=OK)>");
  (u "<NMEA(PQTMTXT, msgver=1, totalsennum=1, sennum=1, textid=1, text=0x105f0cf810417c00)>");
  (u "<NMEA(PQTMCFGSVIN, status=OK)>");
  (u "<NMEA(PQTMCFGSVIN, status=OK, svinmode=1, cfgcnt=3600, acclimit=1.2, ecefx=-2519265.0514, ecefy=4849534.9045, ecefz=3277834.6432)>");
  (u "<NMEA(PQTMSVINSTATUS, msgver=1, tow=1000, valid=1, reserved0=, reserved1=1, obs=20, cfgdur=100, meanx=-2484434.3645, meany=4875976.9741, meanz=3266161.3412, meanacc=1.2415)>");
  (u "<NMEA(PQTMPVT, msgver=1, tow=1000, date=20221225, time=16:33:55, reserved=, fixtype=0, numsv=0, leaps=, lat=, lon=, alt=, sep=, veln=, vele=, veld=, spd=, hdg=, hdop=99.99, pdop=99.99)>");
  (u "<NMEA(PQTMPVT, msgver=1, tow=31075000, date=20221225, time=08:37:37, reserved=, fixtype=3, numsv=9, leaps=18, lat=31.12738291, lon=117.2637291, alt=34.212, sep=5.267, veln=3.212, vele=2.928, veld=0.238, spd=4.346, hdg=34.12, hdop=2.16, pdop=4.38)>");
  (u "<NMEA(PQTMCFGRCVRMODE, status=OK)>");
  (u "<NMEA(PQTMCFGRCVRMODE, status=OK, rcvrmode=2)>");
  (u "<NMEA(PQTMDEBUGON, status=OK)>");
  (u "<NMEA(PQTMDEBUGOFF, status=OK)>");
  (u "<NMEA(PQTMCFGFIXRATE, status=OK)>");
  (u "<NMEA(PQTMCFGFIXRATE, status=OK, fixinterval=1000)>");
  (u "<NMEA(PQTMCFGRTK, status=OK)>");
  (u "<NMEA(PQTMCFGRTK, status=OK, diffmode=1, relmode=1)>");
  (u "<NMEA(PQTMCFGCNST, status=OK)>");
  (u "<NMEA(PQTMCFGCNST, status=OK, gps=1, glonass=1, galileo=1, beidou=1, qzss=0, navic=0)>");
  (u "<NMEA(PQTMDOP, msgver=1, tow=570643000, gdop=1.01, pdop=0.88, tdop=0.49, vdop=0.73, hdop=0.5, ndop=0.36, edop=0.35)>");
  (u "<NMEA(PQTMDOP, msgver=1, tow=, gdop=99.99, pdop=99.99, tdop=99.99, vdop=99.99, hdop=99.99, ndop=99.99, edop=99.99)>");
  (u "<NMEA(PQTMPL, msgver=1, tow=55045200, pul=5.0, reserved1=1, reserved2=1, plposn=2879.0, plpose=2718.0, plposd=4766.0, plveln=5344.0, plvele=4323.0, plveld=10902.0, reserved3=, reserved4=, pltime=)>");
  (u "<NMEA(PQTMCFGODO, status=OK)>");
  (u "<NMEA(PQTMCFGODO, status=ERROR, errcode=1)>");
  (u "<NMEA(PQTMCFGODO, status=OK, state=1, initdist=10.5)>");
  (u "<NMEA(PQTMRESETODO, status=OK)>");
  (u "<NMEA(PQTMODO, msgver=1, time=12:06:35, state=1, dist=112.3)>");
  (u "<NMEA(PQTMCFGSIGNAL, status=OK)>");
  (u "<NMEA(PQTMCFGSIGNAL, status=OK, gpssig=07, glonasssig=03, galileosig=0F, beidousig=3F, qzsssig=07, navicsig=01)>");
  (u "<NMEA(PQTMCFGSAT, status=OK)>");
  (u "<NMEA(PQTMCFGSAT, status=OK, systemid=1, signalid=01, masklow=FFFFFFFF)>");
  (u "<NMEA(PQTMCFGSAT, status=OK)>");
  (u "<NMEA(PQTMCFGSAT, status=ERROR, errcode=2)>");
  (u "<NMEA(PQTMCFGRSID, status=OK)>");
  (u "<NMEA(PQTMCFGRSID, status=OK, rsid=1024)>");
  (u "<NMEA(PQTMCFGRTCM, status=OK)>");
  (u "<NMEA(PQTMCFGGEOFENCE, status=R, geofenceindex=0, geofencemode=1, reserved=0, shape=3, lat0=31.451248, lon0=117.451245, radiuslat1=100.5, lon1=12.36, lat2=85.24, lon2=118.72, lat3=56.45, lon3=140.13)>");
  (u "<NMEA(PQTMCFGDR, status=OK)>");
  (u "<NMEA(PQTMCFGDR, status=OK, drstate=1)>");
  (u "<NMEA(PQTMCFGIMUINT, status=OK)>");
  (u "<NMEA(PQTMCFGIMUINT, status=OK, index=1, mode=1, reserved=0, actLevel=1)>");
  (u "<NMEA(PQTMCFGLA, status=OK)>");
  (u "<NMEA(PQTMCFGLA, status=OK, type=1, laX=0.212, laY=0.514, laZ=0.113)>");
  (u "<NMEA(PQTMCFGLAM, status=OK)>");
  (u "<NMEA(PQTMCFGLAM, status=OK, mode=2)>");
  (u "<NMEA(PQTMCFGRTKSRCTYPE, status=OK)>");
  (u "<NMEA(PQTMCFGRTKSRCTYPE, status=OK, srctype=1)>");
  (u "<NMEA(PQTMCFGSTATICHOLD, status=OK)>");
  (u "<NMEA(PQTMCFGSTATICHOLD, status=OK, shstate=1)>");
  (u "<NMEA(PQTMCFGVEHMOT, status=OK)>");
  (u "<NMEA(PQTMCFGVEHMOT, status=OK, mode=1, vehtype=1)>");
  (u "<NMEA(PQTMDRCLR, status=OK)>");
  (u "<NMEA(PQTMDRSAVE, status=OK)>");
  (u "<NMEA(PQTMCFGMSGRATE, status=OK, msgname=GGA, rate=1)>");
  (u "<NMEA(PQTMCFGMSGRATE, status=OK, msgname=PQTMEPE, rate=1, msgver=2)>");
  (u "<NMEA(PQTMCFGMSGRATE, status=OK, msgname=RTCM3-1005, rate=1)>");
  (u "<NMEA(PQTMCFGMSGRATE, status=OK, msgname=RTCM3-107X, rate=1, msgver=0)>");
  (u "<NMEA(PQTMCFGMSGRATE, status=OK, msgname=RTCM3-1019, rate=1)>");
  (u "<NMEA(PQTMCFGMSGRATE, status=OK, porttype=1, portid=1, msgname=GGA, rate=1)>");
  (u "<NMEA(PQTMCFGMSGRATE, status=OK, porttype=1, portid=1, msgname=0AB2, rate=1, msgver=1)>");
  (u "<NMEA(PSTMSETPAROK, msgId=P01, status1=L15, status2=F00, status3=0000000a)>");
  (u "<NMEA(PSTMSETPAROK, msgId=P35, status1=L00, status2=F00, status3=0000000f)>");
  (u "<NMEA(PSTMSETPAROK, msgId=P35, status1=L00, status2=F02, status3=00000001)>");
  (u "<NMEA(PSTMSETPAROK, msgId=P35, status1=L00, status2=F00, status3=00000007)>");
  (u "<NMEA(PSTMINITGPSOK)>");
  (u "<NMEA(PSTMINITTIMEOK)>")] = true.
Proof. vm_compute. reflexivity. Qed.
(* tests/pygpsdata_quectel_pair_get.log *)
Definition log_pygpsdata_quectel_pair_get : bytes := concat [
  (u "$PAIR001,004,0*3F" ++ [10%N]);
  (u "$PAIR001,003,1*39" ++ [10%N]);
  (u "$PAIR001,003,0*38" ++ [10%N]);
  (u "$PAIR001,004,0*3F" ++ [10%N]);
  (u "$PAIR001,005,0*3E" ++ [10%N]);
  (u "$PAIR001,006,0*3D" ++ [10%N]);
  (u "$PAIR001,007,0*3C" ++ [10%N]);
  (u "$PAIR010,0,0,2044,369413*33" ++ [10%N]);
  (u "$PAIR001,050,0*3E" ++ [10%N]);
  (u "$PAIR001,051,0*3F" ++ [10%N]);
  (u "$PAIR051,1000*13" ++ [10%N]);
  (u "$PAIR001,058,0*36" ++ [10%N]);
  (u "$PAIR001,059,0*37" ++ [10%N]);
  (u "$PAIR059,15*1E" ++ [10%N]);
  (u "$PAIR001,062,0*3F" ++ [10%N]);
  (u "$PAIR001,063,0*3E" ++ [10%N]);
  (u "$PAIR063,0,3*3C" ++ [10%N]);
  (u "$PAIR001,066,0*3B" ++ [10%N]);
  (u "$PAIR001,067,0*3A" ++ [10%N]);
  (u "$PAIR067,1,1,1,1,1,0*3A" ++ [10%N]);
  (u "$PAIR001,070,0*3C" ++ [10%N]);
  (u "$PAIR001,071,0*3D" ++ [10%N]);
  (u "$PAIR071,0.4*3A" ++ [10%N]);
  (u "$PAIR001,072,0*3E" ++ [10%N]);
  (u "$PAIR001,073,0*3F" ++ [10%N]);
  (u "$PAIR073,5*27" ++ [10%N]);
  (u "$PAIR001,074,0*38" ++ [10%N]);
  (u "$PAIR001,075,0*39" ++ [10%N]);
  (u "$PAIR075,1*25" ++ [10%N]);
  (u "$PAIR001,080,0*33" ++ [10%N]);
  (u "$PAIR001,081,0*32" ++ [10%N]);
  (u "$PAIR081,0*2F" ++ [10%N]);
  (u "$PAIR001,086,0*35" ++ [10%N]);
  (u "$PAIR001,087,0*34" ++ [10%N]);
  (u "$PAIR087,0*29" ++ [10%N]);
  (u "$PAIR001,100,0*3A" ++ [10%N]);
  (u "$PAIR001,101,0*3B" ++ [10%N]);
  (u "$PAIR101,1,0*3B" ++ [10%N]);
  (u "$PAIR001,382,0*32" ++ [10%N]);
  (u "$PAIR001,003,0*38" ++ [10%N]);
  (u "$PAIR001,104,0*3E" ++ [10%N]);
  (u "$PAIR001,002,0*39" ++ [10%N]);
  (u "$PAIR001,105,0*3F" ++ [10%N]);
  (u "$PAIR105,1*23" ++ [10%N]);
  (u "$PAIR001,382,0*32" ++ [10%N]);
  (u "$PAIR001,391,0*30" ++ [10%N]);
  (u "$PAIRSPF,0*53" ++ [10%N]);
  (u "$PAIRSPF5,0*66" ++ [10%N]);
  (u "$PAIRSPF,1*52" ++ [10%N]);
  (u "$PAIRSPF5,1*67" ++ [10%N]);
  (u "$PAIRSPF,2*51" ++ [10%N]);
  (u "$PAIRSPF5,2*64" ++ [10%N]);
  (u "$PAIRSPF,3*50" ++ [10%N]);
  (u "$PAIRSPF5,3*65" ++ [10%N]);
  (u "$PAIR001,400,0*3F" ++ [10%N]);
  (u "$PAIR001,401,0*3E" ++ [10%N]);
  (u "$PAIR401,2*21" ++ [10%N]);
  (u "$PAIR001,410,0*3E" ++ [10%N]);
  (u "$PAIR001,411,0*3F" ++ [10%N]);
  (u "$PAIR411,1*23" ++ [10%N]);
  (u "$PAIR001,420,0*3D" ++ [10%N]);
  (u "$PAIR001,421,0*3C" ++ [10%N]);
  (u "$PAIR421,1*20" ++ [10%N]);
  (u "$PAIR001,433,0*3F" ++ [10%N]);
  (u "$PAIR433,-1*0E" ++ [10%N]);
  (u "$PAIR001,434,0*38" ++ [10%N]);
  (u "$PAIR001,435,0*39" ++ [10%N]);
  (u "$PAIR435,1*25" ++ [10%N]);
  (u "$PAIR001,436,0*3A" ++ [10%N]);
  (u "$PAIR001,437,0*3B" ++ [10%N]);
  (u "$PAIR437,1*27" ++ [10%N]);
  (u "$PAIR001,650,0*38" ++ [10%N]);
  (u "$PAIR650,0*25" ++ [10%N]);
  (u "$PAIR001,752,0*3B" ++ [10%N]);
  (u "$PAIR001,864,0*31" ++ [10%N]);
  (u "$PAIR001,865,0*30" ++ [10%N]);
  (u "$PAIR865,115200*1A" ++ [10%N]);
  (u "$PAIR001,866,0*33" ++ [10%N]);
  (u "$PAIR001,867,0*32" ++ [10%N]);
  (u "$PAIR867,0*2F" ++ [10%N]);
  (u "$PAIR6011,1,0*0D" ++ [10%N]);
  (u "$PAIR491,1,0*37" ++ [10%N])].
(* test_quectel.py:805 testNMEAQUECTELAIRGET *)
Example testNMEAQUECTELAIRGET : prints (mkrcfg 0 1 false 1 None []) log_pygpsdata_quectel_pair_get [
  (u "<NMEA(PAIR001, commandid=4, result=0)>");
  (u "<NMEA(PAIR001, commandid=3, result=1)>");
  (u "<NMEA(PAIR001, commandid=3, result=0)>");
  (u "<NMEA(PAIR001, commandid=4, result=0)>");
  (u "<NMEA(PAIR001, commandid=5, result=0)>");
  (u "<NMEA(PAIR001, commandid=6, result=0)>");
  (u "<NMEA(PAIR001, commandid=7, result=0)>");
  (u "<NMEA(PAIR010, type=0, subsystem=0, wno=2044, tow=369413)>");
  (u "<NMEA(PAIR001, commandid=50, result=0)>");
  (u "<NMEA(PAIR001, commandid=51, result=0)>");
  (u "<NMEA(PAIR051, time=1000)>");
  (u "<NMEA(PAIR001, commandid=58, result=0)>");
  (u "<NMEA(PAIR001, commandid=59, result=0)>");
  (u "<NMEA(PAIR059, minsnr=15)>");
  (u "<NMEA(PAIR001, commandid=62, result=0)>");
  (u "<NMEA(PAIR001, commandid=63, result=0)>");
  (u "<NMEA(PAIR063, type=0, rate=3)>");
  (u "<NMEA(PAIR001, commandid=66, result=0)>");
  (u "<NMEA(PAIR001, commandid=67, result=0)>");
  (u "<NMEA(PAIR067, gpsEnabled=1, glonassEnabled=1, galileoEnabled=1, bdsEnabled=1, qzssEnabled=1, navicEnabled=0)>");
  (u "<NMEA(PAIR001, commandid=70, result=0)>");
  (u "<NMEA(PAIR001, commandid=71, result=0)>");
  (u "<NMEA(PAIR071, speedThreshold=0.4)>");
  (u "<NMEA(PAIR001, commandid=72, result=0)>");
  (u "<NMEA(PAIR001, commandid=73, result=0)>");
  (u "<NMEA(PAIR073, degree=5)>");
  (u "<NMEA(PAIR001, commandid=74, result=0)>");
  (u "<NMEA(PAIR001, commandid=75, result=0)>");
  (u "<NMEA(PAIR075, enabled=1)>");
  (u "<NMEA(PAIR001, commandid=80, result=0)>");
  (u "<NMEA(PAIR001, commandid=81, result=0)>");
  (u "<NMEA(PAIR081, navMode=0)>");
  (u "<NMEA(PAIR001, commandid=86, result=0)>");
  (u "<NMEA(PAIR001, commandid=87, result=0)>");
  (u "<NMEA(PAIR087, status=0)>");
  (u "<NMEA(PAIR001, commandid=100, result=0)>");
  (u "<NMEA(PAIR001, commandid=101, result=0)>");
  (u "<NMEA(PAIR101, nmeaMode=1, reserved=0)>");
  (u "<NMEA(PAIR001, commandid=382, result=0)>");
  (u "<NMEA(PAIR001, commandid=3, result=0)>");
  (u "<NMEA(PAIR001, commandid=104, result=0)>");
  (u "<NMEA(PAIR001, commandid=2, result=0)>");
  (u "<NMEA(PAIR001, commandid=105, result=0)>");
  (u "<NMEA(PAIR105, dualBandEnabled=1)>");
  (u "<NMEA(PAIR001, commandid=382, result=0)>");
  (u "<NMEA(PAIR001, commandid=391, result=0)>");
  (u "<NMEA(PAIRSPF, status=0)>");
  (u "<NMEA(PAIRSPF5, status=0)>");
  (u "<NMEA(PAIRSPF, status=1)>");
  (u "<NMEA(PAIRSPF5, status=1)>");
  (u "<NMEA(PAIRSPF, status=2)>");
  (u "<NMEA(PAIRSPF5, status=2)>");
  (u "<NMEA(PAIRSPF, status=3)>");
  (u "<NMEA(PAIRSPF5, status=3)>");
  (u "<NMEA(PAIR001, commandid=400, result=0)>");
  (u "<NMEA(PAIR001, commandid=401, result=0)>");
  (u "<NMEA(PAIR401, mode=2)>");
  (u "<NMEA(PAIR001, commandid=410, result=0)>");
  (u "<NMEA(PAIR001, commandid=411, result=0)>");
  (u "<NMEA(PAIR411, enabled=1)>");
  (u "<NMEA(PAIR001, commandid=420, result=0)>");
  (u "<NMEA(PAIR001, commandid=421, result=0)>");
  (u "<NMEA(PAIR421, enabled=1)>");
  (u "<NMEA(PAIR001, commandid=433, result=0)>");
  (u "<NMEA(PAIR433, mode=-1)>");
  (u "<NMEA(PAIR001, commandid=434, result=0)>");
  (u "<NMEA(PAIR001, commandid=435, result=0)>");
  (u "<NMEA(PAIR435, enabled=1)>");
  (u "<NMEA(PAIR001, commandid=436, result=0)>");
  (u "<NMEA(PAIR001, commandid=437, result=0)>");
  (u "<NMEA(PAIR437, enabled=1)>");
  (u "<NMEA(PAIR001, commandid=650, result=0)>");
  (u "<NMEA(PAIR650, second=0)>");
  (u "<NMEA(PAIR001, commandid=752, result=0)>");
  (u "<NMEA(PAIR001, commandid=864, result=0)>");
  (u "<NMEA(PAIR001, commandid=865, result=0)>");
  (u "<NMEA(PAIR865, baudrate=115200)>");
  (u "<NMEA(PAIR001, commandid=866, result=0)>");
  (u "<NMEA(PAIR001, commandid=867, result=0)>");
  (u "<NMEA(PAIR867, flowControl=0)>");
  (u "<NMEA(PAIR6011, type=1, rate=0)>");
  (u "<NMEA(PAIR491, enabled=1)>")] = true.
Proof. vm_compute. reflexivity. Qed.
(* tests/pygpsdata_quectel_pair_set.log *)
Definition log_pygpsdata_quectel_pair_set : bytes := concat [
  (u "$PAIR002*38" ++ [10%N]);
  (u "$PAIR003*39" ++ [10%N]);
  (u "$PAIR004*3E" ++ [10%N]);
  (u "$PAIR005*3F" ++ [10%N]);
  (u "$PAIR007*3D" ++ [10%N]);
  (u "$PAIR050,1000*12" ++ [10%N]);
  (u "$PAIR058,15*1F" ++ [10%N]);
  (u "$PAIR062,0,3*3D" ++ [10%N]);
  (u "$PAIR066,1,0,1,1,0,0*3B" ++ [10%N]);
  (u "$PAIR070,4*25" ++ [10%N]);
  (u "$PAIR072,5*26" ++ [10%N]);
  (u "$PAIR074,1*24" ++ [10%N]);
  (u "$PAIR080,1*2F" ++ [10%N]);
  (u "$PAIR081*33" ++ [10%N]);
  (u "$PAIR086,1*29" ++ [10%N]);
  (u "$PAIR382,1*2E" ++ [10%N]);
  (u "$PAIR003*39" ++ [10%N]);
  (u "$PAIR104,0*23" ++ [10%N]);
  (u "$PAIR002*38" ++ [10%N]);
  (u "$PAIR382,1*2E" ++ [10%N]);
  (u "$PAIR391,1*2C" ++ [10%N]);
  (u "$PAIR400,2*20" ++ [10%N]);
  (u "$PAIR410,1*22" ++ [10%N]);
  (u "$PAIR420,1*21" ++ [10%N]);
  (u "$PAIR432,1*22" ++ [10%N]);
  (u "$PAIR434,1*24" ++ [10%N]);
  (u "$PAIR436,1*26" ++ [10%N]);
  (u "$PAIR511*3F" ++ [10%N]);
  (u "$PAIR382,1*2E" ++ [10%N]);
  (u "$PAIR003*39" ++ [10%N]);
  (u "$PAIR511*3F" ++ [10%N]);
  (u "$PAIR002*38" ++ [10%N]);
  (u "$PAIR513*3D" ++ [10%N]);
  (u "$PAIR382,1*2E" ++ [10%N]);
  (u "$PAIR003*39" ++ [10%N]);
  (u "$PAIR513*3D" ++ [10%N]);
  (u "$PAIR002*38" ++ [10%N]);
  (u "$PAIR650,0*25" ++ [10%N]);
  (u "$PAIR752,2,100*39" ++ [10%N]);
  (u "$PAIR864,0,0,115200*1B" ++ [10%N]);
  (u "$PAIR866,0,0,1*2F" ++ [10%N]);
  (u "$PAIR6010,0,1*0C" ++ [10%N]);
  (u "$PAIR490,1*2A" ++ [10%N]);
  (u "$PAIR512*3C" ++ [10%N])].
(* test_quectel.py:904 testNMEAQUECTELAIRSET *)
Example testNMEAQUECTELAIRSET : prints (mkrcfg 1 1 false 1 None []) log_pygpsdata_quectel_pair_set [
  (u "<NMEA(PAIR002)>");
  (u "<NMEA(PAIR003)>");
  (u "<NMEA(PAIR004)>");
  (u "<NMEA(PAIR005)>");
  (u "<NMEA(PAIR007)>");
  (u "<NMEA(PAIR050, time=1000)>");
  (u "<NMEA(PAIR058, minsnr=15)>");
  (u "<NMEA(PAIR062, type=0, rate=3)>");
  (u "<NMEA(PAIR066, gpsEnabled=1, glonassEnabled=0, galileoEnabled=1, bdsEnabled=1, qzssEnabled=0, navicEnabled=0)>");
  (u "<NMEA(PAIR070, speedThreshold=4)>");
  (u "<NMEA(PAIR072, degree=5)>");
  (u "<NMEA(PAIR074, enabled=1)>");
  (u "<NMEA(PAIR080, navMode=1)>");
  (u "<NMEA(PAIR081)>");
  (u "<NMEA(PAIR086, status=1)>");
  (u "<NMEA(PAIR382, enabled=1)>");
  (u "<NMEA(PAIR003)>");
  (u "<NMEA(PAIR104, dualBandEnabled=0)>");
  (u "<NMEA(PAIR002)>");
  (u "<NMEA(PAIR382, enabled=1)>");
  (u "<NMEA(PAIR391, cmdType=1)>");
  (u "<NMEA(PAIR400, mode=2)>");
  (u "<NMEA(PAIR410, enabled=1)>");
  (u "<NMEA(PAIR420, enabled=1)>");
  (u "<NMEA(PAIR432, mode=1)>");
  (u "<NMEA(PAIR434, enabled=1)>");
  (u "<NMEA(PAIR436, enabled=1)>");
  (u "<NMEA(PAIR511)>");
  (u "<NMEA(PAIR382, enabled=1)>");
  (u "<NMEA(PAIR003)>");
  (u "<NMEA(PAIR511)>");
  (u "<NMEA(PAIR002)>");
  (u "<NMEA(PAIR513)>");
  (u "<NMEA(PAIR382, enabled=1)>");
  (u "<NMEA(PAIR003)>");
  (u "<NMEA(PAIR513)>");
  (u "<NMEA(PAIR002)>");
  (u "<NMEA(PAIR650, second=0)>");
  (u "<NMEA(PAIR752, ppsType=2)>");
  (u "<NMEA(PAIR864, portType=0, portIndex=0, baudrate=115200)>");
  (u "<NMEA(PAIR866, portType=0, portIndex=0, flowControl=1)>");
  (u "<NMEA(PAIR6010, type=0, rate=1)>");
  (u "<NMEA(PAIR490, enabled=1)>");
  (u "<NMEA(PAIR512)>")] = true.
Proof. vm_compute. reflexivity. Qed.
(* tests/pygpsdata_quectel_pair_poll.log *)
Definition log_pygpsdata_quectel_pair_poll : bytes := concat [
  (u "$PAIR051*3E" ++ [10%N]);
  (u "$PAIR059*36" ++ [10%N]);
  (u "$PAIR063,0*23" ++ [10%N]);
  (u "$PAIR067*3B" ++ [10%N]);
  (u "$PAIR071*3C" ++ [10%N]);
  (u "$PAIR073*3E" ++ [10%N]);
  (u "$PAIR075*38" ++ [10%N]);
  (u "$PAIR081*33" ++ [10%N]);
  (u "$PAIR087*35" ++ [10%N]);
  (u "$PAIR101*3A" ++ [10%N]);
  (u "$PAIR105*3E" ++ [10%N]);
  (u "$PAIR401*3F" ++ [10%N]);
  (u "$PAIR411*3E" ++ [10%N]);
  (u "$PAIR421*3D" ++ [10%N]);
  (u "$PAIR433*3E" ++ [10%N]);
  (u "$PAIR435*38" ++ [10%N]);
  (u "$PAIR437*3A" ++ [10%N]);
  (u "$PAIR865,0,0*31" ++ [10%N]);
  (u "$PAIR867,0,0*33" ++ [10%N]);
  (u "$PAIR6011,1*11" ++ [10%N]);
  (u "$PAIR491*36" ++ [10%N])].
(* test_quectel.py:965 testNMEAQUECTELAIRPOLL *)
Example testNMEAQUECTELAIRPOLL : prints (mkrcfg 2 1 false 1 None []) log_pygpsdata_quectel_pair_poll [
  (u "<NMEA(PAIR051)>");
  (u "<NMEA(PAIR059)>");
  (u "<NMEA(PAIR063, type=0)>");
  (u "<NMEA(PAIR067)>");
  (u "<NMEA(PAIR071)>");
  (u "<NMEA(PAIR073)>");
  (u "<NMEA(PAIR075)>");
  (u "<NMEA(PAIR081)>");
  (u "<NMEA(PAIR087)>");
  (u "<NMEA(PAIR101)>");
  (u "<NMEA(PAIR105)>");
  (u "<NMEA(PAIR401)>");
  (u "<NMEA(PAIR411)>");
  (u "<NMEA(PAIR421)>");
  (u "<NMEA(PAIR433)>");
  (u "<NMEA(PAIR435)>");
  (u "<NMEA(PAIR437)>");
  (u "<NMEA(PAIR865, portType=0, portIndex=0)>");
  (u "<NMEA(PAIR867, portType=0, portIndex=0)>");
  (u "<NMEA(PAIR6011, type=1)>");
  (u "<NMEA(PAIR491)>")] = true.
Proof. vm_compute. reflexivity. Qed.
(* test_parse.py:41 testParseGLL *)
Example testParseGLL : parsed (u "$GNGLL,5327.04319,S,00214.41396,E,223232.00,A,A*68" ++ crlf) 0 1 = Ok (u "<NMEA(GNGLL, lat=-53.4507198333, NS=S, lon=2.2402326667, EW=E, time=22:32:32, status=A, posMode=A)>").
Proof. vm_compute. reflexivity. Qed.
(* test_parse.py:50 testParseGLL_HPMODE *)
Example testParseGLL_HPMODE : parsed (u "$GNGLL,5327.0431923,S,00214.4139641,E,223232.00,A,A*6C" ++ crlf) 0 1 = Ok (u "<NMEA(GNGLL, lat=-53.4507198717, NS=S, lon=2.240232735, EW=E, time=22:32:32, status=A, posMode=A)>").
Proof. vm_compute. reflexivity. Qed.
(* test_parse.py:60 testParsePKLSH *)
Example testParsePKLSH : parsed (u "$PKLSH,3851.3330,N,09447.9417,W,012212,V,100,1202,*24" ++ crlf) 0 1 = Ok (u "<NMEA(PKLSH, lat=38.85555, NS=N, lon=-94.7990283333, EW=W, time=01:22:12, status=V, fleetId=100, deviceId=1202)>").
Proof. vm_compute. reflexivity. Qed.
(* test_parse.py:67 testParsePUBX *)
Example testParsePUBX : parsed (u "$PUBX,00,103607.00,5327.03942,N,00214.42462,W,104.461,G3,29,31,0.085,39.63,-0.007,,5.88,7.62,8.09,6,0,0*69" ++ crlf) 0 1 = Ok (u "<NMEA(PUBX00, msgId=00, time=10:36:07, lat=53.450657, NS=N, lon=-2.2404103333, EW=W, altRef=104.461, navStat=G3, hAcc=29.0, vAcc=31.0, SOG=0.085, COG=39.63, vVel=-0.007, diffAge=, HDOP=5.88, VDOP=7.62, TDOP=8.09, numSVs=6, reserved=0, DR=0)>").
Proof. vm_compute. reflexivity. Qed.
(* test_parse.py:76 testParsePGRMM *)
Example testParsePGRMM : parsed (u "$PGRMM,WGS84*26" ++ crlf) 0 1 = Ok (u "<NMEA(PGRMM, dtm=WGS84)>").
Proof. vm_compute. reflexivity. Qed.
(* test_parse.py:80 testParsePGRMO *)
Example testParsePGRMO : parsed (u "$PGRMO,PGRMM,2*30" ++ crlf) 1 1 = Ok (u "<NMEA(PGRMO, msgId=PGRMM, tgtmode=2)>").
Proof. vm_compute. reflexivity. Qed.
(* test_parse.py:84 testParseNK *)
Example testParseNK : parsed (u "$GNXXX,5327.04319,S,00214.41396,E,223232.00,A,A*77" ++ crlf) 0 3 = Raise NMEAParseError.
Proof. vm_compute. reflexivity. Qed.
(* test_parse.py:92 testParseNK2 *)
Example testParseNK2 : parsed (u "$GNXXX,5327.04319,S,00214.41396,E,223232.00,A,A*77" ++ crlf) 0 1 = Ok (u "<NMEA(GNXXX, NOMINAL, field_01=5327.04319, field_02=S, field_03=00214.41396, field_04=E, field_05=223232.00, field_06=A, field_07=A)>").
Proof. vm_compute. reflexivity. Qed.
(* test_parse.py:99 testParseBADMODE *)
Example testParseBADMODE : parsed (u "$GNGLL,5327.04319,S,00214.41396,E,223232.00,A,A*68" ++ crlf) 4 1 = Raise NMEAParseError.
Proof. vm_compute. reflexivity. Qed.
(* test_parse.py:105 testParseBADCK *)
Example testParseBADCK : parsed (u "$GNGLL,5327.04319,S,00214.41396,E,223232.00,A,A*22" ++ crlf) 0 1 = Raise NMEAParseError.
Proof. vm_compute. reflexivity. Qed.
(* test_constructor.py:32 testFill_GNGLL *)
Example testFill_GNGLL : made_text (u "GN") (u "GLL") 0 false 1 (Some [(u "5327.04319"); (u "S"); (u "00214.41396"); (u "E"); (u "223232.00"); (u "A"); (u "A")]) [] = Ok (u "<NMEA(GNGLL, lat=-53.4507198333, NS=S, lon=2.2402326667, EW=E, time=22:32:32, status=A, posMode=A)>").
Proof. vm_compute. reflexivity. Qed.
(* test_constructor.py:44 testFill_GNGLL_HP *)
Example testFill_GNGLL_HP : made_text (u "GN") (u "GLL") 0 true 1 None [((u "lat"), (VFloat (f_norm 3034543498841689 (-46)))); ((u "lon"), (VFloat (f_norm (-3363799721691863) (-50)))); ((u "time"), (VTime (mktime 16 29 24 123456))); ((u "status"), (VStr (u "A"))); ((u "posMode"), (VStr (u "A")))] = Ok (u "<NMEA(GNGLL, lat=43.123456789, NS=N, lon=-2.987654321, EW=W, time=16:29:24.123456, status=A, posMode=A)>").
Proof. vm_compute. reflexivity. Qed.
(* test_constructor.py:44 testFill_GNGLL_HP *)
Example testFill_GNGLL_HP_payload : made_payload (u "GN") (u "GLL") 0 true 1 None [((u "lat"), (VFloat (f_norm 3034543498841689 (-46)))); ((u "lon"), (VFloat (f_norm (-3363799721691863) (-50)))); ((u "time"), (VTime (mktime 16 29 24 123456))); ((u "status"), (VStr (u "A"))); ((u "posMode"), (VStr (u "A")))] = Ok [(u "4307.4074073"); (u "N"); (u "00259.2592593"); (u "W"); (u "162924.12"); (u "A"); (u "A")].
Proof. vm_compute. reflexivity. Qed.
(* test_constructor.py:72 testFill_GNGLL_SP *)
Example testFill_GNGLL_SP : made_text (u "GN") (u "GLL") 0 false 1 None [((u "lat"), (VFloat (f_norm 3034543498841689 (-46)))); ((u "lon"), (VFloat (f_norm (-3363799721691863) (-50)))); ((u "time"), (VStr (u "22:32:32"))); ((u "status"), (VStr (u "A"))); ((u "posMode"), (VStr (u "A")))] = Ok (u "<NMEA(GNGLL, lat=43.123456789, NS=N, lon=-2.987654321, EW=W, time=22:32:32, status=A, posMode=A)>").
Proof. vm_compute. reflexivity. Qed.
(* test_constructor.py:72 testFill_GNGLL_SP *)
Example testFill_GNGLL_SP_payload : made_payload (u "GN") (u "GLL") 0 false 1 None [((u "lat"), (VFloat (f_norm 3034543498841689 (-46)))); ((u "lon"), (VFloat (f_norm (-3363799721691863) (-50)))); ((u "time"), (VStr (u "22:32:32"))); ((u "status"), (VStr (u "A"))); ((u "posMode"), (VStr (u "A")))] = Ok [(u "4307.40741"); (u "N"); (u "00259.25926"); (u "W"); (u "223232"); (u "A"); (u "A")].
Proof. vm_compute. reflexivity. Qed.
(* test_constructor.py:89 testFill_GNGLL_NSEW1 *)
Example testFill_GNGLL_NSEW1 : made_text (u "GN") (u "GLL") 0 false 1 None [((u "lat"), (VFloat (f_norm (-3034543498841689) (-46)))); ((u "lon"), (VFloat (f_norm (-3363799721691863) (-50)))); ((u "time"), (VStr (u "22:32:32"))); ((u "status"), (VStr (u "A"))); ((u "posMode"), (VStr (u "A")))] = Ok (u "<NMEA(GNGLL, lat=-43.123456789, NS=S, lon=-2.987654321, EW=W, time=22:32:32, status=A, posMode=A)>").
Proof. vm_compute. reflexivity. Qed.
(* test_constructor.py:89 testFill_GNGLL_NSEW1 *)
Example testFill_GNGLL_NSEW1_payload : made_payload (u "GN") (u "GLL") 0 false 1 None [((u "lat"), (VFloat (f_norm (-3034543498841689) (-46)))); ((u "lon"), (VFloat (f_norm (-3363799721691863) (-50)))); ((u "time"), (VStr (u "22:32:32"))); ((u "status"), (VStr (u "A"))); ((u "posMode"), (VStr (u "A")))] = Ok [(u "4307.40741"); (u "S"); (u "00259.25926"); (u "W"); (u "223232"); (u "A"); (u "A")].
Proof. vm_compute. reflexivity. Qed.
(* test_constructor.py:108 testFill_GNGLL_NSEW2 *)
Example testFill_GNGLL_NSEW2 : made_text (u "GN") (u "GLL") 0 false 1 None [((u "lat"), (VFloat (f_norm 3034543498841689 (-46)))); ((u "lon"), (VFloat (f_norm 3363799721691863 (-50)))); ((u "time"), (VStr (u "22:32:32"))); ((u "status"), (VStr (u "A"))); ((u "posMode"), (VStr (u "A")))] = Ok (u "<NMEA(GNGLL, lat=43.123456789, NS=N, lon=2.987654321, EW=E, time=22:32:32, status=A, posMode=A)>").
Proof. vm_compute. reflexivity. Qed.
(* test_constructor.py:108 testFill_GNGLL_NSEW2 *)
Example testFill_GNGLL_NSEW2_payload : made_payload (u "GN") (u "GLL") 0 false 1 None [((u "lat"), (VFloat (f_norm 3034543498841689 (-46)))); ((u "lon"), (VFloat (f_norm 3363799721691863 (-50)))); ((u "time"), (VStr (u "22:32:32"))); ((u "status"), (VStr (u "A"))); ((u "posMode"), (VStr (u "A")))] = Ok [(u "4307.40741"); (u "N"); (u "00259.25926"); (u "E"); (u "223232"); (u "A"); (u "A")].
Proof. vm_compute. reflexivity. Qed.
(* test_constructor.py:127 testFill_GNGLL_NSEW3 *)
Example testFill_GNGLL_NSEW3 : made_text (u "GN") (u "GLL") 0 false 1 None [((u "lat"), (VFloat (f_norm 3034543498841689 (-46)))); ((u "lon"), (VFloat (f_norm (-3363799721691863) (-50)))); ((u "time"), (VStr (u "22:32:32"))); ((u "status"), (VStr (u "A"))); ((u "posMode"), (VStr (u "A")))] = Ok (u "<NMEA(GNGLL, lat=43.123456789, NS=N, lon=-2.987654321, EW=W, time=22:32:32, status=A, posMode=A)>").
Proof. vm_compute. reflexivity. Qed.
(* test_constructor.py:127 testFill_GNGLL_NSEW3 *)
Example testFill_GNGLL_NSEW3_payload : made_payload (u "GN") (u "GLL") 0 false 1 None [((u "lat"), (VFloat (f_norm 3034543498841689 (-46)))); ((u "lon"), (VFloat (f_norm (-3363799721691863) (-50)))); ((u "time"), (VStr (u "22:32:32"))); ((u "status"), (VStr (u "A"))); ((u "posMode"), (VStr (u "A")))] = Ok [(u "4307.40741"); (u "N"); (u "00259.25926"); (u "W"); (u "223232"); (u "A"); (u "A")].
Proof. vm_compute. reflexivity. Qed.
(* test_constructor.py:146 testFill_GRMI *)
Example testFill_GRMI : made_text (u "P") (u "GRMI") 1 false 1 None [((u "lat"), (VFloat (f_norm 3034543498841689 (-46)))); ((u "lon"), (VFloat (f_norm (-3363799721691863) (-50)))); ((u "date"), (VStr (u "2025-09-18"))); ((u "time"), (VStr (u "22:32:32"))); ((u "rcvr_cmd"), (VStr (u "D")))] = Ok (u "<NMEA(PGRMI, lat=43.123456789, NS=N, lon=-2.987654321, EW=W, date=2025-09-18, time=22:32:32, rcvr_cmd=D)>").
Proof. vm_compute. reflexivity. Qed.
(* test_constructor.py:146 testFill_GRMI *)
Example testFill_GRMI_payload : made_payload (u "P") (u "GRMI") 1 false 1 None [((u "lat"), (VFloat (f_norm 3034543498841689 (-46)))); ((u "lon"), (VFloat (f_norm (-3363799721691863) (-50)))); ((u "date"), (VStr (u "2025-09-18"))); ((u "time"), (VStr (u "22:32:32"))); ((u "rcvr_cmd"), (VStr (u "D")))] = Ok [(u "4307.40741"); (u "N"); (u "00259.25926"); (u "W"); (u "180925"); (u "223232"); (u "D")].
Proof. vm_compute. reflexivity. Qed.
(* test_constructor.py:172 testFill_GNGLLUPD *)
Example testFill_GNGLLUPD : (let! m := made (u "GN") (u "GLL") 0 false 1 (Some [(u "5327.04319"); (u "S"); (u "00214.41396"); (u "E"); (u "223232.00"); (u "A"); (u "A")]) [] in Ok (fst (mstep m (OpSet (u "lon") (VFloat (f_norm 3846819990462687 (-46))))))) = Ok (Some NMEAMessageError).
Proof. vm_compute. reflexivity. Qed.
(* test_constructor.py:186 testFill_BADMODE *)
Example testFill_BADMODE : made (u "GN") (u "GLL") 4 false 1 (Some [(u "5327.04319"); (u "S"); (u "00214.41396"); (u "E"); (u "223232.00"); (u "A"); (u "A")]) [] = Raise NMEAMessageError.
Proof. vm_compute. reflexivity. Qed.
(* test_constructor.py:197 testFill_GNGNQ *)
Example testFill_GNGNQ : made_text (u "GN") (u "GNQ") 2 false 1 None [((u "msgId"), (VStr (u "GGA")))] = Ok (u "<NMEA(GNGNQ, msgId=GGA)>").
Proof. vm_compute. reflexivity. Qed.
(* test_constructor.py:202 testFill_PUBX401 *)
Example testFill_PUBX401 : made_text (u "P") (u "UBX") 1 false 1 (Some [(u "40"); (u "GLL"); (u "0"); (u "1"); (u "0"); (u "1"); (u "0"); (u "0")]) [] = Ok (u "<NMEA(PUBX40, msgId=40, id=GLL, rddc=0, rus1=1, rus2=0, rusb=1, rspi=0, reserved=0)>").
Proof. vm_compute. reflexivity. Qed.
(* test_constructor.py:202 testFill_PUBX401 *)
Example testFill_PUBX401_bytes : made_bytes (u "P") (u "UBX") 1 false 1 (Some [(u "40"); (u "GLL"); (u "0"); (u "1"); (u "0"); (u "1"); (u "0"); (u "0")]) [] = Ok (u "$PUBX,40,GLL,0,1,0,1,0,0*5C" ++ crlf).
Proof. vm_compute. reflexivity. Qed.
(* test_constructor.py:213 testFill_PUBX402 *)
Example testFill_PUBX402 : made_text (u "P") (u "UBX") 1 false 1 None [((u "msgId"), (VStr (u "40"))); ((u "id"), (VInt 3)); ((u "rus1"), (VInt 1)); ((u "rusb"), (VInt 1))] = Ok (u "<NMEA(PUBX40, msgId=40, id=3, rddc=0, rus1=1, rus2=0, rusb=1, rspi=0, reserved=0)>").
Proof. vm_compute. reflexivity. Qed.
(* test_constructor.py:213 testFill_PUBX402 *)
Example testFill_PUBX402_bytes : made_bytes (u "P") (u "UBX") 1 false 1 None [((u "msgId"), (VStr (u "40"))); ((u "id"), (VInt 3)); ((u "rus1"), (VInt 1)); ((u "rusb"), (VInt 1))] = Ok (u "$PUBX,40,3,0,1,0,1,0,0*28" ++ crlf).
Proof. vm_compute. reflexivity. Qed.
(* test_constructor.py:222 testFill_PUBX412 *)
Example testFill_PUBX412 : made_text (u "P") (u "UBX") 1 false 1 None [((u "msgId"), (VStr (u "41"))); ((u "portId"), (VInt 1)); ((u "inProto"), (VInt 1)); ((u "outProto"), (VInt 1)); ((u "baudRate"), (VInt 115200)); ((u "autobauding"), (VInt 0))] = Ok (u "<NMEA(PUBX41, msgId=41, portId=1, inProto=1, outProto=1, baudRate=115200, autobauding=0)>").
Proof. vm_compute. reflexivity. Qed.
(* test_constructor.py:222 testFill_PUBX412 *)
Example testFill_PUBX412_bytes : made_bytes (u "P") (u "UBX") 1 false 1 None [((u "msgId"), (VStr (u "41"))); ((u "portId"), (VInt 1)); ((u "inProto"), (VInt 1)); ((u "outProto"), (VInt 1)); ((u "baudRate"), (VInt 115200)); ((u "autobauding"), (VInt 0))] = Ok (u "$PUBX,41,1,1,1,115200,0*1C" ++ crlf).
Proof. vm_compute. reflexivity. Qed.
(* test_constructor.py:241 testFill_PUBX4ERR *)
Example testFill_PUBX4ERR : made (u "P") (u "UBX") 1 false 1 None [((u "id"), (VInt 3)); ((u "rus1"), (VInt 1)); ((u "rusb"), (VInt 1))] = Raise NMEAMessageError.
Proof. vm_compute. reflexivity. Qed.
(* test_constructor.py:278 testGSV *)
Example testGSV : made_text (u "GP") (u "GSV") 0 false 1 None [((u "numMsg"), (VInt 1)); ((u "msgNum"), (VInt 1)); ((u "numSV"), (VInt 16)); ((u "svid_01"), (VInt 4)); ((u "elv_01"), (VInt 48)); ((u "az_01"), (VInt 25)); ((u "cno_01"), (VInt 45)); ((u "svid_02"), (VInt 6)); ((u "elv_02"), (VInt 78)); ((u "az_02"), (VInt 120)); ((u "cno_02"), (VInt 39)); ((u "svid_03"), (VInt 18)); ((u "elv_03"), (VInt 62)); ((u "az_03"), (VInt 26)); ((u "cno_03"), (VInt 52)); ((u "svid_04"), (VInt 23)); ((u "elv_04"), (VInt 17)); ((u "az_04"), (VInt 99)); ((u "cno_04"), (VInt 47))] = Ok (u "<NMEA(GPGSV, numMsg=1, msgNum=1, numSV=16, svid_01=4, elv_01=48, az_01=25, cno_01=45, svid_02=6, elv_02=78, az_02=120, cno_02=39, svid_03=18, elv_03=62, az_03=26, cno_03=52, svid_04=23, elv_04=17, az_04=99, cno_04=47, signalID=0)>").
Proof. vm_compute. reflexivity. Qed.
(* test_constructor.py:278 testGSV *)
Example testGSV_bytes : made_bytes (u "GP") (u "GSV") 0 false 1 None [((u "numMsg"), (VInt 1)); ((u "msgNum"), (VInt 1)); ((u "numSV"), (VInt 16)); ((u "svid_01"), (VInt 4)); ((u "elv_01"), (VInt 48)); ((u "az_01"), (VInt 25)); ((u "cno_01"), (VInt 45)); ((u "svid_02"), (VInt 6)); ((u "elv_02"), (VInt 78)); ((u "az_02"), (VInt 120)); ((u "cno_02"), (VInt 39)); ((u "svid_03"), (VInt 18)); ((u "elv_03"), (VInt 62)); ((u "az_03"), (VInt 26)); ((u "cno_03"), (VInt 52)); ((u "svid_04"), (VInt 23)); ((u "elv_04"), (VInt 17)); ((u "az_04"), (VInt 99)); ((u "cno_04"), (VInt 47))] = Ok (u "$GPGSV,1,1,16,4,48,25,45,6,78,120,39,18,62,26,52,23,17,99,47,0*56" ++ crlf).
Proof. vm_compute. reflexivity. Qed.
(* test_constructor.py:311 testGSV2 *)
Example testGSV2 : made_text (u "GL") (u "GSV") 0 false 1 None [((u "numMsg"), (VInt 1)); ((u "msgNum"), (VInt 1)); ((u "numSV"), (VInt 16)); ((u "svid_01"), (VInt 4)); ((u "elv_01"), (VInt 48)); ((u "az_01"), (VInt 25)); ((u "cno_01"), (VInt 45)); ((u "svid_02"), (VInt 6)); ((u "elv_02"), (VInt 78)); ((u "az_02"), (VInt 120)); ((u "cno_02"), (VInt 39))] = Ok (u "<NMEA(GLGSV, numMsg=1, msgNum=1, numSV=16, svid_01=4, elv_01=48, az_01=25, cno_01=45, svid_02=6, elv_02=78, az_02=120, cno_02=39, signalID=0)>").
Proof. vm_compute. reflexivity. Qed.
(* test_constructor.py:311 testGSV2 *)
Example testGSV2_bytes : made_bytes (u "GL") (u "GSV") 0 false 1 None [((u "numMsg"), (VInt 1)); ((u "msgNum"), (VInt 1)); ((u "numSV"), (VInt 16)); ((u "svid_01"), (VInt 4)); ((u "elv_01"), (VInt 48)); ((u "az_01"), (VInt 25)); ((u "cno_01"), (VInt 45)); ((u "svid_02"), (VInt 6)); ((u "elv_02"), (VInt 78)); ((u "az_02"), (VInt 120)); ((u "cno_02"), (VInt 39))] = Ok (u "$GLGSV,1,1,16,4,48,25,45,6,78,120,39,0*40" ++ crlf).
Proof. vm_compute. reflexivity. Qed.
(* test_quectel.py:573 *)
Example quectel_00 : made_text (u "P") (u "QTMCFGPPS") 2 false 1 None [] = Ok (u "<NMEA(PQTMCFGPPS, status=R, ppsindex=0)>").
Proof. vm_compute. reflexivity. Qed.
(* test_quectel.py:573 *)
Example quectel_00_bytes : made_bytes (u "P") (u "QTMCFGPPS") 2 false 1 None [] = Ok (u "$PQTMCFGPPS,R,0*6B" ++ crlf).
Proof. vm_compute. reflexivity. Qed.
(* test_quectel.py:574 *)
Example quectel_01 : made_text (u "P") (u "QTMCFGPPS") 0 false 1 None [] = Ok (u "<NMEA(PQTMCFGPPS, status=OK, ppsindex=0, enable=0, duration=0, ppsmode=0, polarity=0, reserved=0)>").
Proof. vm_compute. reflexivity. Qed.
(* test_quectel.py:574 *)
Example quectel_01_bytes : made_bytes (u "P") (u "QTMCFGPPS") 0 false 1 None [] = Ok (u "$PQTMCFGPPS,OK,0,0,0,0,0,0*21" ++ crlf).
Proof. vm_compute. reflexivity. Qed.
(* test_quectel.py:575 *)
Example quectel_02 : made_text (u "P") (u "QTMCFGUART") 1 false 1 None [((u "baudrate"), (VInt 115200))] = Ok (u "<NMEA(PQTMCFGUART, status=W, baudrate=115200)>").
Proof. vm_compute. reflexivity. Qed.
(* test_quectel.py:575 *)
Example quectel_02_bytes : made_bytes (u "P") (u "QTMCFGUART") 1 false 1 None [((u "baudrate"), (VInt 115200))] = Ok (u "$PQTMCFGUART,W,115200*18" ++ crlf).
Proof. vm_compute. reflexivity. Qed.
(* test_quectel.py:576 *)
Example quectel_03 : made_text (u "P") (u "QTMCFGUART") 1 false 1 None [((u "portid"), (VInt 1)); ((u "baudrate"), (VInt 115200))] = Ok (u "<NMEA(PQTMCFGUART, status=W, portid=1, baudrate=115200)>").
Proof. vm_compute. reflexivity. Qed.
(* test_quectel.py:576 *)
Example quectel_03_bytes : made_bytes (u "P") (u "QTMCFGUART") 1 false 1 None [((u "portid"), (VInt 1)); ((u "baudrate"), (VInt 115200))] = Ok (u "$PQTMCFGUART,W,1,115200*05" ++ crlf).
Proof. vm_compute. reflexivity. Qed.
(* test_quectel.py:577 *)
Example quectel_04 : made_text (u "P") (u "QTMCFGUART") 1 false 1 None [((u "baudrate"), (VInt 115200)); ((u "databit"), (VInt 8)); ((u "stopbit"), (VInt 1))] = Ok (u "<NMEA(PQTMCFGUART, status=W, baudrate=115200, databit=8, parity=0, stopbit=1, flowctrl=0)>").
Proof. vm_compute. reflexivity. Qed.
(* test_quectel.py:577 *)
Example quectel_04_bytes : made_bytes (u "P") (u "QTMCFGUART") 1 false 1 None [((u "baudrate"), (VInt 115200)); ((u "databit"), (VInt 8)); ((u "stopbit"), (VInt 1))] = Ok (u "$PQTMCFGUART,W,115200,8,0,1,0*11" ++ crlf).
Proof. vm_compute. reflexivity. Qed.
(* test_quectel.py:578 *)
Example quectel_05 : made_text (u "P") (u "QTMCFGUART") 1 false 1 None [((u "portid"), (VInt 1)); ((u "baudrate"), (VInt 115200)); ((u "databit"), (VInt 8))] = Ok (u "<NMEA(PQTMCFGUART, status=W, portid=1, baudrate=115200, databit=8, parity=0, stopbit=0, flowctrl=0)>").
Proof. vm_compute. reflexivity. Qed.
(* test_quectel.py:578 *)
Example quectel_05_bytes : made_bytes (u "P") (u "QTMCFGUART") 1 false 1 None [((u "portid"), (VInt 1)); ((u "baudrate"), (VInt 115200)); ((u "databit"), (VInt 8))] = Ok (u "$PQTMCFGUART,W,1,115200,8,0,0,0*0D" ++ crlf).
Proof. vm_compute. reflexivity. Qed.
(* test_quectel.py:579 *)
Example quectel_06 : made_text (u "P") (u "QTMCFGUART") 2 false 1 None [] = Ok (u "<NMEA(PQTMCFGUART, status=R)>").
Proof. vm_compute. reflexivity. Qed.
(* test_quectel.py:579 *)
Example quectel_06_bytes : made_bytes (u "P") (u "QTMCFGUART") 2 false 1 None [] = Ok (u "$PQTMCFGUART,R*36" ++ crlf).
Proof. vm_compute. reflexivity. Qed.
(* test_quectel.py:580 *)
Example quectel_07 : made_text (u "P") (u "QTMCFGUART") 2 false 1 None [((u "portid"), (VInt 1))] = Ok (u "<NMEA(PQTMCFGUART, status=R, portid=1)>").
Proof. vm_compute. reflexivity. Qed.
(* test_quectel.py:580 *)
Example quectel_07_bytes : made_bytes (u "P") (u "QTMCFGUART") 2 false 1 None [((u "portid"), (VInt 1))] = Ok (u "$PQTMCFGUART,R,1*2B" ++ crlf).
Proof. vm_compute. reflexivity. Qed.
(* test_quectel.py:581 *)
Example quectel_08 : made_text (u "P") (u "QTMCFGMSGRATE") 1 false 1 None [((u "msgname"), (VStr (u "GLL"))); ((u "rate"), (VInt 1))] = Ok (u "<NMEA(PQTMCFGMSGRATE, status=W, msgname=GLL, rate=1)>").
Proof. vm_compute. reflexivity. Qed.
(* test_quectel.py:581 *)
Example quectel_08_bytes : made_bytes (u "P") (u "QTMCFGMSGRATE") 1 false 1 None [((u "msgname"), (VStr (u "GLL"))); ((u "rate"), (VInt 1))] = Ok (u "$PQTMCFGMSGRATE,W,GLL,1*0C" ++ crlf).
Proof. vm_compute. reflexivity. Qed.
(* test_quectel.py:582 *)
Example quectel_09 : made_text (u "P") (u "QTMCFGMSGRATE") 1 false 1 None [((u "msgname"), (VStr (u "GLL"))); ((u "rate"), (VInt 1)); ((u "msgver"), (VInt 2))] = Ok (u "<NMEA(PQTMCFGMSGRATE, status=W, msgname=GLL, rate=1, msgver=2)>").
Proof. vm_compute. reflexivity. Qed.
(* test_quectel.py:582 *)
Example quectel_09_bytes : made_bytes (u "P") (u "QTMCFGMSGRATE") 1 false 1 None [((u "msgname"), (VStr (u "GLL"))); ((u "rate"), (VInt 1)); ((u "msgver"), (VInt 2))] = Ok (u "$PQTMCFGMSGRATE,W,GLL,1,2*12" ++ crlf).
Proof. vm_compute. reflexivity. Qed.
(* test_quectel.py:583 *)
Example quectel_10 : made_text (u "P") (u "QTMCFGMSGRATE") 2 false 1 None [((u "msgname"), (VStr (u "GLL")))] = Ok (u "<NMEA(PQTMCFGMSGRATE, status=R, msgname=GLL)>").
Proof. vm_compute. reflexivity. Qed.
(* test_quectel.py:583 *)
Example quectel_10_bytes : made_bytes (u "P") (u "QTMCFGMSGRATE") 2 false 1 None [((u "msgname"), (VStr (u "GLL")))] = Ok (u "$PQTMCFGMSGRATE,R,GLL*14" ++ crlf).
Proof. vm_compute. reflexivity. Qed.
(* test_quectel.py:584 *)
Example quectel_11 : made_text (u "P") (u "QTMCFGMSGRATE") 2 false 1 None [((u "msgname"), (VStr (u "PQTMEPE"))); ((u "msgver"), (VInt 2))] = Ok (u "<NMEA(PQTMCFGMSGRATE, status=R, msgname=PQTMEPE, msgver=2)>").
Proof. vm_compute. reflexivity. Qed.
(* test_quectel.py:584 *)
Example quectel_11_bytes : made_bytes (u "P") (u "QTMCFGMSGRATE") 2 false 1 None [((u "msgname"), (VStr (u "PQTMEPE"))); ((u "msgver"), (VInt 2))] = Ok (u "$PQTMCFGMSGRATE,R,PQTMEPE,2*05" ++ crlf).
Proof. vm_compute. reflexivity. Qed.
(* test_quectel.py:585 *)
Example quectel_12 : made_text (u "P") (u "QTMCFGMSGRATE") 1 false 1 None [((u "porttype"), (VInt 1)); ((u "portid"), (VInt 1)); ((u "msgname"), (VStr (u "0AB2"))); ((u "rate"), (VInt 1)); ((u "msgver"), (VInt 1))] = Ok (u "<NMEA(PQTMCFGMSGRATE, status=W, porttype=1, portid=1, msgname=0AB2, rate=1, msgver=1)>").
Proof. vm_compute. reflexivity. Qed.
(* test_quectel.py:585 *)
Example quectel_12_bytes : made_bytes (u "P") (u "QTMCFGMSGRATE") 1 false 1 None [((u "porttype"), (VInt 1)); ((u "portid"), (VInt 1)); ((u "msgname"), (VStr (u "0AB2"))); ((u "rate"), (VInt 1)); ((u "msgver"), (VInt 1))] = Ok (u "$PQTMCFGMSGRATE,W,1,1,0AB2,1,1*57" ++ crlf).
Proof. vm_compute. reflexivity. Qed.
(* test_quectel.py:595 *)
Example quectel_13 : made_text (u "P") (u "QTMVERNO") 2 false 1 None [] = Ok (u "<NMEA(PQTMVERNO)>").
Proof. vm_compute. reflexivity. Qed.
(* test_quectel.py:595 *)
Example quectel_13_bytes : made_bytes (u "P") (u "QTMVERNO") 2 false 1 None [] = Ok (u "$PQTMVERNO*58" ++ crlf).
Proof. vm_compute. reflexivity. Qed.
(* test_quectel.py:596 *)
Example quectel_14 : made_text (u "P") (u "QTMVER") 0 false 1 None [((u "msgver"), (VInt 1)); ((u "vername"), (VStr (u "MODULE"))); ((u "verstr"), (VStr (u "LG290P03AANR01A03S"))); ((u "builddate"), (VStr (u "2024/04/30"))); ((u "buildtime"), (VStr (u "10:53:07")))] = Ok (u "<NMEA(PQTMVER, msgver=1, vername=MODULE, verstr=LG290P03AANR01A03S, builddate=2024/04/30, buildtime=10:53:07)>").
Proof. vm_compute. reflexivity. Qed.
(* test_quectel.py:596 *)
Example quectel_14_bytes : made_bytes (u "P") (u "QTMVER") 0 false 1 None [((u "msgver"), (VInt 1)); ((u "vername"), (VStr (u "MODULE"))); ((u "verstr"), (VStr (u "LG290P03AANR01A03S"))); ((u "builddate"), (VStr (u "2024/04/30"))); ((u "buildtime"), (VStr (u "10:53:07")))] = Ok (u "$PQTMVER,1,MODULE,LG290P03AANR01A03S,2024/04/30,10:53:07*32" ++ crlf).
Proof. vm_compute. reflexivity. Qed.
(* test_quectel.py:606 *)
Example quectel_15 : made_text (u "P") (u "QTMHOT") 1 false 1 None [] = Ok (u "<NMEA(PQTMHOT)>").
Proof. vm_compute. reflexivity. Qed.
(* test_quectel.py:606 *)
Example quectel_15_bytes : made_bytes (u "P") (u "QTMHOT") 1 false 1 None [] = Ok (u "$PQTMHOT*4B" ++ crlf).
Proof. vm_compute. reflexivity. Qed.
(* test_quectel.py:607 *)
Example quectel_16 : made_text (u "P") (u "QTMWARM") 1 false 1 None [] = Ok (u "<NMEA(PQTMWARM)>").
Proof. vm_compute. reflexivity. Qed.
(* test_quectel.py:607 *)
Example quectel_16_bytes : made_bytes (u "P") (u "QTMWARM") 1 false 1 None [] = Ok (u "$PQTMWARM*11" ++ crlf).
Proof. vm_compute. reflexivity. Qed.
(* test_quectel.py:608 *)
Example quectel_17 : made_text (u "P") (u "QTMCOLD") 1 false 1 None [] = Ok (u "<NMEA(PQTMCOLD)>").
Proof. vm_compute. reflexivity. Qed.
(* test_quectel.py:608 *)
Example quectel_17_bytes : made_bytes (u "P") (u "QTMCOLD") 1 false 1 None [] = Ok (u "$PQTMCOLD*1C" ++ crlf).
Proof. vm_compute. reflexivity. Qed.
(* test_quectel.py:609 *)
Example quectel_18 : made_text (u "P") (u "QTMGNSSSTART") 1 false 1 None [] = Ok (u "<NMEA(PQTMGNSSSTART)>").
Proof. vm_compute. reflexivity. Qed.
(* test_quectel.py:609 *)
Example quectel_18_bytes : made_bytes (u "P") (u "QTMGNSSSTART") 1 false 1 None [] = Ok (u "$PQTMGNSSSTART*51" ++ crlf).
Proof. vm_compute. reflexivity. Qed.
(* test_quectel.py:610 *)
Example quectel_19 : made_text (u "P") (u "QTMGNSSSTOP") 1 false 1 None [] = Ok (u "<NMEA(PQTMGNSSSTOP)>").
Proof. vm_compute. reflexivity. Qed.
(* test_quectel.py:610 *)
Example quectel_19_bytes : made_bytes (u "P") (u "QTMGNSSSTOP") 1 false 1 None [] = Ok (u "$PQTMGNSSSTOP*09" ++ crlf).
Proof. vm_compute. reflexivity. Qed.
(* test_quectel.py:611 *)
Example quectel_20 : made_text (u "P") (u "QTMDEBUGON") 1 false 1 None [] = Ok (u "<NMEA(PQTMDEBUGON)>").
Proof. vm_compute. reflexivity. Qed.
(* test_quectel.py:611 *)
Example quectel_20_bytes : made_bytes (u "P") (u "QTMDEBUGON") 1 false 1 None [] = Ok (u "$PQTMDEBUGON*48" ++ crlf).
Proof. vm_compute. reflexivity. Qed.
(* test_quectel.py:612 *)
Example quectel_21 : made_text (u "P") (u "QTMDEBUGOFF") 1 false 1 None [] = Ok (u "<NMEA(PQTMDEBUGOFF)>").
Proof. vm_compute. reflexivity. Qed.
(* test_quectel.py:612 *)
Example quectel_21_bytes : made_bytes (u "P") (u "QTMDEBUGOFF") 1 false 1 None [] = Ok (u "$PQTMDEBUGOFF*06" ++ crlf).
Proof. vm_compute. reflexivity. Qed.
(* test_quectel.py:613 *)
Example quectel_22 : made_text (u "P") (u "QTMUNIQID") 2 false 1 None [] = Ok (u "<NMEA(PQTMUNIQID)>").
Proof. vm_compute. reflexivity. Qed.
(* test_quectel.py:613 *)
Example quectel_22_bytes : made_bytes (u "P") (u "QTMUNIQID") 2 false 1 None [] = Ok (u "$PQTMUNIQID*16" ++ crlf).
Proof. vm_compute. reflexivity. Qed.
(* test_quectel.py:614 *)
Example quectel_23 : made_text (u "P") (u "QTMRESETODO") 1 false 1 None [] = Ok (u "<NMEA(PQTMRESETODO)>").
Proof. vm_compute. reflexivity. Qed.
(* test_quectel.py:614 *)
Example quectel_23_bytes : made_bytes (u "P") (u "QTMRESETODO") 1 false 1 None [] = Ok (u "$PQTMRESETODO*09" ++ crlf).
Proof. vm_compute. reflexivity. Qed.
(* test_quectel.py:615 *)
Example quectel_24 : made_text (u "P") (u "QTMRESTOREPAR") 1 false 1 None [] = Ok (u "<NMEA(PQTMRESTOREPAR)>").
Proof. vm_compute. reflexivity. Qed.
(* test_quectel.py:615 *)
Example quectel_24_bytes : made_bytes (u "P") (u "QTMRESTOREPAR") 1 false 1 None [] = Ok (u "$PQTMRESTOREPAR*13" ++ crlf).
Proof. vm_compute. reflexivity. Qed.
(* test_quectel.py:616 *)
Example quectel_25 : made_text (u "P") (u "QTMSAVEPAR") 1 false 1 None [] = Ok (u "<NMEA(PQTMSAVEPAR)>").
Proof. vm_compute. reflexivity. Qed.
(* test_quectel.py:616 *)
Example quectel_25_bytes : made_bytes (u "P") (u "QTMSAVEPAR") 1 false 1 None [] = Ok (u "$PQTMSAVEPAR*5A" ++ crlf).
Proof. vm_compute. reflexivity. Qed.
(* test_quectel.py:617 *)
Example quectel_26 : made_text (u "P") (u "QTMCFGCNST") 1 false 1 None [((u "gps"), (VInt 1)); ((u "glonass"), (VInt 1)); ((u "galileo"), (VInt 1)); ((u "beidou"), (VInt 1)); ((u "qzss"), (VInt 0)); ((u "navic"), (VInt 0))] = Ok (u "<NMEA(PQTMCFGCNST, status=W, gps=1, glonass=1, galileo=1, beidou=1, qzss=0, navic=0)>").
Proof. vm_compute. reflexivity. Qed.
(* test_quectel.py:617 *)
Example quectel_26_bytes : made_bytes (u "P") (u "QTMCFGCNST") 1 false 1 None [((u "gps"), (VInt 1)); ((u "glonass"), (VInt 1)); ((u "galileo"), (VInt 1)); ((u "beidou"), (VInt 1)); ((u "qzss"), (VInt 0)); ((u "navic"), (VInt 0))] = Ok (u "$PQTMCFGCNST,W,1,1,1,1,0,0*2B" ++ crlf).
Proof. vm_compute. reflexivity. Qed.
(* test_quectel.py:628 *)
Example quectel_27 : made_text (u "P") (u "QTMCFGFIXRATE") 1 false 1 None [((u "fixinterval"), (VInt 1000))] = Ok (u "<NMEA(PQTMCFGFIXRATE, status=W, fixinterval=1000)>").
Proof. vm_compute. reflexivity. Qed.
(* test_quectel.py:628 *)
Example quectel_27_bytes : made_bytes (u "P") (u "QTMCFGFIXRATE") 1 false 1 None [((u "fixinterval"), (VInt 1000))] = Ok (u "$PQTMCFGFIXRATE,W,1000*59" ++ crlf).
Proof. vm_compute. reflexivity. Qed.
(* test_quectel.py:629 *)
Example quectel_28 : made_text (u "P") (u "QTMSRR") 1 false 1 None [] = Ok (u "<NMEA(PQTMSRR)>").
Proof. vm_compute. reflexivity. Qed.
(* test_quectel.py:629 *)
Example quectel_28_bytes : made_bytes (u "P") (u "QTMSRR") 1 false 1 None [] = Ok (u "$PQTMSRR*4B" ++ crlf).
Proof. vm_compute. reflexivity. Qed.
(* test_quectel.py:630 *)
Example quectel_29 : made_text (u "P") (u "QTMCFGRSID") 1 false 1 None [((u "rsid"), (VInt 1024))] = Ok (u "<NMEA(PQTMCFGRSID, status=W, rsid=1024)>").
Proof. vm_compute. reflexivity. Qed.
(* test_quectel.py:630 *)
Example quectel_29_bytes : made_bytes (u "P") (u "QTMCFGRSID") 1 false 1 None [((u "rsid"), (VInt 1024))] = Ok (u "$PQTMCFGRSID,W,1024*06" ++ crlf).
Proof. vm_compute. reflexivity. Qed.
(* test_quectel.py:631 *)
Example quectel_30 : made_text (u "P") (u "QTMCFGPROT") 1 false 1 None [((u "porttype"), (VInt 1)); ((u "portid"), (VInt 1)); ((u "inputprot"), (VStr (hex2str 5 8))); ((u "outputprot"), (VStr (hex2str 5 8)))] = Ok (u "<NMEA(PQTMCFGPROT, status=W, porttype=1, portid=1, inputprot=00000005, outputprot=00000005)>").
Proof. vm_compute. reflexivity. Qed.
(* test_quectel.py:631 *)
Example quectel_30_bytes : made_bytes (u "P") (u "QTMCFGPROT") 1 false 1 None [((u "porttype"), (VInt 1)); ((u "portid"), (VInt 1)); ((u "inputprot"), (VStr (hex2str 5 8))); ((u "outputprot"), (VStr (hex2str 5 8)))] = Ok (u "$PQTMCFGPROT,W,1,1,00000005,00000005*38" ++ crlf).
Proof. vm_compute. reflexivity. Qed.
(* test_quectel.py:640 *)
Example quectel_31 : made_text (u "P") (u "QTMCFGNMEADP") 1 false 1 None [((u "utcdp"), (VInt 3)); ((u "posdp"), (VInt 8)); ((u "altdp"), (VInt 3)); ((u "dopdp"), (VInt 2)); ((u "spddp"), (VInt 3)); ((u "cogdp"), (VInt 2))] = Ok (u "<NMEA(PQTMCFGNMEADP, status=W, utcdp=3, posdp=8, altdp=3, dopdp=2, spddp=3, cogdp=2)>").
Proof. vm_compute. reflexivity. Qed.
(* test_quectel.py:640 *)
Example quectel_31_bytes : made_bytes (u "P") (u "QTMCFGNMEADP") 1 false 1 None [((u "utcdp"), (VInt 3)); ((u "posdp"), (VInt 8)); ((u "altdp"), (VInt 3)); ((u "dopdp"), (VInt 2)); ((u "spddp"), (VInt 3)); ((u "cogdp"), (VInt 2))] = Ok (u "$PQTMCFGNMEADP,W,3,8,3,2,3,2*39" ++ crlf).
Proof. vm_compute. reflexivity. Qed.
(* test_quectel.py:651 *)
Example quectel_32 : made_text (u "P") (u "QTMCFGODO") 1 false 1 None [((u "state"), (VInt 1)); ((u "initdist"), (VFloat (f_norm 21 (-1))))] = Ok (u "<NMEA(PQTMCFGODO, status=W, state=1, initdist=10.5)>").
Proof. vm_compute. reflexivity. Qed.
(* test_quectel.py:651 *)
Example quectel_32_bytes : made_bytes (u "P") (u "QTMCFGODO") 1 false 1 None [((u "state"), (VInt 1)); ((u "initdist"), (VFloat (f_norm 21 (-1))))] = Ok (u "$PQTMCFGODO,W,1,10.5*4E" ++ crlf).
Proof. vm_compute. reflexivity. Qed.
(* test_quectel.py:658 *)
Example quectel_33 : made_text (u "P") (u "QTMCFGPPS") 1 false 1 None [((u "ppsindex"), (VInt 1)); ((u "enable"), (VInt 1)); ((u "duration"), (VInt 100)); ((u "ppsmode"), (VInt 1)); ((u "polarity"), (VInt 1))] = Ok (u "<NMEA(PQTMCFGPPS, status=W, ppsindex=1, enable=1, duration=100, ppsmode=1, polarity=1, reserved=0)>").
Proof. vm_compute. reflexivity. Qed.
(* test_quectel.py:658 *)
Example quectel_33_bytes : made_bytes (u "P") (u "QTMCFGPPS") 1 false 1 None [((u "ppsindex"), (VInt 1)); ((u "enable"), (VInt 1)); ((u "duration"), (VInt 100)); ((u "ppsmode"), (VInt 1)); ((u "polarity"), (VInt 1))] = Ok (u "$PQTMCFGPPS,W,1,1,100,1,1,0*73" ++ crlf).
Proof. vm_compute. reflexivity. Qed.
(* test_quectel.py:668 *)
Example quectel_34 : made_text (u "P") (u "QTMCFGRCVRMODE") 1 false 1 None [((u "rcvrmode"), (VInt 2))] = Ok (u "<NMEA(PQTMCFGRCVRMODE, status=W, rcvrmode=2)>").
Proof. vm_compute. reflexivity. Qed.
(* test_quectel.py:668 *)
Example quectel_34_bytes : made_bytes (u "P") (u "QTMCFGRCVRMODE") 1 false 1 None [((u "rcvrmode"), (VInt 2))] = Ok (u "$PQTMCFGRCVRMODE,W,2*29" ++ crlf).
Proof. vm_compute. reflexivity. Qed.
(* test_quectel.py:669 *)
Example quectel_35 : made_text (u "P") (u "QTMCFGRTCM") 1 false 1 None [((u "msmtype"), (VInt 4)); ((u "msmmode"), (VInt 0)); ((u "msmelevthd"), (VFloat (f_norm (-90) 0))); ((u "reserved1"), (VStr (u "07"))); ((u "reserved2"), (VStr (u "06"))); ((u "ephmode"), (VInt 1)); ((u "ephinterval"), (VInt 0))] = Ok (u "<NMEA(PQTMCFGRTCM, status=W, msmtype=4, msmmode=0, msmelevthd=-90.0, reserved1=07, reserved2=06, ephmode=1, ephinterval=0)>").
Proof. vm_compute. reflexivity. Qed.
(* test_quectel.py:669 *)
Example quectel_35_bytes : made_bytes (u "P") (u "QTMCFGRTCM") 1 false 1 None [((u "msmtype"), (VInt 4)); ((u "msmmode"), (VInt 0)); ((u "msmelevthd"), (VFloat (f_norm (-90) 0))); ((u "reserved1"), (VStr (u "07"))); ((u "reserved2"), (VStr (u "06"))); ((u "ephmode"), (VInt 1)); ((u "ephinterval"), (VInt 0))] = Ok (u "$PQTMCFGRTCM,W,4,0,-90.0,07,06,1,0*3B" ++ crlf).
Proof. vm_compute. reflexivity. Qed.
(* test_quectel.py:681 *)
Example quectel_36 : made_text (u "P") (u "QTMCFGRTK") 1 false 1 None [((u "diffmode"), (VInt 1)); ((u "relmode"), (VInt 1))] = Ok (u "<NMEA(PQTMCFGRTK, status=W, diffmode=1, relmode=1)>").
Proof. vm_compute. reflexivity. Qed.
(* test_quectel.py:681 *)
Example quectel_36_bytes : made_bytes (u "P") (u "QTMCFGRTK") 1 false 1 None [((u "diffmode"), (VInt 1)); ((u "relmode"), (VInt 1))] = Ok (u "$PQTMCFGRTK,W,1,1*6C" ++ crlf).
Proof. vm_compute. reflexivity. Qed.
(* test_quectel.py:682 *)
Example quectel_37 : made_text (u "P") (u "QTMCFGSAT") 1 false 1 None [((u "systemid"), (VInt 1)); ((u "signalid"), (VInt 1)); ((u "masklow"), (VStr (hex2str 4294967295 8)))] = Ok (u "<NMEA(PQTMCFGSAT, status=W, systemid=1, signalid=1, masklow=FFFFFFFF)>").
Proof. vm_compute. reflexivity. Qed.
(* test_quectel.py:682 *)
Example quectel_37_bytes : made_bytes (u "P") (u "QTMCFGSAT") 1 false 1 None [((u "systemid"), (VInt 1)); ((u "signalid"), (VInt 1)); ((u "masklow"), (VStr (hex2str 4294967295 8)))] = Ok (u "$PQTMCFGSAT,W,1,1,FFFFFFFF*4B" ++ crlf).
Proof. vm_compute. reflexivity. Qed.
(* test_quectel.py:690 *)
Example quectel_38 : made_text (u "P") (u "QTMCFGSAT") 1 false 1 None [((u "systemid"), (VInt 4)); ((u "signalid"), (VInt 1)); ((u "masklow"), (VStr (hex2str 3221012479 8))); ((u "maskhigh"), (VStr (hex2str 469778431 8)))] = Ok (u "<NMEA(PQTMCFGSAT, status=W, systemid=4, signalid=1, masklow=BFFCBFFF, maskhigh=1C003FFF)>").
Proof. vm_compute. reflexivity. Qed.
(* test_quectel.py:690 *)
Example quectel_38_bytes : made_bytes (u "P") (u "QTMCFGSAT") 1 false 1 None [((u "systemid"), (VInt 4)); ((u "signalid"), (VInt 1)); ((u "masklow"), (VStr (hex2str 3221012479 8))); ((u "maskhigh"), (VStr (hex2str 469778431 8)))] = Ok (u "$PQTMCFGSAT,W,4,1,BFFCBFFF,1C003FFF*60" ++ crlf).
Proof. vm_compute. reflexivity. Qed.
(* test_quectel.py:699 *)
Example quectel_39 : made_text (u "P") (u "QTMCFGSIGNAL") 1 false 1 None [((u "gpssig"), (VStr (hex2str 7 0))); ((u "glonasssig"), (VStr (hex2str 3 0))); ((u "galileosig"), (VStr (hex2str 15 0))); ((u "beidousig"), (VStr (hex2str 63 0))); ((u "qzsssig"), (VStr (hex2str 7 0))); ((u "navicsig"), (VStr (hex2str 1 0)))] = Ok (u "<NMEA(PQTMCFGSIGNAL, status=W, gpssig=7, glonasssig=3, galileosig=F, beidousig=3F, qzsssig=7, navicsig=1)>").
Proof. vm_compute. reflexivity. Qed.
(* test_quectel.py:699 *)
Example quectel_39_bytes : made_bytes (u "P") (u "QTMCFGSIGNAL") 1 false 1 None [((u "gpssig"), (VStr (hex2str 7 0))); ((u "glonasssig"), (VStr (hex2str 3 0))); ((u "galileosig"), (VStr (hex2str 15 0))); ((u "beidousig"), (VStr (hex2str 63 0))); ((u "qzsssig"), (VStr (hex2str 7 0))); ((u "navicsig"), (VStr (hex2str 1 0)))] = Ok (u "$PQTMCFGSIGNAL,W,7,3,F,3F,7,1*0E" ++ crlf).
Proof. vm_compute. reflexivity. Qed.
(* test_quectel.py:710 *)
Example quectel_40 : made_text (u "P") (u "QTMCFGSVIN") 1 false 1 None [((u "svinmode"), (VInt 1)); ((u "cfgcnt"), (VInt 3600)); ((u "acclimit"), (VFloat (f_norm 5404319552844595 (-52)))); ((u "ecefx"), (VFloat (f_norm (-1352520125714845) (-29)))); ((u "ecefy"), (VFloat (f_norm 650893556738687 (-27)))); ((u "ecefz"), (VFloat (f_norm 3519548148559957 (-30))))] = Ok (u "<NMEA(PQTMCFGSVIN, status=W, svinmode=1, cfgcnt=3600, acclimit=1.2, ecefx=-2519265.0514, ecefy=4849534.9045, ecefz=3277834.6432)>").
Proof. vm_compute. reflexivity. Qed.
(* test_quectel.py:710 *)
Example quectel_40_bytes : made_bytes (u "P") (u "QTMCFGSVIN") 1 false 1 None [((u "svinmode"), (VInt 1)); ((u "cfgcnt"), (VInt 3600)); ((u "acclimit"), (VFloat (f_norm 5404319552844595 (-52)))); ((u "ecefx"), (VFloat (f_norm (-1352520125714845) (-29)))); ((u "ecefy"), (VFloat (f_norm 650893556738687 (-27)))); ((u "ecefz"), (VFloat (f_norm 3519548148559957 (-30))))] = Ok (u "$PQTMCFGSVIN,W,1,3600,1.2,-2519265.0514,4849534.9045,3277834.6432*01" ++ crlf).
Proof. vm_compute. reflexivity. Qed.
(* test_quectel.py:721 *)
Example quectel_41 : made_text (u "P") (u "QTMCFGGEOFENCE") 1 false 1 None [((u "geofenceindex"), (VInt 0)); ((u "geofencemode"), (VInt 1)); ((u "shape"), (VInt 0)); ((u "lat0"), (VFloat (f_norm 4426369649160533 (-47)))); ((u "lon0"), (VFloat (f_norm 4132448306376569 (-45)))); ((u "radiuslat1"), (VFloat (f_norm 201 (-1))))] = Ok (u "<NMEA(PQTMCFGGEOFENCE, status=W, geofenceindex=0, geofencemode=1, reserved=0, shape=0, lat0=31.451248, lon0=117.451245, radiuslat1=100.5)>").
Proof. vm_compute. reflexivity. Qed.
(* test_quectel.py:721 *)
Example quectel_41_bytes : made_bytes (u "P") (u "QTMCFGGEOFENCE") 1 false 1 None [((u "geofenceindex"), (VInt 0)); ((u "geofencemode"), (VInt 1)); ((u "shape"), (VInt 0)); ((u "lat0"), (VFloat (f_norm 4426369649160533 (-47)))); ((u "lon0"), (VFloat (f_norm 4132448306376569 (-45)))); ((u "radiuslat1"), (VFloat (f_norm 201 (-1))))] = Ok (u "$PQTMCFGGEOFENCE,W,0,1,0,0,31.451248,117.451245,100.5*18" ++ crlf).
Proof. vm_compute. reflexivity. Qed.
(* test_quectel.py:732 *)
Example quectel_42 : made_text (u "P") (u "QTMCFGGEOFENCE") 1 false 1 None [((u "geofenceindex"), (VInt 0)); ((u "geofencemode"), (VInt 1)); ((u "shape"), (VInt 3)); ((u "lat0"), (VFloat (f_norm 4426369649160533 (-47)))); ((u "lon0"), (VFloat (f_norm 4132448306376569 (-45)))); ((u "radiuslat1"), (VFloat (f_norm 201 (-1)))); ((u "lon1"), (VFloat (f_norm 869757678035927 (-46)))); ((u "lat2"), (VFloat (f_norm 5998231753704079 (-46)))); ((u "lon2"), (VFloat (f_norm 4177088654386135 (-45)))); ((u "lat3"), (VFloat (f_norm 3972315608829133 (-46)))); ((u "lon3"), (VFloat (f_norm 1232596515202007 (-43))))] = Ok (u "<NMEA(PQTMCFGGEOFENCE, status=W, geofenceindex=0, geofencemode=1, reserved=0, shape=3, lat0=31.451248, lon0=117.451245, radiuslat1=100.5, lon1=12.36, lat2=85.24, lon2=118.72, lat3=56.45, lon3=140.13)>").
Proof. vm_compute. reflexivity. Qed.
(* test_quectel.py:732 *)
Example quectel_42_bytes : made_bytes (u "P") (u "QTMCFGGEOFENCE") 1 false 1 None [((u "geofenceindex"), (VInt 0)); ((u "geofencemode"), (VInt 1)); ((u "shape"), (VInt 3)); ((u "lat0"), (VFloat (f_norm 4426369649160533 (-47)))); ((u "lon0"), (VFloat (f_norm 4132448306376569 (-45)))); ((u "radiuslat1"), (VFloat (f_norm 201 (-1)))); ((u "lon1"), (VFloat (f_norm 869757678035927 (-46)))); ((u "lat2"), (VFloat (f_norm 5998231753704079 (-46)))); ((u "lon2"), (VFloat (f_norm 4177088654386135 (-45)))); ((u "lat3"), (VFloat (f_norm 3972315608829133 (-46)))); ((u "lon3"), (VFloat (f_norm 1232596515202007 (-43))))] = Ok (u "$PQTMCFGGEOFENCE,W,0,1,0,3,31.451248,117.451245,100.5,12.36,85.24,118.72,56.45,140.13*1C" ++ crlf).
Proof. vm_compute. reflexivity. Qed.
(* test_quectel.py:748 *)
Example quectel_43 : made_text (u "P") (u "QTMCFGPPS") 2 false 1 None [((u "ppsindex"), (VInt 1))] = Ok (u "<NMEA(PQTMCFGPPS, status=R, ppsindex=1)>").
Proof. vm_compute. reflexivity. Qed.
(* test_quectel.py:748 *)
Example quectel_43_bytes : made_bytes (u "P") (u "QTMCFGPPS") 2 false 1 None [((u "ppsindex"), (VInt 1))] = Ok (u "$PQTMCFGPPS,R,1*6A" ++ crlf).
Proof. vm_compute. reflexivity. Qed.
(* test_quectel.py:754 *)
Example quectel_44 : made_text (u "P") (u "QTMCFGPPS") 1 false 1 None [((u "ppsindex"), (VInt 1)); ((u "enable"), (VInt 0))] = Ok (u "<NMEA(PQTMCFGPPS, status=W, ppsindex=1, enable=0)>").
Proof. vm_compute. reflexivity. Qed.
(* test_quectel.py:754 *)
Example quectel_44_bytes : made_bytes (u "P") (u "QTMCFGPPS") 1 false 1 None [((u "ppsindex"), (VInt 1)); ((u "enable"), (VInt 0))] = Ok (u "$PQTMCFGPPS,W,1,0*73" ++ crlf).
Proof. vm_compute. reflexivity. Qed.
(* test_quectel.py:761 *)
Example quectel_45 : made_text (u "P") (u "QTMCFGPROT") 2 false 1 None [((u "porttype"), (VInt 1)); ((u "portid"), (VInt 1))] = Ok (u "<NMEA(PQTMCFGPROT, status=R, porttype=1, portid=1)>").
Proof. vm_compute. reflexivity. Qed.
(* test_quectel.py:761 *)
Example quectel_45_bytes : made_bytes (u "P") (u "QTMCFGPROT") 2 false 1 None [((u "porttype"), (VInt 1)); ((u "portid"), (VInt 1))] = Ok (u "$PQTMCFGPROT,R,1,1*3D" ++ crlf).
Proof. vm_compute. reflexivity. Qed.
(* test_quectel.py:768 *)
Example quectel_46 : made_text (u "P") (u "QTMCFGNMEADP") 2 false 1 None [] = Ok (u "<NMEA(PQTMCFGNMEADP, status=R)>").
Proof. vm_compute. reflexivity. Qed.
(* test_quectel.py:768 *)
Example quectel_46_bytes : made_bytes (u "P") (u "QTMCFGNMEADP") 2 false 1 None [] = Ok (u "$PQTMCFGNMEADP,R*37" ++ crlf).
Proof. vm_compute. reflexivity. Qed.
(* test_quectel.py:773 *)
Example quectel_47 : made_text (u "P") (u "QTMCFGMSGRATE") 2 false 1 None [((u "msgname"), (VStr (u "GGA")))] = Ok (u "<NMEA(PQTMCFGMSGRATE, status=R, msgname=GGA)>").
Proof. vm_compute. reflexivity. Qed.
(* test_quectel.py:773 *)
Example quectel_47_bytes : made_bytes (u "P") (u "QTMCFGMSGRATE") 2 false 1 None [((u "msgname"), (VStr (u "GGA")))] = Ok (u "$PQTMCFGMSGRATE,R,GGA*12" ++ crlf).
Proof. vm_compute. reflexivity. Qed.
(* test_quectel.py:774 *)
Example quectel_48 : made_text (u "P") (u "QTMCFGGEOFENCE") 1 false 1 None [((u "geofenceindex"), (VInt 0)); ((u "geofencemode"), (VInt 0))] = Ok (u "<NMEA(PQTMCFGGEOFENCE, status=W, geofenceindex=0, geofencemode=0)>").
Proof. vm_compute. reflexivity. Qed.
(* test_quectel.py:774 *)
Example quectel_48_bytes : made_bytes (u "P") (u "QTMCFGGEOFENCE") 1 false 1 None [((u "geofenceindex"), (VInt 0)); ((u "geofencemode"), (VInt 0))] = Ok (u "$PQTMCFGGEOFENCE,W,0,0*27" ++ crlf).
Proof. vm_compute. reflexivity. Qed.
(* test_quectel.py:781 *)
Example quectel_49 : made_text (u "P") (u "QTMCFGGEOFENCE") 2 false 1 None [((u "geofenceindex"), (VInt 0))] = Ok (u "<NMEA(PQTMCFGGEOFENCE, status=R, geofenceindex=0)>").
Proof. vm_compute. reflexivity. Qed.
(* test_quectel.py:781 *)
Example quectel_49_bytes : made_bytes (u "P") (u "QTMCFGGEOFENCE") 2 false 1 None [((u "geofenceindex"), (VInt 0))] = Ok (u "$PQTMCFGGEOFENCE,R,0*3E" ++ crlf).
Proof. vm_compute. reflexivity. Qed.
(* test_quectel.py:787 *)
Example quectel_50 : made_text (u "P") (u "QTMCFGSVIN") 2 false 1 None [] = Ok (u "<NMEA(PQTMCFGSVIN, status=R)>").
Proof. vm_compute. reflexivity. Qed.
(* test_quectel.py:787 *)
Example quectel_50_bytes : made_bytes (u "P") (u "QTMCFGSVIN") 2 false 1 None [] = Ok (u "$PQTMCFGSVIN,R*26" ++ crlf).
Proof. vm_compute. reflexivity. Qed.
(* test_quectel.py:792 *)
Example quectel_51 : made_text (u "P") (u "QTMCFGRCVRMODE") 2 false 1 None [] = Ok (u "<NMEA(PQTMCFGRCVRMODE, status=R)>").
Proof. vm_compute. reflexivity. Qed.
(* test_quectel.py:792 *)
Example quectel_51_bytes : made_bytes (u "P") (u "QTMCFGRCVRMODE") 2 false 1 None [] = Ok (u "$PQTMCFGRCVRMODE,R*32" ++ crlf).
Proof. vm_compute. reflexivity. Qed.
(* test_quectel.py:793 *)
Example quectel_52 : made_text (u "P") (u "QTMCFGFIXRATE") 2 false 1 None [] = Ok (u "<NMEA(PQTMCFGFIXRATE, status=R)>").
Proof. vm_compute. reflexivity. Qed.
(* test_quectel.py:793 *)
Example quectel_52_bytes : made_bytes (u "P") (u "QTMCFGFIXRATE") 2 false 1 None [] = Ok (u "$PQTMCFGFIXRATE,R*71" ++ crlf).
Proof. vm_compute. reflexivity. Qed.
(* test_quectel.py:794 *)
Example quectel_53 : made_text (u "P") (u "QTMCFGRTK") 2 false 1 None [] = Ok (u "<NMEA(PQTMCFGRTK, status=R)>").
Proof. vm_compute. reflexivity. Qed.
(* test_quectel.py:794 *)
Example quectel_53_bytes : made_bytes (u "P") (u "QTMCFGRTK") 2 false 1 None [] = Ok (u "$PQTMCFGRTK,R*69" ++ crlf).
Proof. vm_compute. reflexivity. Qed.
(* test_quectel.py:795 *)
Example quectel_54 : made_text (u "P") (u "QTMCFGCNST") 2 false 1 None [] = Ok (u "<NMEA(PQTMCFGCNST, status=R)>").
Proof. vm_compute. reflexivity. Qed.
(* test_quectel.py:795 *)
Example quectel_54_bytes : made_bytes (u "P") (u "QTMCFGCNST") 2 false 1 None [] = Ok (u "$PQTMCFGCNST,R*2E" ++ crlf).
Proof. vm_compute. reflexivity. Qed.
(* test_quectel.py:796 *)
Example quectel_55 : made_text (u "P") (u "QTMCFGODO") 2 false 1 None [] = Ok (u "<NMEA(PQTMCFGODO, status=R)>").
Proof. vm_compute. reflexivity. Qed.
(* test_quectel.py:796 *)
Example quectel_55_bytes : made_bytes (u "P") (u "QTMCFGODO") 2 false 1 None [] = Ok (u "$PQTMCFGODO,R*60" ++ crlf).
Proof. vm_compute. reflexivity. Qed.
(* test_quectel.py:797 *)
Example quectel_56 : made_text (u "P") (u "QTMCFGSIGNAL") 2 false 1 None [] = Ok (u "<NMEA(PQTMCFGSIGNAL, status=R)>").
Proof. vm_compute. reflexivity. Qed.
(* test_quectel.py:797 *)
Example quectel_56_bytes : made_bytes (u "P") (u "QTMCFGSIGNAL") 2 false 1 None [] = Ok (u "$PQTMCFGSIGNAL,R*3A" ++ crlf).
Proof. vm_compute. reflexivity. Qed.
(* test_quectel.py:798 *)
Example quectel_57 : made_text (u "P") (u "QTMCFGSAT") 2 false 1 None [((u "systemid"), (VInt 1)); ((u "signalid"), (VInt 1))] = Ok (u "<NMEA(PQTMCFGSAT, status=R, systemid=1, signalid=1)>").
Proof. vm_compute. reflexivity. Qed.
(* test_quectel.py:798 *)
Example quectel_57_bytes : made_bytes (u "P") (u "QTMCFGSAT") 2 false 1 None [((u "systemid"), (VInt 1)); ((u "signalid"), (VInt 1))] = Ok (u "$PQTMCFGSAT,R,1,1*62" ++ crlf).
Proof. vm_compute. reflexivity. Qed.
(* test_quectel.py:799 *)
Example quectel_58 : made_text (u "P") (u "QTMCFGRSID") 2 false 1 None [] = Ok (u "<NMEA(PQTMCFGRSID, status=R)>").
Proof. vm_compute. reflexivity. Qed.
(* test_quectel.py:799 *)
Example quectel_58_bytes : made_bytes (u "P") (u "QTMCFGRSID") 2 false 1 None [] = Ok (u "$PQTMCFGRSID,R*28" ++ crlf).
Proof. vm_compute. reflexivity. Qed.
(* test_socket.py:43-49 *)
Definition pool3 : bytes := (u "$GNDTM,W84,,0.0,N,0.0,E,0.0,W84*71" ++ crlf ++ u "$GNRMC,103607.00,A,5327.03942,N,10214.42462,W,0.046,,060321,,,A,V*0E" ++ crlf ++ u "$GPRTE,2,1,c,0,PBRCPK,PBRTO,PTELGR,PPLAND,PYAMBU,PPFAIR,PWARRN,PMORTL,PLISMR*73" ++ crlf).
Definition no_zlib : zlib := mkzlib (fun _ => None) (fun _ => None) (fun _ => None).
(* the first n messages of a reader over a socket *)
Fixpoint take (n : nat) (cfg : rcfg) (k : sock) : list (result pystr) :=
  match n with
  | O => []
  | S n' => match sread cfg 100000 k with
            | Some (RMsg _ (Some m), _, k') => str_of_msg m :: take n' cfg k'
            | _ => []
            end
  end.
Definition cfg0 : rcfg := mkrcfg 0 1 false 1 None [].
Definition recv_testSocketStub : list recv_result := [
  RData (u "$GNDTM,W84,,0.0,N,0.0,E,0.0,W84*71" ++ crlf ++ u "$GNRMC,103607.00,A,5327.03942,N,10214.42462,W,0.046,,060321,,,A,V*0E" ++ crlf ++ u "$GPRTE,2,1,c,0,PBRCPK,PBRTO,PTELGR,PPLAND,PYAMBU,PPFAIR,PWARRN,PMORTL,PLISMR*73" ++ crlf ++ u "$GNDTM,W84,,0.0,N,0.0,E,0.0,W84*71" ++ crlf ++ u "$GNRMC,103607.00,A,5327.03942,N,10214.42462,W,0.046,,060321,,,A,V*0E" ++ crlf ++ u "$GPRTE,2,1,c,0,PBRCPK,PBRTO,PTELGR,PPLAND,PYAMBU,PPFAIR,PWARRN,PMORTL,PLISMR*73" ++ crlf ++ u "$GNDTM,W84,,0.0,N,0.0,E,0.0,W84*71" ++ crlf ++ u "$GNRMC,103607.00,A,5327.03942,N,10214.42462,W,0.046,,060321,,,A,V*0E" ++ crlf ++ u "$GPRTE,2,1,c,0,PBRCPK,PBRTO,PTELGR,PPLAND,PYAMBU,PPFAIR,PWARRN,PMORTL,PLISMR*73" ++ crlf ++ u "$GNDTM,W84,,0.0,N,0.0,E,0.0,W84*71" ++ crlf ++ u "$GNRMC,103607.00,A,5327.03942,N,10214.42462,W,0.046,,060321,,,A,V*0E" ++ crlf ++ u "$GPRTE,2,1,c,0,PBRCPK,PBRTO,PTELGR,PPLAND,PYAMBU,PPFAIR,PWARRN,PMORTL,PLISMR*73" ++ crlf ++ u "$GNDTM,W84,,0.0,N,0.0,E,0.0,W84*71" ++ crlf ++ u "$GNRMC,103607.00,A,5327.03942,N,10214.42462,W,0.046,,060321,,,A,V*0E" ++ crlf ++ u "$GPRTE,2,1,c,0,PBRCPK,PBRTO,PTELGR,PPLAND,PYAMBU,PPFAIR,PWARRN,PMORTL,PLISMR*73" ++ crlf ++ u "$GNDTM,W84,,0.0,N,0.0,E,0.0,W84*71" ++ crlf ++ u "$GNRMC,103607.00,A,5327.03942,N,10214.42462,W,0.046,,");
  RData (u "060321,,,A,V*0E" ++ crlf ++ u "$GPRTE,2,1,c,0,PBRCPK,PBRTO,PTELGR,PPLAND,PYAMBU,PPFAIR,PWARRN,PMORTL,PLISMR*73" ++ crlf ++ u "$GNDTM,W84,,0.0,N,0.0,E,0.0,W84*71" ++ crlf ++ u "$GNRMC,103607.00,A,5327.03942,N,10214.42462,W,0.046,,060321,,,A,V*0E" ++ crlf ++ u "$GPRTE,2,1,c,0,PBRCPK,PBRTO,PTELGR,PPLAND,PYAMBU,PPFAIR,PWARRN,PMORTL,PLISMR*73" ++ crlf ++ u "$GNDTM,W84,,0.0,N,0.0,E,0.0,W84*71" ++ crlf ++ u "$GNRMC,103607.00,A,5327.03942,N,10214.42462,W,0.046,,060321,,,A,V*0E" ++ crlf ++ u "$GPRTE,2,1,c,0,PBRCPK,PBRTO,PTELGR,PPLAND,PYAMBU,PPFAIR,PWARRN,PMORTL,PLISMR*73" ++ crlf ++ u "$GNDTM,W84,,0.0,N,0.0,E,0.0,W84*71" ++ crlf ++ u "$GNRMC,103607.00,A,5327.03942,N,10214.42462,W,0.046,,060321,,,A,V*0E" ++ crlf ++ u "$GPRTE,2,1,c,0,PBRCPK,PBRTO,PTELGR,PPLAND,PYAMBU,PPFAIR,PWARRN,PMORTL,PLISMR*73" ++ crlf ++ u "$GNDTM,W84,,0.0,N,0.0,E,0.0,W84*71" ++ crlf ++ u "$GNRMC,103607.00,A,5327.03942,N,10214.42462,W,0.046,,060321,,,A,V*0E" ++ crlf ++ u "$GPRTE,2,1,c,0,PBRCPK,PBRTO,PTELGR,PPLAND,PYAMBU,PPFAIR,PWARRN,PMORTL,PLISMR*73" ++ crlf ++ u "$GNDTM,W84,,0.0,N,0.0,E,0.0,W84*71" ++ crlf ++ u "$GNRMC,103607.00,A,5327.03942,N,10214.42462,W,0.046,,060321,,,A,V*0E" ++ crlf ++ u "$GPRTE,2,1,c,0,PBRCPK,PBRTO,PTELGR,PPLAND,PYAMBU,PPFAIR,PWARRN,PMORTL,PL");
  RData (u "ISMR*73" ++ crlf ++ u "$GNDTM,W84,,0.0,N,0.0,E,0.0,W84*71" ++ crlf ++ u "$GNRMC,103607.00,A,5327.03942,N,10214.42462,W,0.046,,060321,,,A,V*0E" ++ crlf ++ u "$GPRTE,2,1,c,0,PBRCPK,PBRTO,PTELGR,PPLAND,PYAMBU,PPFAIR,PWARRN,PMORTL,PLISMR*73" ++ crlf ++ u "$GNDTM,W84,,0.0,N,0.0,E,0.0,W84*71" ++ crlf ++ u "$GNRMC,103607.00,A,5327.03942,N,10214.42462,W,0.046,,060321,,,A,V*0E" ++ crlf ++ u "$GPRTE,2,1,c,0,PBRCPK,PBRTO,PTELGR,PPLAND,PYAMBU,PPFAIR,PWARRN,PMORTL,PLISMR*73" ++ crlf ++ u "$GNDTM,W84,,0.0,N,0.0,E,0.0,W84*71" ++ crlf ++ u "$GNRMC,103607.00,A,5327.03942,N,10214.42462,W,0.046,,060321,,,A,V*0E" ++ crlf ++ u "$GPRTE,2,1,c,0,PBRCPK,PBRTO,PTELGR,PPLAND,PYAMBU,PPFAIR,PWARRN,PMORTL,PLISMR*73" ++ crlf ++ u "$GNDTM,W84,,0.0,N,0.0,E,0.0,W84*71" ++ crlf ++ u "$GNRMC,103607.00,A,5327.03942,N,10214.42462,W,0.046,,060321,,,A,V*0E" ++ crlf ++ u "$GPRTE,2,1,c,0,PBRCPK,PBRTO,PTELGR,PPLAND,PYAMBU,PPFAIR,PWARRN,PMORTL,PLISMR*73" ++ crlf ++ u "$GNDTM,W84,,0.0,N,0.0,E,0.0,W84*71" ++ crlf ++ u "$GNRMC,103607.00,A,5327.03942,N,10214.42462,W,0.046,,060321,,,A,V*0E" ++ crlf ++ u "$GPRTE,2,1,c,0,PBRCPK,PBRTO,PTELGR,PPLAND,PYAMBU,PPFAIR,PWARRN,PMORTL,PLISMR*73" ++ crlf ++ u "$GNDTM,W84,,0.0,N,0.0,E,0.0,W84*71" ++ crlf ++ u "$GNRMC,103607.00,A,5327.03942,N,10214.42462,")].
(* test_socket.py:100 testSocketStub *)
Example testSocketStub : all2 (fun a b => same a (Ok b)) (take 12 cfg0 (sock_init recv_testSocketStub 0 no_zlib)) [
  (u "<NMEA(GNDTM, datum=W84, subDatum=, latOfset=0.0, NS=N, lonOfset=0.0, EW=E, alt=0.0, refDatum=W84)>");
  (u "<NMEA(GNRMC, time=10:36:07, status=A, lat=53.450657, NS=N, lon=-102.2404103333, EW=W, spd=0.046, cog=, date=2021-03-06, mv=, mvEW=, posMode=A, navStatus=V)>");
  (u "<NMEA(GPRTE, numMsg=2, msgNum=1, status=c, routeid=0, wpt_01=PBRCPK, wpt_02=PBRTO, wpt_03=PTELGR, wpt_04=PPLAND, wpt_05=PYAMBU, wpt_06=PPFAIR, wpt_07=PWARRN, wpt_08=PMORTL, wpt_09=PLISMR)>");
  (u "<NMEA(GNDTM, datum=W84, subDatum=, latOfset=0.0, NS=N, lonOfset=0.0, EW=E, alt=0.0, refDatum=W84)>");
  (u "<NMEA(GNRMC, time=10:36:07, status=A, lat=53.450657, NS=N, lon=-102.2404103333, EW=W, spd=0.046, cog=, date=2021-03-06, mv=, mvEW=, posMode=A, navStatus=V)>");
  (u "<NMEA(GPRTE, numMsg=2, msgNum=1, status=c, routeid=0, wpt_01=PBRCPK, wpt_02=PBRTO, wpt_03=PTELGR, wpt_04=PPLAND, wpt_05=PYAMBU, wpt_06=PPFAIR, wpt_07=PWARRN, wpt_08=PMORTL, wpt_09=PLISMR)>");
  (u "<NMEA(GNDTM, datum=W84, subDatum=, latOfset=0.0, NS=N, lonOfset=0.0, EW=E, alt=0.0, refDatum=W84)>");
  (u "<NMEA(GNRMC, time=10:36:07, status=A, lat=53.450657, NS=N, lon=-102.2404103333, EW=W, spd=0.046, cog=, date=2021-03-06, mv=, mvEW=, posMode=A, navStatus=V)>");
  (u "<NMEA(GPRTE, numMsg=2, msgNum=1, status=c, routeid=0, wpt_01=PBRCPK, wpt_02=PBRTO, wpt_03=PTELGR, wpt_04=PPLAND, wpt_05=PYAMBU, wpt_06=PPFAIR, wpt_07=PWARRN, wpt_08=PMORTL, wpt_09=PLISMR)>");
  (u "<NMEA(GNDTM, datum=W84, subDatum=, latOfset=0.0, NS=N, lonOfset=0.0, EW=E, alt=0.0, refDatum=W84)>");
  (u "<NMEA(GNRMC, time=10:36:07, status=A, lat=53.450657, NS=N, lon=-102.2404103333, EW=W, spd=0.046, cog=, date=2021-03-06, mv=, mvEW=, posMode=A, navStatus=V)>");
  (u "<NMEA(GPRTE, numMsg=2, msgNum=1, status=c, routeid=0, wpt_01=PBRCPK, wpt_02=PBRTO, wpt_03=PTELGR, wpt_04=PPLAND, wpt_05=PYAMBU, wpt_06=PPFAIR, wpt_07=PWARRN, wpt_08=PMORTL, wpt_09=PLISMR)>")] = true.
Proof. vm_compute. reflexivity. Qed.
Definition recv_testSocketChunked : list recv_result := [
  RData (u "a" ++ crlf ++ u "$GNDTM,W84" ++ crlf ++ u "a" ++ crlf ++ u ",,0.0,N,0." ++ crlf ++ u "a" ++ crlf ++ u "0,E,0.0,W8" ++ crlf ++ u "a" ++ crlf ++ u "4*71" ++ crlf ++ u "$GNR" ++ crlf ++ u "a" ++ crlf ++ u "MC,103607." ++ crlf ++ u "a" ++ crlf ++ u "00,A,5327." ++ crlf ++ u "a" ++ crlf ++ u "03942,N,10" ++ crlf ++ u "a" ++ crlf ++ u "214.42462," ++ crlf ++ u "a" ++ crlf ++ u "W,0.046,,0" ++ crlf ++ u "a" ++ crlf ++ u "60321,,,A," ++ crlf ++ u "a" ++ crlf ++ u "V*0E" ++ crlf ++ u "$GPR" ++ crlf ++ u "a" ++ crlf ++ u "TE,2,1,c,0" ++ crlf ++ u "a" ++ crlf ++ u ",PBRCPK,PB" ++ crlf ++ u "a" ++ crlf ++ u "RTO,PTELGR" ++ crlf ++ u "a" ++ crlf ++ u ",PPLAND,PY" ++ crlf ++ u "a" ++ crlf ++ u "AMBU,PPFAI" ++ crlf ++ u "a" ++ crlf ++ u "R,PWARRN,P" ++ crlf ++ u "a" ++ crlf ++ u "MORTL,PLIS" ++ crlf ++ u "a" ++ crlf ++ u "MR*73" ++ crlf ++ u "$GN" ++ crlf ++ u "a" ++ crlf ++ u "DTM,W84,,0" ++ crlf ++ u "a" ++ crlf ++ u ".0,N,0.0,E" ++ crlf ++ u "a" ++ crlf ++ u ",0.0,W84*7" ++ crlf ++ u "a" ++ crlf ++ u "1" ++ crlf ++ u "$GNRMC," ++ crlf ++ u "a" ++ crlf ++ u "103607.00," ++ crlf ++ u "a" ++ crlf ++ u "A,5327.039" ++ crlf ++ u "a" ++ crlf ++ u "42,N,10214" ++ crlf ++ u "a" ++ crlf ++ u ".42462,W,0" ++ crlf ++ u "a" ++ crlf ++ u ".046,,0603" ++ crlf ++ u "a" ++ crlf ++ u "21,,,A,V*0" ++ crlf ++ u "a" ++ crlf ++ u "E" ++ crlf ++ u "$GPRTE," ++ crlf ++ u "a" ++ crlf ++ u "2,1,c,0,PB" ++ crlf ++ u "a" ++ crlf ++ u "RCPK,PBRTO" ++ crlf ++ u "a" ++ crlf ++ u ",PTELGR,PP" ++ crlf ++ u "a" ++ crlf ++ u "LAND,PYAMB" ++ crlf ++ u "a" ++ crlf ++ u "U,PPFAIR,P" ++ crlf ++ u "a" ++ crlf ++ u "WARRN,PMOR" ++ crlf ++ u "a" ++ crlf ++ u "TL,PLISMR*" ++ crlf ++ u "a" ++ crlf ++ u "73" ++ crlf ++ u "$GNDTM" ++ crlf ++ u "a" ++ crlf ++ u ",W84,,0.0," ++ crlf ++ u "a" ++ crlf ++ u "N,0.0,E,0." ++ crlf ++ u "a" ++ crlf ++ u "0,W84*71" ++ crlf ++ crlf ++ u "a" ++ crlf ++ u "$GNRMC,103" ++ crlf ++ u "a" ++ crlf ++ u "607.00,A,5" ++ crlf ++ u "a" ++ crlf ++ u "327.03942," ++ crlf ++ u "a" ++ crlf ++ u "N,10214.42" ++ crlf ++ u "a" ++ crlf ++ u "462,W,0.04" ++ crlf ++ u "a" ++ crlf ++ u "6,,060321," ++ crlf ++ u "a" ++ crlf ++ u ",,A,V*0E" ++ crlf ++ crlf ++ u "a" ++ crlf ++ u "$GPRTE,2,1" ++ crlf ++ u "a" ++ crlf ++ u ",c,0,PBRCP" ++ crlf ++ u "a" ++ crlf ++ u "K,PBRTO,PT" ++ crlf ++ u "a" ++ crlf ++ u "ELGR,PPLAN" ++ crlf ++ u "a" ++ crlf ++ u "D,PYAMBU,P" ++ crlf ++ u "a" ++ crlf ++ u "PFAIR,PWAR" ++ crlf ++ u "a" ++ crlf ++ u "RN,PMORTL," ++ crlf ++ u "a" ++ crlf ++ u "PLISMR*73" ++ [13%N] ++ crlf ++ u "a" ++ crlf ++ [10%N] ++ u "$GNDTM,W8" ++ crlf ++ u "a" ++ crlf ++ u "4,,0.0,N,0" ++ crlf ++ u "a" ++ crlf ++ u ".0,E,0.0,W" ++ crlf ++ u "a" ++ crlf ++ u "84*71" ++ crlf ++ u "$GN" ++ crlf ++ u "a" ++ crlf ++ u "RMC,103607" ++ crlf ++ u "a" ++ crlf ++ u ".00,A,5327" ++ crlf ++ u "a" ++ crlf ++ u ".03942,N,1" ++ crlf ++ u "a" ++ crlf ++ u "0214.42462" ++ crlf ++ u "a" ++ crlf ++ u ",W,0.046,," ++ crlf ++ u "a" ++ crlf ++ u "060321,,,A" ++ crlf ++ u "a" ++ crlf ++ u ",V*0E" ++ crlf ++ u "$GP" ++ crlf ++ u "a" ++ crlf ++ u "RTE,2,1,c," ++ crlf ++ u "a" ++ crlf ++ u "0");
  RData (u ",PBRCPK,P" ++ crlf ++ u "a" ++ crlf ++ u "BRTO,PTELG" ++ crlf ++ u "a" ++ crlf ++ u "R,PPLAND,P" ++ crlf ++ u "a" ++ crlf ++ u "YAMBU,PPFA" ++ crlf ++ u "a" ++ crlf ++ u "IR,PWARRN," ++ crlf ++ u "a" ++ crlf ++ u "PMORTL,PLI" ++ crlf ++ u "a" ++ crlf ++ u "SMR*73" ++ crlf ++ u "$G" ++ crlf ++ u "a" ++ crlf ++ u "NDTM,W84,," ++ crlf ++ u "a" ++ crlf ++ u "0.0,N,0.0," ++ crlf ++ u "a" ++ crlf ++ u "E,0.0,W84*" ++ crlf ++ u "a" ++ crlf ++ u "71" ++ crlf ++ u "$GNRMC" ++ crlf ++ u "a" ++ crlf ++ u ",103607.00" ++ crlf ++ u "a" ++ crlf ++ u ",A,5327.03" ++ crlf ++ u "a" ++ crlf ++ u "942,N,1021" ++ crlf ++ u "a" ++ crlf ++ u "4.42462,W," ++ crlf ++ u "a" ++ crlf ++ u "0.046,,060" ++ crlf ++ u "a" ++ crlf ++ u "321,,,A,V*" ++ crlf ++ u "a" ++ crlf ++ u "0E" ++ crlf ++ u "$GPRTE" ++ crlf ++ u "a" ++ crlf ++ u ",2,1,c,0,P" ++ crlf ++ u "a" ++ crlf ++ u "BRCPK,PBRT" ++ crlf ++ u "a" ++ crlf ++ u "O,PTELGR,P" ++ crlf ++ u "a" ++ crlf ++ u "PLAND,PYAM" ++ crlf ++ u "a" ++ crlf ++ u "BU,PPFAIR," ++ crlf ++ u "a" ++ crlf ++ u "PWARRN,PMO" ++ crlf ++ u "a" ++ crlf ++ u "RTL,PLISMR" ++ crlf ++ u "a" ++ crlf ++ u "*73" ++ crlf ++ u "$GNDT" ++ crlf ++ u "a" ++ crlf ++ u "M,W84,,0.0" ++ crlf ++ u "a" ++ crlf ++ u ",N,0.0,E,0" ++ crlf ++ u "a" ++ crlf ++ u ".0,W84*71" ++ [13%N] ++ crlf ++ u "a" ++ crlf ++ [10%N] ++ u "$GNRMC,10" ++ crlf ++ u "a" ++ crlf ++ u "3607.00,A," ++ crlf ++ u "a" ++ crlf ++ u "5327.03942" ++ crlf ++ u "a" ++ crlf ++ u ",N,10214.4" ++ crlf ++ u "a" ++ crlf ++ u "2462,W,0.0" ++ crlf ++ u "a" ++ crlf ++ u "46,,060321" ++ crlf ++ u "a" ++ crlf ++ u ",,,A,V*0E" ++ [13%N] ++ crlf ++ u "a" ++ crlf ++ [10%N] ++ u "$GPRTE,2," ++ crlf ++ u "a" ++ crlf ++ u "1,c,0,PBRC" ++ crlf ++ u "a" ++ crlf ++ u "PK,PBRTO,P" ++ crlf ++ u "a" ++ crlf ++ u "TELGR,PPLA" ++ crlf ++ u "a" ++ crlf ++ u "ND,PYAMBU," ++ crlf ++ u "a" ++ crlf ++ u "PPFAIR,PWA" ++ crlf ++ u "a" ++ crlf ++ u "RRN,PMORTL" ++ crlf ++ u "a" ++ crlf ++ u ",PLISMR*73" ++ crlf ++ u "a" ++ crlf ++ crlf ++ u "$GNDTM,W" ++ crlf ++ u "a" ++ crlf ++ u "84,,0.0,N," ++ crlf ++ u "a" ++ crlf ++ u "0.0,E,0.0," ++ crlf ++ u "a" ++ crlf ++ u "W84*71" ++ crlf ++ u "$G" ++ crlf ++ u "a" ++ crlf ++ u "NRMC,10360" ++ crlf ++ u "a" ++ crlf ++ u "7.00,A,532" ++ crlf ++ u "a" ++ crlf ++ u "7.03942,N," ++ crlf ++ u "a" ++ crlf ++ u "10214.4246" ++ crlf ++ u "a" ++ crlf ++ u "2,W,0.046," ++ crlf ++ u "a" ++ crlf ++ u ",060321,,," ++ crlf ++ u "a" ++ crlf ++ u "A,V*0E" ++ crlf ++ u "$G" ++ crlf ++ u "a" ++ crlf ++ u "PRTE,2,1,c" ++ crlf ++ u "a" ++ crlf ++ u ",0,PBRCPK," ++ crlf ++ u "a" ++ crlf ++ u "PBRTO,PTEL" ++ crlf ++ u "a" ++ crlf ++ u "GR,PPLAND," ++ crlf ++ u "a" ++ crlf ++ u "PYAMBU,PPF" ++ crlf ++ u "a" ++ crlf ++ u "AIR,PWARRN" ++ crlf ++ u "a" ++ crlf ++ u ",PMORTL,PL" ++ crlf ++ u "a" ++ crlf ++ u "ISMR*73" ++ crlf ++ u "$" ++ crlf ++ u "a" ++ crlf ++ u "GNDTM,W84," ++ crlf ++ u "a" ++ crlf ++ u ",0.0,N,0.0" ++ crlf ++ u "a" ++ crlf ++ u ",E,0.0,W84" ++ crlf ++ u "a" ++ crlf ++ u "*71" ++ crlf ++ u "$GNRM" ++ crlf ++ u "a" ++ crlf ++ u "C,103607.0" ++ crlf ++ u "a" ++ crlf ++ u "0,A,5");
  RData (u "327.0" ++ crlf ++ u "a" ++ crlf ++ u "3942,N,102" ++ crlf ++ u "a" ++ crlf ++ u "14.42462,W" ++ crlf ++ u "a" ++ crlf ++ u ",0.046,,06" ++ crlf ++ u "a" ++ crlf ++ u "0321,,,A,V" ++ crlf ++ u "a" ++ crlf ++ u "*0E" ++ crlf ++ u "$GPRT" ++ crlf ++ u "a" ++ crlf ++ u "E,2,1,c,0," ++ crlf ++ u "a" ++ crlf ++ u "PBRCPK,PBR" ++ crlf ++ u "a" ++ crlf ++ u "TO,PTELGR," ++ crlf ++ u "a" ++ crlf ++ u "PPLAND,PYA" ++ crlf ++ u "a" ++ crlf ++ u "MBU,PPFAIR" ++ crlf ++ u "a" ++ crlf ++ u ",PWARRN,PM" ++ crlf ++ u "a" ++ crlf ++ u "ORTL,PLISM" ++ crlf ++ u "a" ++ crlf ++ u "R*73" ++ crlf ++ u "$GND" ++ crlf ++ u "a" ++ crlf ++ u "TM,W84,,0." ++ crlf ++ u "a" ++ crlf ++ u "0,N,0.0,E," ++ crlf ++ u "a" ++ crlf ++ u "0.0,W84*71" ++ crlf ++ u "a" ++ crlf ++ crlf ++ u "$GNRMC,1" ++ crlf ++ u "a" ++ crlf ++ u "03607.00,A" ++ crlf ++ u "a" ++ crlf ++ u ",5327.0394" ++ crlf ++ u "a" ++ crlf ++ u "2,N,10214." ++ crlf ++ u "a" ++ crlf ++ u "42462,W,0." ++ crlf ++ u "a" ++ crlf ++ u "046,,06032" ++ crlf ++ u "a" ++ crlf ++ u "1,,,A,V*0E" ++ crlf ++ u "a" ++ crlf ++ crlf ++ u "$GPRTE,2" ++ crlf ++ u "a" ++ crlf ++ u ",1,c,0,PBR" ++ crlf ++ u "a" ++ crlf ++ u "CPK,PBRTO," ++ crlf ++ u "a" ++ crlf ++ u "PTELGR,PPL" ++ crlf ++ u "a" ++ crlf ++ u "AND,PYAMBU" ++ crlf ++ u "a" ++ crlf ++ u ",PPFAIR,PW" ++ crlf ++ u "a" ++ crlf ++ u "ARRN,PMORT" ++ crlf ++ u "a" ++ crlf ++ u "L,PLISMR*7" ++ crlf ++ u "a" ++ crlf ++ u "3" ++ crlf ++ u "$GNDTM," ++ crlf ++ u "a" ++ crlf ++ u "W84,,0.0,N" ++ crlf ++ u "a" ++ crlf ++ u ",0.0,E,0.0" ++ crlf ++ u "a" ++ crlf ++ u ",W84*71" ++ crlf ++ u "$" ++ crlf ++ u "a" ++ crlf ++ u "GNRMC,1036" ++ crlf ++ u "a" ++ crlf ++ u "07.00,A,53" ++ crlf ++ u "a" ++ crlf ++ u "27.03942,N" ++ crlf ++ u "a" ++ crlf ++ u ",10214.424" ++ crlf ++ u "a" ++ crlf ++ u "62,W,0.046" ++ crlf ++ u "a" ++ crlf ++ u ",,060321,," ++ crlf ++ u "a" ++ crlf ++ u ",A,V*0E" ++ crlf ++ u "$" ++ crlf ++ u "a" ++ crlf ++ u "GPRTE,2,1," ++ crlf ++ u "a" ++ crlf ++ u "c,0,PBRCPK" ++ crlf ++ u "a" ++ crlf ++ u ",PBRTO,PTE" ++ crlf ++ u "a" ++ crlf ++ u "LGR,PPLAND" ++ crlf ++ u "a" ++ crlf ++ u ",PYAMBU,PP" ++ crlf ++ u "a" ++ crlf ++ u "FAIR,PWARR" ++ crlf ++ u "a" ++ crlf ++ u "N,PMORTL,P" ++ crlf ++ u "a" ++ crlf ++ u "LISMR*73" ++ crlf ++ crlf ++ u "a" ++ crlf ++ crlf ++ u "0" ++ crlf ++ crlf ++ u "a" ++ crlf ++ u "$GNDTM,W84" ++ crlf ++ u "a" ++ crlf ++ u ",,0.0,N,0." ++ crlf ++ u "a" ++ crlf ++ u "0,E,0.0,W8" ++ crlf ++ u "a" ++ crlf ++ u "4*71" ++ crlf ++ u "$GNR" ++ crlf ++ u "a" ++ crlf ++ u "MC,103607." ++ crlf ++ u "a" ++ crlf ++ u "00,A,5327." ++ crlf ++ u "a" ++ crlf ++ u "03942,N,10" ++ crlf ++ u "a" ++ crlf ++ u "214.42462," ++ crlf ++ u "a" ++ crlf ++ u "W,0.046,,0" ++ crlf ++ u "a" ++ crlf ++ u "60321,,,A," ++ crlf ++ u "a" ++ crlf ++ u "V*0E" ++ crlf ++ u "$GPR" ++ crlf ++ u "a" ++ crlf ++ u "TE,2,1,c,0" ++ crlf ++ u "a" ++ crlf ++ u ",PBRCPK,PB" ++ crlf ++ u "a" ++ crlf ++ u "RTO,PTELGR" ++ crlf ++ u "a" ++ crlf ++ u ",PPLAND,PY" ++ crlf ++ u "a" ++ crlf ++ u "AMBU,PPFAI" ++ crlf ++ u "a" ++ crlf ++ u "R,PWARRN,P" ++ crlf ++ u "a" ++ [13%N]);
  RData ([10%N] ++ u "MORTL,PLIS" ++ crlf ++ u "a" ++ crlf ++ u "MR*73" ++ crlf ++ u "$GN" ++ crlf ++ u "a" ++ crlf ++ u "DTM,W84,,0" ++ crlf ++ u "a" ++ crlf ++ u ".0,N,0.0,E" ++ crlf ++ u "a" ++ crlf ++ u ",0.0,W84*7" ++ crlf ++ u "a" ++ crlf ++ u "1" ++ crlf ++ u "$GNRMC," ++ crlf ++ u "a" ++ crlf ++ u "103607.00," ++ crlf ++ u "a" ++ crlf ++ u "A,5327.039" ++ crlf ++ u "a" ++ crlf ++ u "42,N,10214" ++ crlf ++ u "a" ++ crlf ++ u ".42462,W,0" ++ crlf ++ u "a" ++ crlf ++ u ".046,,0603" ++ crlf ++ u "a" ++ crlf ++ u "21,,,A,V*0" ++ crlf ++ u "a" ++ crlf ++ u "E" ++ crlf ++ u "$GPRTE," ++ crlf ++ u "a" ++ crlf ++ u "2,1,c,0,PB" ++ crlf ++ u "a" ++ crlf ++ u "RCPK,PBRTO" ++ crlf ++ u "a" ++ crlf ++ u ",PTELGR,PP" ++ crlf ++ u "a" ++ crlf ++ u "LAND,PYAMB" ++ crlf ++ u "a" ++ crlf ++ u "U,PPFAIR,P" ++ crlf ++ u "a" ++ crlf ++ u "WARRN,PMOR" ++ crlf ++ u "a" ++ crlf ++ u "TL,PLISMR*" ++ crlf ++ u "a" ++ crlf ++ u "73" ++ crlf ++ u "$GNDTM" ++ crlf ++ u "a" ++ crlf ++ u ",W84,,0.0," ++ crlf ++ u "a" ++ crlf ++ u "N,0.0,E,0." ++ crlf ++ u "a" ++ crlf ++ u "0,W84*71" ++ crlf ++ crlf ++ u "a" ++ crlf ++ u "$GNRMC,103" ++ crlf ++ u "a" ++ crlf ++ u "607.00,A,5" ++ crlf ++ u "a" ++ crlf ++ u "327.03942," ++ crlf ++ u "a" ++ crlf ++ u "N,10214.42" ++ crlf ++ u "a" ++ crlf ++ u "462,W,0.04" ++ crlf ++ u "a" ++ crlf ++ u "6,,060321," ++ crlf ++ u "a" ++ crlf ++ u ",,A,V*0E" ++ crlf ++ crlf ++ u "a" ++ crlf ++ u "$GPRTE,2,1" ++ crlf ++ u "a" ++ crlf ++ u ",c,0,PBRCP" ++ crlf ++ u "a" ++ crlf ++ u "K,PBRTO,PT" ++ crlf ++ u "a" ++ crlf ++ u "ELGR,PPLAN" ++ crlf ++ u "a" ++ crlf ++ u "D,PYAMBU,P" ++ crlf ++ u "a" ++ crlf ++ u "PFAIR,PWAR" ++ crlf ++ u "a" ++ crlf ++ u "RN,PMORTL," ++ crlf ++ u "a" ++ crlf ++ u "PLISMR*73" ++ [13%N] ++ crlf ++ u "a" ++ crlf ++ [10%N] ++ u "$GNDTM,W8" ++ crlf ++ u "a" ++ crlf ++ u "4,,0.0,N,0" ++ crlf ++ u "a" ++ crlf ++ u ".0,E,0.0,W" ++ crlf ++ u "a" ++ crlf ++ u "84*71" ++ crlf ++ u "$GN" ++ crlf ++ u "a" ++ crlf ++ u "RMC,103607" ++ crlf ++ u "a" ++ crlf ++ u ".00,A,5327" ++ crlf ++ u "a" ++ crlf ++ u ".03942,N,1" ++ crlf ++ u "a" ++ crlf ++ u "0214.42462" ++ crlf ++ u "a" ++ crlf ++ u ",W,0.046,," ++ crlf ++ u "a" ++ crlf ++ u "060321,,,A" ++ crlf ++ u "a" ++ crlf ++ u ",V*0E" ++ crlf ++ u "$GP" ++ crlf ++ u "a" ++ crlf ++ u "RTE,2,1,c," ++ crlf ++ u "a" ++ crlf ++ u "0,PBRCPK,P" ++ crlf ++ u "a" ++ crlf ++ u "BRTO,PTELG" ++ crlf ++ u "a" ++ crlf ++ u "R,PPLAND,P" ++ crlf ++ u "a" ++ crlf ++ u "YAMBU,PPFA" ++ crlf ++ u "a" ++ crlf ++ u "IR,PWARRN," ++ crlf ++ u "a" ++ crlf ++ u "PMORTL,PLI" ++ crlf ++ u "a" ++ crlf ++ u "SMR*73" ++ crlf ++ u "$G" ++ crlf ++ u "a" ++ crlf ++ u "NDTM,W84,," ++ crlf ++ u "a" ++ crlf ++ u "0.0,N,0.0," ++ crlf ++ u "a" ++ crlf ++ u "E,0.0,W84*" ++ crlf ++ u "a" ++ crlf ++ u "71" ++ crlf ++ u "$GNRMC" ++ crlf ++ u "a" ++ crlf ++ u ",103607.00" ++ crlf ++ u "a" ++ crlf ++ u ",A,5327.03" ++ crlf ++ u "a" ++ crlf ++ u "942,N,1021" ++ crlf ++ u "a" ++ crlf ++ u "4.42462,W," ++ crlf ++ u "a" ++ crlf ++ u "0.046,,060" ++ crlf ++ u "a" ++ crlf ++ u "321,,,A,V*" ++ crlf ++ u "a" ++ crlf ++ u "0E" ++ [13%N])].
(* test_socket.py:129 testSocketChunked *)
Example testSocketChunked : all2 (fun a b => same a (Ok b)) (take 12 cfg0 (sock_init recv_testSocketChunked 1 no_zlib)) [
  (u "<NMEA(GNDTM, datum=W84, subDatum=, latOfset=0.0, NS=N, lonOfset=0.0, EW=E, alt=0.0, refDatum=W84)>");
  (u "<NMEA(GNRMC, time=10:36:07, status=A, lat=53.450657, NS=N, lon=-102.2404103333, EW=W, spd=0.046, cog=, date=2021-03-06, mv=, mvEW=, posMode=A, navStatus=V)>");
  (u "<NMEA(GPRTE, numMsg=2, msgNum=1, status=c, routeid=0, wpt_01=PBRCPK, wpt_02=PBRTO, wpt_03=PTELGR, wpt_04=PPLAND, wpt_05=PYAMBU, wpt_06=PPFAIR, wpt_07=PWARRN, wpt_08=PMORTL, wpt_09=PLISMR)>");
  (u "<NMEA(GNDTM, datum=W84, subDatum=, latOfset=0.0, NS=N, lonOfset=0.0, EW=E, alt=0.0, refDatum=W84)>");
  (u "<NMEA(GNRMC, time=10:36:07, status=A, lat=53.450657, NS=N, lon=-102.2404103333, EW=W, spd=0.046, cog=, date=2021-03-06, mv=, mvEW=, posMode=A, navStatus=V)>");
  (u "<NMEA(GPRTE, numMsg=2, msgNum=1, status=c, routeid=0, wpt_01=PBRCPK, wpt_02=PBRTO, wpt_03=PTELGR, wpt_04=PPLAND, wpt_05=PYAMBU, wpt_06=PPFAIR, wpt_07=PWARRN, wpt_08=PMORTL, wpt_09=PLISMR)>");
  (u "<NMEA(GNDTM, datum=W84, subDatum=, latOfset=0.0, NS=N, lonOfset=0.0, EW=E, alt=0.0, refDatum=W84)>");
  (u "<NMEA(GNRMC, time=10:36:07, status=A, lat=53.450657, NS=N, lon=-102.2404103333, EW=W, spd=0.046, cog=, date=2021-03-06, mv=, mvEW=, posMode=A, navStatus=V)>");
  (u "<NMEA(GPRTE, numMsg=2, msgNum=1, status=c, routeid=0, wpt_01=PBRCPK, wpt_02=PBRTO, wpt_03=PTELGR, wpt_04=PPLAND, wpt_05=PYAMBU, wpt_06=PPFAIR, wpt_07=PWARRN, wpt_08=PMORTL, wpt_09=PLISMR)>");
  (u "<NMEA(GNDTM, datum=W84, subDatum=, latOfset=0.0, NS=N, lonOfset=0.0, EW=E, alt=0.0, refDatum=W84)>");
  (u "<NMEA(GNRMC, time=10:36:07, status=A, lat=53.450657, NS=N, lon=-102.2404103333, EW=W, spd=0.046, cog=, date=2021-03-06, mv=, mvEW=, posMode=A, navStatus=V)>");
  (u "<NMEA(GPRTE, numMsg=2, msgNum=1, status=c, routeid=0, wpt_01=PBRCPK, wpt_02=PBRTO, wpt_03=PTELGR, wpt_04=PPLAND, wpt_05=PYAMBU, wpt_06=PPFAIR, wpt_07=PWARRN, wpt_08=PMORTL, wpt_09=PLISMR)>")] = true.
Proof. vm_compute. reflexivity. Qed.
(* test_socket.py:178 testSocketError *)
Example testSocketError : take 12 cfg0 (sock_init (repeat RError 20) 0 no_zlib) = [].
Proof. vm_compute. reflexivity. Qed.
Definition dtime (y m d h mi s us : Z) : Z := dt_of (mkdate y m d) + ((h * 60 + mi) * 60 + s) * 1000000 + us.
Definition near (a : result fl) (b tol : fl) : bool :=
  match a with Ok x => SFleb (fabs (fsub x b)) tol | Raise _ => false end.
(* test_static.py:107 testGetParts *)
Example static_testGetParts_1 : get_parts (MStr (u "$GNGLL,5327.04319,S,00214.41396,E,223232.00,A,A*68" ++ crlf)) = Ok (mkparts (u "GNGLL,5327.04319,S,00214.41396,E,223232.00,A,A") (u "GN") (u "GLL") [(u "5327.04319"); (u "S"); (u "00214.41396"); (u "E"); (u "223232.00"); (u "A"); (u "A")] (u "68")).
Proof. vm_compute. reflexivity. Qed.
(* test_static.py:122 testGenChecksum *)
Example static_testGenChecksum_1 : generate_checksum (u "GN") (u "GLL") [(u "5327.04319"); (u "S"); (u "00214.41396"); (u "E"); (u "223232.00"); (u "A"); (u "A")] = (u "68").
Proof. vm_compute. reflexivity. Qed.
(* test_static.py:126 testGenChecksum *)
Example static_testGenChecksum_2 : generate_checksum (u "GN") (u "GLL") [(u "1234.04319"); (u "N"); (u "00056.41396"); (u "E"); (u "123232.00"); (u "A"); (u "A")] = (u "75").
Proof. vm_compute. reflexivity. Qed.
(* test_static.py:130 testGetPartsCRAP *)
Example static_testGetPartsCRAP_1 : get_parts (MStr (u "$GNRMC,,%$" ++ [163%N])) = Raise NMEAMessageError.
Proof. vm_compute. reflexivity. Qed.
(* test_static.py:144 testDMM2DDD *)
Example static_testDMM2DDD_1 : dmm2ddd (u "5314.12345") = (VFloat (f_norm 3746107598746447 (-46))).
Proof. vm_compute. reflexivity. Qed.
(* test_static.py:146 testDMM2DDD *)
Example static_testDMM2DDD_2 : dmm2ddd (u "02348.3822990") = (VFloat (f_norm 6700897905748971 (-48))).
Proof. vm_compute. reflexivity. Qed.
(* test_static.py:148 testDMM2DDD *)
Example static_testDMM2DDD_3 : dmm2ddd (u "00234.3822990") = (VFloat (f_norm 362122950134379 (-47))).
Proof. vm_compute. reflexivity. Qed.
(* test_static.py:150 testDMM2DDD *)
Example static_testDMM2DDD_4 : dmm2ddd (u "00214.12345") = (VFloat (f_norm 5033652661938651 (-51))).
Proof. vm_compute. reflexivity. Qed.
(* test_static.py:152 testDMM2DDD *)
Example static_testDMM2DDD_5 : dmm2ddd (u "12825.12344") = (VFloat (f_norm 1129583042097255 (-43))).
Proof. vm_compute. reflexivity. Qed.
(* test_static.py:154 testDMM2DDD *)
Example static_testDMM2DDD_6 : dmm2ddd (u "1282512344") = (VStr []).
Proof. vm_compute. reflexivity. Qed.
(* test_static.py:156 testDMM2DDD *)
Example static_testDMM2DDD_7 : dmm2ddd (u "2345.x5678") = (VStr []).
Proof. vm_compute. reflexivity. Qed.
(* test_static.py:160 testDDD2DMM *)
Example static_testDDD2DMM_1 : ddd2dmm (VFloat (f_norm 15 (-2))) (u "LA") false = Ok (u "0345.00000").
Proof. vm_compute. reflexivity. Qed.
(* test_static.py:162 testDDD2DMM *)
Example static_testDDD2DMM_2 : ddd2dmm (VFloat (f_norm 215 (-2))) (u "LA") false = Ok (u "5345.00000").
Proof. vm_compute. reflexivity. Qed.
(* test_static.py:164 testDDD2DMM *)
Example static_testDDD2DMM_3 : ddd2dmm (VFloat (f_norm (-11) (-2))) (u "LN") false = Ok (u "00245.00000").
Proof. vm_compute. reflexivity. Qed.
(* test_static.py:166 testDDD2DMM *)
Example static_testDDD2DMM_4 : ddd2dmm (VFloat (f_norm 1129583042097255 (-43))) (u "LN") false = Ok (u "12825.12344").
Proof. vm_compute. reflexivity. Qed.
(* test_static.py:168 testDDD2DMM *)
Example static_testDDD2DMM_5 : ddd2dmm (VStr []) (u "LN") false = Ok [].
Proof. vm_compute. reflexivity. Qed.
(* test_static.py:172 testDDD2DMM_HPMode *)
Example static_testDDD2DMM_HPMode_1 : ddd2dmm (VFloat (f_norm 7033399415524123 (-51))) (u "LA") true = Ok (u "0307.4074073").
Proof. vm_compute. reflexivity. Qed.
(* test_static.py:174 testDDD2DMM_HPMode *)
Example static_testDDD2DMM_HPMode_2 : ddd2dmm (VFloat (f_norm 3738230940618329 (-46))) (u "LA") true = Ok (u "5307.4074073").
Proof. vm_compute. reflexivity. Qed.
(* test_static.py:176 testDDD2DMM_HPMode *)
Example static_testDDD2DMM_HPMode_3 : ddd2dmm (VFloat (f_norm (-4781599601838875) (-51))) (u "LN") true = Ok (u "00207.4074073").
Proof. vm_compute. reflexivity. Qed.
(* test_static.py:178 testDDD2DMM_HPMode *)
Example static_testDDD2DMM_HPMode_4 : ddd2dmm (VFloat (f_norm 1126985844242891 (-43))) (u "LN") true = Ok (u "12807.4074073").
Proof. vm_compute. reflexivity. Qed.
(* test_static.py:180 testDDD2DMM_HPMode *)
Example static_testDDD2DMM_HPMode_5 : ddd2dmm (VStr []) (u "LN") true = Ok [].
Proof. vm_compute. reflexivity. Qed.
(* test_static.py:184 testDMS2DEG *)
Example static_testDMS2DEG_1 : dms2deg (u "51" ++ [176%N] ++ u "20" ++ [8242%N] ++ u "45.6" ++ [8243%N] ++ u "N") 7 = Ok (f_norm 7226307077092671 (-47)).
Proof. vm_compute. reflexivity. Qed.
(* test_static.py:185 testDMS2DEG *)
Example static_testDMS2DEG_2 : deg2dms (VFloat (f_norm 7226307077092671 (-47))) (u "LA") = Ok (u "51" ++ [176%N] ++ u "20" ++ [8242%N] ++ u "45.6" ++ [8243%N] ++ u "N").
Proof. vm_compute. reflexivity. Qed.
(* test_static.py:187 testDMS2DEG *)
Example static_testDMS2DEG_3 : dms2deg (u "51" ++ [176%N] ++ u "30" ++ [8242%N] ++ u "0.0" ++ [8243%N] ++ u "N") 7 = Ok (f_norm 103 (-1)).
Proof. vm_compute. reflexivity. Qed.
(* test_static.py:188 testDMS2DEG *)
Example static_testDMS2DEG_4 : deg2dms (VFloat (f_norm 103 (-1))) (u "LA") = Ok (u "51" ++ [176%N] ++ u "30" ++ [8242%N] ++ u "0.0" ++ [8243%N] ++ u "N").
Proof. vm_compute. reflexivity. Qed.
(* test_static.py:190 testDMS2DEG *)
Example static_testDMS2DEG_5 : dms2deg (u "51" ++ [176%N] ++ u "30.00" ++ [8242%N]) 7 = Ok (f_norm 103 (-1)).
Proof. vm_compute. reflexivity. Qed.
(* test_static.py:191 testDMS2DEG *)
Example static_testDMS2DEG_6 : deg2dms (VFloat (f_norm 103 (-1))) (u "LA") = Ok (u "51" ++ [176%N] ++ u "30" ++ [8242%N] ++ u "0.0" ++ [8243%N] ++ u "N").
Proof. vm_compute. reflexivity. Qed.
(* test_static.py:193 testDMS2DEG *)
Example static_testDMS2DEG_7 : dms2deg (u "2" ++ [176%N] ++ u "20" ++ [8242%N] ++ u "45.6" ++ [8243%N] ++ u "W") 7 = Ok (f_norm (-660340295363199) (-48)).
Proof. vm_compute. reflexivity. Qed.
(* test_static.py:194 testDMS2DEG *)
Example static_testDMS2DEG_8 : deg2dms (VFloat (f_norm (-660340295363199) (-48))) (u "LN") = Ok (u "2" ++ [176%N] ++ u "20" ++ [8242%N] ++ u "45.6" ++ [8243%N] ++ u "W").
Proof. vm_compute. reflexivity. Qed.
(* test_static.py:196 testDMS2DEG *)
Example static_testDMS2DEG_9 : dms2deg (u "33" ++ [176%N] ++ u " 45" ++ [8242%N] ++ u " 0.0" ++ [8243%N] ++ u "S") 7 = Ok (f_norm (-135) (-2)).
Proof. vm_compute. reflexivity. Qed.
(* test_static.py:197 testDMS2DEG *)
Example static_testDMS2DEG_10 : deg2dms (VFloat (f_norm (-135) (-2))) (u "LA") = Ok (u "33" ++ [176%N] ++ u "45" ++ [8242%N] ++ u "0.0" ++ [8243%N] ++ u "S").
Proof. vm_compute. reflexivity. Qed.
(* test_static.py:199 testDMS2DEG *)
Example static_testDMS2DEG_11 : dms2deg (u "33" ++ [176%N] ++ u "45" ++ [8242%N] ++ u "N") 7 = Ok (f_norm 135 (-2)).
Proof. vm_compute. reflexivity. Qed.
(* test_static.py:200 testDMS2DEG *)
Example static_testDMS2DEG_12 : deg2dms (VFloat (f_norm 135 (-2))) (u "LN") = Ok (u "33" ++ [176%N] ++ u "45" ++ [8242%N] ++ u "0.0" ++ [8243%N] ++ u "E").
Proof. vm_compute. reflexivity. Qed.
(* test_static.py:202 testDMS2DEG *)
Example static_testDMS2DEG_13 : dms2deg (u "33" ++ [176%N] ++ u "45.3564" ++ [8242%N] ++ u "N") 7 = Ok (f_norm 4750726212673151 (-47)).
Proof. vm_compute. reflexivity. Qed.
(* test_static.py:203 testDMS2DEG *)
Example static_testDMS2DEG_14 : deg2dms (VFloat (f_norm 4750726212673151 (-47))) (u "LA") = Ok (u "33" ++ [176%N] ++ u "45" ++ [8242%N] ++ u "21.384" ++ [8243%N] ++ u "N").
Proof. vm_compute. reflexivity. Qed.
(* test_static.py:205 testDMS2DEG *)
Example static_testDMS2DEG_15 : dms2deg (u "28" ++ [176%N] ++ u "S") 7 = Ok (f_norm (-28) 0).
Proof. vm_compute. reflexivity. Qed.
(* test_static.py:206 testDMS2DEG *)
Example static_testDMS2DEG_16 : deg2dms (VFloat (f_norm (-28) 0)) (u "LA") = Ok (u "28" ++ [176%N] ++ u "0" ++ [8242%N] ++ u "0.0" ++ [8243%N] ++ u "S").
Proof. vm_compute. reflexivity. Qed.
(* test_static.py:208 testDMS2DEG *)
Example static_testDMS2DEG_17 : dms2deg (u "45.1234" ++ [176%N]) 7 = Ok (f_norm 6350553982052807 (-47)).
Proof. vm_compute. reflexivity. Qed.
(* test_static.py:209 testDMS2DEG *)
Example static_testDMS2DEG_18 : dms2deg (u "51" ++ [176%N;176%N] ++ u "20" ++ [8242%N] ++ u "45.6" ++ [8243%N]) 7 = Raise ValueError.
Proof. vm_compute. reflexivity. Qed.
(* test_static.py:211 testDMS2DEG *)
Example static_testDMS2DEG_19 : dms2deg (u "51" ++ [176%N] ++ u "20" ++ [8242%N] ++ u "45.6" ++ [8243%N] ++ u "Z") 7 = Raise ValueError.
Proof. vm_compute. reflexivity. Qed.
(* test_static.py:213 testDMS2DEG *)
Example static_testDMS2DEG_20 : dms2deg (u "51" ++ [176%N] ++ u "20" ++ [8242%N] ++ u "45.6" ++ [8243%N] ++ u "34.25`N") 7 = Raise ValueError.
Proof. vm_compute. reflexivity. Qed.
(* test_static.py:215 testDMS2DEG *)
Example static_testDMS2DEG_21 : dms2deg (u "xx" ++ [176%N] ++ u "yy" ++ [8242%N] ++ u "zz.6" ++ [8243%N] ++ u "N") 7 = Raise ValueError.
Proof. vm_compute. reflexivity. Qed.
(* test_static.py:220 testDate2UTC *)
Example static_testDate2UTC_1 : date2utc [] (u "DT") = (VStr []).
Proof. vm_compute. reflexivity. Qed.
(* test_static.py:222 testDate2UTC *)
Example static_testDate2UTC_2 : date2utc (u "120320") (u "DT") = (VDate (mkdate 2020 3 12)).
Proof. vm_compute. reflexivity. Qed.
(* test_static.py:224 testDate2UTC *)
Example static_testDate2UTC_3 : date2utc (u "031220") (u "DM") = (VDate (mkdate 2020 3 12)).
Proof. vm_compute. reflexivity. Qed.
(* test_static.py:226 testDate2UTC *)
Example static_testDate2UTC_4 : date2utc (u "12032020") (u "DTL") = (VDate (mkdate 2020 3 12)).
Proof. vm_compute. reflexivity. Qed.
(* test_static.py:230 testTime2UTC *)
Example static_testTime2UTC_1 : time2utc [] = (VStr []).
Proof. vm_compute. reflexivity. Qed.
(* test_static.py:232 testTime2UTC *)
Example static_testTime2UTC_2 : time2utc (u "081123.000") = (VTime (mktime 8 11 23 0)).
Proof. vm_compute. reflexivity. Qed.
(* test_static.py:236 testTime2str *)
Example static_testTime2str_1 : time2str (VTime (mktime 8 11 23 0)) = (u "081123.00").
Proof. vm_compute. reflexivity. Qed.
(* test_static.py:238 testTime2str *)
Example static_testTime2str_2 : time2str (VStr (u "wsdfasdf")) = [].
Proof. vm_compute. reflexivity. Qed.
(* test_static.py:242 testDate2str *)
Example static_testDate2str_1 : date2str (VDate (mkdate 2021 3 7)) (u "DT") = (u "070321").
Proof. vm_compute. reflexivity. Qed.
(* test_static.py:244 testDate2str *)
Example static_testDate2str_2 : date2str (VDate (mkdate 2021 3 7)) (u "DTL") = (u "07032021").
Proof. vm_compute. reflexivity. Qed.
(* test_static.py:246 testDate2str *)
Example static_testDate2str_3 : date2str (VDate (mkdate 2021 3 7)) (u "DM") = (u "030721").
Proof. vm_compute. reflexivity. Qed.
(* test_static.py:248 testDate2str *)
Example static_testDate2str_4 : date2str (VStr (u "wsdfasdf")) (u "DT") = [].
Proof. vm_compute. reflexivity. Qed.
(* test_static.py:274 testMsgDesc *)
Example static_testMsgDesc_1 : msgdesc (u "GGA") = (u "Global positioning system fix data").
Proof. vm_compute. reflexivity. Qed.
(* test_static.py:276 testMsgDesc *)
Example static_testMsgDesc_2 : msgdesc (u "UBX03") = (u "Satellite Status").
Proof. vm_compute. reflexivity. Qed.
(* test_static.py:278 testMsgDesc *)
Example static_testMsgDesc_3 : msgdesc (u "XXX") = (u "Unknown msgID XXX").
Proof. vm_compute. reflexivity. Qed.
(* test_static.py:412 testVal2Str *)
Example static_testVal2Str_1 : val2str (VStr (u "B")) (u "HX") false = Ok (u "B").
Proof. vm_compute. reflexivity. Qed.
(* test_static.py:414 testVal2Str *)
Example static_testVal2Str_2 : val2str (VInt 23) (u "IN") false = Ok (u "23").
Proof. vm_compute. reflexivity. Qed.
(* test_static.py:416 testVal2Str *)
Example static_testVal2Str_3 : val2str (VFloat (f_norm 8605252987998175 (-49))) (u "DE") false = Ok (u "15.286").
Proof. vm_compute. reflexivity. Qed.
(* test_static.py:418 testVal2Str *)
Example static_testVal2Str_4 : val2str (VFloat (f_norm 111 (-1))) (u "LA") false = Ok (u "5530.00000").
Proof. vm_compute. reflexivity. Qed.
(* test_static.py:420 testVal2Str *)
Example static_testVal2Str_5 : val2str (VFloat (f_norm 11 (-2))) (u "LN") false = Ok (u "00245.00000").
Proof. vm_compute. reflexivity. Qed.
(* test_static.py:422 testVal2Str *)
Example static_testVal2Str_6 : val2str (VDateTime (mkdate 2021 5 7) (mktime 2 45 23 0)) (u "TM") false = Ok (u "024523.00").
Proof. vm_compute. reflexivity. Qed.
(* test_static.py:424 testVal2Str *)
Example static_testVal2Str_7 : val2str (VDateTime (mkdate 2020 6 7) (mktime 3 27 24 0)) (u "DT") false = Ok (u "070620").
Proof. vm_compute. reflexivity. Qed.
(* test_static.py:426 testVal2Str *)
Example static_testVal2Str_8 : val2str (VDateTime (mkdate 2020 6 7) (mktime 3 27 24 0)) (u "DTL") false = Ok (u "07062020").
Proof. vm_compute. reflexivity. Qed.
(* test_static.py:428 testVal2Str *)
Example static_testVal2Str_9 : val2str (VStr (u "2020-06-07")) (u "DTL") false = Ok (u "07062020").
Proof. vm_compute. reflexivity. Qed.
(* test_static.py:430 testVal2Str *)
Example static_testVal2Str_10 : val2str (VStr (u "20210708")) (u "DTL") false = Ok (u "08072021").
Proof. vm_compute. reflexivity. Qed.
(* test_static.py:432 testVal2Str *)
Example static_testVal2Str_11 : val2str (VDateTime (mkdate 2020 6 7) (mktime 3 27 24 0)) (u "DM") false = Ok (u "060720").
Proof. vm_compute. reflexivity. Qed.
(* test_static.py:434 testVal2Str *)
Example static_testVal2Str_12 : val2str (VStr (u "2020-06-07")) (u "DM") false = Ok (u "060720").
Proof. vm_compute. reflexivity. Qed.
(* test_static.py:438 testVal2StrBAD *)
Example static_testVal2StrBAD_1 : val2str (VFloat (f_norm 6600588203864883 (-48))) (u "XX") false = Raise NMEATypeError.
Proof. vm_compute. reflexivity. Qed.
(* test_static.py:478 testdeg2dms *)
Example static_testdeg2dms_1 : deg2dms (VFloat (f_norm 7507782053803327 (-47))) (u "LA") = Ok (u "53" ++ [176%N] ++ u "20" ++ [8242%N] ++ u "45.6" ++ [8243%N] ++ u "N").
Proof. vm_compute. reflexivity. Qed.
(* test_static.py:480 testdeg2dms *)
Example static_testdeg2dms_2 : deg2dms (VStr (u "xxx")) (u "LA") = Ok [].
Proof. vm_compute. reflexivity. Qed.
(* test_static.py:484 testdeg2dmm *)
Example static_testdeg2dmm_1 : deg2dmm (VFloat (f_norm (-5733757865586747) (-51))) (u "LN") = Ok (u "2" ++ [176%N] ++ u "32.778" ++ [8242%N] ++ u "W").
Proof. vm_compute. reflexivity. Qed.
(* test_static.py:486 testdeg2dmm *)
Example static_testdeg2dmm_2 : deg2dmm (VStr (u "xxx")) (u "LN") = Ok [].
Proof. vm_compute. reflexivity. Qed.
(* test_static.py:490 testlatlon2dms *)
Example static_testlatlon2dms_1 : latlon2dms (VFloat (f_norm 7507782053803327 (-47))) (VFloat (f_norm (-5733757865586747) (-51))) = Ok ((u "53" ++ [176%N] ++ u "20" ++ [8242%N] ++ u "45.6" ++ [8243%N] ++ u "N"), (u "2" ++ [176%N] ++ u "32" ++ [8242%N] ++ u "46.68" ++ [8243%N] ++ u "W")).
Proof. vm_compute. reflexivity. Qed.
(* test_static.py:494 testlatlon2dmm *)
Example static_testlatlon2dmm_1 : latlon2dmm (VFloat (f_norm 7507782053803327 (-47))) (VFloat (f_norm (-5733757865586747) (-51))) = Ok ((u "53" ++ [176%N] ++ u "20.76" ++ [8242%N] ++ u "N"), (u "2" ++ [176%N] ++ u "32.778" ++ [8242%N] ++ u "W")).
Proof. vm_compute. reflexivity. Qed.
(* test_static.py:498 testlatlon2dmm *)
Example static_testlatlon2dmm_2 : latlon2dmm (VFloat (f_norm 7507782053803327 (-47))) (VFloat (f_norm (-5733757865586747) (-51))) = Ok ((u "53" ++ [176%N] ++ u "20.76" ++ [8242%N] ++ u "N"), (u "2" ++ [176%N] ++ u "32.778" ++ [8242%N] ++ u "W")).
Proof. vm_compute. reflexivity. Qed.
(* test_static.py:502 testllh2iso6709 *)
Example static_testllh2iso6709_1 : llh2iso6709 (VFloat (f_norm 7475975381435023 (-47))) (VFloat (f_norm (-2437573298314281) (-50))) (VInt 35) (u "WGS_84") = Ok (u "+53.12-2.165+35CRSWGS_84/").
Proof. vm_compute. reflexivity. Qed.
(* test_static.py:504 testllh2iso6709 *)
Example static_testllh2iso6709_2 : llh2iso6709 (VFloat (f_norm (-7475975381435023) (-47))) (VFloat (f_norm 2437573298314281 (-50))) (VFloat (f_norm 4816740538961101 (-46))) (u "WGS_84") = Ok (u "-53.12+2.165+68.45CRSWGS_84/").
Proof. vm_compute. reflexivity. Qed.
(* test_static.py:594 testhex2str *)
Example static_testhex2str_1 : hex2str 305441741 8 = (u "1234ABCD").
Proof. vm_compute. reflexivity. Qed.
(* test_static.py:596 testhex2str *)
Example static_testhex2str_2 : hex2str 4667 8 = (u "0000123B").
Proof. vm_compute. reflexivity. Qed.
(* test_static.py:597 testhex2str *)
Example static_testhex2str_3 : hex2str 4667 6 = (u "00123B").
Proof. vm_compute. reflexivity. Qed.
(* test_static.py:598 testhex2str *)
Example static_testhex2str_4 : hex2str 4667 0 = (u "123B").
Proof. vm_compute. reflexivity. Qed.
(* test_static.py:636 testwnotow2utcGPS *)
Example static_testwnotow2utcGPS_1 : wnotow2utc 2406 516114123 None (u "G") false true 0 = Some (Ok (dtime 1986 11 21 23 21 50 123000)).
Proof. vm_compute. reflexivity. Qed.
(* test_static.py:641 testwnotow2utcGPS *)
Example static_testwnotow2utcGPS_2 : wnotow2utc 2406 516114123 None (u "G") false false 0 = Some (Ok (dtime 2026 2 20 23 21 36 123000)).
Proof. vm_compute. reflexivity. Qed.
(* test_static.py:651 testwnotow2utcGPS *)
Example static_testwnotow2utcGPS_3 : wnotow2utc 366 381600000 None (u "G") false true 0 = Some (Ok (dtime 1987 1 15 9 59 56 0)).
Proof. vm_compute. reflexivity. Qed.
(* test_static.py:654 testwnotow2utcGPS *)
Example static_testwnotow2utcGPS_4 : wnotow2utc 1390 381600000 None (u "G") false true 0 = Some (Ok (dtime 1987 1 15 9 59 56 0)).
Proof. vm_compute. reflexivity. Qed.
(* test_static.py:659 testwnotow2utcBDS *)
Example static_testwnotow2utcBDS_1 : wnotow2utc 1390 381600000 None (u "C") false true 0 = Some (Ok (dtime 2032 8 26 9 59 56 0)).
Proof. vm_compute. reflexivity. Qed.
(* test_static.py:664 testwnotow2utcGAL *)
Example static_testwnotow2utcGAL_1 : wnotow2utc 1390 381600000 None (u "E") false true 0 = Some (Ok (dtime 2026 4 16 9 59 42 0)).
Proof. vm_compute. reflexivity. Qed.
(* test_static.py:667 testwnotow2utcGAL *)
Example static_testwnotow2utcGAL_2 : wnotow2utc 1390 381600000 None (u "E") false false 0 = Some (Ok (dtime 2026 4 16 9 59 42 0)).
Proof. vm_compute. reflexivity. Qed.
(* test_static.py:672 testwnotow2utcIRN *)
Example static_testwnotow2utcIRN_1 : wnotow2utc 1390 381600000 None (u "I") false true 0 = Some (Ok (dtime 2006 8 31 9 59 46 0)).
Proof. vm_compute. reflexivity. Qed.
(* test_static.py:675 testwnotow2utcIRN *)
Example static_testwnotow2utcIRN_2 : wnotow2utc 1390 381600000 None (u "I") false false 0 = Some (Ok (dtime 2026 4 16 9 59 42 0)).
Proof. vm_compute. reflexivity. Qed.
(* test_static.py:678 testleapsecondGPS *)
Example static_testleapsecondGPS_1 : leapsecond (dtime 1980 1 6 0 0 0 0) (u "G") = Ok 0.
Proof. vm_compute. reflexivity. Qed.
(* test_static.py:679 testleapsecondGPS *)
Example static_testleapsecondGPS_2 : leapsecond (dtime 1985 1 1 0 0 0 0) (u "G") = Ok 3.
Proof. vm_compute. reflexivity. Qed.
(* test_static.py:680 testleapsecondGPS *)
Example static_testleapsecondGPS_3 : leapsecond (dtime 1997 8 1 0 0 0 0) (u "G") = Ok 12.
Proof. vm_compute. reflexivity. Qed.
(* test_static.py:681 testleapsecondGPS *)
Example static_testleapsecondGPS_4 : leapsecond (dtime 2025 9 18 16 51 34 0) (u "G") = Ok 18.
Proof. vm_compute. reflexivity. Qed.
(* test_static.py:682 testleapsecondGPS *)
Example static_testleapsecondGPS_5 : leapsecond (dtime 2025 9 18 16 51 34 0) (u "G") = Ok 18.
Proof. vm_compute. reflexivity. Qed.
(* test_static.py:685 testleapsecondGPS *)
Example static_testleapsecondGPS_6 : leapsecond (dtime 1974 9 18 16 51 34 0) (u "G") = Ok (-6).
Proof. vm_compute. reflexivity. Qed.
(* test_static.py:686 testleapsecondGPS *)
Example static_testleapsecondGPS_7 : leapsecond (dtime 1971 9 18 16 51 34 0) (u "G") = Ok 0.
Proof. vm_compute. reflexivity. Qed.
(* test_static.py:689 testleapsecondBDS *)
Example static_testleapsecondBDS_1 : leapsecond (dtime 2006 1 1 0 0 0 0) (u "C") = Ok 0.
Proof. vm_compute. reflexivity. Qed.
(* test_static.py:690 testleapsecondBDS *)
Example static_testleapsecondBDS_2 : leapsecond (dtime 2025 1 1 16 51 34 0) (u "C") = Ok 4.
Proof. vm_compute. reflexivity. Qed.
(* test_static.py:693 testleapsecondGAL *)
Example static_testleapsecondGAL_1 : leapsecond (dtime 2025 1 1 16 51 34 0) (u "E") = Ok 18.
Proof. vm_compute. reflexivity. Qed.
(* test_static.py:696 testleapsecondIRN *)
Example static_testleapsecondIRN_1 : leapsecond (dtime 2025 1 1 16 51 34 0) (u "I") = Ok 18.
Proof. vm_compute. reflexivity. Qed.
(* test_static.py:0 testKnots2spd *)
Example static_testKnots2spd_1 : near (knots2spd (VFloat (f_norm 1 0)) (u "MS")) (f_norm 4633706210278709 (-53)) (f_norm 5902958103587057 (-70)) = true.
Proof. vm_compute. reflexivity. Qed.
(* test_static.py:0 testKnots2spd *)
Example static_testKnots2spd_2 : near (knots2spd (VFloat (f_norm 1 0)) (u "FS")) (f_norm 1900306067523971 (-50)) (f_norm 5902958103587057 (-70)) = true.
Proof. vm_compute. reflexivity. Qed.
(* test_static.py:0 testKnots2spd *)
Example static_testKnots2spd_3 : near (knots2spd (VFloat (f_norm 1 0)) (u "mph")) (f_norm 5182652379185419 (-52)) (f_norm 5902958103587057 (-70)) = true.
Proof. vm_compute. reflexivity. Qed.
(* test_static.py:0 testKnots2spd *)
Example static_testKnots2spd_4 : near (knots2spd (VFloat (f_norm 1 0)) (u "kmph")) (f_norm 4170335506744893 (-51)) (f_norm 5902958103587057 (-70)) = true.
Proof. vm_compute. reflexivity. Qed.
(* test_static.py:0 testKnots2spdBAD *)
Example static_testKnots2spdBAD_1 : knots2spd (VFloat (f_norm 1 0)) (u "CRAP") = Raise KeyError.
Proof. vm_compute. reflexivity. Qed.
(* test_static.py:0 testKnots2spdBAD *)
Example static_testKnots2spdBAD_2 : knots2spd (VStr (u "CRAP")) (u "MS") = Raise TypeError.
Proof. vm_compute. reflexivity. Qed.
(* test_static.py:0 testNomVal *)
Example static_testNomVal_1 : nomval (u "CH") 0 (no_clock 0%nat) = Ok (VStr []).
Proof. vm_compute. reflexivity. Qed.
(* test_static.py:0 testNomVal *)
Example static_testNomVal_2 : nomval (u "ST") 0 (no_clock 0%nat) = Ok (VStr []).
Proof. vm_compute. reflexivity. Qed.
(* test_static.py:0 testNomVal *)
Example static_testNomVal_3 : nomval (u "LA") 0 (no_clock 0%nat) = Ok (VStr []).
Proof. vm_compute. reflexivity. Qed.
(* test_static.py:0 testNomVal *)
Example static_testNomVal_4 : nomval (u "LN") 0 (no_clock 0%nat) = Ok (VStr []).
Proof. vm_compute. reflexivity. Qed.
(* test_static.py:0 testNomVal *)
Example static_testNomVal_5 : nomval (u "HX") 0 (no_clock 0%nat) = Ok (VStr (u "0")).
Proof. vm_compute. reflexivity. Qed.
(* test_static.py:0 testNomVal *)
Example static_testNomVal_6 : nomval (u "IN") 0 (no_clock 0%nat) = Ok (VInt 0).
Proof. vm_compute. reflexivity. Qed.
(* test_static.py:0 testNomVal *)
Example static_testNomVal_7 : nomval (u "DE") 0 (no_clock 0%nat) = Ok (VFloat (S754_zero false)).
Proof. vm_compute. reflexivity. Qed.
(* test_static.py:0 testNomValBAD *)
Example static_testNomValBAD_1 : nomval (u "XX") 0 (no_clock 0%nat) = Raise NMEATypeError.
Proof. vm_compute. reflexivity. Qed.
(* test_static.py:0 testCalcChecksum *)
Example static_testCalcChecksum_1 : (let! p := get_parts (MStr (u "$GNGLL,5327.04319,S,00214.41396,E,223232.00,A,A*68" ++ crlf)) in Ok (calc_checksum (p_content p))) = Ok (u "68").
Proof. vm_compute. reflexivity. Qed.
(* test_static.py:0 testProperties *)
Example static_testProperties_1 : match parse (MStr (u "$GNGLL,5327.04319,S,00214.41396,E,223232.00,A,A*68" ++ crlf)) 0 1 [] with Ok (Some m) => (let! i := identity m in Ok (i, m_talker m, m_msgID m, m_mode m, m_checksum m, m_payload m)) | _ => Raise EOFError end = Ok ((u "GNGLL"), (u "GN"), (u "GLL"), 0, Some (u "68"), [(u "5327.04319"); (u "S"); (u "00214.41396"); (u "E"); (u "223232.00"); (u "A"); (u "A")]).
Proof. vm_compute. reflexivity. Qed.
(* test_static.py:0 testSerialize *)
Example static_testSerialize_1 : match parse (MStr (u "$GNGLL,5327.04319,S,00214.41396,E,223232.00,A,A*68" ++ crlf)) 0 1 [] with Ok (Some m) => serialize m | _ => Raise EOFError end = Ok (u "$GNGLL,5327.04319,S,00214.41396,E,223232.00,A,A*68" ++ crlf).
Proof. vm_compute. reflexivity. Qed.
(* test_static.py:0 testStr *)
Example static_testStr_1 : same (parsed (u "$GNGLL,5327.04319,S,00214.41396,E,223232.00,A,A*68" ++ crlf) 0 1) match parse (MStr (u "$GNGLL,5327.04319,S,00214.41396,E,223232.00,A,A*68" ++ crlf)) 0 1 [] with Ok (Some m) => match serialize m with Ok b => match parse (MBytes b) 0 1 [] with Ok (Some m') => str_of_msg m' | _ => Raise EOFError end | Raise e => Raise e end | _ => Raise EOFError end = true.
Proof. vm_compute. reflexivity. Qed.
(* test_static.py:0 testCalcChecksum *)
Example static_testCalcChecksum_2 : (let! p := get_parts (MStr (u "$PUBX,00,103607.00,5327.03942,N,00214.42462,W,104.461,G3,29,31,0.085,39.63,-0.007,,5.88,7.62,8.09,6,0,0*69" ++ crlf)) in Ok (calc_checksum (p_content p))) = Ok (u "69").
Proof. vm_compute. reflexivity. Qed.
(* test_static.py:0 testProperties *)
Example static_testProperties_2 : match parse (MStr (u "$PUBX,00,103607.00,5327.03942,N,00214.42462,W,104.461,G3,29,31,0.085,39.63,-0.007,,5.88,7.62,8.09,6,0,0*69" ++ crlf)) 0 1 [] with Ok (Some m) => (let! i := identity m in Ok (i, m_talker m, m_msgID m, m_mode m, m_checksum m, m_payload m)) | _ => Raise EOFError end = Ok ((u "PUBX00"), (u "P"), (u "UBX"), 0, Some (u "69"), [(u "00"); (u "103607.00"); (u "5327.03942"); (u "N"); (u "00214.42462"); (u "W"); (u "104.461"); (u "G3"); (u "29"); (u "31"); (u "0.085"); (u "39.63"); (u "-0.007"); []; (u "5.88"); (u "7.62"); (u "8.09"); (u "6"); (u "0"); (u "0")]).
Proof. vm_compute. reflexivity. Qed.
(* test_static.py:0 testSerialize *)
Example static_testSerialize_2 : match parse (MStr (u "$PUBX,00,103607.00,5327.03942,N,00214.42462,W,104.461,G3,29,31,0.085,39.63,-0.007,,5.88,7.62,8.09,6,0,0*69" ++ crlf)) 0 1 [] with Ok (Some m) => serialize m | _ => Raise EOFError end = Ok (u "$PUBX,00,103607.00,5327.03942,N,00214.42462,W,104.461,G3,29,31,0.085,39.63,-0.007,,5.88,7.62,8.09,6,0,0*69" ++ crlf).
Proof. vm_compute. reflexivity. Qed.
(* test_static.py:0 testStr *)
Example static_testStr_2 : same (parsed (u "$PUBX,00,103607.00,5327.03942,N,00214.42462,W,104.461,G3,29,31,0.085,39.63,-0.007,,5.88,7.62,8.09,6,0,0*69" ++ crlf) 0 1) match parse (MStr (u "$PUBX,00,103607.00,5327.03942,N,00214.42462,W,104.461,G3,29,31,0.085,39.63,-0.007,,5.88,7.62,8.09,6,0,0*69" ++ crlf)) 0 1 [] with Ok (Some m) => match serialize m with Ok b => match parse (MBytes b) 0 1 [] with Ok (Some m') => str_of_msg m' | _ => Raise EOFError end | Raise e => Raise e end | _ => Raise EOFError end = true.
Proof. vm_compute. reflexivity. Qed.
(* test_static.py:446 testReprS *)
Example static_testReprS_1 : match parse (MStr (u "$GNGLL,5327.04319,S,00214.41396,E,223232.00,A,A*68" ++ crlf)) 0 1 [] with Ok (Some m) => repr_of_msg m | _ => Raise EOFError end = Ok (u "NMEAMessage('GN','GLL', 0, payload=['5327.04319', 'S', '00214.41396', 'E', '223232.00', 'A', 'A'])").
Proof. vm_compute. reflexivity. Qed.
(* test_static.py:453 testReprP *)
Example static_testReprP_1 : match parse (MStr (u "$PUBX,00,103607.00,5327.03942,N,00214.42462,W,104.461,G3,29,31,0.085,39.63,-0.007,,5.88,7.62,8.09,6,0,0*69" ++ crlf)) 0 1 [] with Ok (Some m) => repr_of_msg m | _ => Raise EOFError end = Ok (u "NMEAMessage('P','UBX', 0, payload=['00', '103607.00', '5327.03942', 'N', '00214.42462', 'W', '104.461', 'G3', '29', '31', '0.085', '39.63', '-0.007', '', '5.88', '7.62', '8.09', '6', '0', '0'])").
Proof. vm_compute. reflexivity. Qed.
(* test_static.py:608 testmaxidx *)
Example static_testmaxidx_1 : groupsize [(u "svid_01"); (u "svid_02"); (u "elv_03"); (u "svid_04")] = Ok 4.
Proof. vm_compute. reflexivity. Qed.
(* test_static.py:608 testmaxidx *)
Example static_testmaxidx_2 : groupsize [(u "svid_01"); (u "svid_02"); (u "cno_03")] = Ok 3.
Proof. vm_compute. reflexivity. Qed.
(* test_static.py:608 testmaxidx *)
Example static_testmaxidx_3 : groupsize [(u "svid"); (u "elv"); (u "az")] = Ok 0.
Proof. vm_compute. reflexivity. Qed.
(* test_static.py:608 testmaxidx *)
Example static_testmaxidx_4 : groupsize [] = Ok 0.
Proof. vm_compute. reflexivity. Qed.
(* test_static.py:0 testtimeconv *)
Example static_testtimeconv_1 : match wnotow2utc 203 162864000 None (u "G") true true (dtime 2026 4 1 0 0 0 0) with Some (Ok t) => match utc2wnotow t (u "G") true with Ok (w, s, _) => Ok (w, s) | Raise e => Raise e end | _ => Raise EOFError end = Ok (203, 162864000).
Proof. vm_compute. reflexivity. Qed.
(* test_static.py:0 testtimeconv *)
Example static_testtimeconv_2 : match wnotow2utc 1023 472651000 None (u "G") true true (dtime 2026 4 1 0 0 0 0) with Some (Ok t) => match utc2wnotow t (u "G") true with Ok (w, s, _) => Ok (w, s) | Raise e => Raise e end | _ => Raise EOFError end = Ok (1023, 472651000).
Proof. vm_compute. reflexivity. Qed.
(* test_static.py:0 testtimeconv *)
Example static_testtimeconv_3 : match wnotow2utc 366 111222000 None (u "G") true true (dtime 2026 4 1 0 0 0 0) with Some (Ok t) => match utc2wnotow t (u "G") true with Ok (w, s, _) => Ok (w, s) | Raise e => Raise e end | _ => Raise EOFError end = Ok (366, 111222000).
Proof. vm_compute. reflexivity. Qed.
(* test_static.py:0 testtimeconv *)
Example static_testtimeconv_4 : match wnotow2utc 986 1945000 None (u "G") true true (dtime 2026 4 1 0 0 0 0) with Some (Ok t) => match utc2wnotow t (u "G") true with Ok (w, s, _) => Ok (w, s) | Raise e => Raise e end | _ => Raise EOFError end = Ok (986, 1945000).
Proof. vm_compute. reflexivity. Qed.
(* test_static.py:0 testtimeconv *)
Example static_testtimeconv_5 : match wnotow2utc 666 162864000 None (u "G") true true (dtime 2026 4 1 0 0 0 0) with Some (Ok t) => match utc2wnotow t (u "G") true with Ok (w, s, _) => Ok (w, s) | Raise e => Raise e end | _ => Raise EOFError end = Ok (666, 162864000).
Proof. vm_compute. reflexivity. Qed.
(* test_static.py:0 testtimeconv *)
Example static_testtimeconv_6 : match wnotow2utc 888 472651000 None (u "G") true true (dtime 2026 4 1 0 0 0 0) with Some (Ok t) => match utc2wnotow t (u "G") true with Ok (w, s, _) => Ok (w, s) | Raise e => Raise e end | _ => Raise EOFError end = Ok (888, 472651000).
Proof. vm_compute. reflexivity. Qed.
(* test_static.py:0 testtimeconv *)
Example static_testtimeconv_7 : match wnotow2utc 420 111222000 None (u "G") true true (dtime 2026 4 1 0 0 0 0) with Some (Ok t) => match utc2wnotow t (u "G") true with Ok (w, s, _) => Ok (w, s) | Raise e => Raise e end | _ => Raise EOFError end = Ok (420, 111222000).
Proof. vm_compute. reflexivity. Qed.
(* test_static.py:0 testtimeconv *)
Example static_testtimeconv_8 : match wnotow2utc 54 1945000 None (u "G") true true (dtime 2026 4 1 0 0 0 0) with Some (Ok t) => match utc2wnotow t (u "G") true with Ok (w, s, _) => Ok (w, s) | Raise e => Raise e end | _ => Raise EOFError end = Ok (54, 1945000).
Proof. vm_compute. reflexivity. Qed.
(* test_static.py:0 testtimeconv *)
Example static_testtimeconv_9 : match wnotow2utc 203 162864000 None (u "E") true true (dtime 2026 4 1 0 0 0 0) with Some (Ok t) => match utc2wnotow t (u "E") true with Ok (w, s, _) => Ok (w, s) | Raise e => Raise e end | _ => Raise EOFError end = Ok (203, 162864000).
Proof. vm_compute. reflexivity. Qed.
(* test_static.py:0 testtimeconv *)
Example static_testtimeconv_10 : match wnotow2utc 1023 472651000 None (u "E") true true (dtime 2026 4 1 0 0 0 0) with Some (Ok t) => match utc2wnotow t (u "E") true with Ok (w, s, _) => Ok (w, s) | Raise e => Raise e end | _ => Raise EOFError end = Ok (1023, 472651000).
Proof. vm_compute. reflexivity. Qed.
(* test_static.py:0 testtimeconv *)
Example static_testtimeconv_11 : match wnotow2utc 366 111222000 None (u "E") true true (dtime 2026 4 1 0 0 0 0) with Some (Ok t) => match utc2wnotow t (u "E") true with Ok (w, s, _) => Ok (w, s) | Raise e => Raise e end | _ => Raise EOFError end = Ok (366, 111222000).
Proof. vm_compute. reflexivity. Qed.
(* test_static.py:0 testtimeconv *)
Example static_testtimeconv_12 : match wnotow2utc 986 1945000 None (u "E") true true (dtime 2026 4 1 0 0 0 0) with Some (Ok t) => match utc2wnotow t (u "E") true with Ok (w, s, _) => Ok (w, s) | Raise e => Raise e end | _ => Raise EOFError end = Ok (986, 1945000).
Proof. vm_compute. reflexivity. Qed.
(* test_static.py:0 testtimeconv *)
Example static_testtimeconv_13 : match wnotow2utc 666 162864000 None (u "E") true true (dtime 2026 4 1 0 0 0 0) with Some (Ok t) => match utc2wnotow t (u "E") true with Ok (w, s, _) => Ok (w, s) | Raise e => Raise e end | _ => Raise EOFError end = Ok (666, 162864000).
Proof. vm_compute. reflexivity. Qed.
(* test_static.py:0 testtimeconv *)
Example static_testtimeconv_14 : match wnotow2utc 888 472651000 None (u "E") true true (dtime 2026 4 1 0 0 0 0) with Some (Ok t) => match utc2wnotow t (u "E") true with Ok (w, s, _) => Ok (w, s) | Raise e => Raise e end | _ => Raise EOFError end = Ok (888, 472651000).
Proof. vm_compute. reflexivity. Qed.
(* test_static.py:0 testtimeconv *)
Example static_testtimeconv_15 : match wnotow2utc 420 111222000 None (u "E") true true (dtime 2026 4 1 0 0 0 0) with Some (Ok t) => match utc2wnotow t (u "E") true with Ok (w, s, _) => Ok (w, s) | Raise e => Raise e end | _ => Raise EOFError end = Ok (420, 111222000).
Proof. vm_compute. reflexivity. Qed.
(* test_static.py:0 testtimeconv *)
Example static_testtimeconv_16 : match wnotow2utc 54 1945000 None (u "E") true true (dtime 2026 4 1 0 0 0 0) with Some (Ok t) => match utc2wnotow t (u "E") true with Ok (w, s, _) => Ok (w, s) | Raise e => Raise e end | _ => Raise EOFError end = Ok (54, 1945000).
Proof. vm_compute. reflexivity. Qed.
(* test_static.py:0 testtimeconv *)
Example static_testtimeconv_17 : match wnotow2utc 203 162864000 None (u "C") true true (dtime 2026 4 1 0 0 0 0) with Some (Ok t) => match utc2wnotow t (u "C") true with Ok (w, s, _) => Ok (w, s) | Raise e => Raise e end | _ => Raise EOFError end = Ok (203, 162864000).
Proof. vm_compute. reflexivity. Qed.
(* test_static.py:0 testtimeconv *)
Example static_testtimeconv_18 : match wnotow2utc 1023 472651000 None (u "C") true true (dtime 2026 4 1 0 0 0 0) with Some (Ok t) => match utc2wnotow t (u "C") true with Ok (w, s, _) => Ok (w, s) | Raise e => Raise e end | _ => Raise EOFError end = Ok (1023, 472651000).
Proof. vm_compute. reflexivity. Qed.
(* test_static.py:0 testtimeconv *)
Example static_testtimeconv_19 : match wnotow2utc 366 111222000 None (u "C") true true (dtime 2026 4 1 0 0 0 0) with Some (Ok t) => match utc2wnotow t (u "C") true with Ok (w, s, _) => Ok (w, s) | Raise e => Raise e end | _ => Raise EOFError end = Ok (366, 111222000).
Proof. vm_compute. reflexivity. Qed.
(* test_static.py:0 testtimeconv *)
Example static_testtimeconv_20 : match wnotow2utc 986 1945000 None (u "C") true true (dtime 2026 4 1 0 0 0 0) with Some (Ok t) => match utc2wnotow t (u "C") true with Ok (w, s, _) => Ok (w, s) | Raise e => Raise e end | _ => Raise EOFError end = Ok (986, 1945000).
Proof. vm_compute. reflexivity. Qed.
(* test_static.py:0 testtimeconv *)
Example static_testtimeconv_21 : match wnotow2utc 666 162864000 None (u "C") true true (dtime 2026 4 1 0 0 0 0) with Some (Ok t) => match utc2wnotow t (u "C") true with Ok (w, s, _) => Ok (w, s) | Raise e => Raise e end | _ => Raise EOFError end = Ok (666, 162864000).
Proof. vm_compute. reflexivity. Qed.
(* test_static.py:0 testtimeconv *)
Example static_testtimeconv_22 : match wnotow2utc 888 472651000 None (u "C") true true (dtime 2026 4 1 0 0 0 0) with Some (Ok t) => match utc2wnotow t (u "C") true with Ok (w, s, _) => Ok (w, s) | Raise e => Raise e end | _ => Raise EOFError end = Ok (888, 472651000).
Proof. vm_compute. reflexivity. Qed.
(* test_static.py:0 testtimeconv *)
Example static_testtimeconv_23 : match wnotow2utc 420 111222000 None (u "C") true true (dtime 2026 4 1 0 0 0 0) with Some (Ok t) => match utc2wnotow t (u "C") true with Ok (w, s, _) => Ok (w, s) | Raise e => Raise e end | _ => Raise EOFError end = Ok (420, 111222000).
Proof. vm_compute. reflexivity. Qed.
(* test_static.py:0 testtimeconv *)
Example static_testtimeconv_24 : match wnotow2utc 54 1945000 None (u "C") true true (dtime 2026 4 1 0 0 0 0) with Some (Ok t) => match utc2wnotow t (u "C") true with Ok (w, s, _) => Ok (w, s) | Raise e => Raise e end | _ => Raise EOFError end = Ok (54, 1945000).
Proof. vm_compute. reflexivity. Qed.
(* test_static.py:0 testtimeconv *)
Example static_testtimeconv_25 : match wnotow2utc 203 162864000 None (u "I") true true (dtime 2026 4 1 0 0 0 0) with Some (Ok t) => match utc2wnotow t (u "I") true with Ok (w, s, _) => Ok (w, s) | Raise e => Raise e end | _ => Raise EOFError end = Ok (203, 162864000).
Proof. vm_compute. reflexivity. Qed.
(* test_static.py:0 testtimeconv *)
Example static_testtimeconv_26 : match wnotow2utc 1023 472651000 None (u "I") true true (dtime 2026 4 1 0 0 0 0) with Some (Ok t) => match utc2wnotow t (u "I") true with Ok (w, s, _) => Ok (w, s) | Raise e => Raise e end | _ => Raise EOFError end = Ok (1023, 472651000).
Proof. vm_compute. reflexivity. Qed.
(* test_static.py:0 testtimeconv *)
Example static_testtimeconv_27 : match wnotow2utc 366 111222000 None (u "I") true true (dtime 2026 4 1 0 0 0 0) with Some (Ok t) => match utc2wnotow t (u "I") true with Ok (w, s, _) => Ok (w, s) | Raise e => Raise e end | _ => Raise EOFError end = Ok (366, 111222000).
Proof. vm_compute. reflexivity. Qed.
(* test_static.py:0 testtimeconv *)
Example static_testtimeconv_28 : match wnotow2utc 986 1945000 None (u "I") true true (dtime 2026 4 1 0 0 0 0) with Some (Ok t) => match utc2wnotow t (u "I") true with Ok (w, s, _) => Ok (w, s) | Raise e => Raise e end | _ => Raise EOFError end = Ok (986, 1945000).
Proof. vm_compute. reflexivity. Qed.
(* test_static.py:0 testtimeconv *)
Example static_testtimeconv_29 : match wnotow2utc 666 162864000 None (u "I") true true (dtime 2026 4 1 0 0 0 0) with Some (Ok t) => match utc2wnotow t (u "I") true with Ok (w, s, _) => Ok (w, s) | Raise e => Raise e end | _ => Raise EOFError end = Ok (666, 162864000).
Proof. vm_compute. reflexivity. Qed.
(* test_static.py:0 testtimeconv *)
Example static_testtimeconv_30 : match wnotow2utc 888 472651000 None (u "I") true true (dtime 2026 4 1 0 0 0 0) with Some (Ok t) => match utc2wnotow t (u "I") true with Ok (w, s, _) => Ok (w, s) | Raise e => Raise e end | _ => Raise EOFError end = Ok (888, 472651000).
Proof. vm_compute. reflexivity. Qed.
(* test_static.py:0 testtimeconv *)
Example static_testtimeconv_31 : match wnotow2utc 420 111222000 None (u "I") true true (dtime 2026 4 1 0 0 0 0) with Some (Ok t) => match utc2wnotow t (u "I") true with Ok (w, s, _) => Ok (w, s) | Raise e => Raise e end | _ => Raise EOFError end = Ok (420, 111222000).
Proof. vm_compute. reflexivity. Qed.
(* test_static.py:0 testtimeconv *)
Example static_testtimeconv_32 : match wnotow2utc 54 1945000 None (u "I") true true (dtime 2026 4 1 0 0 0 0) with Some (Ok t) => match utc2wnotow t (u "I") true with Ok (w, s, _) => Ok (w, s) | Raise e => Raise e end | _ => Raise EOFError end = Ok (54, 1945000).
Proof. vm_compute. reflexivity. Qed.
(* test_static.py:0 testutc2wnotow *)
Example static_testutc2wnotow_1 : utc2wnotow (dtime 2026 4 1 2 3 4 0) (u "G") true = Ok (364, 266602000, 18).
Proof. vm_compute. reflexivity. Qed.
(* test_static.py:0 testwnotow2utcGPS *)
Example static_testwnotow2utcGPS_5 : wnotow2utc 2406 516114000 None (u "G") false true 0 = Some (Ok (dtime 1986 11 21 23 21 50 0)).
Proof. vm_compute. reflexivity. Qed.
