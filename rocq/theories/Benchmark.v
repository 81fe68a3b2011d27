(* Model of examples/benchmark.py.
   SIMPLIFICATIONS: the texts about the platform are left out, and the two figures at the end appear as rationals, not
   as rounded texts; int(a / b) is the quotient of the integers - the true division of Python is correctly rounded, so
   that is exact for i * 20 below 2 ** 53, i. e. for less than 4.5e14 cycles.  The time taken, in nanoseconds, is given. *)
From Coq Require Import QArith.
From Verif Require Import Message Reader.
Local Open Scope Z_scope.

(* benchmark.py:21-52 *)
Definition NMEAMESSAGES : list bytes :=
  [u "$GNDTM,W84,,0.0,N,0.0,E,0.0,W84*71";
   u "$GNRMC,103607.00,A,5327.03942,N,10214.42462,W,0.046,,060321,,,A,V*0E";
   u "$GPRTE,2,1,c,0,PBRCPK,PBRTO,PTELGR,PPLAND,PYAMBU,PPFAIR,PWARRN,PMORTL,PLISMR*73";
   u "$GNRLM,00000078A9FBAD5,083559.00,3,C45B*06";
   u "$GNVTG,,T,,M,0.046,N,0.085,K,A*32";
   u "$GNGNS,103607.00,5327.03942,N,00214.42462,W,AANN,06,5.88,56.0,48.5,,,V*34";
   u "$GNGGA,103607.00,5327.03942,N,00214.42462,W,1,06,5.88,56.0,M,48.5,M,,*64";
   u "$GNGSA,A,3,23,24,20,12,,,,,,,,,9.62,5.88,7.62,1*0C";
   u "$GNGSA,A,3,66,76,,,,,,,,,,,9.62,5.88,7.62,2*08";
   u "$GNGSA,A,3,,,,,,,,,,,,,9.62,5.88,7.62,3*08";
   u "$GNGSA,A,3,,,,,,,,,,,,,9.62,5.88,7.62,4*0F";
   u "$GPGSV,3,1,11,01,06,014,08,12,43,207,28,14,06,049,,15,44,171,23,1*6B";
   u "$GPGSV,3,2,11,17,32,064,16,19,33,094,,20,20,251,31,21,04,354,,1*63";
   u "$GPGSV,3,3,11,23,27,251,31,24,89,268,26,25,05,223,,1*5A";
   u "$GLGSV,3,1,10,65,07,176,,66,57,223,35,67,42,315,23,68,00,341,29,1*7A";
   u "$GLGSV,3,2,10,75,37,057,,76,78,303,18,77,27,253,21,84,19,018,,B*07";
   u "$GLGSV,3,3,10,85,22,078,,86,01,121,,1*76";
   u "$GAGSV,1,1,00,7*73";
   u "$GBGSV,1,1,02,21,,,15,25,,,28,1*7E";
   u "$GNGLL,5327.03942,N,00214.42462,W,103607.00,A,A*68";
   u "$GNGRS,103607.00,1,-2.1,0.2,2.7,-0.4,,,,,,,,,1,1*53";
   u "$GNGRS,103607.00,1,0.6,5.1,,,,,,,,,,,2,1*52";
   u "$GNGRS,103607.00,1,,,,,,,,,,,,,3,7*57";
   u "$GNGRS,103607.00,1,,,,,,,,,,,,,4,1*56";
   u "$GNGST,103607.00,38,60,38,89,15,24,31*63";
   u "$GNZDA,103607.00,06,03,2021,00,00*7F";
   u "$GNGBS,103607.00,15.1,24.2,31.0,,,,,,*6F";
   u "$GNVLW,,N,,N,0.000,N,0.000,N*44";
   u "$PUBX,00,103607.00,5327.03942,N,00214.42462,W,104.461,G3,29,31,0.085,39.63,-0.007,,5.88,7.62,8.09,6,0,0*69";
   u "$PUBX,03,23,1,-,014,06,08,000,12,U,207,43,28,009,14,-,049,06,,000,15,-,171,44,23,000,17,-,064,32,16,000,19,-,094,33,,000,20,U,251,20,31,038,21,-,354,04,,000,23,U,251,27,31,064,24,U,268,89,26,000,25,-,223,05,,000,48,-,,,15,000,52,-,,,28,013,65,-,176,07,,000,66,U,223,57,35,064,67,-,315,42,23,000,68,-,341,00,29,000,75,-,057,37,,000,76,U,303,78,18,000,77,-,253,27,21,000,84,-,018,19,,000,85,-,078,22,,000,86,-,121,01,,000*02"].

(* "\u2593" and "\u2591" *)
(* benchmark.py:68 *)
Definition dark : N := 9619.  Definition light : N := 9617.
(* f"{int(pct*100/inc):02}% " + "\u2593" * pct + "\u2591" * (inc - pct) with inc = 20 *)
(* benchmark.py:68 *)
Definition bar (pct : Z) : pystr :=
  zfill 2 (dec_of_N (Z.to_N (pct * 100 / 20))) ++ u "% " ++ repeat dark (Z.to_nat pct) ++ repeat light (Z.to_nat (20 - pct)).
(* progbar(i, lim): the bar that is printed, if any *)
(* benchmark.py:55-70 *)
Definition progbar (i lim : Z) : result (option pystr) :=
  let i := Z.min i lim in
  if lim =? 0 then Raise ZeroDivisionError else
  let pct := i * 20 / lim in
  let step := lim / 20 in
  if step =? 0 then Raise ZeroDivisionError else
  if negb (i mod step =? 0) then Ok None else Ok (Some (bar pct)).

(* for msg in NMEAMESSAGES: msglen += len(msg); _ = NMEAReader.parse(msg)   - the number of messages parsed, and
   of bytes counted *)
(* benchmark.py:100-102 *)
Fixpoint parse_each (ms : list bytes) (done len : Z) : Z * Z * option exc :=
  match ms with
  | [] => (done, len, None)
  | m :: r =>
      let len := len + Z.of_nat (length m) in
      match parse (MBytes m) 0 1 [] with Raise e => (done, len, Some e) | Ok _ => parse_each r (done + 1) len end
  end.
(* for i in range(cyc): the bars printed, the messages parsed, the bytes counted, the exception *)
(* benchmark.py:98-102 *)
Fixpoint cycles (k : nat) (i cyc done len : Z) : list pystr * Z * Z * option exc :=
  match k with
  | O => ([], done, len, None)
  | S k' =>
      match progbar i cyc with
      | Raise e => ([], done, len, Some e)
      | Ok b =>
          let printed := match b with Some t => [t] | None => [] end in
          match parse_each NMEAMESSAGES done len with
          | (done, len, Some e) => (printed, done, len, Some e)
          | (done, len, None) => let '(ts, done, len, e) := cycles k' (i + 1) cyc done len in (printed ++ ts, done, len, e)
          end
      end
  end.
(* benchmark(cycles=...) (a number, or the text of the command line) when the messages take duration nanoseconds:
   the bars, the number of messages parsed, and messages and kilobytes per second or the exception *)
(* benchmark.py:73-113 *)
Definition benchmark (arg : option pystr) (duration : Z) : list pystr * Z * result (Q * Q) :=
  match (match arg with None => Ok 10000 | Some t => int_of_str t end) with
  | Raise e => ([], 0, Raise e)
  | Ok cyc =>
      let txnt := Z.of_nat (length NMEAMESSAGES) * cyc in
      match cycles (Z.to_nat cyc) 0 cyc 0 0 with
      | (ts, done, len, Some e) => (ts, done, Raise e)
      | (ts, done, len, None) =>
          if duration =? 0 then (ts, done, Raise ZeroDivisionError)
          else (ts, done, Ok (inject_Z (txnt * 1000000000) / inject_Z duration, inject_Z (len * 1000000000) / inject_Z duration / inject_Z 1024)%Q)
      end
  end.
