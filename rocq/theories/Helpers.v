(* Model of /repo/src/pynmeagps/nmeahelpers.py (except the trigonometric
   functions, which are in Geo.v). *)
From Verif Require Export PyTime Tables.
Local Open Scope Z_scope.

(* nmeahelpers.py:439-440, nmeamessage.py:632-635 *)
Definition c_dollar := 36%N.   (* "$" *)
(* nmeahelpers.py:439-440, nmeamessage.py:632-635 *)
Definition c_star := 42%N.     (* "*" *)
(* nmeahelpers.py:439-440, nmeamessage.py:632-635 *)
Definition c_comma := 44%N.    (* "," *)
(* nmeahelpers.py:439-440, nmeamessage.py:632-635 *)
Definition c_cr := 13%N.
(* nmeahelpers.py:439, nmeamessage.py:635 *)
Definition c_lf := 10%N.

(* nmeahelpers.py:126-138 calc_checksum *)
Definition xor_all (content : pystr) : N := fold_left (fun ck c => N.lxor ck c) content 0%N.
(* nmeahelpers.py:126-138 *)
Definition calc_checksum (content : pystr) : pystr := fmt_02X (xor_all content).

(* nmeahelpers.py:409-423 generate_checksum *)
Definition generate_checksum (talker msgID : pystr) (payload : list pystr) : pystr :=
  calc_checksum (fold_left (fun content field => content ++ [c_comma] ++ field) payload (talker ++ msgID)).

(* the message argument of get_parts / parse: bytes, str, or anything else
   (on which some operation raises inside the try) *)
(* nmeahelpers.py:426, 437 *)
Inductive rawmsg := MBytes (b : bytes) | MStr (s : pystr) | MOther.

(* nmeahelpers.py:443 *)
Record parts := mkparts {
  p_content : pystr; p_talker : pystr; p_msgid : pystr;
  p_payload : list pystr; p_cksum : pystr }.

(* nmeahelpers.py:426-445 get_parts; every failure in the try block (decode
   error, no "*" to unpack, wrong type) is turned into NMEAMessageError *)
Definition get_parts_str (message : pystr) : result parts :=
  match split_first c_star (strip_chars [c_dollar; c_cr; c_lf] message) with
  | None => Raise NMEAMessageError
  | Some (content, cksum) =>
      match split_all c_comma content with
      | [] => Raise NMEAMessageError               (* cannot happen *)
      | hdr :: payload =>
          let s := if str_eqb (firstn 1 hdr) (u "P") then 1%nat else 2%nat in
          Ok (mkparts content (firstn s hdr) (skipn s hdr) payload cksum)
      end
  end.
(* nmeahelpers.py:426-445 *)
Definition get_parts (message : rawmsg) : result parts :=
  match message with
  | MBytes b => match utf8_decode b with
                | Some s => get_parts_str s
                | None => Raise NMEAMessageError
                end
  | MStr s => get_parts_str s
  | MOther => Raise NMEAMessageError
  end.

(* nmeahelpers.py:448-463 groupsize; kwargs given by their names in order *)
Fixpoint groupsize_aux (idx : Z) (names : list pystr) : result Z :=
  match names with
  | [] => Ok idx
  | a :: r =>
      match split_first 95 a with                   (* a.split("_", 1) *)
      | None => groupsize_aux idx r
      | Some (_, b) => let! n := int_of_str b in groupsize_aux (Z.max idx n) r
      end
  end.
(* nmeahelpers.py:448-463 *)
Definition groupsize (names : list pystr) : result Z := groupsize_aux 0 names.

(* ---------------------------------------------------------------- dates *)
(* nmeatypes_core.py:98-111 *)
Definition ty_DT := u "DT".  Definition ty_DTL := u "DTL".  Definition ty_DM := u "DM".
(* nmeatypes_core.py:98-111 *)
Definition ty_LA := u "LA".  Definition ty_LN := u "LN".

(* nmeahelpers.py:152-158, 175-181 *)
Definition dform_of (form : pystr) : dform :=
  if str_eqb form ty_DM then FDM else if str_eqb form ty_DTL then FDTL else FDT.

(* nmeahelpers.py:141-161 date2str: "" when the value has no strftime.  A
   datetime.time formats its date part as 1900-01-01. *)
Definition date2str (dat : pyval) (form : pystr) : pystr :=
  match dat with
  | VDate d => strftime_date (dform_of form) d
  | VDateTime d _ => strftime_date (dform_of form) d
  | VTime _ => strftime_date (dform_of form) (mkdate 1900 1 1)
  | _ => []
  end.

(* nmeahelpers.py:164-185 date2utc *)
Definition date2utc (dates : pystr) (form : pystr) : pyval :=
  match strptime_date (dform_of form) dates with
  | Some d => VDate d
  | None => VStr []
  end.

(* nmeahelpers.py:701-713 time2str; a datetime.date formats as midnight *)
Definition time2str (tim : pyval) : pystr :=
  match tim with
  | VTime t => firstn 9 (strftime_time t)
  | VDateTime _ t => firstn 9 (strftime_time t)
  | VDate _ => firstn 9 (strftime_time (mktime 0 0 0 0))
  | _ => []
  end.

(* nmeahelpers.py:716-731 time2utc *)
Definition time2utc (times : pystr) : pyval :=
  let times := if Nat.eqb (length times) 6 then times ++ u ".00" else times in
  match strptime_time times with
  | Some t => VTime t
  | None => VStr []
  end.

(* ---------------------------------------------------------- coordinates *)
(* nmeahelpers.py:205-206 *)
Definition f60 : fl := f_norm 60 0.
(* nmeahelpers.py:205-206 *)
Definition f100 : fl := f_norm 100 0.
(* nmeahelpers.py:262 *)
Definition f3600 : fl := f_norm 3600 0.

(* nmeahelpers.py:207-216: width and decimals *)
Definition dmm_text (att : pystr) (hpmode : bool) (x : fl) : pystr :=
  if hpmode then
    (if str_eqb att ty_LA then zfill 12 (fmt_fixed 7 x) else zfill 13 (fmt_fixed 7 x))
  else
    (if str_eqb att ty_LA then zfill 10 (fmt_fixed 5 x) else zfill 11 (fmt_fixed 5 x)).

(* bool as a number, nmeahelpers.py:204-206 *)
Definition val_of_bool (b : bool) : Z := if b then 1 else 0.

(* nmeahelpers.py:188-219 ddd2dmm.  TypeError/ValueError give "", OverflowError escapes. *)
Definition ddd2dmm_int (z : Z) (att : pystr) (hpmode : bool) : result pystr :=
  let d := Z.abs z in
  let dv := (d * 60) / 60 in
  let md := (d * 60) mod 60 in
  let! x := f_of_Z (dv * 100 + md) in Ok (dmm_text att hpmode x).
(* nmeahelpers.py:203-217 *)
Definition ddd2dmm_float (x : fl) (att : pystr) (hpmode : bool) : result pystr :=
  let '(dv, md) := fdivmod (fmul (fabs x) f60) f60 in
  match int_of_float (fmul dv f100) with
  | Ok deg => let! df := f_of_Z deg in Ok (dmm_text att hpmode (fadd df md))
  | Raise ValueError => Ok []
  | Raise e => Raise e
  end.
(* nmeahelpers.py:188-219 *)
Definition ddd2dmm (degrees : pyval) (att : pystr) (hpmode : bool) : result pystr :=
  match degrees with
  | VInt z => ddd2dmm_int z att hpmode
  | VBool b => ddd2dmm_int (val_of_bool b) att hpmode
  | VFloat x => ddd2dmm_float x att hpmode
  | _ => Ok []
  end.

(* nmeahelpers.py:273-291 dmm2ddd *)
Definition dmm2ddd (pos : pystr) : pyval :=
  match find_char 46 pos with
  | None => VStr []                                  (* dp = -1 < 4 *)
  | Some dp =>
      if (dp <? 4)%nat then VStr []
      else match float_of_str (firstn (dp - 2) pos), float_of_str (skipn (dp - 2) pos) with
           | Ok d, Ok m => VFloat (fround 10 (fadd (fabs d) (fdiv m f60)))
           | _, _ => VStr []
           end
  end.

(* nmeahelpers.py:234-241 hemisphere suffix *)
Definition hemi (negative : bool) (att : pystr) : pystr :=
  if negative then (if str_eqb att ty_LA then u "S" else u "W")
  else (if str_eqb att ty_LA then u "N" else u "E").

(* nmeahelpers.py:242, 268 *)
Definition s_deg := [176%N].      (* U+00B0 *)
(* nmeahelpers.py:242, 268 *)
Definition s_min := [8242%N].     (* U+2032 *)
(* nmeahelpers.py:242, 268 *)
Definition s_sec := [8243%N].     (* U+2033 *)

(* turns ValueError (caught) into "" *)
(* nmeahelpers.py:218, 243, 269 *)
Definition catch_value (r : result pystr) : result pystr :=
  match r with Raise ValueError => Ok [] | Raise TypeError => Ok [] | _ => r end.

(* nmeahelpers.py:222-244 deg2dmm *)
Definition deg2dmm_int (z : Z) (att : pystr) : result pystr :=
  let d := Z.abs z in
  catch_value (
    let! sd := str_of_Z ((d * 60) / 60) in
    let! sm := str_of_Z ((d * 60) mod 60) in
    Ok (sd ++ s_deg ++ sm ++ s_min ++ hemi (z <? 0) att)).
(* nmeahelpers.py:222-244 *)
Definition deg2dmm (degrees : pyval) (att : pystr) : result pystr :=
  match degrees with
  | VInt z => deg2dmm_int z att
  | VBool b => deg2dmm_int (val_of_bool b) att
  | VFloat x =>
      let '(dv, md) := fdivmod (fmul (fabs x) f60) f60 in
      catch_value (
        let! d := int_of_float dv in
        let! sd := str_of_Z d in
        Ok (sd ++ s_deg ++ str_of_float (fround 7 md) ++ s_min ++ hemi (fltb x fzero) att))
  | _ => Ok []
  end.

(* nmeahelpers.py:247-270 deg2dms *)
Definition deg2dms_int (z : Z) (att : pystr) : result pystr :=
  let d := Z.abs z in
  let mi := (d * 3600) / 60 in
  let se := (d * 3600) mod 60 in
  catch_value (
    let! sd := str_of_Z (mi / 60) in
    let! sm := str_of_Z (mi mod 60) in
    let! ss := str_of_Z se in
    Ok (sd ++ s_deg ++ sm ++ s_min ++ ss ++ s_sec ++ hemi (z <? 0) att)).
(* nmeahelpers.py:247-270 *)
Definition deg2dms (degrees : pyval) (att : pystr) : result pystr :=
  match degrees with
  | VInt z => deg2dms_int z att
  | VBool b => deg2dms_int (val_of_bool b) att
  | VFloat x =>
      let '(mi, se) := fdivmod (fmul (fabs x) f3600) f60 in
      let '(dv, mi) := fdivmod mi f60 in
      catch_value (
        let! d := int_of_float dv in
        let! sd := str_of_Z d in
        let! m := int_of_float mi in
        let! sm := str_of_Z m in
        Ok (sd ++ s_deg ++ sm ++ s_min ++ str_of_float (fround 5 se) ++ s_sec
            ++ hemi (fltb x fzero) att))
  | _ => Ok []
  end.

(* nmeahelpers.py:534-561 latlon2dmm, latlon2dms *)
Definition latlon2dmm (lat lon : pyval) : result (pystr * pystr) :=
  let! a := deg2dmm lat ty_LA in let! b := deg2dmm lon ty_LN in Ok (a, b).
(* nmeahelpers.py:549-561 *)
Definition latlon2dms (lat lon : pyval) : result (pystr * pystr) :=
  let! a := deg2dms lat ty_LA in let! b := deg2dms lon ty_LN in Ok (a, b).

(* [\d.] *)
(* nmeahelpers.py:316-322 *)
Definition dms_class (c : N) : bool :=
  (c =? 46)%N || match decimal_val c with Some _ => true | None => false end.
(* nmeahelpers.py:316-322 *)
Fixpoint dms_run (s : pystr) : pystr * pystr :=
  match s with
  | [] => ([], [])
  | c :: r => if dms_class c then let '(a, b) := dms_run r in (c :: a, b) else ([], s)
  end.
(* one ([\d.]+[^\d.]{1}) *)
(* nmeahelpers.py:316-322 *)
Definition dms_group (s : pystr) : option pystr :=
  match dms_run s with
  | (_ :: _, _ :: r) => Some r
  | _ => None
  end.
(* [NSEW]?$  ("$" also matches before a final newline) *)
(* nmeahelpers.py:316-322 *)
Definition dms_tail (s : pystr) : bool :=
  let s1 := match s with
            | c :: r => if memc c (u "NSEW") then r else s
            | [] => []
            end in
  match s1 with [] => true | [c] => (c =? 10)%N | _ => false end.
(* nmeahelpers.py:316-322 the regular expression; since each group is a maximal
   run of one class followed by one character of the complement, matching is
   deterministic *)
Definition dms_match (s : pystr) : bool :=
  match dms_group s with
  | None => false
  | Some r1 => match dms_group r1 with
               | None => dms_tail r1
               | Some r2 => match dms_group r2 with
                            | None => dms_tail r2
                            | Some r3 => dms_tail r3
                            end
               end
  end.
(* re.split(r"[^\d.]", s, maxsplit=n) *)
(* nmeahelpers.py:325 *)
Fixpoint dms_split (n : nat) (acc : pystr) (s : pystr) : list pystr :=
  match n, s with
  | _, [] => [rev acc]
  | O, _ => [rev acc ++ s]
  | S n', c :: r => if dms_class c then dms_split n (c :: acc) r
                    else rev acc :: dms_split n' [] r
  end.
(* nmeahelpers.py:326-328 *)
Fixpoint dms_sum (x : Z) (ddd : fl) (l : list pystr) : result fl :=
  match l with
  | [] | [_] => Ok ddd
  | p :: l' =>
      let! t := match p with
                | [] => Ok fzero
                | _ => let! v := float_of_str p in Ok (fdiv v (f_norm (60 ^ x) 0))
                end in
      dms_sum (x + 1) (fadd ddd t) l'
  end.
(* nmeahelpers.py:294-329 dms2deg (rnd >= 0) *)
Definition dms2deg (dmsstr : pystr) (rnd : nat) : result fl :=
  let s := remove_char 32 dmsstr in
  if dms_match s then
    let neg := memc 83 s || memc 87 s in
    let! ddd := dms_sum 0 fzero (dms_split 3 [] s) in
    Ok (fround rnd (fmul ddd (if neg then f_norm (-1) 0 else fone)))
  else Raise ValueError.

(* ------------------------------------------------------------- formats *)
(* nmeahelpers.py:496-508 hex2str.  The width specification is f"{padding:02d}":
   "04" means zero padded to 4, but "16" or "-4" mean space padded. *)
Definition rjust (n : nat) (c : N) (s : pystr) : pystr := repeat c (n - length s) ++ s.
(* nmeahelpers.py:496-508 *)
Definition hex2str (num padding : Z) : pystr :=
  let digits := hex_of_N_lower (Z.abs_N num) in
  let sgn := if num <? 0 then [45%N] else [] in
  let width := Z.to_nat (Z.abs padding) in
  str_upper
    (if padding =? 0 then sgn ++ digits
     else if (0 <? padding) && (padding <? 10)
          then sgn ++ rjust (width - length sgn) 48 digits
          else rjust width 32 (sgn ++ digits)).

(* nmeahelpers.py:43 KNOTSCONV *)
Definition KNOTSCONV : list (pystr * fl) :=
  [ (u "MS", f_of_dec false 5144447324 (-10)); (u "FS", f_of_dec false 168781084 (-8));
    (u "MPH", f_of_dec false 115078 (-5)); (u "KMPH", f_of_dec false 1852001 (-6)) ].
(* nmeahelpers.py:511-531 knots2spd *)
Definition knots2spd (knots : pyval) (unit : pystr) : result fl :=
  match lookup (str_upper unit) KNOTSCONV with
  | None => Raise KeyError
  | Some k =>
      match knots with
      | VFloat x => Ok (fmul x k)
      | VInt z => let! x := f_of_Z z in Ok (fmul x k)
      | VBool b => let! x := f_of_Z (val_of_bool b) in Ok (fmul x k)
      | _ => Raise TypeError
      end
  end.

(* nmeahelpers.py:652-667 msgdesc *)
Definition msgdesc (msgID : pystr) : pystr :=
  match lookup msgID NMEA_MSGIDS with
  | Some d => d
  | None => match lookup msgID NMEA_MSGIDS_PROP with
            | Some d => d
            | None => u "Unknown msgID " ++ msgID
            end
  end.

(* nmeahelpers.py:648 c < 0, abs(c): TypeError unless a number *)
Definition num_neg (v : pyval) : result bool :=
  match v with
  | VInt z => Ok (z <? 0)
  | VBool _ => Ok false
  | VFloat x => Ok (fltb x fzero)
  | _ => Raise TypeError
  end.
(* nmeahelpers.py:649 *)
Definition num_abs (v : pyval) : pyval :=
  match v with
  | VInt z => VInt (Z.abs z)
  | VBool b => VInt (val_of_bool b)
  | VFloat x => VFloat (fabs x)
  | _ => v
  end.
(* nmeahelpers.py:648 *)
Definition iso_sign (negative : bool) : pystr := if negative then u "-" else u "+".
(* nmeahelpers.py:634-649 llh2iso6709; the altitude is printed as it is, not abs(alt) *)
Definition llh2iso6709 (lat lon alt : pyval) (crs : pystr) : result pystr :=
  let! a := num_neg lat in
  let! b := num_neg lon in
  let! c := num_neg alt in
  let! ta := str_of_val (num_abs lat) in
  let! tb := str_of_val (num_abs lon) in
  let! tc := str_of_val alt in
  Ok (iso_sign a ++ ta ++ iso_sign b ++ tb ++ iso_sign c ++ tc ++ u "CRS" ++ crs ++ u "/").

(* ------------------------------------------------------------ GNSS time *)
(* An aware datetime is the number of microseconds since 0001-01-01T00:00Z. *)
(* nmeahelpers.py:584, 776-777 *)
Definition us_per_day := 86400000000.
(* nmeahelpers.py:584, 776-777 *)
Definition dt_of (d : date) : Z := (toordinal d - 1) * us_per_day.
(* datetime.max, reached at nmeahelpers.py:844-851 *)
Definition dt_max : Z := dt_of (mkdate 9999 12 31) + us_per_day - 1.
(* nmeatypes_core.py:68-75 *)
Definition EPOCH0_BEIDOU := dt_of (mkdate 2006 1 1).
(* nmeatypes_core.py:68-75 *)
Definition EPOCH0_GAL := dt_of (mkdate 1999 8 22).
(* nmeatypes_core.py:68-75 *)
Definition EPOCH0_GPS := dt_of (mkdate 1980 1 6).
(* nmeatypes_core.py:74 *)
Definition EPOCH0_IRN := dt_of (mkdate 1999 8 22).
(* nmeahelpers.py:44-74 *)
Definition LEAPS0 := dt_of (mkdate 1900 1 1).
(* nmeahelpers.py:44-74 *)
Definition LEAPSECONDS : list (Z * Z) :=
  [ (2272060800, 10); (2287785600, 11); (2303683200, 12); (2335219200, 13); (2366755200, 14);
    (2398291200, 15); (2429913600, 16); (2461449600, 17); (2492985600, 18); (2524521600, 19);
    (2571782400, 20); (2603318400, 21); (2634854400, 22); (2698012800, 23); (2776982400, 24);
    (2840140800, 25); (2871676800, 26); (2918937600, 27); (2950473600, 28); (2982009600, 29);
    (3029443200, 30); (3076704000, 31); (3124137600, 32); (3345062400, 33); (3439756800, 34);
    (3550089600, 35); (3644697600, 36); (3692217600, 37) ].

(* nmeatypes_core.py:87-93 *)
Definition g_BDS := u "C".  Definition g_GAL := u "E".  Definition g_GLO := u "R".
(* nmeatypes_core.py:90 *)
Definition g_GPS := u "G".  Definition g_IRN := u "I".

(* the float nearest to n / d, d > 0 (Python's int / int) *)
Definition f_ratio (n d : Z) : fl :=
  match n with
  | Z0 => S754_zero false
  | Zpos p => let '(mz, ez, lz) := SFdiv_core_binary fprec femax (Z.pos p) 0 d 0 in
              binary_round_aux fprec femax false mz ez lz
  | Zneg p => let '(mz, ez, lz) := SFdiv_core_binary fprec femax (Z.pos p) 0 d 0 in
              binary_round_aux fprec femax true mz ez lz
  end.
(* timedelta.total_seconds() *)
(* nmeahelpers.py:584, 776 *)
Definition total_seconds (us : Z) : fl := f_ratio us 1000000.

(* nmeahelpers.py:564-597 leapsecond.  max() of an empty sequence would be a
   ValueError; it cannot be empty after the first test. *)
Definition leap_at (dt : Z) : result Z :=
  let ts := total_seconds (dt - LEAPS0) in
  match filter (fun kv => SFleb (f_norm (fst kv) 0) ts) LEAPSECONDS with
  | [] => Raise ValueError
  | kv :: l => Ok (fold_left Z.max (map snd l) (snd kv))
  end.
(* nmeahelpers.py:564-597 *)
Definition leapsecond (dat : Z) (gnss : pystr) : result Z :=
  let ep0 := if str_eqb gnss g_BDS then EPOCH0_BEIDOU else EPOCH0_GPS in
  if fltb (total_seconds (dat - LEAPS0)) (f_norm 2272060800 0) then Ok 0
  else let! a := leap_at dat in let! b := leap_at ep0 in Ok (a - b).

(* nmeahelpers.py:762-773, 827-838 *)
Definition gnss_ep0 (gnss : pystr) : Z :=
  if str_eqb gnss g_BDS then EPOCH0_BEIDOU
  else if str_eqb gnss g_GAL then EPOCH0_GAL
  else if str_eqb gnss g_IRN then EPOCH0_IRN else EPOCH0_GPS.
(* nmeahelpers.py:762-773, 827-838 *)
Definition gnss_rollover (gnss : pystr) : Z :=
  if str_eqb gnss g_BDS then 8192
  else if str_eqb gnss g_GAL then 4096
  else if str_eqb gnss g_IRN then 1024 else 1024.

(* nmeahelpers.py:734-780 utc2wnotow (utc given; None would be the clock) *)
Definition utc2wnotow (utc : Z) (gnss : pystr) (modwno : bool) : result (Z * Z * Z) :=
  let ep0 := gnss_ep0 gnss in
  let rollover := gnss_rollover gnss in
  let! ls := if str_eqb gnss g_GLO then Ok 0 else leapsecond utc gnss in
  let ts := fmul (fadd (total_seconds (utc - ep0)) (f_norm ls 0)) (f_norm 1000 0) in
  let! wno := int_of_float (ffloor (f_ratio ((utc - ep0) / us_per_day) 7)) in
  let wnom := wno mod rollover in
  let! wf := f_of_Z (wno * 604800000) in
  let! tow := int_of_float (fsub ts wf) in
  Ok (if modwno then wnom else wno, tow, ls).

(* datetime + timedelta: OverflowError outside years 1..9999 *)
(* nmeahelpers.py:843-853 *)
Definition dt_check (t : Z) : result Z :=
  if (0 <=? t) && (t <=? dt_max) then Ok t else Raise OverflowError.

(* nmeahelpers.py:844, 850 *)
Definition us_per_week := 7 * us_per_day.

(* nmeahelpers.py:843-853: one candidate *)
Definition wt_candidate (gnss : pystr) (ls : option Z) (wno tow i : Z) : result Z :=
  let ep0 := gnss_ep0 gnss in
  let rollover := gnss_rollover gnss in
  let! utc := dt_check (ep0 + (wno + i * rollover) * us_per_week + tow * 1000) in
  if str_eqb gnss g_GLO then Ok utc
  else let! lps := match ls with None => leapsecond utc gnss | Some l => Ok l end in
       dt_check (utc - lps * 1000000).
(* nmeahelpers.py:783-853 *)
Fixpoint wt_loop (fuel : nat) (gnss : pystr) (ls : option Z) (autoroll : bool) (current wno tow i : Z)
  : option (result Z) :=
  match fuel with
  | O => None
  | S f =>
      match wt_candidate gnss ls wno tow i with
      | Raise e => Some (Raise e)
      | Ok utc =>
          if negb autoroll then Some (Ok utc)
          else match dt_check (utc + gnss_rollover gnss * us_per_week) with
               | Raise e => Some (Raise e)
               | Ok nxt => if current <? nxt then Some (Ok utc)
                           else wt_loop f gnss ls autoroll current wno tow (i + 1)
               end
      end
  end.
(* nmeahelpers.py:783-853 wnotow2utc; [current] is datetime.now.  None = out of
   fuel, which wt_fuel excludes (proved). *)
Definition wt_fuel (gnss : pystr) : nat := Z.to_nat (dt_max / (gnss_rollover gnss * us_per_week) + 2).
(* nmeahelpers.py:783-853 *)
Definition wnotow2utc (wno tow : Z) (ls : option Z) (gnss : pystr) (autoroll modwno : bool) (current : Z)
  : option (result Z) :=
  let wno := if modwno then wno mod gnss_rollover gnss else wno in
  wt_loop (wt_fuel gnss) gnss ls autoroll current wno (tow mod 604800000) 0.
