(* Model of examples/gpxtracker.py: a GPX track file from a log of NMEA sentences.
   SIMPLIFICATION: the text given to write() is taken as the contents of the file; opening and naming
   the file and the messages printed to the terminal (except the count) are left out. *)
From Verif Require Import Message Reader.
Local Open Scope Z_scope.

(* NMEAReader(self._infile, validate=False): defaults for the rest (gpxtracker.py:84, nmeareader.py:54-66) *)
Definition tracker_cfg : rcfg := mkrcfg 0 0 false 1 None [].

(* the double quote of the f-strings at gpxtracker.py:29-182 *)
Definition quote := [34%N].
(* gpxtracker.py:29 *)
Definition XML_HDR : pystr :=
  u "<?xml version=" ++ quote ++ u "1.0" ++ quote ++ u " encoding=" ++ quote ++ u "UTF-8" ++ quote
  ++ u " standalone=" ++ quote ++ u "yes" ++ quote ++ u "?>".
(* gpxtracker.py:31-39 *)
Definition GPX_NS : pystr :=
  u "xmlns=" ++ quote ++ u "http://www.topografix.com/GPX/1/1" ++ quote ++ u " creator=" ++ quote ++ u "pynmeagps" ++ quote
  ++ u " version=" ++ quote ++ u "1.1" ++ quote ++ u " xmlns:xsi=" ++ quote ++ u "http://www.w3.org/2001/XMLSchema-instance" ++ quote
  ++ u " xsi:schemaLocation=" ++ quote ++ u "http://www.topografix.com/GPX/1/1 http://www.topografix.com/GPX/1/1/gpx.xsd" ++ quote.
(* gpxtracker.py:40 *)
Definition GITHUB_LINK : pystr := u "https://github.com/semuconsulting/pynmeagps".

(* datetime.isoformat() *)
(* gpxtracker.py:93-102, 137 *)
Definition isoformat (d : date) (t : time) : pystr := str_of_date d ++ u "T" ++ str_of_time t.

(* gpxtracker.py:128-146 write_gpx_hdr *)
Definition gpx_hdr (now : date * time) : pystr :=
  XML_HDR ++ u "<gpx " ++ GPX_NS ++ u ">" ++ u "<metadata>"
  ++ u "<link href=" ++ quote ++ GITHUB_LINK ++ quote ++ u "><text>pynmeagps</text></link><time>"
  ++ (isoformat (fst now) (snd now) ++ u "Z") ++ u "</time>" ++ u "</metadata>"
  ++ u "<trk><name>GPX track from NMEA datalog</name><trkseg>".
(* gpxtracker.py:186-193 write_gpx_tlr *)
Definition gpx_tlr : pystr := u "</trkseg></trk></gpx>".

(* an attribute access msg.k *)
(* gpxtracker.py:90-117 *)
Definition attribute (m : msg) (k : pystr) : result pyval :=
  match lookup k (m_attrs m) with Some v => Ok v | None => Raise AttributeError end.
(* v == z for an int z *)
(* gpxtracker.py:104, 106 *)
Definition equals_int (v : pyval) (z : Z) : bool :=
  match v with
  | VInt i => i =? z
  | VBool b => (if b then 1 else 0) =? z
  | VFloat x => feqb x (f_norm z 0)
  | _ => false
  end.
(* f"<{tag}>{val}</{tag}>" *)
(* gpxtracker.py:178-180 *)
Definition xml_tag (tag text : pystr) : pystr := u "<" ++ tag ++ u ">" ++ text ++ u "</" ++ tag ++ u ">".
(* gpxtracker.py:148-184 write_gpx_trkpnt, with the tags ele, time, fix and hdop *)
Definition gpx_trkpnt (lat lon ele : pyval) (tim fixt : pystr) (hdop : pyval) : result pystr :=
  let! tlat := str_of_val lat in
  let! tlon := str_of_val lon in
  let! tele := str_of_val ele in
  let! thdop := str_of_val hdop in
  Ok (u "<trkpt lat=" ++ quote ++ tlat ++ quote ++ u " lon=" ++ quote ++ tlon ++ quote ++ u ">"
      ++ xml_tag (u "ele") tele ++ xml_tag (u "time") tim ++ xml_tag (u "fix") fixt ++ xml_tag (u "hdop") thdop
      ++ u "</trkpt>").

(* the body of the loop for a GGA message (gpxtracker.py:90-118) *)
Definition gga_point (now : date * time) (m : msg) : result pystr :=
  let! tim := attribute m (u "time") in
  match tim with
  | VTime t =>
      let dat := isoformat (fst now) (mktime (t_hour t) (t_min t) (t_sec t) (t_us (snd now))) ++ u "Z" in
      let! q := attribute m (u "quality") in
      let fixt := if equals_int q 1 then u "3d" else if equals_int q 2 then u "2d" else u "none" in
      let! lat := attribute m (u "lat") in
      let! lon := attribute m (u "lon") in
      let! alt := attribute m (u "alt") in
      let! hdop := attribute m (u "HDOP") in
      gpx_trkpnt lat lon alt dat fixt hdop
  | _ => Raise AttributeError                    (* tim.hour *)
  end.

(* the exceptions caught in the loop (gpxtracker.py:119) *)
Definition tracker_catches (e : exc) : bool :=
  match e with NMEAMessageError | NMEATypeError | NMEAParseError => true | _ => false end.

(* the for loop over what the reader delivers (gpxtracker.py:88-121): what is written, the number of
   points, and the exception that leaves it.  clk i is the i-th reading of datetime.now(). *)
Fixpoint track_loop (clk : nat -> date * time) (c : nat) (items : list (bytes * option msg)) : pystr * nat * option exc :=
  match items with
  | [] => ([], 0%nat, None)
  | (_, None) :: _ => ([], 0%nat, Some AttributeError)      (* msg.msgID *)
  | (_, Some m) :: r =>
      if str_eqb (m_msgID m) (u "GGA") then
        match gga_point (clk c) m with
        | Ok t => let '(w, i, x) := track_loop clk (S c) r in (t ++ w, S i, x)
        | Raise e => if tracker_catches e then track_loop clk (S c) r else ([], 0%nat, Some e)
        end
      else track_loop clk c r
  end.

(* NMEATracker.reader (gpxtracker.py:77-126) on the contents of the log file: the text written to the
   track file, the number of points, the exception raised.  None: the reader's loop needs more fuel. *)
Definition track (n fuel : nat) (clk : nat -> date * time) (log : bytes) : option (pystr * nat * option exc) :=
  match fiterate tracker_cfg n fuel log with
  | None => None
  | Some (items, x, _, _) =>
      let '(w, i, e) := track_loop clk 1 items in
      match e with
      | Some _ => Some (gpx_hdr (clk 0%nat) ++ w, i, e)
      | None => match x with
                | Some _ => Some (gpx_hdr (clk 0%nat) ++ w, i, x)
                | None => Some (gpx_hdr (clk 0%nat) ++ w ++ gpx_tlr, i, None)
                end
      end
  end.
