(* The parts of Python's datetime module used by pynmeagps: calendar, strptime
   for the four formats in the code, strftime, ISO text. *)
From Verif Require Export PyFloat.
Local Open Scope Z_scope.

(* datetime.date, datetime.time (naive) *)
(* datetime as used at nmeahelpers.py:182-183, 728-729 *)
Record date := mkdate { d_year : Z; d_month : Z; d_day : Z }.
(* datetime as used at nmeahelpers.py:182-183, 728-729 *)
Record time := mktime { t_hour : Z; t_min : Z; t_sec : Z; t_us : Z }.

(* datetime as used at nmeahelpers.py:182-183, 728-729 *)
Definition is_leap (y : Z) : bool :=
  (y mod 4 =? 0) && (negb (y mod 100 =? 0) || (y mod 400 =? 0)).

(* datetime as used at nmeahelpers.py:182-183, 728-729 *)
Definition days_in_month (y m : Z) : Z :=
  if m =? 2 then (if is_leap y then 29 else 28)
  else if (m =? 4) || (m =? 6) || (m =? 9) || (m =? 11) then 30 else 31.

(* the arguments accepted by datetime.date / datetime.time *)
(* datetime as used at nmeahelpers.py:182-183, 728-729 *)
Definition valid_date (d : date) : bool :=
  (1 <=? d_year d) && (d_year d <=? 9999) && (1 <=? d_month d) && (d_month d <=? 12)
  && (1 <=? d_day d) && (d_day d <=? days_in_month (d_year d) (d_month d)).
(* datetime as used at nmeahelpers.py:182-183, 728-729 *)
Definition valid_time (t : time) : bool :=
  (0 <=? t_hour t) && (t_hour t <=? 23) && (0 <=? t_min t) && (t_min t <=? 59)
  && (0 <=? t_sec t) && (t_sec t <=? 59) && (0 <=? t_us t) && (t_us t <=? 999999).

(* date.toordinal(): 0001-01-01 is day 1 *)
(* datetime arithmetic as used at nmeahelpers.py:584, 776-777 *)
Definition days_before_month (y m : Z) : Z :=
  nth (Z.to_nat m) [0; 0; 31; 59; 90; 120; 151; 181; 212; 243; 273; 304; 334] 0
  + (if (2 <? m) && is_leap y then 1 else 0).
(* datetime arithmetic as used at nmeahelpers.py:584, 776-777 *)
Definition toordinal (d : date) : Z :=
  let y := d_year d - 1 in
  y * 365 + y / 4 - y / 100 + y / 400 + days_before_month (d_year d) (d_month d) + d_day d.

(* -------------------------------------------------------------------- *)
(* strptime: each directive yields the ways it can match a prefix, in the
   order in which Python's (backtracking) regular expression tries them *)
Definition matches := list (Z * pystr).

(* \d : any Unicode decimal digit;  [a-b] : ASCII digits a..b *)
(* strptime as used at nmeahelpers.py:182, 728 *)
Definition dg (s : pystr) : matches :=
  match s with
  | c :: r => match decimal_val c with Some d => [(Z.of_N d, r)] | None => [] end
  | [] => []
  end.
(* strptime as used at nmeahelpers.py:182, 728 *)
Definition ar (a b : Z) (s : pystr) : matches :=
  match s with
  | c :: r => match dec_digit c with
              | Some d => if (a <=? Z.of_N d) && (Z.of_N d <=? b) then [(Z.of_N d, r)] else []
              | None => []
              end
  | [] => []
  end.
(* two consecutive digits as a number *)
(* strptime as used at nmeahelpers.py:182, 728 *)
Definition two (p q : pystr -> matches) (s : pystr) : matches :=
  flat_map (fun '(a, r) => map (fun '(b, r') => (10 * a + b, r')) (q r)) (p s).
(* strptime as used at nmeahelpers.py:182, 728 *)
Definition alt (l : list (pystr -> matches)) (s : pystr) : matches := flat_map (fun p => p s) l.
(* strptime as used at nmeahelpers.py:182, 728 *)
Definition space_then (p : pystr -> matches) (s : pystr) : matches :=
  match s with c :: r => if (c =? 32)%N then p r else [] | [] => [] end.

(* CPython 3.11 _strptime.py TimeRE: %d %H %m %M %S %y %Y *)
Definition re_d := alt [two (ar 3 3) (ar 0 1); two (ar 1 2) dg; two (ar 0 0) (ar 1 9); ar 1 9; space_then (ar 1 9)].
(* strptime as used at nmeahelpers.py:182, 728 *)
Definition re_H := alt [two (ar 2 2) (ar 0 3); two (ar 0 1) dg; dg].
(* strptime as used at nmeahelpers.py:182, 728 *)
Definition re_m := alt [two (ar 1 1) (ar 0 2); two (ar 0 0) (ar 1 9); ar 1 9].
(* strptime as used at nmeahelpers.py:182, 728 *)
Definition re_M := alt [two (ar 0 5) dg; dg].
(* strptime as used at nmeahelpers.py:182, 728 *)
Definition re_S := alt [two (ar 6 6) (ar 0 1); two (ar 0 5) dg; dg].
(* strptime as used at nmeahelpers.py:182, 728 *)
Definition re_y2 := two dg dg.
(* strptime as used at nmeahelpers.py:182, 728 *)
Definition re_Y : pystr -> matches := fun s =>
  flat_map (fun '(a, r) => map (fun '(b, r') => (100 * a + b, r')) (two dg dg r)) (two dg dg s).
(* strptime as used at nmeahelpers.py:182, 728 *)
Definition re_dot (s : pystr) : matches :=
  match s with c :: r => if (c =? 46)%N then [(0, r)] else [] | [] => [] end.
(* %f: [0-9]{1,6}, longest first, right padded to 6 digits *)
(* strptime as used at nmeahelpers.py:182, 728 *)
Fixpoint re_f_aux (n : nat) (k acc : Z) (s : pystr) : matches :=
  match n with
  | O => []
  | S n' => flat_map (fun '(d, r) =>
              let v := 10 * acc + d in
              re_f_aux n' (k - 1) v r ++ [(v * 10 ^ (k - 1), r)]) (ar 0 9 s)
  end.
(* strptime as used at nmeahelpers.py:182, 728 *)
Definition re_f := re_f_aux 6 6 0.

(* strptime as used at nmeahelpers.py:182, 728 *)
Fixpoint re_seq (l : list (pystr -> matches)) (s : pystr) : list (list Z * pystr) :=
  match l with
  | [] => [([], s)]
  | p :: l' => flat_map (fun '(v, r) => map (fun '(vs, r') => (v :: vs, r')) (re_seq l' r)) (p s)
  end.

(* re.match then "unconverted data remains" *)
(* strptime as used at nmeahelpers.py:182, 728 *)
Definition re_match (l : list (pystr -> matches)) (s : pystr) : option (list Z) :=
  match re_seq l s with
  | (vs, []) :: _ => Some vs
  | _ => None
  end.

(* %y: 69..99 -> 19xx, 00..68 -> 20xx *)
(* strptime as used at nmeahelpers.py:182, 728 *)
Definition year2 (y : Z) : Z := if y <=? 68 then 2000 + y else 1900 + y.

(* datetime.strptime(s, fmt).date() for the three date formats; None = ValueError *)
(* strptime as used at nmeahelpers.py:182, 728 *)
Inductive dform := FDT | FDTL | FDM.
(* strptime as used at nmeahelpers.py:182, 728 *)
Definition strptime_date (f : dform) (s : pystr) : option date :=
  let mk y m d := let r := mkdate y m d in if valid_date r then Some r else None in
  match f with
  | FDT => match re_match [re_d; re_m; re_y2] s with
           | Some [d; m; y] => mk (year2 y) m d | _ => None end
  | FDTL => match re_match [re_d; re_m; re_Y] s with
            | Some [d; m; y] => mk y m d | _ => None end
  | FDM => match re_match [re_m; re_d; re_y2] s with
           | Some [m; d; y] => mk (year2 y) m d | _ => None end
  end.

(* datetime.strptime(s, "%H%M%S.%f").time() *)
(* strptime as used at nmeahelpers.py:182, 728 *)
Definition strptime_time (s : pystr) : option time :=
  match re_match [re_H; re_M; re_S; re_dot; re_f] s with
  | Some [h; m; sec; _; f] =>
      let r := mktime h m sec f in if valid_time r then Some r else None
  | _ => None
  end.

(* -------------------------------------------------------------------- *)
(* strftime *)
(* strftime as used at nmeahelpers.py:159, 711 *)
Definition pad (n : nat) (z : Z) : pystr := zfill n (dec_of_N (Z.to_N z)).
(* strftime as used at nmeahelpers.py:159, 711 *)
Definition strftime_date (f : dform) (d : date) : pystr :=
  match f with
  | FDT => pad 2 (d_day d) ++ pad 2 (d_month d) ++ pad 2 (d_year d mod 100)
  | FDTL => pad 2 (d_day d) ++ pad 2 (d_month d) ++ dec_of_N (Z.to_N (d_year d))   (* glibc %Y is not padded *)
  | FDM => pad 2 (d_month d) ++ pad 2 (d_day d) ++ pad 2 (d_year d mod 100)
  end.
(* t.strftime("%H%M%S.%f") *)
(* strftime as used at nmeahelpers.py:159, 711 *)
Definition strftime_time (t : time) : pystr :=
  pad 2 (t_hour t) ++ pad 2 (t_min t) ++ pad 2 (t_sec t) ++ [46%N] ++ pad 6 (t_us t).

(* isoformat / str() *)
(* str() as used at nmeamessage.py:586-591, 762-768 *)
Definition str_of_date (d : date) : pystr :=
  pad 4 (d_year d) ++ u "-" ++ pad 2 (d_month d) ++ u "-" ++ pad 2 (d_day d).
(* str() as used at nmeamessage.py:586-591, 762-768 *)
Definition str_of_time (t : time) : pystr :=
  pad 2 (t_hour t) ++ u ":" ++ pad 2 (t_min t) ++ u ":" ++ pad 2 (t_sec t)
  ++ (if t_us t =? 0 then [] else u "." ++ pad 6 (t_us t)).

(* -------------------------------------------------------------------- *)
(* Python values that can be passed as keywords or become attributes *)
Inductive pyval :=
| VStr (s : pystr)
| VInt (z : Z)
| VFloat (x : fl)
| VBool (b : bool)
| VNone
| VDate (d : date)
| VTime (t : time)
| VDateTime (d : date) (t : time).

(* str(v), f"{v}" *)
(* str() as used at nmeamessage.py:586-591, 762-768 *)
Definition str_of_val (v : pyval) : result pystr :=
  match v with
  | VStr s => Ok s
  | VInt z => str_of_Z z
  | VFloat x => Ok (str_of_float x)
  | VBool b => Ok (if b then u "True" else u "False")
  | VNone => Ok (u "None")
  | VDate d => Ok (str_of_date d)
  | VTime t => Ok (str_of_time t)
  | VDateTime d t => Ok (str_of_date d ++ u " " ++ str_of_time t)
  end.
