(* str.upper / isdigit / isnumeric / isspace and UTF-8, as used by pynmeagps. *)
From Verif Require Export PyBase UniTables.
Local Open Scope N_scope.

(* CPython Unicode tables *)
Definition in_ranges (rs : list (N * N)) (c : N) : bool :=
  existsb (fun r => (fst r <=? c) && (c <=? snd r)) rs.

(* "x".isdigit(), "x".isnumeric() for one character *)
(* used at nmeamessage.py:309 *)
Definition chr_isdigit (c : N) : bool := in_ranges digit_ranges c.
(* used at nmeamessage.py:512 *)
Definition chr_isnumeric (c : N) : bool := in_ranges numeric_ranges c.
(* used by int() and float(), nmeamessage.py:732-737 *)
Definition chr_isspace (c : N) : bool := in_ranges space_ranges c.

(* s.isnumeric(): non-empty and all numeric *)
(* used at nmeamessage.py:512 *)
Definition str_isnumeric (s : pystr) : bool :=
  match s with [] => false | _ => forallb chr_isnumeric s end.

(* the value of a decimal digit character, if it is one *)
(* used by int() and float(), nmeamessage.py:732-737 *)
Definition decimal_val (c : N) : option N :=
  match find (fun z => (z <=? c) && (c <=? z + 9)) decimal_zeros with
  | Some z => Some (c - z)
  | None => None
  end.

(* s.upper() *)
(* used at nmeahelpers.py:508, 523, nmeareader.py:266, nmeamessage.py:320 *)
Definition upper_char (c : N) : list N :=
  if c <? 128 then (if (97 <=? c) && (c <=? 122) then [c - 32] else [c])
  else match find (fun p => fst p =? c) upper_table with
       | Some p => snd p
       | None => [c]
       end.
(* used at nmeahelpers.py:508, 523, nmeareader.py:266, nmeamessage.py:320 *)
Definition str_upper (s : pystr) : pystr := flat_map upper_char s.

(* -------------------------------------------------------------------- *)
(* UTF-8, strict (PEP 3629 / RFC 3629: shortest form, no surrogates,
   nothing above U+10FFFF), as bytes.decode("utf-8") *)
Definition is_cont (b : N) : bool := (128 <=? b) && (b <=? 191).

(* used at nmeahelpers.py:438 *)
Definition ocons (c : N) (r : option pystr) : option pystr :=
  match r with Some s => Some (c :: s) | None => None end.

(* used at nmeahelpers.py:438 *)
Fixpoint utf8_decode (b : bytes) : option pystr :=
  match b with
  | [] => Some []
  | b0 :: r0 =>
      if b0 <? 128 then ocons b0 (utf8_decode r0)
      else if (194 <=? b0) && (b0 <=? 223) then
        match r0 with
        | b1 :: r1 =>
            if is_cont b1 then ocons ((b0 - 192) * 64 + (b1 - 128)) (utf8_decode r1) else None
        | _ => None
        end
      else if (224 <=? b0) && (b0 <=? 239) then
        match r0 with
        | b1 :: b2 :: r2 =>
            let c := (b0 - 224) * 4096 + (b1 - 128) * 64 + (b2 - 128) in
            if is_cont b1 && is_cont b2 && (2048 <=? c) && negb ((55296 <=? c) && (c <=? 57343))
            then ocons c (utf8_decode r2) else None
        | _ => None
        end
      else if (240 <=? b0) && (b0 <=? 244) then
        match r0 with
        | b1 :: b2 :: b3 :: r3 =>
            let c := (b0 - 240) * 262144 + (b1 - 128) * 4096 + (b2 - 128) * 64 + (b3 - 128) in
            if is_cont b1 && is_cont b2 && is_cont b3 && (65536 <=? c) && (c <=? 1114111)
            then ocons c (utf8_decode r3) else None
        | _ => None
        end
      else None
  end.

(* a code point that has a UTF-8 encoding *)
(* used at nmeamessage.py:636 *)
Definition is_scalar (c : N) : bool :=
  (c <=? 1114111) && negb ((55296 <=? c) && (c <=? 57343)).

(* used at nmeamessage.py:636 *)
Definition utf8_char (c : N) : bytes :=
  if c <? 128 then [c]
  else if c <? 2048 then [192 + c / 64; 128 + c mod 64]
  else if c <? 65536 then [224 + c / 4096; 128 + (c / 64) mod 64; 128 + c mod 64]
  else [240 + c / 262144; 128 + (c / 4096) mod 64; 128 + (c / 64) mod 64; 128 + c mod 64].

(* s.encode("utf-8"): UnicodeEncodeError on a surrogate *)
(* used at nmeamessage.py:636 *)
Definition utf8_encode (s : pystr) : result bytes :=
  if forallb is_scalar s then Ok (flat_map utf8_char s) else Raise UnicodeEncodeError.
