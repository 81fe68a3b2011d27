(* Reading a Python expression NMEAMessage('..','..', n, payload=['..', ..]).
   Whatever this reader accepts it reads as Python does; it rejects the string
   prefixes and escapes (octal, \N{..}, \a, ...), the spacings and the
   concatenation of adjacent literals that it does not know. *)
From Verif Require Import PyBase.
Local Open Scope N_scope.

Definition hex_value (c : N) : option N :=
  if (48 <=? c) && (c <=? 57) then Some (c - 48)           (* 0-9 *)
  else if (65 <=? c) && (c <=? 70) then Some (c - 55)      (* A-F *)
  else if (97 <=? c) && (c <=? 102) then Some (c - 87)     (* a-f *)
  else None.
Fixpoint hex_number (acc : N) (ds : pystr) : option N :=
  match ds with
  | [] => Some acc
  | d :: r => match hex_value d with Some v => hex_number (acc * 16 + v) r | None => None end
  end.
(* a character that may stand in source text *)
Definition source_char (c : N) : bool :=
  negb (c =? 0) && negb (c =? 10) && negb (c =? 13) && negb ((55296 <=? c) && (c <=? 57343)) && (c <? 1114112).

(* the text after a backslash: the character meant, and the text after the escape *)
Definition escape (s : pystr) : option (N * pystr) :=
  match s with
  | [] => None
  | e :: r =>
      if (e =? 92) || (e =? 39) || (e =? 34) then Some (e, r)
      else if e =? 110 then Some (10, r)                                   (* \n *)
      else if e =? 114 then Some (13, r)                                   (* \r *)
      else if e =? 116 then Some (9, r)                                    (* \t *)
      else
        let w := if e =? 120 then 2%nat                                    (* \xhh *)
                 else if e =? 117 then 4%nat                               (* \uhhhh *)
                 else if e =? 85 then 8%nat else 0%nat in                  (* \Uhhhhhhhh *)
        if (w =? 0)%nat || (length r <? w)%nat then None
        else match hex_number 0 (firstn w r) with
             | Some v => if v <? 1114112 then Some (v, skipn w r) else None
             | None => None
             end
  end.

(* the inside of a string literal with the closing quote q, its value, and the text after the literal *)
Inductive string_body (q : N) : pystr -> pystr -> pystr -> Prop :=
| body_end r : string_body q (q :: r) [] r
| body_escape s c r v t : escape s = Some (c, r) -> string_body q r v t -> string_body q (92 :: s) (c :: v) t
| body_char c s v t : c <> q -> c <> 92 -> source_char c = true -> string_body q s v t -> string_body q (c :: s) (c :: v) t.
Definition string_literal (s v t : pystr) : Prop :=
  exists q r, s = q :: r /\ (q = 39 \/ q = 34) /\ string_body q r v t
    /\ ~ (v = [] /\ hd 0 t = q).                                           (* not triple quotes *)

(* elements of a list display, up to the closing bracket *)
Inductive elements : pystr -> list pystr -> pystr -> Prop :=
| elements_last s x r : string_literal s x (u "]" ++ r) -> elements s [x] r
| elements_more s x r xs t : string_literal s x (u ", " ++ r) -> elements r xs t -> elements s (x :: xs) t.
Inductive list_display : pystr -> list pystr -> pystr -> Prop :=
| display_empty r : list_display (u "[]" ++ r) [] r
| display_some s xs r : elements s xs r -> list_display (u "[" ++ s) xs r.

(* the text is the constructor call with these arguments; the modes are 0, 1, 2 *)
Definition mode_text (mode : Z) (s : pystr) : Prop :=
  (mode = 0%Z /\ s = u "0") \/ (mode = 1%Z /\ s = u "1") \/ (mode = 2%Z /\ s = u "2").
Definition call_text (text talker msgid : pystr) (mode : Z) (fields : list pystr) : Prop :=
  exists s1 s2 s3 mt,
    text = u "NMEAMessage(" ++ s1
    /\ string_literal s1 talker (u "," ++ s2)
    /\ string_literal s2 msgid (u ", " ++ mt ++ u ", payload=" ++ s3)
    /\ mode_text mode mt
    /\ list_display s3 fields (u ")").

