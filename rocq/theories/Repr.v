(* nmeamessage.py:593-606 NMEAMessage.__repr__, with the parts of Python's
   repr() that it uses: repr of a str and of a list of str *)
From Verif Require Import Message UniPrint.
Local Open Scope N_scope.

(* str.isprintable for one character (table of CPython 3.11) *)
Definition chr_isprintable (c : N) : bool := negb (in_ranges nonprintable_ranges c).

(* the last w lower-case hexadecimal digits of c *)
(* Python repr() as used at nmeamessage.py:593-606 *)
Fixpoint hexw (w : nat) (c : N) : pystr :=
  match w with
  | O => []
  | S w' => hexw w' (c / 16) ++ [if c mod 16 <? 10 then 48 + c mod 16 else 87 + c mod 16]
  end.

(* CPython Objects/unicodeobject.c unicode_repr: one character between quotes q *)
Definition repr_chr (q c : N) : pystr :=
  if (c =? q) || (c =? 92) then [92; c]
  else if c =? 9 then u "\t"
  else if c =? 10 then u "\n"
  else if c =? 13 then u "\r"
  else if (c <? 32) || (c =? 127) then u "\x" ++ hexw 2 c
  else if c <? 127 then [c]
  else if chr_isprintable c then [c]
  else if c <=? 255 then u "\x" ++ hexw 2 c
  else if c <=? 65535 then u "\u" ++ hexw 4 c
  else u "\U" ++ hexw 8 c.

(* repr(s): double quotes only if s has a single quote and no double quote *)
(* Python repr() as used at nmeamessage.py:593-606 *)
Definition repr_str (s : pystr) : pystr :=
  let q := if existsb (N.eqb 39) s && negb (existsb (N.eqb 34) s) then 34 else 39 in
  [q] ++ flat_map (repr_chr q) s ++ [q].

(* repr of a list of strings *)
(* Python repr() as used at nmeamessage.py:593-606 *)
Definition repr_list (l : list pystr) : pystr :=
  u "[" ++ join (u ", ") (map repr_str l) ++ u "]".

(* nmeamessage.py:603-606; talker and msgID are inserted without escaping.
   The mode is formatted with str(). *)
Definition repr_of_msg (m : msg) : result pystr :=
  let! md := str_of_Z (m_mode m) in
  Ok (u "NMEAMessage('" ++ m_talker m ++ u "','" ++ m_msgID m ++ u "', "
      ++ md ++ u ", payload=" ++ repr_list (m_payload m) ++ u ")").
