(* Python base layer: text, bytes, exceptions, and the str/list operations that
   pynmeagps uses.  Text is a list of code points, bytes a list of numbers
   below 256; an exception is a value. *)
From Coq Require Export Ascii String.
From Coq Require Export List NArith ZArith Lia Bool.
Export ListNotations.
Arguments N.add : simpl never.
Arguments N.mul : simpl never.
Arguments N.sub : simpl never.
Arguments N.div : simpl never.
Arguments N.modulo : simpl never.
Arguments N.leb : simpl never.
Arguments N.ltb : simpl never.
Arguments N.eqb : simpl never.
Arguments Z.add : simpl never.
Arguments Z.mul : simpl never.
Arguments Z.sub : simpl never.
Arguments Z.div : simpl never.
Arguments Z.modulo : simpl never.
Arguments Z.leb : simpl never.
Arguments Z.ltb : simpl never.
Arguments Z.eqb : simpl never.
Arguments N.lxor : simpl never.

(* Python str and bytes *)
Definition pystr := list N.
(* Python bytes *)
Definition bytes := list N.

(* ASCII literals: u "GGA" = "GGA" in Python *)
Fixpoint u (s : string) : pystr :=
  match s with
  | EmptyString => []
  | String a r => N_of_ascii a :: u r
  end.

(* -------------------------------------------------------------------- *)
(* Exceptions (exceptions.py:10-34 for the NME* ones, Python built-ins for
   the rest).  Message texts are not modelled. *)
Inductive exc :=
| NMEAParseError | NMEAStreamError | NMEAMessageError | NMEATypeError
| IndexError | KeyError | ValueError | TypeError | AttributeError
| OverflowError | ZeroDivisionError | UnicodeEncodeError | EOFError
| OtherException (n : nat).         (* any other class, raised by user code (stream objects, error handlers) *)

(* Python exceptions; exceptions.py:10-34 *)
Inductive result (A : Type) :=
| Ok (a : A)
| Raise (e : exc).
Arguments Ok {A} a.
Arguments Raise {A} e.

(* Python exceptions; exceptions.py:10-34 *)
Definition bind {A B} (r : result A) (f : A -> result B) : result B :=
  match r with Ok a => f a | Raise e => Raise e end.
Notation "'let!' x ':=' r 'in' k" := (bind r (fun x => k))
  (at level 200, x pattern, r at level 100, k at level 200, right associativity).

(* Python exceptions; exceptions.py:10-34 *)
Definition exc_eqb (a b : exc) : bool :=
  match a, b with
  | NMEAParseError, NMEAParseError | NMEAStreamError, NMEAStreamError
  | NMEAMessageError, NMEAMessageError | NMEATypeError, NMEATypeError
  | IndexError, IndexError | KeyError, KeyError | ValueError, ValueError
  | TypeError, TypeError | AttributeError, AttributeError
  | OverflowError, OverflowError | ZeroDivisionError, ZeroDivisionError
  | UnicodeEncodeError, UnicodeEncodeError | EOFError, EOFError => true
  | OtherException n, OtherException m => Nat.eqb n m
  | _, _ => false
  end.

(* -------------------------------------------------------------------- *)
(* str == str *)
(* Python ==, in, dict; used throughout, e.g. nmeamessage.py:285-340 *)
Fixpoint str_eqb (a b : list N) : bool :=
  match a, b with
  | [], [] => true
  | x :: a', y :: b' => N.eqb x y && str_eqb a' b'
  | _, _ => false
  end.

(* x in (tuple / dict keys) *)
(* Python ==, in, dict; used throughout, e.g. nmeamessage.py:285-340 *)
Definition str_in (x : pystr) (l : list pystr) : bool := existsb (str_eqb x) l.

(* d.get(k) for a dict kept as an association list (first match) *)
(* Python ==, in, dict; used throughout, e.g. nmeamessage.py:285-340 *)
Fixpoint lookup {A} (k : pystr) (d : list (pystr * A)) : option A :=
  match d with
  | [] => None
  | (k', v) :: d' => if str_eqb k k' then Some v else lookup k d'
  end.

(* Python in, e.g. nmeamessage.py:83-96 *)
Definition has_key {A} (k : pystr) (d : list (pystr * A)) : bool :=
  match lookup k d with Some _ => true | None => false end.

(* d[k] = v: replaces in place, else appends (Python dicts keep insertion order) *)
Fixpoint dict_set {A} (k : pystr) (v : A) (d : list (pystr * A)) : list (pystr * A) :=
  match d with
  | [] => [(k, v)]
  | (k', v') :: d' => if str_eqb k k' then (k', v) :: d' else (k', v') :: dict_set k v d'
  end.

(* -------------------------------------------------------------------- *)
(* s.split(c) for a one-character separator: always at least one part *)
(* used at nmeahelpers.py:439-440, 460 *)
Fixpoint split_all (c : N) (s : pystr) : list pystr :=
  match s with
  | [] => [[]]
  | x :: s' =>
      if N.eqb x c then [] :: split_all c s'
      else match split_all c s' with
           | [] => [[x]]            (* unreachable: split_all is never [] *)
           | p :: ps => (x :: p) :: ps
           end
  end.

(* s.split(c, 1) when c occurs: the text before and after the first c *)
(* used at nmeahelpers.py:439-440, 460 *)
Fixpoint split_first (c : N) (s : pystr) : option (pystr * pystr) :=
  match s with
  | [] => None
  | x :: s' =>
      if N.eqb x c then Some ([], s')
      else match split_first c s' with
           | Some (a, b) => Some (x :: a, b)
           | None => None
           end
  end.

(* s.find(c) for a one-character needle *)
(* used at nmeahelpers.py:284, 324 *)
Fixpoint find_char (c : N) (s : pystr) : option nat :=
  match s with
  | [] => None
  | x :: s' => if N.eqb x c then Some O else option_map S (find_char c s')
  end.

(* used at nmeahelpers.py:439, socketwrapper.py:165 *)
Definition memc (c : N) (l : list N) : bool := existsb (N.eqb c) l.

(* s.lstrip(chars), s.strip(chars) *)
(* used at nmeahelpers.py:439, socketwrapper.py:165 *)
Fixpoint lstrip_if (p : N -> bool) (s : pystr) : pystr :=
  match s with
  | [] => []
  | x :: s' => if p x then lstrip_if p s' else s
  end.
(* used at nmeahelpers.py:439, socketwrapper.py:165 *)
Definition rstrip_if (p : N -> bool) (s : pystr) : pystr := rev (lstrip_if p (rev s)).
(* used at nmeahelpers.py:439, socketwrapper.py:165 *)
Definition strip_if (p : N -> bool) (s : pystr) : pystr := rstrip_if p (lstrip_if p s).
(* used at nmeahelpers.py:439, socketwrapper.py:165 *)
Definition strip_chars (chars : list N) (s : pystr) : pystr := strip_if (fun c => memc c chars) s.

(* s.replace(c, "") for a one-character c *)
(* used at nmeamessage.py:773, 779, nmeahelpers.py:315 *)
Definition remove_char (c : N) (s : pystr) : pystr := filter (fun x => negb (N.eqb x c)) s.

(* s[a:b] for 0 <= a, 0 <= b *)
(* used at nmeahelpers.py:287-288, nmeamessage.py:780-794 *)
Definition slice {A} (a b : nat) (s : list A) : list A := firstn (b - a) (skipn a s).

(* s.zfill(n) for a string without sign: left pad with "0" *)
(* used at nmeahelpers.py:209-216 *)
Definition zfill (n : nat) (s : pystr) : pystr := repeat 48%N (n - length s) ++ s.

(* sep.join(l) *)
(* used at nmeamessage.py:586-591 *)
Fixpoint join (sep : pystr) (l : list pystr) : pystr :=
  match l with
  | [] => []
  | [x] => x
  | x :: l' => x ++ sep ++ join sep l'
  end.

(* fields prefixed by commas, as serialize() and generate_checksum() do *)
(* nmeahelpers.py:421-422, nmeamessage.py:633-634 *)
Definition comma_fields (payload : list pystr) : pystr :=
  flat_map (fun f => 44%N :: f) payload.

(* l[i] for i >= 0 *)
(* used at nmeamessage.py:217-283 *)
Definition py_index {A} (l : list A) (i : nat) : result A :=
  match nth_error l i with Some x => Ok x | None => Raise IndexError end.

(* l[i] = v for an existing index *)
(* used at nmeamessage.py:217-283 *)
Fixpoint list_set {A} (l : list A) (i : nat) (v : A) : list A :=
  match l, i with
  | [], _ => []
  | _ :: l', O => v :: l'
  | x :: l', S i' => x :: list_set l' i' v
  end.

(* -------------------------------------------------------------------- *)
(* Payload definitions (nmeatypes_*.py): an attribute type name, or a
   repeating group (numr, {members}); numr an int or a str. *)
Inductive numr := NInt (z : Z) | NStr (s : pystr).
(* nmeatypes_get.py:24-1424 and the other definition tables *)
Inductive adef :=
| ASingle (ty : pystr)
| AGroup (n : numr) (members : list (pystr * adef)).
(* nmeatypes_get.py:24-1424 and the other definition tables *)
Definition pdict := list (pystr * adef).
