(* JSON (RFC 8259), as far as the /gps page needs it: an object whose members are strings without escapes and
   numbers, with one blank after each colon and comma. *)
From Coq Require Import List NArith ZArith.
From Verif Require Import PyBase PyFloat PyTime PyNum ValueSpec.
Import ListNotations.
Local Open Scope N_scope.

Definition digits_text (s : pystr) : Prop := s <> [] /\ Forall (fun c => 48 <= c <= 57) s.
(* int = zero / ( digit1-9 *DIGIT ) *)
Definition json_int (s : pystr) : Prop := digits_text s /\ (hd 0 s = 48 -> s = [48]).
(* frac = "." 1*DIGIT *)
Definition json_frac (s : pystr) : Prop := s = [] \/ exists d, s = u "." ++ d /\ digits_text d.
(* exp = "e" [ minus / plus ] 1*DIGIT *)
Definition json_exp (s : pystr) : Prop := s = [] \/ exists sg d, s = u "e" ++ sg ++ d /\ In sg [[]; u "-"; u "+"] /\ digits_text d.
(* number = [ minus ] int [ frac ] [ exp ] *)
Definition json_number (s : pystr) : Prop :=
  exists sg i f e, s = sg ++ i ++ f ++ e /\ In sg [[]; u "-"] /\ json_int i /\ json_frac f /\ json_exp e.
(* characters that stand for themselves in a string *)
Definition json_chars (s : pystr) : Prop := Forall (fun c => 32 <= c <= 126 /\ c <> 34 /\ c <> 92) s.
(* the text of a value: strings in quotes; integers as their decimal numeral; floats as a number that reads back
   as the same float *)
Definition json_text (v : pyval) (t : pystr) : Prop :=
  match v with
  | VStr s => json_chars s /\ t = u """" ++ s ++ u """"
  | VInt z => json_number t /\ integer_text z t
  | VFloat x => json_number t /\ float_of_str t = Ok x
  | _ => False
  end.
(* name: value, name: value, ... *)
Inductive json_members : list (pystr * pyval) -> pystr -> Prop :=
| jm_one n v t : json_chars n -> json_text v t -> json_members [(n, v)] (u """" ++ n ++ u """: " ++ t)
| jm_more n v t r ts : json_chars n -> json_text v t -> json_members r ts ->
    json_members ((n, v) :: r) (u """" ++ n ++ u """: " ++ t ++ u ", " ++ ts).
Definition json_object (d : list (pystr * pyval)) (t : pystr) : Prop :=
  exists ts, json_members d ts /\ t = u "{" ++ ts ++ u "}".
