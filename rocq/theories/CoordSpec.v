(* Specification vocabulary for coordinates. *)
From Coq Require Import Reals.
From Verif Require Import PyBase.
Local Open Scope Z_scope.

(* ASCII digits only *)
Definition digit_text (s : pystr) : Prop := Forall (fun c => 48 <= c <= 57)%N s.
(* the number written by such a text *)
Fixpoint number_acc (a : Z) (s : pystr) : Z :=
  match s with [] => a | c :: r => number_acc (10 * a + (Z.of_N c - 48)) r end.
Definition number (s : pystr) : Z := number_acc 0 s.
