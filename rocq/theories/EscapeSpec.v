(** Specification: backslashes between quotes (C109). *)
From Coq Require Import String List NArith.
From Verif Require Import Base Str Sexp EolSpec.
Import ListNotations.

(** No backslash stands between an odd quote and the next. *)
Definition unescaped (t : str) : Prop := forall a b, t = a ++ 92%N :: b -> Nat.even (quotes a) = true.
(** What stands between the quotes, and the word that is meant by it *)
Inductive says (esc : N -> str) : str -> str -> Prop :=
| sy_nil : says esc [] []
| sy_char c t x : c <> 34%N -> c <> 92%N -> says esc t x -> says esc (c :: t) (c :: x)
| sy_pair c t x : says esc t x -> says esc (92%N :: c :: t) (esc c ++ x).
(** The word, if it is put in quotes, is read as it was. *)
Definition stands (esc : N -> str) (nq : str -> bool) (x : str) : Prop := nq x = true -> says esc x x.
