(** Specification: trees without the empty expression (C50). *)
From Verif Require Import Base Str Sexp.

Inductive no_empty : sexp -> Prop :=
| ne_str s : no_empty (SStr s)
| ne_list l : (forall x, In x l -> no_empty x) -> no_empty (SList l).
