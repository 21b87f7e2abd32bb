(** Specification notions for the formatter. *)
From Coq Require Import String.
From Verif Require Import Base Str Sexp.
Open Scope string_scope. Open Scope list_scope.

(** What is assumed of the (unknown) quoting rule: an atom written without
    quotes is not empty and has no white space, parenthesis or quote. *)
Definition quote_contract (nq : str -> bool) : Prop :=
  forall s, nq s = false ->
    s <> [] /\ forallb (fun c => negb (is_ws c || N.eqb c 40 || N.eqb c 41 || N.eqb c 34)) s = true.

(** Documents with a text: no quote inside an atom, no [Empty]. *)
Fixpoint doc_ok (s : sexp) : bool :=
  match s with
  | SStr x => forallb (fun c => negb (N.eqb c 34)) x
  | SList l => forallb doc_ok l
  | SEmpty => false
  end.
(** Every list starts with a non-empty atom. *)
Fixpoint named (s : sexp) : bool :=
  match s with
  | SStr _ | SEmpty => true
  | SList (SStr n :: l) => negb (is_empty n) && forallb named l
  | SList _ => false
  end.
