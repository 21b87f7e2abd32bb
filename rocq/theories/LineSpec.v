(** Specification for C88: the words of a component or symbol that an edit replaces. *)
From Coq Require Import String.
From Verif Require Import Base Str Num SchData SymData SchSpec DiffSpec SavedSpec.
Open Scope string_scope. Open Scope list_scope.

(** The text of a component *)
Definition comp_text (c : component) : form := in_lines (comp_form c).
(** Where the reference of a component stands: in its second line and as value of
    the fields with number 0; the name as value of those with number 1. *)
Definition places_of (i : Z) (head : str) (c : component) : list str :=
  head :: map cf_value (filter (fun f => Z.eqb (cf_i f) i) (co_fields c)).
(** Value and visibility of a field *)
Definition shown_as (b : bool) : str := lit (if b then "0000" else "0001").
Definition value_words (f : cfield) : list str := [cf_value f; shown_as (cf_visible f)].
(** The text of a symbol with at least two fields *)
Definition symbol_form_text (y : symbol) : form := fun t => exists f0 f1 r, sy_fields y = f0 :: f1 :: r /\ in_lines (symbol_form y (sf_value f1)) t.
