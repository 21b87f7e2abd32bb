(** Specification: trees the formatter has no rules for (C66). *)
From Coq Require Import String.
From Verif Require Import Base Str Sexp TextSpec.
Open Scope string_scope. Open Scope list_scope.

(** Names of lists whose children may start lines, or that may start a line anywhere *)
Definition layout_names : list string := ["module"; "dimension"; "fp_text"; "gr_text"; "pts"; "model"; "pad"; "kicad_pcb"; "fp_lib_table"; "segment"].
Fixpoint ordinary (s : sexp) : bool :=
  match s with
  | SList l => match l with SStr h :: _ => negb (one_of layout_names h) | _ => true end && forallb ordinary l
  | _ => true
  end.
