(** Specification: schematics, components and symbols whose parts stand in another order (C120). *)
From Coq Require Import String Permutation.
From Verif Require Import Base Str SchData SymData.
Open Scope list_scope.

(** The same schematic with the elements, and the sheets, in another order *)
Definition mixed_sch (s s' : schematic) : Prop :=
  exists es hs, Permutation (sc_elements s) es /\ Permutation (sc_sheets s) hs /\
    s' = mk_sch (sc_filename s) (sc_libraries s) (sc_description s) es hs (sc_eelayer s).
(** The same component with the fields in another order *)
Definition mixed_comp (c c' : component) : Prop :=
  exists fs, Permutation (co_fields c) fs /\
    c' = mk_comp (co_name c) (co_reference c) (co_u c) (co_x c) (co_y c) (co_ar c) fs (co_rotation c).
(** A field of this name; a component of this reference *)
Definition field_called (n : str) (f : cfield) : Prop := cf_name f = n.
Definition comp_called (r : str) (e : selement) : Prop := exists c, e = SComponent c /\ co_reference c = r.
(** What is returned has the same outcome: both are values that are related, or both panic. *)
Definition alike {A} (R : A -> A -> Prop) (a b : res A) : Prop :=
  match a, b with Ok x, Ok y => R x y | Panic, Panic => True | _, _ => False end.
