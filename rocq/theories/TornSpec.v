(** Specification: texts that were cut short (C98). *)
From Coq Require Import String.
From Verif Require Import Base Str SchData SpellSpec.
Open Scope list_scope.

(** [p] is what is left of [t] *)
Definition beginning (p t : str) : Prop := exists q, t = p ++ q.
(** and more than white space is missing *)
Definition torn (p t : str) : Prop := exists q, t = p ++ q /\ ~ blank_text q.
(** Some of the first items *)
Definition first_of {A} (a l : list A) : Prop := exists b, l = a ++ b.
(** A schematic with the first elements and sheets of another one, and one more thing at most *)
Definition schematic_left (c' c : schematic) : Prop :=
  sc_filename c' = sc_filename c /\ sc_libraries c' = sc_libraries c /\ sc_eelayer c' = sc_eelayer c /\
  exists es e ss s, sc_elements c' = es ++ e /\ first_of es (sc_elements c) /\ sc_sheets c' = ss ++ s /\ first_of ss (sc_sheets c) /\ (length e + length s <= 1)%nat.
(** The same without anything more *)
Definition schematic_first (c' c : schematic) : Prop :=
  sc_filename c' = sc_filename c /\ sc_libraries c' = sc_libraries c /\ sc_eelayer c' = sc_eelayer c /\
  first_of (sc_elements c') (sc_elements c) /\ first_of (sc_sheets c') (sc_sheets c).
