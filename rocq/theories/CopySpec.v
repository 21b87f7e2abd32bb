(** Specification: a design in another directory (C101). *)
From Coq Require Import String.
From Verif Require Import Base Str SchData PathSpec.
Open Scope string_scope. Open Scope list_scope.

(** Paths that correspond: one below the directory [D] and one at the same place below
    [D'] (each from the root or from where the program runs), or one and the same path
    from the root *)
Inductive counterpart (b : bool) (D : list str) (b' : bool) (D' : list str) : str -> str -> Prop :=
| cp_in p p' l : leads p b (D ++ l) -> leads p' b' (D' ++ l) -> counterpart b D b' D' p p'
| cp_root p : starts_with (lit "/") p = true -> counterpart b D b' D' p p.
(** Corresponding paths give the same, and the directory itself is not a file. *)
Definition copied (b : bool) (D : list str) (b' : bool) (D' : list str) (read read' : str -> res str) : Prop :=
  (forall p p', counterpart b D b' D' p p' -> read p = read' p') /\ (forall p t, leads p b D -> read p <> Ok t).
(** Two schematics that differ in their files only *)
Definition same_content (s s' : schematic) : Prop :=
  sc_libraries s = sc_libraries s' /\ sc_description s = sc_description s' /\ sc_elements s = sc_elements s' /\ sc_sheets s = sc_sheets s' /\ sc_eelayer s = sc_eelayer s'.
