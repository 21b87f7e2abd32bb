(** Specification: the box of a schematic in whole numbers (C123). *)
From Verif Require Import Base Str SchData SchSpec SchTight.
Open Scope list_scope.

(** Four edges: left, top, right, bottom *)
Record quad := mk_quad { q_left : Z; q_top : Z; q_right : Z; q_bottom : Z }.
(** The edges a component and a sheet contribute: the left edge of a component is its y,
    which is what the code does *)
Definition comp_quad (c : component) : quad := mk_quad (co_y c) (co_y c) (co_x c) (co_y c).
Definition sheet_quad (h : sheet) : quad := mk_quad (sh_x h) (sh_y h - 100) (sh_x h + sh_dimx h) (sh_y h + sh_dimy h + 100).
Definition quads (s : schematic) : list quad := map comp_quad (own (sc_elements s)) ++ map sheet_quad (sc_sheets s).
(** The edges are whole numbers that a float holds exactly *)
Definition small_quad (q : quad) : Prop := small53 (q_left q) /\ small53 (q_top q) /\ small53 (q_right q) /\ small53 (q_bottom q).
Definition least (l : list Z) (z : Z) : Prop := In z l /\ forall y, In y l -> (z <= y)%Z.
Definition greatest (l : list Z) (z : Z) : Prop := In z l /\ forall y, In y l -> (y <= z)%Z.
(** The smallest of the left and top edges and the greatest of the others *)
Definition outline (l : list quad) (q : quad) : Prop :=
  least (map q_left l) (q_left q) /\ least (map q_top l) (q_top q) /\ greatest (map q_right l) (q_right q) /\ greatest (map q_bottom l) (q_bottom q).
