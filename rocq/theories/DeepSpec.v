(** Specification: boards mixed up on both levels (C118). *)
From Coq Require Import Permutation.
From Verif Require Import Base Str FpData LyData LySpec AnyOrderSpec.
Open Scope list_scope.

(** The same element of a board, where a footprint may have its elements in another order *)
Definition inner (e e' : ly_element) : Prop := match e with YModule m => exists m', e' = YModule m' /\ mixed m m' | _ => e' = e end.
(** The same board with its elements, and those of its footprints, in another order *)
Definition deep_mixed (l l' : layout) : Prop :=
  ly_header l' = ly_header l /\ exists es, Permutation (ly_elements l) es /\ Forall2 inner es (ly_elements l').
Definition placed_once (e : ly_element) : Prop := match e with YModule m => at_most_one a_place (m_elements m) | _ => True end.
