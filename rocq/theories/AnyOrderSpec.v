(** Specification: footprints and boards whose elements stand in another order (C118). *)
From Coq Require Import String Permutation.
From Verif Require Import Base Str FpData LyData FpOps LySpec.
Open Scope list_scope.

(** The same footprint, and the same board, with the elements in another order *)
Definition mixed (m m' : module) : Prop := m_name m' = m_name m /\ Permutation (m_elements m) (m_elements m').
Definition mixed_board (l l' : layout) : Prop := ly_header l' = ly_header l /\ Permutation (ly_elements l) (ly_elements l').

(** At most one element of the list is as described. *)
Definition at_most_one {A} (P : A -> Prop) (l : list A) : Prop :=
  forall l1 a l2 b l3, l = l1 ++ a :: l2 ++ b :: l3 -> P a -> P b -> False.
(** A text of this kind; a place; a footprint with this reference *)
Definition a_text (k : str) (e : element) : Prop := exists t, e = EFpText t /\ tx_name t = k.
Definition a_place (e : element) : Prop := exists a, e = EAt a.
Definition called (r : str) (e : ly_element) : Prop := exists m, e = YModule m /\ is_reference_with_name m r = true.
(** At most one text of each of the three kinds the rules are about *)
Definition one_of_each (m : module) : Prop :=
  at_most_one (a_text (lit "reference")) (m_elements m) /\ at_most_one (a_text (lit "value")) (m_elements m) /\
  at_most_one (a_text (lit "user")) (m_elements m).
