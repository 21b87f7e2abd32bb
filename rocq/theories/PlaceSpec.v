(** Specification: footprints put somewhere else, turned and turned over (C117). *)
From Coq Require Import String Reals.
From Flocq Require Import IEEE754.BinarySingleNaN.
From Verif Require Import Base Str F64 FpData FpOps Bound.
Open Scope string_scope. Open Scope list_scope.

(** [m'] is [m] after any number of moves, turns and flips. *)
Inductive placement (m : module) : module -> Prop :=
| pl_here : placement m m
| pl_moved x y m' : placement m m' -> placement m (adjust_module x y m')
| pl_turned r m' : placement m m' -> placement m (rotate_module r m')
| pl_flipped m' : placement m m' -> placement m (flip_module m').

(** There is a text of this kind. *)
Definition has_text (k : str) (m : module) : Prop := exists t, In (EFpText t) (m_elements m) /\ tx_name t = k.
(** Width and height are not within a hundredth of the limit of 2 mm. *)
Definition clear_size (w h : R) : Prop := ((w <= 1.99 /\ h <= 1.99) \/ 2.01 <= w \/ 2.01 <= h)%R.
(** Two numbers within [t] *)
Definition within (t : R) (a b : f64) : Prop := (Rabs (B2R a - B2R b) <= t)%R.
