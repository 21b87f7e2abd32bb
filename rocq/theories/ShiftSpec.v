(** Specification: how the box of a board follows when everything on it is moved (C116). *)
From Coq Require Import String Reals.
From Flocq Require Import IEEE754.BinarySingleNaN.
From Verif Require Import Base Str F64 ClassSpec FpData FpOps FpOpsSpec Bound LyData LySpec TightSpec.

(** [c] is the box [b] with the offset added to its sides, as the machine adds. *)
Definition exactly_moved (x y : f64) (b c : bound) : Prop :=
  bounded c = bounded b /\
  (bounded b = true ->
   feqb (bx1 c) (fadd (bx1 b) x) = true /\ feqb (by1 c) (fadd (by1 b) y) = true /\
   feqb (bx2 c) (fadd (bx2 b) x) = true /\ feqb (by2 c) (fadd (by2 b) y) = true).

(** [c] is the box [b] with the offset added, up to [t] (in millimetres) on each side. *)
Definition nearly_moved (t : R) (x y : f64) (b c : bound) : Prop :=
  bounded c = bounded b /\
  (bounded b = true ->
   finite_box b = true /\ finite_box c = true /\
   Rabs (B2R (bx1 c) - (B2R (bx1 b) + B2R x)) <= t /\ Rabs (B2R (by1 c) - (B2R (by1 b) + B2R y)) <= t /\
   Rabs (B2R (bx2 c) - (B2R (bx2 b) + B2R x)) <= t /\ Rabs (B2R (by2 c) - (B2R (by2 b) + B2R y)) <= t)%R.

(** A coordinate of at most a hundred metres (in millimetres) *)
Definition nearby (v : f64) : Prop := is_finite v = true /\ (Rabs (B2R v) <= 100000)%R.
Definition nearby_box (b : bound) : Prop :=
  nearby (bx1 b) /\ nearby (by1 b) /\ nearby (bx2 b) /\ nearby (by2 b).

(** An element of ordinary size: all its positions are nearby, so is the size of a
    via, and a footprint has a place and drawings that are nearby. *)
Definition tame (e : ly_element) : Prop :=
  (forall p, In p (positions e) -> nearby (fst p) /\ nearby (snd p)) /\
  match e with
  | YVia v => nearby (vi_size v)
  | YModule m =>
      (exists a, In (EAt a) (m_elements m)) /\
      forall d, In d (m_elements m) -> counts d -> bounded (element_bound d) = true -> nearby_box (element_bound d)
  | _ => True
  end.

(** [c] is the box [b] put [d] millimetres further to the right, up to [t] on each side. *)
Definition moved_right (t d : R) (b c : bound) : Prop :=
  bounded c = bounded b /\
  (bounded b = true ->
   Rabs (B2R (bx1 c) - (B2R (bx1 b) + d)) <= t /\ Rabs (B2R (by1 c) - B2R (by1 b)) <= t /\
   Rabs (B2R (bx2 c) - (B2R (bx2 b) + d)) <= t /\ Rabs (B2R (by2 c) - B2R (by2 b)) <= t)%R.
