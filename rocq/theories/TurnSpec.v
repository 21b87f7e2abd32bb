(** Specification: how exact flipping and rotating are for any angle (C78). *)
From Coq Require Import String Reals.
From Flocq Require Import Core.Core IEEE754.BinarySingleNaN.
From Verif Require Import Base Str F64 F64Order FpData FlipSpec.

(** An angle within one turn *)
Definition in_turn (a : f64) : Prop := is_finite a = true /\ (0 <= B2R a <= 360)%R.
Definition within_turn (d : f64) : Prop := is_finite d = true /\ (-360 <= B2R d <= 360)%R.
(** The directions [a] and [b] differ by at most [eps]. *)
Definition near_angle (eps a b : R) : Prop := exists n : Z, (Rabs (a - (b + 360 * IZR n)) <= eps)%R.
(** 2^-k *)
Definition eps (k : Z) : R := bpow radix2 (- k).
Fixpoint total (l : list f64) : R := match l with [] => 0%R | d :: r => (B2R d + total r)%R end.

(** What a text loses when it is flipped and flipped back: it becomes mirrored if it
    was justified. *)
Definition flipped_back (j k : option justify) : Prop := match j with None => k = None | Some _ => k = Some JMirror end.
Definition close_angle (a b : f64) : Prop := in_turn b /\ (Rabs (B2R b - B2R a) <= eps 44)%R.
(** The same element up to that *)
Definition near_element (e f : element) : Prop :=
  e_points f = e_points e /\ Forall2 close_angle (e_angles e) (e_angles f) /\ e_layers f = e_layers e /\
  Forall2 flipped_back (e_justify e) (e_justify f) /\ e_rest f = e_rest e.
