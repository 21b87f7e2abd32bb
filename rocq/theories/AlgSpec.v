(** Specification for C89: coordinates that can be moved without rounding. *)
From Coq Require Import Reals.
From Flocq Require Import Core.Core IEEE754.BinarySingleNaN.
From Verif Require Import Base F64.

(** A multiple of 2^-k below 2^(52-k) *)
Definition on_grid (k : Z) (c : f64) : Prop := is_finite c = true /\ exists n : Z, (B2R c = IZR n * bpow radix2 (- k))%R /\ (Z.abs n < 2 ^ 52)%Z.
(** Less than 4096 *)
Definition on_table (c : f64) : Prop := is_finite c = true /\ (Rabs (B2R c) < 4096)%R.
(** Closer than 2^-40 *)
Definition almost (a b : f64) : Prop := is_finite b = true /\ (Rabs (B2R b - B2R a) <= bpow radix2 (-40))%R.
