(** What a bounding box means (specification side). *)
From Verif Require Import Base F64 Bound.
From Flocq Require Import IEEE754.BinarySingleNaN.

(** No coordinate is NaN. *)
Definition bnum (b : bound) : bool :=
  negb (is_nan (bx1 b)) && negb (is_nan (by1 b)) && negb (is_nan (bx2 b)) && negb (is_nan (by2 b)).
(** Box [c] covers box [b]. *)
Definition covers (c b : bound) : bool :=
  fleb (bx1 c) (bx1 b) && fleb (by1 c) (by1 b) && fleb (bx2 b) (bx2 c) && fleb (by2 b) (by2 c).
(** The point lies in the box. *)
Definition inside (x y : f64) (b : bound) : bool :=
  fleb (bx1 b) x && fleb x (bx2 b) && fleb (by1 b) y && fleb y (by2 b).
(** Smaller coordinates first. *)
Definition ordered (b : bound) : bool := fleb (bx1 b) (bx2 b) && fleb (by1 b) (by2 b).
(** The same box: equal coordinates ([==]), or both without extent. *)
Definition same_bound (a b : bound) : bool :=
  if bounded a then
    bounded b && feqb (bx1 a) (bx1 b) && feqb (by1 a) (by1 b)
    && feqb (bx2 a) (bx2 b) && feqb (by2 a) (by2 b)
  else negb (bounded b).
