(** Bounding boxes (/repo/src/lib.rs:248-333). *)
From Verif Require Import Base F64.

(** lib.rs:249-260 *)
Record bound := mk_bound { bx1 : f64; by1 : f64; bx2 : f64; by2 : f64; bounded : bool }.

(** lib.rs:262-272 *)
Definition bound_default : bound := mk_bound fzero fzero fzero fzero false.
(** lib.rs:276-284 *)
Definition bound_new (x1 y1 x2 y2 : f64) : bound := mk_bound x1 y1 x2 y2 true.
(** lib.rs:286-294; [as f64] rounds to nearest *)
Definition bound_new_i64 (x1 y1 x2 y2 : Z) : bound :=
  mk_bound (f64_of_Z x1) (f64_of_Z y1) (f64_of_Z x2) (f64_of_Z y2) true.

(** lib.rs:297-312 *)
Definition bound_update (s o : bound) : bound :=
  if bounded o then
    if negb (bounded s) then mk_bound (bx1 o) (by1 o) (bx2 o) (by2 o) true
    else mk_bound (fmin (bx1 s) (bx1 o)) (fmin (by1 s) (by1 o))
                  (fmax (bx2 s) (bx2 o)) (fmax (by2 s) (by2 o)) (bounded s)
  else s.

(** lib.rs:315-322 *)
Definition bound_swap (b : bound) : bound :=
  let '(x1, x2) := if fgtb (bx1 b) (bx2 b) then (bx2 b, bx1 b) else (bx1 b, bx2 b) in
  let '(y1, y2) := if fgtb (by1 b) (by2 b) then (by2 b, by1 b) else (by1 b, by2 b) in
  mk_bound x1 y1 x2 y2 (bounded b).

(** lib.rs:325-332 *)
Definition bound_width (b : bound) : f64 := fabs (fsub (bx1 b) (bx2 b)).
Definition bound_height (b : bound) : f64 := fabs (fsub (by1 b) (by2 b)).

(** The loops [b.update(&item)] over a list. *)
Definition bound_all (b : bound) (l : list bound) : bound := fold_left bound_update l b.
