(** Specification: net classes compared without their nets (C52), the extent of a
    box (C54), first matches (C55). *)
From Coq Require Import String Reals.
From Flocq Require Import IEEE754.BinarySingleNaN.
From Verif Require Import Base Str F64 F64Order Bound FpData LyData.

(** Equal as numbers: neither is NaN and the values agree (0.0 and -0.0 do). *)
Definition num_eq (x y : f64) : Prop := is_nan x = false /\ is_nan y = false /\ rx x = rx y.
Definition opt_num_eq (x y : option f64) : Prop :=
  match x, y with Some a, Some b => num_eq a b | None, None => True | _, _ => False end.
(** All attributes of the classes agree; the nets are left out. *)
Definition same_class (a b : net_class) : Prop :=
  nc_name a = nc_name b /\ nc_desc a = nc_desc b /\ num_eq (nc_clearance a) (nc_clearance b)
  /\ num_eq (nc_trace_width a) (nc_trace_width b) /\ num_eq (nc_via_dia a) (nc_via_dia b)
  /\ num_eq (nc_via_drill a) (nc_via_drill b) /\ num_eq (nc_uvia_dia a) (nc_uvia_dia b)
  /\ num_eq (nc_uvia_drill a) (nc_uvia_drill b) /\ opt_num_eq (nc_dp_gap a) (nc_dp_gap b)
  /\ opt_num_eq (nc_dp_width a) (nc_dp_width b).
(** No attribute is NaN. *)
Definition class_numbers (a : net_class) : bool :=
  forallb (fun x => negb (is_nan x))
    ([nc_clearance a; nc_trace_width a; nc_via_dia a; nc_via_drill a; nc_uvia_dia a; nc_uvia_drill a]
     ++ match nc_dp_gap a with Some x => [x] | None => [] end ++ match nc_dp_width a with Some x => [x] | None => [] end).

Definition finite_box (b : bound) : bool := is_finite (bx1 b) && is_finite (by1 b) && is_finite (bx2 b) && is_finite (by2 b).

(** [o] is the first value that [want] finds in [l]. *)
Inductive first_match {A B} (want : A -> B -> Prop) : list A -> option B -> Prop :=
| fm_none l : (forall x b, In x l -> ~ want x b) -> first_match want l None
| fm_some l1 x l2 b : (forall y c, In y l1 -> ~ want y c) -> want x b -> first_match want (l1 ++ x :: l2) (Some b).
(** Where a footprint says it is *)
Definition placed (e : element) (a : at_t) : Prop := e = EAt a.
