(** Specification: when a layout has a box, and elements given by points (C58). *)
From Coq Require Import String Reals.
From Flocq Require Import IEEE754.BinarySingleNaN.
From Verif Require Import Base Str F64 ClassSpec FpData FpOps FpOpsSpec Bound LyData LySpec.

(** Elements whose shape is given by their points alone: no circle, via or footprint. *)
Definition pointlike (e : ly_element) : bool :=
  match e with YModule _ | YGrCircle _ | YVia _ => false | _ => true end.
(** Elements that have a place on the board *)
Definition has_extent (e : ly_element) : bool :=
  match e with
  | YNet _ | YNetClass _ | YOther _ => false
  | YZone z => match flat_map pts_points (zone_pts z) with [] => false | _ => true end
  | _ => true
  end.

(** The layer a line, arc, circle or outline of a footprint is drawn on *)
Definition outline_layer (e : element) : option layer :=
  match e with
  | EFpPoly x => Some (po_layer x) | EFpLine x => Some (li_layer x)
  | EFpCircle x => Some (ci_layer x) | EFpArc x => Some (ar_layer x)
  | _ => None
  end.
(** Pads and drawings on a fabrication layer: what the size of a footprint is taken from *)
Inductive counts : element -> Prop :=
| c_pad p : counts (EPad p)
| c_fab e l : outline_layer e = Some l -> la_t l = LFab -> counts e.

(** Angles (in degrees) close to a quarter turn, and clearly none *)
Definition quarters : list R := [90; -90; 270; -270]%R.
Definition turned (r : R) : Prop := exists k, In k quarters /\ (Rabs (r - k) <= / 20)%R.
Definition upright (r : R) : Prop := forall k, In k quarters -> (/ 5 <= Rabs (r - k))%R.
(** A box with these sides, up to rounding of at most a thousandth *)
Definition near_box (b : bound) (x1 y1 x2 y2 : R) : Prop :=
  bounded b = true /\ finite_box b = true /\
  (Rabs (B2R (bx1 b) - x1) <= / 1000 /\ Rabs (B2R (by1 b) - y1) <= / 1000 /\
   Rabs (B2R (bx2 b) - x2) <= / 1000 /\ Rabs (B2R (by2 b) - y2) <= / 1000)%R.

(** A coordinate of at most a kilometre (in millimetres) *)
Definition modest (x : f64) : Prop := is_finite x = true /\ (Rabs (B2R x) <= 1000000)%R.
(** Distance of two points *)
Definition distance (a b : xy) : R :=
  (let x := B2R (xy_x a) - B2R (xy_x b) in let y := B2R (xy_y a) - B2R (xy_y b) in sqrt (x * x + y * y))%R.
(** The box around a circle *)
Definition around (c e : xy) (b : bound) : Prop :=
  (let x := B2R (xy_x c) in let y := B2R (xy_y c) in let d := distance c e in near_box b (x - d) (y - d) (x + d) (y + d))%R.
Definition modest2 (p : xy) : Prop := modest (xy_x p) /\ modest (xy_y p).
(** The distance of the courtyard from the box of a footprint with this name, width
    and height, away from the limit of 2 mm *)
Inductive clearance (name : str) (w h : R) : R -> Prop :=
| cl_small : (w <= 1.999)%R -> (h <= 1.999)%R -> clearance name w h 0.15
| cl_bga : (2.001 <= w \/ 2.001 <= h)%R -> firstn 3 name = lit "BGA" -> clearance name w h 0.1
| cl_other : (2.001 <= w \/ 2.001 <= h)%R -> firstn 3 name <> lit "BGA" -> clearance name w h 0.25.
Definition modest_box (b : bound) : Prop := modest (bx1 b) /\ modest (by1 b) /\ modest (bx2 b) /\ modest (by2 b).
