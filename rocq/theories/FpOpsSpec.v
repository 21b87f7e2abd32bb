(** Specification notions for footprint operations. *)
From Coq Require Import String Reals.
From Flocq Require Import Core.Zaux Core.Raux Core.Defs IEEE754.BinarySingleNaN.
From Verif Require Import Base Str Num F64 F64Text FpData FpOps Bound.
Open Scope string_scope. Open Scope list_scope.

(** A finite number that is an integer multiple of 2^-43 (all angles such as
    90, 22.5 or 0.125; not 0.1). *)
Definition grid (x : f64) : Prop :=
  is_finite x = true /\ exists k : Z, B2R x = (IZR k * bpow radix2 (-43))%R.
(** Decidable version for examples: x * 2^43 is an integer. *)
Definition gridb (x : f64) : bool :=
  match x with
  | B754_zero _ => true
  | B754_finite _ m e _ => (-43 <=? e)%Z || (Z.eqb (Z.modulo (Z.pos m) (2 ^ (-43 - e))) 0)%Z
  | _ => false
  end.

(** An angle that survives [360 - (360 - a)] exactly. *)
Definition turn_ok (r : f64) : Prop :=
  grid r /\ (-360 <= B2R r <= 360)%R /\ (B2R r = 0%R -> Bsign r = false).

Definition justify_flips (e : effects) : Prop :=
  ef_justify e = None \/ ef_justify e = Some JMirror.

(** Elements for which flipping is its own inverse. *)
Definition flips (e : element) : Prop :=
  match e with
  | EPad p => turn_ok (at_rot (pa_at p))
  | EFpText t => turn_ok (at_rot (tx_at t)) /\ justify_flips (tx_effects t)
  | EAt a => turn_ok (at_rot a)
  | _ => True
  end.

(** Congruence of angles modulo one turn. *)
Definition same_angle (a b : R) : Prop := exists n : Z, a = (b + 360 * IZR n)%R.

(** The element is a reference text reading [r]. *)
Definition ref_reads (r : str) (e : element) : Prop :=
  exists t, e = EFpText t /\ tx_name t = lit "reference" /\ tx_value t = r.
(** The element is a text named [w]. *)
Definition text_named (w : str) (e : element) : Prop :=
  exists t, e = EFpText t /\ tx_name t = w.

(** Points that an element of a footprint defines (relative to its origin). *)
Definition xy_point (p : xy) : f64 * f64 := (xy_x p, xy_y p).
Definition fab_points (e : element) : list (f64 * f64) :=
  match e with
  | EPad p => [(at_x (pa_at p), at_y (pa_at p))]
  | EFpPoly p => if ltype_eqb (la_t (po_layer p)) LFab then map xy_point (po_pts p) else []
  | EFpLine l => if ltype_eqb (la_t (li_layer l)) LFab then [xy_point (li_start l); xy_point (li_end l)] else []
  | EFpCircle c => if ltype_eqb (la_t (ci_layer c)) LFab then [xy_point (ci_center c)] else []
  | EFpArc a => if ltype_eqb (la_t (ar_layer a)) LFab then [xy_point (ar_start a); xy_point (ar_end a)] else []
  | _ => []
  end.
Definition fin2 (p : xy) : bool := is_finite (xy_x p) && is_finite (xy_y p).
(** Coordinates finite, pad sizes not negative. *)
Definition geo_ok (e : element) : bool :=
  match e with
  | EPad p => is_finite (at_x (pa_at p)) && is_finite (at_y (pa_at p)) && fin2 (pa_size p)
              && fleb fzero (xy_x (pa_size p)) && fleb fzero (xy_y (pa_size p))
  | EFpPoly p => forallb fin2 (po_pts p)
  | EFpLine l => fin2 (li_start l) && fin2 (li_end l)
  | EFpCircle c => fin2 (ci_center c) && fin2 (ci_end c)
  | EFpArc a => fin2 (ar_start a) && fin2 (ar_end a)
  | _ => true
  end.
(** Lines and arcs run from the smaller to the larger coordinate. *)
Definition ascending (e : element) : bool :=
  match e with
  | EFpLine l => fleb (xy_x (li_start l)) (xy_x (li_end l)) && fleb (xy_y (li_start l)) (xy_y (li_end l))
  | EFpArc a => fleb (xy_x (ar_start a)) (xy_x (ar_end a)) && fleb (xy_y (ar_start a)) (xy_y (ar_end a))
  | _ => true
  end.
