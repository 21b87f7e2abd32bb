(** Specification: what flipping and rotating a footprint may change (C59). *)
From Coq Require Import String Reals.
From Flocq Require Import IEEE754.BinarySingleNaN.
From Verif Require Import Base Str F64 F64Order FpData FpOpsSpec.

(** Everything an element says about places, angles, layers and text justification *)
Definition at_point (a : at_t) : f64 * f64 := (at_x a, at_y a).
Definition e_points (e : element) : list (f64 * f64) :=
  match e with
  | EFpText t => [at_point (tx_at t)]
  | EPad p => [at_point (pa_at p)]
  | EFpPoly p => map xy_point (po_pts p)
  | EFpLine l => [xy_point (li_start l); xy_point (li_end l)]
  | EFpCircle c => [xy_point (ci_center c); xy_point (ci_end c)]
  | EFpArc a => [xy_point (ar_start a); xy_point (ar_end a)]
  | EAt a => [at_point a]
  | _ => []
  end.
Definition e_angles (e : element) : list f64 :=
  match e with
  | EFpText t => [at_rot (tx_at t)]
  | EPad p => [at_rot (pa_at p)]
  | EAt a => [at_rot a]
  | _ => []
  end.
Definition e_layers (e : element) : list layer :=
  match e with
  | ELayer l => [l]
  | EFpText t => [tx_layer t]
  | EPad p => pa_layers p
  | EFpPoly p => [po_layer p]
  | EFpLine l => [li_layer l]
  | EFpCircle c => [ci_layer c]
  | EFpArc a => [ar_layer a]
  | _ => []
  end.
Definition e_justify (e : element) : list (option justify) :=
  match e with EFpText t => [ef_justify (tx_effects t)] | _ => [] end.
(** The rest of the element: the above replaced by fixed values *)
Definition no_at : at_t := mk_at fzero fzero fzero.
Definition no_layer : layer := mk_layer SNone LCu.
Definition no_xy (p : xy) : xy := mk_xy fzero fzero (xy_t p).
Definition e_rest (e : element) : element :=
  match e with
  | ELayer _ => ELayer no_layer
  | EFpText t => EFpText (mk_text (tx_name t) (tx_value t) no_at no_layer (mk_effects (ef_font (tx_effects t)) None) (tx_hide t))
  | EPad p => EPad (mk_pad (pa_name p) (pa_t p) (pa_shape p) (pa_size p) (pa_rect_delta p) no_at [] (pa_net p) (pa_zone_connect p)
                      (pa_drill p) (pa_paste_margin p) (pa_mask_margin p) (pa_clearance p) (pa_thermal_gap p))
  | EFpPoly p => EFpPoly (mk_poly (map no_xy (po_pts p)) (po_width p) no_layer)
  | EFpLine l => EFpLine (mk_line (no_xy (li_start l)) (no_xy (li_end l)) no_layer (li_width l))
  | EFpCircle c => EFpCircle (mk_circle (no_xy (ci_center c)) (no_xy (ci_end c)) no_layer (ci_width c))
  | EFpArc a => EFpArc (mk_arc (no_xy (ar_start a)) (no_xy (ar_end a)) (ar_angle a) no_layer (ar_width a))
  | EAt _ => EAt no_at
  | _ => e
  end.

(** Mirrored at the x axis *)
Definition mirror_point (p q : f64 * f64) : Prop := fst q = fst p /\ snd q = Bopp (snd p).
(** [b] is 360 - [a], correctly rounded. *)
Definition mirror_angle (a b : f64) : Prop := is_finite a = true -> is_nan b = false /\ rx b = clip (rnd (360 - B2R a)).
(** Same layer on the other side; only front and back have one. *)
Inductive other_side : layer -> layer -> Prop :=
| os_front t : other_side (mk_layer SFront t) (mk_layer SBack t)
| os_back t : other_side (mk_layer SBack t) (mk_layer SFront t)
| os_same s t : s <> SFront -> s <> SBack -> other_side (mk_layer s t) (mk_layer s t).
(** Text is mirrored or not. *)
Definition toggled (a b : option justify) : Prop := (a = None /\ b = Some JMirror) \/ (a <> None /\ b = None).
(** [b] is [a] turned by [d], in [0,360), for angles that are multiples of 2^-43. *)
Definition turned_by (d a b : f64) : Prop :=
  grid a -> grid d -> (0 <= B2R a < 360)%R -> (-360 <= B2R d <= 360)%R ->
  grid b /\ (0 <= B2R b < 360)%R /\ same_angle (B2R b) (B2R a + B2R d).

(** The points of an arc around its [start] that begins in [end] and sweeps [angle] degrees *)
Definition on_arc (a : fp_arc) (x y : R) : Prop := exists t : R, (0 <= t <= 1)%R /\
  let th := (t * B2R (ar_angle a) * PI / 180)%R in
  let dx := (B2R (xy_x (ar_end a)) - B2R (xy_x (ar_start a)))%R in
  let dy := (B2R (xy_y (ar_end a)) - B2R (xy_y (ar_start a)))%R in
  (x = B2R (xy_x (ar_start a)) + dx * cos th - dy * sin th /\ y = B2R (xy_y (ar_start a)) + dx * sin th + dy * cos th)%R.
