(** Specification: what equality of pads and texts ignores (C44). *)
From Coq Require Import String.
From Flocq Require Import IEEE754.BinarySingleNaN.
From Verif Require Import Base Str F64 FpData.

(** No number in it is NaN *)
Definition nums_at (a : at_t) : list f64 := [at_x a; at_y a; at_rot a].
Definition nums_xy (p : xy) : list f64 := [xy_x p; xy_y p].
Definition nums_opt {A} (f : A -> list f64) (o : option A) : list f64 := match o with Some x => f x | None => [] end.
Definition nums_drill (d : drill) : list f64 := [dr_width d; dr_height d; dr_ox d; dr_oy d].
Definition nums_pad (p : pad) : list f64 :=
  nums_at (pa_at p) ++ nums_xy (pa_size p) ++ nums_opt nums_xy (pa_rect_delta p) ++ nums_opt nums_drill (pa_drill p)
  ++ nums_opt (fun x => [x]) (pa_paste_margin p) ++ nums_opt (fun x => [x]) (pa_mask_margin p)
  ++ nums_opt (fun x => [x]) (pa_clearance p) ++ nums_opt (fun x => [x]) (pa_thermal_gap p).
Definition nums_text (t : fp_text) : list f64 :=
  nums_at (tx_at t) ++ nums_xy (fo_size (ef_font (tx_effects t))) ++ [fo_thickness (ef_font (tx_effects t))].
Definition all_numbers (l : list f64) : Prop := forall x, In x l -> is_nan x = false.

(** Forgetting the sign of zeros, the sides of layers and the net *)
Definition z0 (x : f64) : f64 := match x with B754_zero _ => B754_zero false | _ => x end.
Definition forget_at (a : at_t) : at_t := mk_at (z0 (at_x a)) (z0 (at_y a)) (z0 (at_rot a)).
Definition forget_xy (p : xy) : xy := mk_xy (z0 (xy_x p)) (z0 (xy_y p)) (xy_t p).
Definition forget_drill (d : drill) : drill := mk_drill (dr_shape d) (z0 (dr_width d)) (z0 (dr_height d)) (z0 (dr_ox d)) (z0 (dr_oy d)).
Definition forget_layer (l : layer) : layer := mk_layer SNone (la_t l).
Definition forget_pad (p : pad) : pad :=
  mk_pad (pa_name p) (pa_t p) (pa_shape p) (forget_xy (pa_size p)) (option_map forget_xy (pa_rect_delta p)) (forget_at (pa_at p))
    (map forget_layer (pa_layers p)) None (pa_zone_connect p) (option_map forget_drill (pa_drill p))
    (option_map z0 (pa_paste_margin p)) (option_map z0 (pa_mask_margin p)) (option_map z0 (pa_clearance p)) (option_map z0 (pa_thermal_gap p)).
Definition forget_text (t : fp_text) : fp_text :=
  let f := ef_font (tx_effects t) in
  mk_text (tx_name t) (tx_value t) (forget_at (tx_at t)) (forget_layer (tx_layer t))
    (mk_effects (mk_font (forget_xy (fo_size f)) (z0 (fo_thickness f)) (fo_italic f)) (ef_justify (tx_effects t))) (tx_hide t).
