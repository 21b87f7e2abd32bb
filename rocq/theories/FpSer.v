(** Footprint to S-expression (/repo/src/footprint/ser.rs). *)
From Coq Require Import String.
From Verif Require Import Base Str Num F64 F64Text Sexp FpData FpLayer.
Open Scope string_scope.

(** ser.rs:59-69 *)
Definition ser_at (a : at_t) : sexp :=
  node "at" ([a_f (at_x a); a_f (at_y a)] ++ when (fneb (at_rot a) fzero) [a_f (at_rot a)]).

(** ser.rs:71-86 *)
Definition ser_font (f : font) : sexp :=
  node "font"
    (when (fgtb (xy_x (fo_size f)) fzero || fgtb (xy_y (fo_size f)) fzero)
          [node "size" [a_f (xy_x (fo_size f)); a_f (xy_y (fo_size f))]]
     ++ [kv "thickness" (a_f (fo_thickness f))]
     ++ when (fo_italic f) [a_lit "italic"]).

(** ser.rs:99-107 *)
Definition ser_justify (j : justify) : sexp :=
  kv "justify" (a_lit match j with JMirror => "mirror" | JLeft => "left" | JRight => "right" end).

(** ser.rs:88-97 *)
Definition ser_effects (e : effects) : sexp :=
  node "effects" (ser_font (ef_font e) :: opt_list ser_justify (ef_justify e)).

(** ser.rs:110-122 *)
Definition xy_name (t : xy_type) : string :=
  match t with
  | XXy => "xy" | XStart => "start" | XEnd => "end" | XSize => "size"
  | XCenter => "center" | XRectDelta => "rect_delta"
  end.
(** ser.rs:109-123 *)
Definition ser_xy (p : xy) : sexp := node (xy_name (xy_t p)) [a_f (xy_x p); a_f (xy_y p)].

(** ser.rs:125-133 *)
Definition ser_pts (p : pts) : sexp := node "pts" (map ser_xy p).

(** f64::EPSILON = 2^-52 *)
Definition f_epsilon : f64 := flit "2.220446049250313e-16".

(** ser.rs:136-156 *)
Definition ser_drill (d : drill) : sexp :=
  node "drill"
    (opt_list SStr (dr_shape d)
     ++ when (fgtb (dr_width d) fzero) [a_f (dr_width d)]
     ++ when (fgtb (dr_height d) fzero
              && fgtb (fabs (fsub (dr_height d) (dr_width d))) f_epsilon) [a_f (dr_height d)]
     ++ when (fneb (dr_ox d) fzero || fneb (dr_oy d) fzero)
          [node "offset" [a_f (dr_ox d); a_f (dr_oy d)]]).

(** ser.rs:158-177 *)
Definition show_pad_type (t : pad_type) : string :=
  match t with Smd => "smd" | Pth => "thru_hole" | NpPth => "np_thru_hole" end.
Definition show_pad_shape (t : pad_shape) : string :=
  match t with Rect => "rect" | Circle => "circle" | Oval => "oval" | Trapezoid => "trapezoid" end.

(** ser.rs:179-193 *)
Definition ser_layer (l : layer) : sexp := SStr (show_layer l).
Definition ser_layers (l : layers) : sexp := node "layers" (map ser_layer l).

(** ser.rs:276-283 *)
Definition ser_fnet (n : fnet) : sexp := node "net" [a_i (fn_num n); SStr (fn_name n)].

(** ser.rs:195-230 *)
Definition ser_pad (p : pad) : sexp :=
  node "pad"
    ([SStr (pa_name p); a_lit (show_pad_type (pa_t p)); a_lit (show_pad_shape (pa_shape p));
      ser_at (pa_at p); ser_xy (pa_size p)]
     ++ opt_list ser_drill (pa_drill p)
     ++ opt_list ser_xy (pa_rect_delta p)
     ++ [ser_layers (pa_layers p)]
     ++ opt_list ser_fnet (pa_net p)
     ++ opt_list (fun z => kv "zone_connect" (a_i z)) (pa_zone_connect p)
     ++ opt_list (fun f => kv "solder_paste_margin" (a_f f)) (pa_paste_margin p)
     ++ opt_list (fun f => kv "solder_mask_margin" (a_f f)) (pa_mask_margin p)
     ++ opt_list (fun f => kv "clearance" (a_f f)) (pa_clearance p)
     ++ opt_list (fun f => kv "thermal_gap" (a_f f)) (pa_thermal_gap p)).

(** ser.rs:44-57 *)
Definition ser_text (t : fp_text) : sexp :=
  node "fp_text"
    ([SStr (tx_name t); SStr (tx_value t); ser_at (tx_at t); kv "layer" (ser_layer (tx_layer t))]
     ++ when (tx_hide t) [a_lit "hide"]
     ++ [ser_effects (tx_effects t)]).

(** ser.rs:232-274 *)
Definition ser_poly (p : fp_poly) : sexp :=
  node "fp_poly"
    [ser_pts (po_pts p); kv "layer" (ser_layer (po_layer p)); kv "width" (a_f (po_width p))].
Definition ser_line (l : fp_line) : sexp :=
  node "fp_line"
    [ser_xy (li_start l); ser_xy (li_end l); kv "layer" (ser_layer (li_layer l));
     kv "width" (a_f (li_width l))].
Definition ser_circle (c : fp_circle) : sexp :=
  node "fp_circle"
    [ser_xy (ci_center c); ser_xy (ci_end c); kv "layer" (ser_layer (ci_layer c));
     kv "width" (a_f (ci_width c))].
Definition ser_arc (a : fp_arc) : sexp :=
  node "fp_arc"
    [ser_xy (ar_start a); ser_xy (ar_end a); kv "angle" (a_f (ar_angle a));
     kv "layer" (ser_layer (ar_layer a)); kv "width" (a_f (ar_width a))].

(** ser.rs:286-305 *)
Definition ser_xyz (p : xyz) : sexp := node "xyz" [a_f (z_x p); a_f (z_y p); a_f (z_z p)].
Definition ser_model (m : model) : sexp :=
  node "model"
    [SStr (mo_name m); kv "at" (ser_xyz (mo_at m)); kv "scale" (ser_xyz (mo_scale m));
     kv "rotate" (ser_xyz (mo_rotate m))].

(** ser.rs:19-42 *)
Definition ser_element (e : element) : sexp :=
  match e with
  | ESolderMaskMargin f => kv "solder_mask_margin" (a_f f)
  | ELayer l => kv "layer" (ser_layer l)
  | EDescr s => kv "descr" (SStr s)
  | ETags s => kv "tags" (SStr s)
  | EAttr s => kv "attr" (SStr s)
  | EFpText t => ser_text t
  | EPad p => ser_pad p
  | EFpPoly p => ser_poly p
  | EFpLine l => ser_line l
  | EFpCircle c => ser_circle c
  | EFpArc a => ser_arc a
  | ETEdit z => kv "tedit" (SStr (show_hex64 z))
  | ETStamp z => kv "tstamp" (SStr (show_hex64 z))
  | EPath s => kv "path" (SStr s)
  | EAt a => ser_at a
  | EModel m => ser_model m
  | EClearance f => kv "clearance" (a_f f)
  | ELocked => a_lit "locked"
  end.

(** ser.rs:8-17 *)
Definition ser_module (m : module) : sexp :=
  node "module" (SStr (m_name m) :: map ser_element (m_elements m)).
