(** Operations on footprints (/repo/src/footprint/data.rs). *)
From Coq Require Import String.
From Verif Require Import Base Str Num F64 F64Text FpData Bound.
Open Scope string_scope. Open Scope list_scope.

(** ** Equality ([PartialEq]) *)

(** derived, data.rs:576 *)
Definition at_eqb (a b : at_t) : bool :=
  feqb (at_x a) (at_x b) && feqb (at_y a) (at_y b) && feqb (at_rot a) (at_rot b).
(** derived, data.rs:697 *)
Definition xy_eqb (a b : xy) : bool :=
  feqb (xy_x a) (xy_x b) && feqb (xy_y a) (xy_y b) && xy_type_eqb (xy_t a) (xy_t b).
(** derived, data.rs:624, 635, 663 *)
Definition font_eqb (a b : font) : bool :=
  xy_eqb (fo_size a) (fo_size b) && feqb (fo_thickness a) (fo_thickness b)
  && Bool.eqb (fo_italic a) (fo_italic b).
Definition justify_eqb (a b : justify) : bool :=
  match a, b with
  | JMirror, JMirror | JLeft, JLeft | JRight, JRight => true
  | _, _ => false
  end.
Definition opt_eqb {A} (eqb : A -> A -> bool) (a b : option A) : bool :=
  match a, b with
  | None, None => true
  | Some x, Some y => eqb x y
  | _, _ => false
  end.
Fixpoint list_eqb {A} (eqb : A -> A -> bool) (a b : list A) : bool :=
  match a, b with
  | [], [] => true
  | x :: a', y :: b' => eqb x y && list_eqb eqb a' b'
  | _, _ => false
  end.
Definition effects_eqb (a b : effects) : bool :=
  font_eqb (ef_font a) (ef_font b) && opt_eqb justify_eqb (ef_justify a) (ef_justify b).
(** derived, data.rs:880 *)
Definition ltype_eqb (a b : layer_type) : bool :=
  match a, b with
  | LCu, LCu | LPaste, LPaste | LMask, LMask | LSilkS, LSilkS | LUser, LUser
  | LAdhes, LAdhes | LCuts, LCuts | LCrtYd, LCrtYd | LFab, LFab | LMargin, LMargin => true
  | LOther x, LOther y => str_eqb x y
  | _, _ => false
  end.
(** derived, data.rs:835 *)
Definition side_eqb (a b : layer_side) : bool :=
  match a, b with
  | SFront, SFront | SBack, SBack | SDwgs, SDwgs | SCmts, SCmts | SEco1, SEco1
  | SEco2, SEco2 | SEdge, SEdge | SBoth, SBoth | SIn1, SIn1 | SIn2, SIn2 | SNone, SNone => true
  | _, _ => false
  end.
(** data.rs:926-930: only the type is compared *)
Definition layer_eqb (a b : layer) : bool := ltype_eqb (la_t a) (la_t b).
(** derived, data.rs:974 *)
Definition layers_eqb (a b : layers) : bool := list_eqb layer_eqb a b.
(** derived, data.rs:771 *)
Definition drill_eqb (a b : drill) : bool :=
  opt_eqb str_eqb (dr_shape a) (dr_shape b) && feqb (dr_width a) (dr_width b)
  && feqb (dr_height a) (dr_height b) && feqb (dr_ox a) (dr_ox b) && feqb (dr_oy a) (dr_oy b).
(** derived *)
Definition pad_type_eqb (a b : pad_type) : bool :=
  match a, b with Smd, Smd | Pth, Pth | NpPth, NpPth => true | _, _ => false end.
Definition pad_shape_eqb (a b : pad_shape) : bool :=
  match a, b with
  | Rect, Rect | Circle, Circle | Oval, Oval | Trapezoid, Trapezoid => true
  | _, _ => false
  end.

(** data.rs:512-543 *)
Definition text_eqb (a b : fp_text) : bool :=
  if str_eqb (tx_name a) (lit "reference") && str_eqb (tx_name b) (lit "reference") then true
  else if str_eqb (tx_name a) (lit "value") && str_eqb (tx_name b) (lit "value") then true
  else at_eqb (tx_at a) (tx_at b) && str_eqb (tx_name a) (tx_name b)
       && str_eqb (tx_value a) (tx_value b) && layer_eqb (tx_layer a) (tx_layer b)
       && effects_eqb (tx_effects a) (tx_effects b) && Bool.eqb (tx_hide a) (tx_hide b).

(** data.rs:1041-1084: the net is not compared *)
Definition pad_eqb (a b : pad) : bool :=
  at_eqb (pa_at a) (pa_at b) && str_eqb (pa_name a) (pa_name b)
  && pad_type_eqb (pa_t a) (pa_t b) && pad_shape_eqb (pa_shape a) (pa_shape b)
  && xy_eqb (pa_size a) (pa_size b) && opt_eqb xy_eqb (pa_rect_delta a) (pa_rect_delta b)
  && layers_eqb (pa_layers a) (pa_layers b)
  && opt_eqb Z.eqb (pa_zone_connect a) (pa_zone_connect b)
  && opt_eqb drill_eqb (pa_drill a) (pa_drill b)
  && opt_eqb feqb (pa_paste_margin a) (pa_paste_margin b)
  && opt_eqb feqb (pa_mask_margin a) (pa_mask_margin b)
  && opt_eqb feqb (pa_clearance a) (pa_clearance b)
  && opt_eqb feqb (pa_thermal_gap a) (pa_thermal_gap b).

(** ** Flip *)
Definition f360 : f64 := flit "360".

(** data.rs:586-591 *)
Definition flip_at (a : at_t) : at_t := mk_at (at_x a) (fneg (at_y a)) (fsub f360 (at_rot a)).
(** data.rs:707-711 *)
Definition flip_xy (p : xy) : xy := mk_xy (xy_x p) (fneg (xy_y p)) (xy_t p).
(** data.rs:742-748 *)
Definition flip_pts (p : pts) : pts := map flip_xy p.
(** data.rs:643-650 *)
Definition flip_effects (e : effects) : effects :=
  mk_effects (ef_font e) match ef_justify e with None => Some JMirror | Some _ => None end.
(** data.rs:861-870 *)
Definition flip_side (s : layer_side) : layer_side :=
  match s with SFront => SBack | SBack => SFront | x => x end.
(** data.rs:920-924, 980-986 *)
Definition flip_layer (l : layer) : layer := mk_layer (flip_side (la_side l)) (la_t l).
Definition flip_layers (l : layers) : layers := map flip_layer l.
(** data.rs:498-504 *)
Definition flip_text (t : fp_text) : fp_text :=
  mk_text (tx_name t) (tx_value t) (flip_at (tx_at t)) (flip_layer (tx_layer t))
          (flip_effects (tx_effects t)) (tx_hide t).
(** data.rs:1028-1033 *)
Definition flip_pad (p : pad) : pad :=
  mk_pad (pa_name p) (pa_t p) (pa_shape p) (pa_size p) (pa_rect_delta p) (flip_at (pa_at p))
         (flip_layers (pa_layers p)) (pa_net p) (pa_zone_connect p) (pa_drill p)
         (pa_paste_margin p) (pa_mask_margin p) (pa_clearance p) (pa_thermal_gap p).
(** data.rs:1162-1167, 1200-1206, 1266-1272, 1310-1316 *)
Definition flip_poly (p : fp_poly) : fp_poly :=
  mk_poly (flip_pts (po_pts p)) (po_width p) (flip_layer (po_layer p)).
Definition flip_line (l : fp_line) : fp_line :=
  mk_line (flip_xy (li_start l)) (flip_xy (li_end l)) (flip_layer (li_layer l)) (li_width l).
Definition flip_circle (c : fp_circle) : fp_circle :=
  mk_circle (flip_xy (ci_center c)) (flip_xy (ci_end c)) (flip_layer (ci_layer c)) (ci_width c).
Definition flip_arc (a : fp_arc) : fp_arc :=
  mk_arc (flip_xy (ar_start a)) (flip_xy (ar_end a)) (ar_angle a) (flip_layer (ar_layer a))
         (ar_width a).
(** data.rs:375-398 *)
Definition flip_element (e : element) : element :=
  match e with
  | EPad p => EPad (flip_pad p)
  | EFpPoly p => EFpPoly (flip_poly p)
  | EFpLine p => EFpLine (flip_line p)
  | EFpCircle p => EFpCircle (flip_circle p)
  | EFpArc p => EFpArc (flip_arc p)
  | EFpText p => EFpText (flip_text p)
  | EAt p => EAt (flip_at p)
  | ELayer p => ELayer (flip_layer p)
  | _ => e
  end.
(** data.rs:268-274 *)
Definition flip_module (m : module) : module :=
  mk_module (m_name m) (map flip_element (m_elements m)).

(** ** Rotate *)
(** data.rs:611-621 *)
Definition rotate_at (rot : f64) (a : at_t) : at_t :=
  let r := fadd (at_rot a) rot in
  let r := if fleb f360 r then fsub r f360 else r in
  let r := if fltb r fzero then fadd r f360 else r in
  mk_at (at_x a) (at_y a) r.
(** data.rs:506-510, 1035-1039 *)
Definition rotate_text (rot : f64) (t : fp_text) : fp_text :=
  mk_text (tx_name t) (tx_value t) (rotate_at rot (tx_at t)) (tx_layer t) (tx_effects t) (tx_hide t).
Definition rotate_pad (rot : f64) (p : pad) : pad :=
  mk_pad (pa_name p) (pa_t p) (pa_shape p) (pa_size p) (pa_rect_delta p) (rotate_at rot (pa_at p))
         (pa_layers p) (pa_net p) (pa_zone_connect p) (pa_drill p)
         (pa_paste_margin p) (pa_mask_margin p) (pa_clearance p) (pa_thermal_gap p).
(** data.rs:400-423 *)
Definition rotate_element (rot : f64) (e : element) : element :=
  match e with
  | EPad p => EPad (rotate_pad rot p)
  | EFpText p => EFpText (rotate_text rot p)
  | EAt p => EAt (rotate_at rot p)
  | _ => e
  end.
(** data.rs:276-282 *)
Definition rotate_module (rot : f64) (m : module) : module :=
  mk_module (m_name m) (map (rotate_element rot) (m_elements m)).

(** ** Adjust *)
(** data.rs:593-598, 713-718, 750-756 *)
Definition adjust_at (x y : f64) (a : at_t) : at_t :=
  mk_at (fadd (at_x a) x) (fadd (at_y a) y) (at_rot a).
Definition adjust_xy (x y : f64) (p : xy) : xy :=
  mk_xy (fadd (xy_x p) x) (fadd (xy_y p) y) (xy_t p).
Definition adjust_pts (x y : f64) (p : pts) : pts := map (adjust_xy x y) p.
(** data.rs:189-196, 262-266 *)
Definition adjust_module (x y : f64) (m : module) : module :=
  mk_module (m_name m)
    (map (fun e => match e with EAt a => EAt (adjust_at x y a) | _ => e end) (m_elements m)).

(** ** Queries and edits on modules *)

(** data.rs:51-60 *)
Definition is_reference_with_name (m : module) (r : str) : bool :=
  existsb (fun e => match e with
                    | EFpText t => str_eqb (tx_name t) (lit "reference") && str_eqb (tx_value t) r
                    | _ => false
                    end) (m_elements m).

(** data.rs:68-77 *)
Fixpoint find_text (which : str) (l : list element) : option fp_text :=
  match l with
  | [] => None
  | EFpText t :: r => if str_eqb (tx_name t) which then Some t else find_text which r
  | _ :: r => find_text which r
  end.
Definition get_text (m : module) (which : str) : option fp_text := find_text which (m_elements m).
(** data.rs:63-65 *)
Definition get_reference (m : module) : option str :=
  option_map tx_value (get_text m (lit "reference")).

(** data.rs:80-89 [get_text_mut]: the caller's change [f] applied through the
    returned mutable reference; [None] when there is no such text. *)
Fixpoint upd_text (which : str) (f : fp_text -> fp_text) (l : list element) : option (list element) :=
  match l with
  | [] => None
  | EFpText t :: r =>
      if str_eqb (tx_name t) which then Some (EFpText (f t) :: r)
      else option_map (cons (EFpText t)) (upd_text which f r)
  | e :: r => option_map (cons e) (upd_text which f r)
  end.
Definition modify_text (m : module) (which : str) (f : fp_text -> fp_text) : option module :=
  option_map (mk_module (m_name m)) (upd_text which f (m_elements m)).

(** data.rs:118-127 *)
Definition has_smd_attr (m : module) : bool :=
  existsb (fun e => match e with EAttr a => str_eqb a (lit "smd") | _ => false end) (m_elements m).

Fixpoint find_map {A B} (f : A -> option B) (l : list A) : option B :=
  match l with
  | [] => None
  | x :: r => match f x with Some y => Some y | None => find_map f r end
  end.
(** data.rs:135-152 *)
Definition get_tstamp (m : module) : option Z :=
  find_map (fun e => match e with ETStamp z => Some z | _ => None end) (m_elements m).
Definition get_tedit (m : module) : option Z :=
  find_map (fun e => match e with ETEdit z => Some z | _ => None end) (m_elements m).

(** data.rs:155-165 *)
Definition set_reference (old new : str) (m : module) : module :=
  mk_module (m_name m)
    (map (fun e => match e with
                   | EFpText t =>
                       if str_eqb (tx_name t) (lit "reference") && str_eqb (tx_value t) old
                       then EFpText (mk_text (tx_name t) new (tx_at t) (tx_layer t)
                                             (tx_effects t) (tx_hide t))
                       else e
                   | _ => e
                   end) (m_elements m)).

(** data.rs:168-186 *)
Definition module_at (m : module) : f64 * f64 :=
  match find_map (fun e => match e with EAt a => Some (at_x a, at_y a) | _ => None end)
                 (m_elements m) with
  | Some p => p
  | None => (fzero, fzero)
  end.
Definition get_rotation (m : module) : f64 :=
  match find_map (fun e => match e with EAt a => Some (at_rot a) | _ => None end)
                 (m_elements m) with
  | Some r => r
  | None => fzero
  end.

(** data.rs:199-206 *)
Definition is_front (m : module) : bool :=
  match find_map (fun e => match e with ELayer l => Some (side_eqb (la_side l) SFront) | _ => None end)
                 (m_elements m) with
  | Some b => b
  | None => true
  end.

(** data.rs:1108-1122 *)
Definition pad_rename_net (old new : str) (p : pad) : pad :=
  mk_pad (pa_name p) (pa_t p) (pa_shape p) (pa_size p) (pa_rect_delta p) (pa_at p)
         (pa_layers p)
         match pa_net p with
         | Some n => if str_eqb (fn_name n) old then Some (mk_fnet (fn_num n) new) else Some n
         | None => None
         end
         (pa_zone_connect p) (pa_drill p)
         (pa_paste_margin p) (pa_mask_margin p) (pa_clearance p) (pa_thermal_gap p).
(** data.rs:209-215 *)
Definition module_rename_net (old new : str) (m : module) : module :=
  mk_module (m_name m)
    (map (fun e => match e with EPad p => EPad (pad_rename_net old new p) | _ => e end)
         (m_elements m)).

(** data.rs:218-238 *)
Definition pads (m : module) : list pad :=
  flat_map (fun e => match e with EPad p => [p] | _ => [] end) (m_elements m).
Definition fp_lines (m : module) : list fp_line :=
  flat_map (fun e => match e with EFpLine p => [p] | _ => [] end) (m_elements m).

(** ** Bounding boxes *)
Definition f2 : f64 := flit "2".
Definition f01 : f64 := flit "0.1".
Definition f90 : f64 := flit "90".
Definition f270 : f64 := flit "270".

Definition bound_point (x y : f64) : bound := bound_new x y x y.
(** data.rs:758-768, 1169-1179 *)
Definition pts_bound (p : pts) : bound :=
  bound_swap (bound_all bound_default (map (fun e => bound_point (xy_x e) (xy_y e)) p)).
(** data.rs:545-551 *)
Definition text_bound (t : fp_text) : bound := bound_point (at_x (tx_at t)) (at_y (tx_at t)).
(** data.rs:1135-1149 *)
Definition pad_bound (p : pad) : bound :=
  let x := at_x (pa_at p) in
  let y := at_y (pa_at p) in
  let rot := at_rot (pa_at p) in
  let sx := xy_x (pa_size p) in
  let sy := xy_y (pa_size p) in
  let '(dx, dy) :=
    if fltb (fabs (fsub rot f90)) f01 || fltb (fabs (fadd rot f90)) f01
       || fltb (fabs (fsub rot f270)) f01 || fltb (fabs (fadd rot f270)) f01
    then (sy, sx) else (sx, sy) in
  bound_new (fsub x (fdiv dx f2)) (fsub y (fdiv dy f2)) (fadd x (fdiv dx f2)) (fadd y (fdiv dy f2)).
(** data.rs:1219-1223, 1318-1323 *)
Definition line_bound (l : fp_line) : bound :=
  bound_new (xy_x (li_start l)) (xy_y (li_start l)) (xy_x (li_end l)) (xy_y (li_end l)).
Definition arc_bound (l : fp_arc) : bound :=
  bound_new (xy_x (ar_start l)) (xy_y (ar_start l)) (xy_x (ar_end l)) (xy_y (ar_end l)).
(** data.rs:1274-1287 *)
Definition circle_bound (c : fp_circle) : bound :=
  let dx := fsub (xy_x (ci_center c)) (xy_x (ci_end c)) in
  let dy := fsub (xy_y (ci_center c)) (xy_y (ci_end c)) in
  let d := fsqrt (fadd (fmul dx dx) (fmul dy dy)) in
  bound_new (fsub (xy_x (ci_center c)) d) (fsub (xy_y (ci_center c)) d)
            (fadd (xy_x (ci_center c)) d) (fadd (xy_y (ci_center c)) d).
(** data.rs:325-348 *)
Definition element_bound (e : element) : bound :=
  match e with
  | EPad x => pad_bound x
  | EFpPoly x => pts_bound (po_pts x)
  | EFpLine x => line_bound x
  | EFpCircle x => circle_bound x
  | EFpText x => text_bound x
  | EFpArc x => arc_bound x
  | _ => bound_default
  end.
(** data.rs:426-447 *)
Definition is_graphics (e : element) : bool :=
  match e with EPad _ | EFpPoly _ | EFpLine _ | EFpCircle _ | EFpArc _ => true | _ => false end.
(** data.rs:449-470 *)
Definition is_fab (e : element) : bool :=
  match e with
  | EFpPoly x => ltype_eqb (la_t (po_layer x)) LFab
  | EFpLine x => ltype_eqb (la_t (li_layer x)) LFab
  | EFpCircle x => ltype_eqb (la_t (ci_layer x)) LFab
  | EFpArc x => ltype_eqb (la_t (ar_layer x)) LFab
  | _ => false
  end.
(** data.rs:472-478 *)
Definition is_pad (e : element) : bool := match e with EPad _ => true | _ => false end.

(** The shift "make absolute", data.rs:247-251. *)
Definition bound_shift (x y : f64) (b : bound) : bound :=
  mk_bound (fadd (bx1 b) x) (fadd (by1 b) y) (fadd (bx2 b) x) (fadd (by2 b) y) (bounded b).
(** data.rs:240-260 *)
Definition module_bound (m : module) : bound :=
  let '(x, y) := module_at m in
  bound_swap
    (bound_all (bound_new x y x y)
       (map (fun e => bound_shift x y (element_bound e))
            (filter (fun e => is_fab e || is_pad e) (filter is_graphics (m_elements m))))).
