(** Footprint data types (/repo/src/footprint/data.rs). *)
From Coq Require Import String.
From Verif Require Import Base Str Num F64 F64Text.

(** data.rs:576-584 *)
Record at_t := mk_at { at_x : f64; at_y : f64; at_rot : f64 }.
Definition at_default := mk_at fzero fzero fzero.

(** data.rs:673-705 *)
Inductive xy_type := XXy | XStart | XEnd | XSize | XCenter | XRectDelta.
Record xy := mk_xy { xy_x : f64; xy_y : f64; xy_t : xy_type }.
Definition xy_default := mk_xy fzero fzero XXy.
(** data.rs:726-732 *)
Definition xy_empty (t : xy_type) := mk_xy fzero fzero t.

Definition xy_type_eqb (a b : xy_type) : bool :=
  match a, b with
  | XXy, XXy | XStart, XStart | XEnd, XEnd | XSize, XSize | XCenter, XCenter
  | XRectDelta, XRectDelta => true
  | _, _ => false
  end.

(** data.rs:624-632 *)
Record font := mk_font { fo_size : xy; fo_thickness : f64; fo_italic : bool }.
Definition font_default := mk_font xy_default fzero false.

(** data.rs:663-671 *)
Inductive justify := JMirror | JLeft | JRight.
(** data.rs:635-641 *)
Record effects := mk_effects { ef_font : font; ef_justify : option justify }.
Definition effects_default := mk_effects font_default None.

(** data.rs:736-740, a list of points *)
Definition pts := list xy.

(** data.rs:771-783 *)
Record drill := mk_drill {
  dr_shape : option str; dr_width : f64; dr_height : f64; dr_ox : f64; dr_oy : f64 }.

(** data.rs:787-794, 810-819 *)
Inductive pad_type := Smd | Pth | NpPth.
Inductive pad_shape := Rect | Circle | Oval | Trapezoid.

(** data.rs:836-859 *)
Inductive layer_side :=
| SFront | SBack | SDwgs | SCmts | SEco1 | SEco2 | SEdge | SBoth | SIn1 | SIn2 | SNone.
(** data.rs:880-903 *)
Inductive layer_type :=
| LCu | LPaste | LMask | LSilkS | LUser | LAdhes | LCuts | LCrtYd | LFab | LMargin
| LOther (s : str).
(** data.rs:913-918 *)
Record layer := mk_layer { la_side : layer_side; la_t : layer_type }.
Definition layer_default := mk_layer SFront LCu.
(** data.rs:975-978 *)
Definition layers := list layer.

(** data.rs:1345-1350; [NetName] is a newtype over String (layout/data.rs) *)
Record fnet := mk_fnet { fn_num : Z; fn_name : str }.

(** data.rs:997-1026 *)
Record pad := mk_pad {
  pa_name : str; pa_t : pad_type; pa_shape : pad_shape; pa_size : xy;
  pa_rect_delta : option xy; pa_at : at_t; pa_layers : layers; pa_net : option fnet;
  pa_zone_connect : option Z; pa_drill : option drill;
  pa_paste_margin : option f64; pa_mask_margin : option f64;
  pa_clearance : option f64; pa_thermal_gap : option f64 }.

(** Pad::new, data.rs:1088-1105 *)
Definition pad_new (name : str) (t : pad_type) (sh : pad_shape) : pad :=
  mk_pad name t sh (xy_empty XSize) None at_default [] None None None None None None None.

(** data.rs:483-496 *)
Record fp_text := mk_text {
  tx_name : str; tx_value : str; tx_at : at_t; tx_layer : layer;
  tx_effects : effects; tx_hide : bool }.
(** data.rs:555-564 *)
Definition text_new (name value : str) : fp_text :=
  mk_text name value at_default layer_default effects_default false.

(** data.rs:1153-1160, 1189-1198, 1244-1253, 1297-1308 *)
Record fp_poly := mk_poly { po_pts : pts; po_width : f64; po_layer : layer }.
Record fp_line := mk_line { li_start : xy; li_end : xy; li_layer : layer; li_width : f64 }.
Record fp_circle := mk_circle { ci_center : xy; ci_end : xy; ci_layer : layer; ci_width : f64 }.
Record fp_arc := mk_arc {
  ar_start : xy; ar_end : xy; ar_angle : f64; ar_layer : layer; ar_width : f64 }.
Definition poly_default := mk_poly [] fzero layer_default.
Definition line_default := mk_line (xy_empty XStart) (xy_empty XEnd) layer_default fzero.
Definition circle_default := mk_circle (xy_empty XCenter) (xy_empty XEnd) layer_default fzero.
Definition arc_default := mk_arc (xy_empty XStart) (xy_empty XEnd) fzero layer_default fzero.

(** data.rs:1354-1374 *)
Record xyz := mk_xyz { z_x : f64; z_y : f64; z_z : f64 }.
Record model := mk_model { mo_name : str; mo_at : xyz; mo_scale : xyz; mo_rotate : xyz }.

(** data.rs:286-323 *)
Inductive element :=
| ESolderMaskMargin (f : f64)
| ELayer (l : layer)
| EDescr (s : str)
| ETags (s : str)
| EAttr (s : str)
| EFpText (t : fp_text)
| EPad (p : pad)
| EFpPoly (p : fp_poly)
| EFpLine (l : fp_line)
| EFpCircle (c : fp_circle)
| EFpArc (a : fp_arc)
| ETEdit (z : Z)
| ETStamp (z : Z)
| EPath (s : str)
| EAt (a : at_t)
| EModel (m : model)
| EClearance (f : f64)
| ELocked.

(** data.rs:27-32 *)
Record module := mk_module { m_name : str; m_elements : list element }.
