(** Layout data types (/repo/src/layout/data.rs). *)
From Coq Require Import String.
From Verif Require Import Base Str Num F64 F64Text Sexp FpData.
Open Scope string_scope.

(** data.rs:175-181, 795-802 *)
Record host := mk_host { ho_tool : str; ho_build : str }.
Definition host_default := mk_host (lit "pcbnew") (lit "custom").

(** data.rs:207-217 *)
Record area := mk_area { ae_x1 : f64; ae_y1 : f64; ae_x2 : f64; ae_y2 : f64 }.
Definition area_default := mk_area fzero fzero fzero fzero.

(** data.rs:184-204, 804-818; [i64] counters are Coq integers *)
Record general := mk_general {
  ge_links : Z; ge_no_connects : Z; ge_area : area; ge_thickness : f64; ge_drawings : Z;
  ge_tracks : Z; ge_zones : Z; ge_modules : Z; ge_nets : Z }.
Definition general_default := mk_general 0 0 area_default (flit "1.6") 0 0 0 0 0.

(** data.rs:233-245 *)
Inductive ly_layer_type := TSignal | TPower | TMixed | TJumper | TUser.
(** data.rs:220-230 *)
Record ly_layer := mk_ly_layer {
  ll_num : Z; ll_layer : layer; ll_type : ly_layer_type; ll_hide : bool }.

(** data.rs:257-265 *)
Record setup_element := mk_se { se_name : str; se_value1 : str; se_value2 : option str }.
(** data.rs:248-254 *)
Record setup := mk_setup { su_elements : list setup_element; su_plot : list setup_element }.
Definition setup_default := mk_setup [] [].

(** data.rs:301-307; [NetName] (269) is a newtype over String *)
Record net := mk_net { ne_num : Z; ne_name : str }.

(** data.rs:310-334 *)
Record net_class := mk_nc {
  nc_name : str; nc_desc : str; nc_clearance : f64; nc_trace_width : f64; nc_via_dia : f64;
  nc_via_drill : f64; nc_uvia_dia : f64; nc_uvia_drill : f64; nc_dp_gap : option f64;
  nc_dp_width : option f64; nc_nets : list str }.

(** data.rs:337-349 *)
Record gr_text := mk_grtext {
  gt_value : str; gt_at : at_t; gt_layer : layer; gt_effects : effects; gt_tstamp : option str }.
(** data.rs:365-379 *)
Record gr_line := mk_grline {
  gl_start : xy; gl_end : xy; gl_angle : f64; gl_layer : layer; gl_width : f64;
  gl_tstamp : option str }.
(** data.rs:399-413 *)
Record gr_arc := mk_grarc {
  ga_start : xy; ga_end : xy; ga_angle : f64; ga_layer : layer; ga_width : f64;
  ga_tstamp : option str }.
(** data.rs:434-446 *)
Record gr_circle := mk_grcircle {
  gc_center : xy; gc_end : xy; gc_layer : layer; gc_width : f64; gc_tstamp : option str }.

(** data.rs:472-498 *)
Record dimension := mk_dim {
  di_name : str; di_width : f64; di_layer : layer; di_tstamp : option str; di_text : gr_text;
  di_feature1 : pts; di_feature2 : pts; di_crossbar : pts; di_arrow1a : pts; di_arrow1b : pts;
  di_arrow2a : pts; di_arrow2b : pts }.

(** data.rs:530-546 *)
Record segment := mk_seg {
  sg_start : xy; sg_end : xy; sg_width : f64; sg_layer : layer; sg_net : Z;
  sg_tstamp : option str; sg_status : option str }.

(** data.rs:568-584 *)
Record via := mk_via {
  vi_blind : bool; vi_micro : bool; vi_at : at_t; vi_size : f64; vi_drill : f64;
  vi_layers : layers; vi_net : Z }.

(** data.rs:125-131, 134-140, 144-152, 156-172 *)
Record hatch := mk_hatch { ha_style : str; ha_pitch : f64 }.
Record connect_pads := mk_cp { cp_connection : option str; cp_clearance : f64 }.
Record keepout := mk_ko { ko_tracks : bool; ko_vias : bool; ko_copperpour : bool }.
Record fill := mk_fill {
  fi_filled : bool; fi_segment : bool; fi_arc_segments : Z; fi_gap : f64; fi_bridge : f64;
  fi_smoothing : option str; fi_radius : f64 }.

(** data.rs:61-91; the [u64] priority is a Coq integer *)
Record zone := mk_zone {
  zo_net : Z; zo_net_name : str; zo_layer : layer; zo_tstamp : str; zo_hatch : hatch;
  zo_priority : Z; zo_connect : connect_pads; zo_min : f64; zo_keepout : option keepout;
  zo_fill : fill; zo_polygons : list pts; zo_filled : list pts; zo_segments : option pts;
  zo_other : list sexp }.

(** data.rs:31-58 *)
Inductive ly_element :=
| YModule (m : module) | YNet (n : net) | YNetClass (n : net_class) | YGrText (t : gr_text)
| YGrLine (l : gr_line) | YGrArc (a : gr_arc) | YGrCircle (c : gr_circle)
| YDimension (d : dimension) | YSegment (s : segment) | YVia (v : via) | YZone (z : zone)
| YOther (s : sexp).

(** data.rs:12-28, 602-614 *)
Record layout := mk_layout {
  ly_version : Z; ly_host : host; ly_general : general; ly_page : str; ly_setup : setup;
  ly_layers : list ly_layer; ly_elements : list ly_element }.
Definition layout_default :=
  mk_layout 4 host_default general_default (lit "A4") setup_default [] [].
