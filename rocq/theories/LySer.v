(** Layout to S-expression (/repo/src/layout/ser.rs). *)
From Coq Require Import String.
From Verif Require Import Base Str Num F64 F64Text Sexp FpData FpLayer FpSer LyData.
Open Scope string_scope. Open Scope list_scope.

Definition ser_tstamp (o : option str) : list sexp := opt_list (fun t => kv "tstamp" (SStr t)) o.

(** ser.rs:61-70 *)
Definition ser_area (a : area) : sexp :=
  node "area" [a_f (ae_x1 a); a_f (ae_y1 a); a_f (ae_x2 a); a_f (ae_y2 a)].

(** ser.rs:45-59 *)
Definition ser_general (g : general) : sexp :=
  node "general"
    [kv "links" (a_i (ge_links g)); kv "no_connects" (a_i (ge_no_connects g));
     ser_area (ge_area g); kv "thickness" (a_f (ge_thickness g));
     kv "drawings" (a_i (ge_drawings g)); kv "tracks" (a_i (ge_tracks g));
     kv "zones" (a_i (ge_zones g)); kv "modules" (a_i (ge_modules g));
     kv "nets" (a_i (ge_nets g))].

(** ser.rs:124-131 *)
Definition ser_hatch (h : hatch) : sexp := node "hatch" [SStr (ha_style h); a_f (ha_pitch h)].

(** ser.rs:133-142 *)
Definition ser_connect (c : connect_pads) : sexp :=
  node "connect_pads" (opt_list SStr (cp_connection c) ++ [kv "clearance" (a_f (cp_clearance c))]).

(** ser.rs:144-159 *)
Definition allowed (b : bool) : sexp := a_lit (if b then "allowed" else "not_allowed").
Definition ser_keepout (k : keepout) : sexp :=
  node "keepout"
    [kv "tracks" (allowed (ko_tracks k)); kv "vias" (allowed (ko_vias k));
     kv "copperpour" (allowed (ko_copperpour k))].

(** ser.rs:161-182 *)
Definition ser_fill (f : fill) : sexp :=
  node "fill"
    (when (fi_filled f) [a_lit "yes"]
     ++ when (fi_segment f) [kv "mode" (a_lit "segment")]
     ++ [kv "arc_segments" (a_i (fi_arc_segments f)); kv "thermal_gap" (a_f (fi_gap f));
         kv "thermal_bridge_width" (a_f (fi_bridge f))]
     ++ opt_list (fun s => kv "smoothing" (SStr s)) (fi_smoothing f)
     ++ when (fneb (fi_radius f) fzero) [kv "radius" (a_f (fi_radius f))]).

(** ser.rs:91-122 *)
Definition ser_zone (z : zone) : sexp :=
  node "zone"
    ([kv "net" (a_i (zo_net z)); kv "net_name" (SStr (zo_net_name z));
      kv "layer" (ser_layer (zo_layer z)); kv "tstamp" (SStr (zo_tstamp z));
      ser_hatch (zo_hatch z)]
     ++ when (0 <? zo_priority z)%Z [kv "priority" (a_i (zo_priority z))]
     ++ [ser_connect (zo_connect z); kv "min_thickness" (a_f (zo_min z))]
     ++ opt_list ser_keepout (zo_keepout z)
     ++ [ser_fill (zo_fill z)]
     ++ map (fun p => kv "polygon" (ser_pts p)) (zo_polygons z)
     ++ map (fun p => kv "filled_polygon" (ser_pts p)) (zo_filled z)
     ++ opt_list (fun p => kv "fill_segments" (ser_pts p)) (zo_segments z)
     ++ zo_other z).

(** ser.rs:184-191 *)
Definition ser_net (n : net) : sexp := node "net" [a_i (ne_num n); SStr (ne_name n)].

(** ser.rs:193-215 *)
Definition ser_net_class (n : net_class) : sexp :=
  node "net_class"
    ([SStr (nc_name n); SStr (nc_desc n); kv "clearance" (a_f (nc_clearance n));
      kv "trace_width" (a_f (nc_trace_width n)); kv "via_dia" (a_f (nc_via_dia n));
      kv "via_drill" (a_f (nc_via_drill n)); kv "uvia_dia" (a_f (nc_uvia_dia n));
      kv "uvia_drill" (a_f (nc_uvia_drill n))]
     ++ opt_list (fun f => kv "diff_pair_gap" (a_f f)) (nc_dp_gap n)
     ++ opt_list (fun f => kv "diff_pair_width" (a_f f)) (nc_dp_width n)
     ++ map (fun s => kv "add_net" (SStr s)) (nc_nets n)).

(** ser.rs:230-241 *)
Definition show_ly_type (t : ly_layer_type) : string :=
  match t with
  | TSignal => "signal" | TPower => "power" | TMixed => "mixed" | TJumper => "jumper"
  | TUser => "user"
  end.
(** ser.rs:217-228 *)
Definition ser_ly_layer (l : ly_layer) : sexp :=
  SList ([a_i (ll_num l); SStr (show_layer (ll_layer l)); a_lit (show_ly_type (ll_type l))]
         ++ when (ll_hide l) [a_lit "hide"]).

(** ser.rs:243-253 *)
Definition ser_setup_element (e : setup_element) : sexp :=
  SList ([SStr (se_name e); SStr (se_value1 e)] ++ opt_list SStr (se_value2 e)).
(** ser.rs:255-268 *)
Definition ser_setup (s : setup) : sexp :=
  node "setup"
    (map ser_setup_element (su_elements s)
     ++ [node "pcbplotparams" (map ser_setup_element (su_plot s))]).

(** ser.rs:270-282 *)
Definition ser_gr_text (t : gr_text) : sexp :=
  node "gr_text"
    ([SStr (gt_value t); ser_at (gt_at t); kv "layer" (ser_layer (gt_layer t));
      ser_effects (gt_effects t)] ++ ser_tstamp (gt_tstamp t)).
(** ser.rs:284-297 *)
Definition ser_gr_line (l : gr_line) : sexp :=
  node "gr_line"
    ([ser_xy (gl_start l); ser_xy (gl_end l); kv "angle" (a_f (gl_angle l));
      kv "layer" (ser_layer (gl_layer l)); kv "width" (a_f (gl_width l))]
     ++ ser_tstamp (gl_tstamp l)).
(** ser.rs:299-312 *)
Definition ser_gr_arc (l : gr_arc) : sexp :=
  node "gr_arc"
    ([ser_xy (ga_start l); ser_xy (ga_end l); kv "angle" (a_f (ga_angle l));
      kv "layer" (ser_layer (ga_layer l)); kv "width" (a_f (ga_width l))]
     ++ ser_tstamp (ga_tstamp l)).
(** ser.rs:314-326 *)
Definition ser_gr_circle (c : gr_circle) : sexp :=
  node "gr_circle"
    ([ser_xy (gc_center c); ser_xy (gc_end c); kv "layer" (ser_layer (gc_layer c));
      kv "width" (a_f (gc_width c))] ++ ser_tstamp (gc_tstamp c)).

(** ser.rs:329-348 *)
Definition ser_dimension (d : dimension) : sexp :=
  node "dimension"
    ([SStr (di_name d); kv "width" (a_f (di_width d)); kv "layer" (ser_layer (di_layer d))]
     ++ ser_tstamp (di_tstamp d)
     ++ [ser_gr_text (di_text d);
         kv "feature1" (ser_pts (di_feature1 d)); kv "feature2" (ser_pts (di_feature2 d));
         kv "crossbar" (ser_pts (di_crossbar d)); kv "arrow1a" (ser_pts (di_arrow1a d));
         kv "arrow1b" (ser_pts (di_arrow1b d)); kv "arrow2a" (ser_pts (di_arrow2a d));
         kv "arrow2b" (ser_pts (di_arrow2b d))]).

(** ser.rs:351-367 *)
Definition ser_segment (s : segment) : sexp :=
  node "segment"
    ([ser_xy (sg_start s); ser_xy (sg_end s); kv "width" (a_f (sg_width s));
      kv "layer" (ser_layer (sg_layer s)); kv "net" (a_i (sg_net s))]
     ++ ser_tstamp (sg_tstamp s)
     ++ opt_list (fun t => kv "status" (SStr t)) (sg_status s)).

(** ser.rs:372-390 *)
Definition ser_via (v : via) : sexp :=
  node "via"
    (when (vi_blind v) [a_lit "blind"] ++ when (vi_micro v) [a_lit "micro"]
     ++ [ser_at (vi_at v); kv "size" (a_f (vi_size v))]
     ++ when (fneb (vi_drill v) fzero) [kv "drill" (a_f (vi_drill v))]
     ++ [ser_layers (vi_layers v); kv "net" (a_i (vi_net v))]).

(** ser.rs:72-89 *)
Definition ser_ly_element (e : ly_element) : sexp :=
  match e with
  | YOther s => s
  | YModule m => ser_module m
  | YNet n => ser_net n
  | YNetClass n => ser_net_class n
  | YGrText t => ser_gr_text t
  | YGrLine l => ser_gr_line l
  | YGrArc a => ser_gr_arc a
  | YGrCircle c => ser_gr_circle c
  | YDimension d => ser_dimension d
  | YZone z => ser_zone z
  | YSegment s => ser_segment s
  | YVia v => ser_via v
  end.

(** ser.rs:14-43 *)
Definition ser_layout (l : layout) : sexp :=
  node "kicad_pcb"
    ([kv "version" (a_i (ly_version l));
      node "host" [SStr (ho_tool (ly_host l)); SStr (ho_build (ly_host l))];
      ser_general (ly_general l);
      kv "page" (SStr (ly_page l));
      node "layers" (map ser_ly_layer (ly_layers l));
      ser_setup (ly_setup l)]
     ++ map ser_ly_element (ly_elements l)).
