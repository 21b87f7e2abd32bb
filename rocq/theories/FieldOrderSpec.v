(** Specification: the order of the entries within an element of a footprint or board
    (C113). *)
From Coq Require Import String Permutation.
From Verif Require Import Base Str Sexp FpData LyData MeanSpec.
Open Scope string_scope. Open Scope list_scope.

Definition is_list (s : sexp) : bool := match s with SList _ => true | _ => false end.
(** Points are taken one for the other: [point] stands for any of their names. *)
Definition a_point (s : sexp) : bool := existsb (fun k => called k s) ["xy"; "start"; "end"; "size"; "center"; "rect_delta"].
Definition other (s : sexp) : bool := is_list s && negb (a_point s).
Definition labelled (d : string) (s : sexp) : bool := if String.eqb d "point" then a_point s else called d s.
(** The lists among the entries have names of the table, in its order, each of them at
    most as often as it stands there. *)
Inductive picked : list string -> list sexp -> Prop :=
| pk_nil : picked [] []
| pk_skip d ds l : picked ds l -> picked (d :: ds) l
| pk_take d ds s l : labelled d s = true -> picked ds l -> picked (d :: ds) (s :: l).
Definition in_order (ds : list string) (l : list sexp) : Prop := picked ds (filter is_list l).

Definition footprint_orders : list (string * list string) :=
  [("fp_text", ["at"; "layer"; "effects"]); ("fp_poly", ["pts"; "layer"; "width"]); ("fp_line", ["point"; "point"; "layer"; "width"]);
   ("fp_circle", ["point"; "point"; "layer"; "width"]); ("fp_arc", ["point"; "point"; "angle"; "layer"; "width"]); ("model", ["at"; "scale"; "rotate"])].
Definition board_orders : list (string * list string) :=
  [("general", ["links"; "no_connects"; "area"; "thickness"; "drawings"; "tracks"; "zones"; "modules"; "nets"]);
   ("gr_text", ["at"; "layer"; "effects"; "tstamp"]); ("gr_line", ["point"; "point"; "angle"; "layer"; "width"; "tstamp"]);
   ("gr_arc", ["point"; "point"; "angle"; "layer"; "width"; "tstamp"]); ("gr_circle", ["point"; "point"; "layer"; "width"; "tstamp"]);
   ("segment", ["point"; "point"; "width"; "layer"; "net"; "tstamp"; "status"]); ("via", ["at"; "size"; "drill"; "layers"; "net"]);
   ("dimension", ["width"; "layer"; "tstamp"; "gr_text"; "feature1"; "feature2"; "crossbar"; "arrow1a"; "arrow1b"; "arrow2a"; "arrow2b"])].
Definition zone_order : list string := ["net"; "net_name"; "layer"; "tstamp"; "hatch"; "priority"; "connect_pads"; "min_thickness"; "keepout"].
Definition lib_order : list string := ["name"; "type"; "uri"; "options"; "descr"].
Definition pad_order : list string := ["at"; "point"; "drill"; "layers"].
Definition pad_parts : list string := ["net"; "zone_connect"; "solder_paste_margin"; "solder_mask_margin"; "clearance"; "thermal_gap"].
Definition class_parts : list string := ["clearance"; "trace_width"; "via_dia"; "via_drill"; "uvia_dia"; "uvia_drill"; "diff_pair_gap"; "diff_pair_width"].
Definition named_in (ks : list string) (s : sexp) : Prop := exists k, In k ks /\ called k s = true.
Definition at_most_once (ks : list string) (l : list sexp) : Prop := forall k, In k ks -> (length (filter (called k) l) <= 1)%nat.
(** Net classes that differ in the order of their nets only *)
Definition same_class (a b : net_class) : Prop :=
  b = mk_nc (nc_name a) (nc_desc a) (nc_clearance a) (nc_trace_width a) (nc_via_dia a) (nc_via_drill a) (nc_uvia_dia a) (nc_uvia_drill a) (nc_dp_gap a) (nc_dp_width a) (LyData.nc_nets b) /\
  Permutation (LyData.nc_nets a) (LyData.nc_nets b).
