(** Specification: the footprint files, board files and library tables that do not change
    when they are opened and saved (C80).  A tree is described by its parts in their order;
    numbers are in the form in which numbers are written. *)
From Coq Require Import String.
From Verif Require Import Base Str F64 F64Text Sexp DecSpec ShortSpec.
Open Scope string_scope. Open Scope list_scope.

(** ** Trees *)
Definition shape := sexp -> Prop.
Inductive part := one (p : shape) | opt (p : shape) | many (p : shape).
Definition fills (i : part) (l : list sexp) : Prop :=
  match i with
  | one p => exists s, l = [s] /\ p s
  | opt p => l = [] \/ exists s, l = [s] /\ p s
  | many p => Forall p l
  end.
Fixpoint parts (b : list part) (l : list sexp) : Prop :=
  match b with [] => l = [] | i :: r => exists x y, l = x ++ y /\ fills i x /\ parts r y end.
Definition form (k : string) (b : list part) : shape := fun s => exists l, s = SList (SStr (lit k) :: l) /\ parts b l.
Definition bare (b : list part) : shape := fun s => exists l, s = SList l /\ parts b l.
Definition either (l : list shape) : shape := fun s => exists p, In p l /\ p s.

(** ** Words *)
Definition text : shape := fun s => exists t, s = SStr t.
Definition words (l : list string) : shape := fun s => exists k, In k l /\ s = SStr (lit k).
(** The text written for a number, see C64 *)
Definition such (p : f64 -> Prop) : shape := fun s => exists x, s = SStr (f64_to_str x) /\ p x.
Definition num : shape := such (fun _ => True).
Definition nonzero (x : f64) : Prop := x <> fzero /\ x <> fnegzero.
Definition positive (x : f64) : Prop := fgtb x fzero = true.
(** Whole numbers without leading zeros or plus sign *)
Definition int (p : Z -> Prop) : shape := fun s =>
  exists ds z, Forall is_digit ds /\ no_lead ds /\ (- 2 ^ 63 <= z < 2 ^ 63)%Z /\ p z /\
    (0 <= z /\ s = SStr ds /\ z = dec ds \/ z < 0 /\ s = SStr (45%N :: ds) /\ z = - dec ds)%Z.
Definition whole : shape := int (fun _ => True).
(** Hexadecimal numbers below 2^63 in upper case without leading zeros *)
Fixpoint hex_from (a : Z) (s : str) : Z :=
  match s with [] => a | c :: r => hex_from (16 * a + (Z.of_N c - (if (c <=? 57)%N then 48 else 55))) r end.
Definition stamp : shape := fun s =>
  exists h, s = SStr h /\ no_lead h /\ Forall (fun c => 48 <= c <= 57 \/ 65 <= c <= 70)%N h /\ (hex_from 0 h < 2 ^ 63)%Z.
(** Layer names without a point, or with a known side before the only one *)
Definition sides : list string := ["F"; "B"; "Dwgs"; "Cmts"; "Eco1"; "Eco2"; "Edge"; "In1"; "In2"; "*"].
Definition layer_name : shape := fun s =>
  exists n, s = SStr n /\ (~ In 46%N n \/ exists a b, In a sides /\ n = lit a ++ 46%N :: b /\ ~ In 46%N b).

(** ** Parts *)
Definition has (k : string) (p : shape) : shape := form k [one p].
Definition at_ : shape := form "at" [one num; one num; opt (such nonzero)].
Definition point (k : string) : shape := form k [one num; one num].
(** The name of a point is kept, whatever its place. *)
Definition any_point : shape := either (map point ["xy"; "start"; "end"; "size"; "center"; "rect_delta"]).
Definition xyz : shape := form "xyz" [one num; one num; one num].
Definition on_layer : shape := has "layer" layer_name.
Definition on_layers : shape := form "layers" [many layer_name].
Definition outline (k : string) : shape := has k (form "pts" [many any_point]).
(** A pair of numbers one of which is [p] *)
Definition pair_with (k : string) (p : f64 -> Prop) : shape :=
  fun s => form k [one (such p); one num] s \/ form k [one num; one (such p)] s.
Definition font : shape := form "font" [opt (pair_with "size" positive); one (has "thickness" num); opt (words ["italic"])].
Definition effects : shape := form "effects" [one font; opt (has "justify" (words ["left"; "right"; "mirror"]))].
Definition width : shape := has "width" num.
Definition maybe_stamp : part := opt (has "tstamp" text).

(** ** Footprints *)
Definition net : shape := form "net" [one whole; one text].
(** The second measure of a drill is there only if it differs by more than 2^-52. *)
Definition tiny : f64 := flit "2.220446049250313e-16".
Definition drill : shape := fun s =>
  exists w, form "drill" [opt (words ["oval"]); one (such (fun x => x = w /\ positive x));
    opt (such (fun h => positive h /\ fgtb (fabs (fsub h w)) tiny = true)); opt (pair_with "offset" nonzero)] s.
Definition pad : shape :=
  form "pad" [one text; one (words ["smd"; "thru_hole"; "np_thru_hole"]); one (words ["rect"; "circle"; "oval"; "trapezoid"]);
    one at_; one (point "size"); opt drill; one on_layers; opt net; opt (has "zone_connect" whole); opt (has "solder_paste_margin" num);
    opt (has "solder_mask_margin" num); opt (has "clearance" num); opt (has "thermal_gap" num)].
Definition fp_text : shape := form "fp_text" [one text; one text; one at_; one on_layer; opt (words ["hide"]); one effects].
Definition model : shape := form "model" [one text; one (has "at" xyz); one (has "scale" xyz); one (has "rotate" xyz)].
Definition poly : shape := form "fp_poly" [one (form "pts" [many any_point]); one on_layer; one width].
Definition line : shape := form "fp_line" [one (point "start"); one (point "end"); one on_layer; one width].
Definition circle : shape := form "fp_circle" [one (point "center"); one (point "end"); one on_layer; one width].
Definition arc : shape := form "fp_arc" [one (point "start"); one (point "end"); one (has "angle" num); one on_layer; one width].
Definition element : shape :=
  either [words ["locked"]; has "solder_mask_margin" num; has "clearance" num; on_layer; has "descr" text; has "tags" text; has "attr" text;
    has "path" text; has "tedit" stamp; has "tstamp" stamp; at_; fp_text; pad; model; poly; line; circle; arc].
Definition footprint : shape := form "module" [one text; many element].

(** ** Boards *)
Definition area : shape := form "area" [one num; one num; one num; one num].
Definition general : shape :=
  form "general" [one (has "links" whole); one (has "no_connects" whole); one area; one (has "thickness" num); one (has "drawings" whole);
    one (has "tracks" whole); one (has "zones" whole); one (has "modules" whole); one (has "nets" whole)].
Definition board_layer : shape :=
  bare [one whole; one layer_name; one (words ["signal"; "power"; "mixed"; "jumper"; "user"]); opt (words ["hide"])].
Definition setting (name : shape) : shape := bare [one name; one text; opt text].
Definition not_plot : shape := fun s => exists n, s = SStr n /\ n <> lit "pcbplotparams".
Definition setup : shape := form "setup" [many (setting not_plot); one (form "pcbplotparams" [many (setting text)])].
Definition net_class : shape :=
  form "net_class" [one text; one text; one (has "clearance" num); one (has "trace_width" num); one (has "via_dia" num); one (has "via_drill" num);
    one (has "uvia_dia" num); one (has "uvia_drill" num); opt (has "diff_pair_gap" num); opt (has "diff_pair_width" num); many (has "add_net" text)].
Definition gr_text : shape := form "gr_text" [one text; one at_; one on_layer; one effects; maybe_stamp].
Definition dimension : shape :=
  form "dimension" [one text; one width; one on_layer; maybe_stamp; one gr_text; one (outline "feature1"); one (outline "feature2"); one (outline "crossbar");
    one (outline "arrow1a"); one (outline "arrow1b"); one (outline "arrow2a"); one (outline "arrow2b")].
Definition fill : shape :=
  form "fill" [opt (words ["yes"]); opt (has "mode" (words ["segment"])); one (has "arc_segments" whole); one (has "thermal_gap" num);
    one (has "thermal_bridge_width" num); opt (has "smoothing" text); opt (has "radius" (such nonzero))].
Definition rule (k : string) : shape := has k (words ["allowed"; "not_allowed"]).
Definition keepout : shape := form "keepout" [one (rule "tracks"); one (rule "vias"); one (rule "copperpour")].
(** Other parts of a zone may not be read as outlines: these are the ones with numbers in
    any form. *)
Definition readable : shape := fun s => exists t x, s = SStr t /\ f64_of_str t = Some x.
Definition read_point (k : string) : shape := form k [one readable; one readable].
Definition read_outline (k : string) : shape :=
  has k (form "pts" [many (either (map read_point ["xy"; "start"; "end"; "size"; "center"; "rect_delta"]))]).
Definition zone_other : shape := fun s => ~ either (map read_outline ["polygon"; "filled_polygon"; "fill_segments"]) s.
Definition zone : shape :=
  form "zone" [one (has "net" whole); one (has "net_name" text); one on_layer; one (has "tstamp" text); one (form "hatch" [one text; one num]);
    opt (has "priority" (int (fun z => 0 < z)%Z)); one (form "connect_pads" [opt text; one (has "clearance" num)]); one (has "min_thickness" num);
    opt keepout; one fill; many (outline "polygon"); many (outline "filled_polygon"); opt (outline "fill_segments"); many zone_other].
Definition gr_line : shape := form "gr_line" [one any_point; one any_point; one (has "angle" num); one on_layer; one width; maybe_stamp].
Definition gr_arc : shape := form "gr_arc" [one any_point; one any_point; one (has "angle" num); one on_layer; one width; maybe_stamp].
Definition gr_circle : shape := form "gr_circle" [one any_point; one any_point; one on_layer; one width; maybe_stamp].
Definition segment : shape :=
  form "segment" [one any_point; one any_point; one width; one on_layer; one (has "net" whole); maybe_stamp; opt (has "status" text)].
Definition via : shape :=
  form "via" [opt (words ["blind"]); opt (words ["micro"]); one at_; one (has "size" num); opt (has "drill" (such nonzero)); one on_layers; one (has "net" whole)].
Definition board_names : list string :=
  ["version"; "host"; "general"; "page"; "layers"; "module"; "net"; "net_class"; "gr_text"; "gr_line"; "gr_arc"; "gr_circle"; "dimension"; "zone";
   "segment"; "via"; "setup"].
Definition unknown : shape := fun s => exists n l, s = SList (SStr n :: l) /\ ~ In n (map lit board_names).
Definition board_element : shape :=
  either [footprint; net; net_class; gr_text; gr_line; gr_arc; gr_circle; dimension; zone; segment; via; unknown].
Definition board : shape :=
  form "kicad_pcb" [one (has "version" whole); one (form "host" [one text; one text]); one general; one (has "page" text); one (form "layers" [many board_layer]);
    one setup; many board_element].

(** ** Library tables *)
Definition library : shape :=
  form "lib" [one (has "name" text); one (has "type" text); one (has "uri" text); one (has "options" text); one (has "descr" text)].
Definition table : shape := form "fp_lib_table" [many library].
