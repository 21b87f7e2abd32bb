(** Specification: the grammar of footprint files, board files and library tables
    (C67). *)
From Coq Require Import String.
From Verif Require Import Base Str Sexp DecSpec ShortSpec FpData LyData.
Open Scope string_scope. Open Scope list_scope.

(** A grammar: words, lists with a name, lists without *)
Inductive gram :=
| Word (p : str -> Prop)
| Named (p : str -> Prop) (b : list item)
| Bare (b : list item)
| Any
with item := One (g : gram) | Opt (g : gram) | Rep (l : list gram).

Inductive follows : gram -> sexp -> Prop :=
| fo_word (p : str -> Prop) s : p s -> follows (Word p) (SStr s)
| fo_named (p : str -> Prop) b k l : p k -> follow_all b l -> follows (Named p b) (SList (SStr k :: l))
| fo_bare b l : follow_all b l -> follows (Bare b) (SList l)
| fo_any s : follows Any s
with follow_all : list item -> list sexp -> Prop :=
| fa_nil : follow_all [] []
| fa_one g b s l : follows g s -> follow_all b l -> follow_all (One g :: b) (s :: l)
| fa_skip g b l : follow_all b l -> follow_all (Opt g :: b) l
| fa_opt g b s l : follows g s -> follow_all b l -> follow_all (Opt g :: b) (s :: l)
| fa_end gs b l : follow_all b l -> follow_all (Rep gs :: b) l
| fa_rep gs g b s l : In g gs -> follows g s -> follow_all (Rep gs :: b) l -> follow_all (Rep gs :: b) (s :: l).

Definition Form (k : string) : list item -> gram := Named (fun s => s = lit k).
Definition text : gram := Word (fun _ => True).
Definition word (l : list string) : gram := Word (fun s => exists k, In k l /\ s = lit k).

(** What counts as a number and so on; it is different for reading and for writing. *)
Record words := mk_words {
  num : gram; int : gram; hex : gram; (* numbers, whole numbers, hexadecimal numbers *)
  layer_name : gram;
  setting_name : gram;
  drill : gram;                       (* the drill of a pad *)
  delta : list item;                  (* what may follow it *)
  others : list gram;                 (* further elements of boards *)
  may : gram -> item;                 (* parts that are always written but may be missing *)
  loose : list item -> list item }.   (* parts that are written in some order but read in any *)

(** ** Parts *)
Definition fld (k : string) (g : gram) : gram := Form k [One g].
Definition g_at w := Form "at" [One (num w); One (num w); Opt (num w)].
Definition g_point w (k : string) := Form k [One (num w); One (num w)].
Definition g_xyz w := Form "xyz" [One (num w); One (num w); One (num w)].
Definition g_layer w := fld "layer" (layer_name w).
Definition g_layers w := Form "layers" [Rep [layer_name w]].
Definition g_stamp := fld "tstamp" text.
Definition g_pts w := Form "pts" [Rep [g_point w "xy"]].
Definition g_font w := Form "font" [Opt (g_point w "size"); may w (fld "thickness" (num w)); Opt (word ["italic"])].
Definition g_justify := fld "justify" (word ["left"; "right"; "mirror"]).
Definition g_effects w := Form "effects" [One (g_font w); Opt g_justify].
Definition g_width w := fld "width" (num w).

(** ** Footprints *)
Definition g_net w := Form "net" [One (int w); One text].
Definition g_pad w :=
  Form "pad" ([One text; One (word ["smd"; "thru_hole"; "np_thru_hole"]); One (word ["rect"; "circle"; "oval"; "trapezoid"]);
    may w (g_at w); may w (g_point w "size"); Opt (drill w)] ++ delta w ++ [may w (g_layers w)] ++
    loose w [Opt (g_net w); Opt (fld "zone_connect" (int w)); Opt (fld "solder_paste_margin" (num w));
      Opt (fld "solder_mask_margin" (num w)); Opt (fld "clearance" (num w)); Opt (fld "thermal_gap" (num w))]).
Definition g_text w :=
  Form "fp_text" [One text; One text; may w (g_at w); may w (g_layer w); Opt (word ["hide"]); may w (g_effects w)].
Definition g_model w := Form "model" [One text; One (fld "at" (g_xyz w)); One (fld "scale" (g_xyz w)); One (fld "rotate" (g_xyz w))].
Definition g_poly w := Form "fp_poly" [may w (g_pts w); may w (g_layer w); may w (g_width w)].
Definition g_line w := Form "fp_line" [One (g_point w "start"); One (g_point w "end"); may w (g_layer w); may w (g_width w)].
Definition g_circle w := Form "fp_circle" [One (g_point w "center"); One (g_point w "end"); may w (g_layer w); may w (g_width w)].
Definition g_arc w :=
  Form "fp_arc" [One (g_point w "start"); One (g_point w "end"); may w (fld "angle" (num w)); may w (g_layer w); may w (g_width w)].
Definition g_elements w : list gram :=
  [word ["locked"]; fld "solder_mask_margin" (num w); fld "clearance" (num w); g_layer w; fld "descr" text; fld "tags" text; fld "attr" text;
   fld "path" text; fld "tedit" (hex w); fld "tstamp" (hex w); g_at w; g_text w; g_pad w; g_model w; g_poly w; g_line w; g_circle w; g_arc w].
Definition g_module w := Form "module" [One text; Rep (g_elements w)].

(** ** Boards *)
Definition g_area w := Form "area" [One (num w); One (num w); One (num w); One (num w)].
Definition g_general w :=
  Form "general" [One (fld "links" (int w)); One (fld "no_connects" (int w)); One (g_area w);
    One (fld "thickness" (num w)); One (fld "drawings" (int w)); One (fld "tracks" (int w)); One (fld "zones" (int w));
    One (fld "modules" (int w)); One (fld "nets" (int w))].
Definition g_kind := word ["signal"; "power"; "mixed"; "jumper"; "user"].
Definition g_board_layer w := Bare [One (int w); One (layer_name w); One g_kind; Opt (word ["hide"])].
Definition g_setting (name : gram) := Bare [One name; One text; Opt text].
Definition g_setup w :=
  Form "setup" (loose w [Rep [g_setting (setting_name w)]; One (Form "pcbplotparams" [Rep [g_setting text]])]).
Definition g_net_class w :=
  Form "net_class" ([One text; One text] ++ loose w [One (fld "clearance" (num w)); One (fld "trace_width" (num w)); One (fld "via_dia" (num w));
    One (fld "via_drill" (num w)); One (fld "uvia_dia" (num w)); One (fld "uvia_drill" (num w));
    Opt (fld "diff_pair_gap" (num w)); Opt (fld "diff_pair_width" (num w)); Rep [fld "add_net" text]]).
Definition g_gr_text w := Form "gr_text" [One text; One (g_at w); One (g_layer w); One (g_effects w); Opt g_stamp].
Definition g_dimension w :=
  Form "dimension" [One text; One (g_width w); One (g_layer w); Opt g_stamp; One (g_gr_text w);
    One (fld "feature1" (g_pts w)); One (fld "feature2" (g_pts w)); One (fld "crossbar" (g_pts w));
    One (fld "arrow1a" (g_pts w)); One (fld "arrow1b" (g_pts w)); One (fld "arrow2a" (g_pts w)); One (fld "arrow2b" (g_pts w))].
Definition g_fill w :=
  Form "fill" [Opt (word ["yes"]); Opt (fld "mode" (word ["segment"])); One (fld "arc_segments" (int w)); One (fld "thermal_gap" (num w));
    One (fld "thermal_bridge_width" (num w)); Opt (fld "smoothing" text); Opt (fld "radius" (num w))].
Definition g_rule (k : string) := fld k (word ["allowed"; "not_allowed"]).
Definition g_keepout := Form "keepout" [One (g_rule "tracks"); One (g_rule "vias"); One (g_rule "copperpour")].
Definition g_hatch w := Form "hatch" [One text; One (num w)].
Definition g_connect w := Form "connect_pads" [Opt text; One (fld "clearance" (num w))].
(** After the known parts of a zone there may be any others. *)
Definition g_zone w :=
  Form "zone" [One (fld "net" (int w)); One (fld "net_name" text); One (g_layer w); One g_stamp; One (g_hatch w);
    Opt (fld "priority" (int w)); One (g_connect w); One (fld "min_thickness" (num w));
    Opt g_keepout; One (g_fill w);
    Rep [fld "polygon" (g_pts w)]; Rep [fld "filled_polygon" (g_pts w)]; Opt (fld "fill_segments" (g_pts w)); Rep [Any]].
Definition g_gr_line w :=
  Form "gr_line" [One (g_point w "start"); One (g_point w "end"); may w (fld "angle" (num w)); One (g_layer w); may w (g_width w); Opt g_stamp].
Definition g_gr_arc w :=
  Form "gr_arc" [One (g_point w "start"); One (g_point w "end"); One (fld "angle" (num w)); One (g_layer w); may w (g_width w); Opt g_stamp].
Definition g_gr_circle w :=
  Form "gr_circle" [One (g_point w "center"); One (g_point w "end"); One (g_layer w); may w (g_width w); Opt g_stamp].
Definition g_segment w :=
  Form "segment" [One (g_point w "start"); One (g_point w "end"); One (g_width w); One (g_layer w); One (fld "net" (int w)); Opt g_stamp;
    Opt (fld "status" text)].
Definition g_via w :=
  Form "via" [Opt (word ["blind"]); Opt (word ["micro"]); One (g_at w); One (fld "size" (num w)); Opt (fld "drill" (num w)); One (g_layers w);
    may w (fld "net" (int w))].
Definition g_known w : list gram :=
  [g_module w; g_net w; g_net_class w; g_gr_text w; g_dimension w; g_zone w; g_gr_line w; g_gr_arc w; g_gr_circle w; g_segment w; g_via w].
Definition g_host := Form "host" [One text; One text].
Definition g_stack w := Form "layers" [Rep [g_board_layer w]].
Definition g_board w :=
  Form "kicad_pcb" (loose w [One (fld "version" (int w)); One g_host; One (g_general w); One (fld "page" text); One (g_stack w); One (g_setup w);
    Rep (g_known w ++ others w)]).

(** ** Library tables *)
Definition g_lib :=
  Form "lib" [One (fld "name" text); One (fld "type" text); One (fld "uri" text); One (fld "options" text); One (fld "descr" text)].
Definition g_table := Form "fp_lib_table" [Rep [g_lib]].

(** ** What is written *)
(** Whole numbers; hexadecimal numbers of at most 16 digits *)
Definition whole (s : str) : Prop := exists d, d <> [] /\ Forall is_digit d /\ (s = d \/ s = 45%N :: d).
Definition hexa (s : str) : Prop :=
  s <> [] /\ (length s <= 16)%nat /\ Forall (fun c => (48 <= c <= 57)%N \/ (65 <= c <= 70)%N) s.
(** Decimal numbers without exponent, or one of the three texts for values that are no
    numbers *)
Definition decimals (s : str) : Prop :=
  (exists t, plain t /\ (s = t \/ s = 45%N :: t)) \/ s = lit "NaN" \/ s = lit "inf" \/ s = lit "-inf".
(** [unknown]: whether the board has elements this library does not know *)
Definition saved (unknown : bool) : words :=
  mk_words (Word decimals) (Word whole) (Word hexa) text text
    (Form "drill" [Opt text; Opt (Word decimals); Opt (Word decimals); Opt (Form "offset" [One (Word decimals); One (Word decimals)])])
    [Opt (Form "rect_delta" [One (Word decimals); One (Word decimals)])]
    (if unknown then [Any] else []) One (fun b => b).

(** ** What can be read *)
Definition a_number (s : str) : Prop := exists neg v, number_text s neg v.
Definition fits (neg : bool) (v : Z) : Prop := (if neg then v <= 2 ^ 63 else v < 2 ^ 63)%Z.
Definition a_whole (s : str) : Prop :=
  exists sg neg ds, s = sg ++ ds /\ sign_text sg neg /\ Forall is_digit ds /\ ds <> [] /\ fits neg (dec ds).
Inductive hex_digit : N -> Z -> Prop :=
| hd_dec c : (48 <= c <= 57)%N -> hex_digit c (Z.of_N c - 48)
| hd_upper c : (65 <= c <= 70)%N -> hex_digit c (Z.of_N c - 55)
| hd_lower c : (97 <= c <= 102)%N -> hex_digit c (Z.of_N c - 87).
(** Digits from the left, after a number with value [a] *)
Inductive hex_from : Z -> str -> Z -> Prop :=
| hx_nil a : hex_from a [] a
| hx_cons a c d s v : hex_digit c d -> hex_from (16 * a + d) s v -> hex_from a (c :: s) v.
Definition hex_text (s : str) (z : Z) : Prop :=
  exists sg neg ds v, s = sg ++ ds /\ sign_text sg neg /\ ds <> [] /\ hex_from 0 ds v /\ fits neg v /\ z = (if neg then - v else v)%Z.
Definition no_dots (s : str) : Prop := ~ In 46%N s.
(** Layer names: without a point, or with a known side before the only one *)
Definition a_layer (s : str) : Prop :=
  no_dots s \/ exists a b, s = lit a ++ 46%N :: b /\ no_dots b /\ In a ["F"; "B"; "Dwgs"; "Cmts"; "Eco1"; "Eco2"; "Edge"; "In1"; "In2"; "*"].
Definition board_names : list string :=
  ["version"; "host"; "general"; "page"; "layers"; "module"; "net"; "net_class"; "gr_text"; "gr_line"; "gr_arc"; "gr_circle"; "dimension"; "zone";
   "segment"; "via"; "setup"].
Definition readable : words :=
  mk_words (Word a_number) (Word a_whole) (Word (fun s => exists z, hex_text s z)) (Word a_layer) (Word (fun s => s <> lit "pcbplotparams"))
    (Form "drill" [Opt (word ["oval"]); One (Word a_number); Opt (Word a_number); Opt (Form "offset" [One (Word a_number); One (Word a_number)])])
    [] [Named (fun s => ~ exists k, In k board_names /\ s = lit k) [Rep [Any]]]
    Opt (fun b => [Rep (flat_map (fun i => match i with One g | Opt g => [g] | Rep gs => gs end) b)]).

(** ** Points carry the name of their role. *)
Definition xy_is (t : xy_type) (p : xy) : bool :=
  match t, xy_t p with
  | XXy, XXy | XStart, XStart | XEnd, XEnd | XSize, XSize | XCenter, XCenter | XRectDelta, XRectDelta => true
  | _, _ => false
  end.
Definition roles (e : element) : bool :=
  match e with
  | EPad p => xy_is XSize (pa_size p) && (match pa_rect_delta p with Some d => xy_is XRectDelta d | None => true end)
  | EFpPoly p => forallb (xy_is XXy) (po_pts p)
  | EFpLine l => xy_is XStart (li_start l) && xy_is XEnd (li_end l)
  | EFpCircle c => xy_is XCenter (ci_center c) && xy_is XEnd (ci_end c)
  | EFpArc a => xy_is XStart (ar_start a) && xy_is XEnd (ar_end a)
  | _ => true
  end.
Definition module_roles (m : module) : bool := forallb roles (m_elements m).
Definition pts_role : pts -> bool := forallb (xy_is XXy).
Definition ly_roles (e : ly_element) : bool :=
  match e with
  | YModule m => module_roles m
  | YGrLine l => xy_is XStart (gl_start l) && xy_is XEnd (gl_end l)
  | YGrArc l => xy_is XStart (ga_start l) && xy_is XEnd (ga_end l)
  | YGrCircle c => xy_is XCenter (gc_center c) && xy_is XEnd (gc_end c)
  | YDimension d => forallb pts_role [di_feature1 d; di_feature2 d; di_crossbar d; di_arrow1a d; di_arrow1b d; di_arrow2a d; di_arrow2b d]
  | YSegment s => xy_is XStart (sg_start s) && xy_is XEnd (sg_end s)
  | YZone z => forallb pts_role (zo_polygons z) && forallb pts_role (zo_filled z)
               && (match zo_segments z with Some p => pts_role p | None => true end)
  | _ => true
  end.
Definition layout_roles (l : layout) : bool := forallb ly_roles (ly_elements l).
Definition is_other (e : ly_element) : bool := match e with YOther _ => true | _ => false end.
