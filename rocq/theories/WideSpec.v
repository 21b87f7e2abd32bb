(** Specification: exactly which trees are footprints, boards and library tables, and what
    they mean (C76); which of them stop the program (C77).  The grammar is that of
    GramSpec.v where the readers keep to it, and wider where they do not look. *)
From Coq Require Import String.
From Verif Require Import Base Str Num F64 Sexp DecSpec FpData FpLayer LyData FpLibTable GramSpec MeanSpec.
Open Scope string_scope. Open Scope list_scope.

(** ** Grammar *)
(** Numbers, with the texts for infinity and for no number *)
Definition any_number (s : str) : Prop :=
  a_number s \/ exists sg neg w y, s = sg ++ w /\ sign_text sg neg /\ special_value w y.
(** Layer names: a kind, a side and a kind, or a kind that is followed by several further
    pieces, which are lost. *)
Definition layer_kinds : list (string * layer_type) :=
  [("Cu", LCu); ("Paste", LPaste); ("Mask", LMask); ("SilkS", LSilkS); ("User", LUser); ("Adhes", LAdhes); ("Cuts", LCuts); ("CrtYd", LCrtYd);
   ("Fab", LFab); ("Margin", LMargin)].
Definition layer_sides : list (string * layer_side) :=
  [("F", SFront); ("B", SBack); ("Dwgs", SDwgs); ("Cmts", SCmts); ("Eco1", SEco1); ("Eco2", SEco2); ("Edge", SEdge); ("In1", SIn1); ("In2", SIn2); ("*", SBoth)].
Inductive kind_text : str -> layer_type -> Prop :=
| kt_known k t : In (k, t) layer_kinds -> kind_text (lit k) t
| kt_other s : (forall k t, In (k, t) layer_kinds -> s <> lit k) -> kind_text s (LOther s).
Inductive layer_text : str -> layer -> Prop :=
| lt_kind s t : no_dots s -> kind_text s t -> layer_text s (mk_layer SNone t)
| lt_side k d b t : In (k, d) layer_sides -> no_dots b -> kind_text b t -> layer_text (lit k ++ 46%N :: b) (mk_layer d t)
| lt_more a b c t : no_dots a -> kind_text a t -> layer_text (a ++ 46%N :: b ++ 46%N :: c) (mk_layer SNone t).
Definition wide : words :=
  mk_words (Word any_number) (Word a_whole) (Word (fun s => exists z, hex_text s z)) (Word (fun s => exists l, layer_text s l)) (Word (fun s => s <> lit "pcbplotparams"))
    (Form "drill" [Opt (word ["oval"]); One (Word any_number); Opt (Word any_number); Opt (Form "offset" [One (Word any_number); One (Word any_number)])])
    [] [Named (fun s => ~ exists k, In k board_names /\ s = lit k) [Rep [Any]]]
    Opt (fun b => [Rep (flat_map (fun i => match i with One g | Opt g => [g] | Rep gs => gs end) b)]).
Notation V := wide.
(** Whatever follows is not looked at. *)
Definition ignored : item := Rep [Any].
(** A value after which anything may stand *)
Definition start (k : string) (g : gram) : gram := Form k [One g; ignored].
(** Points: the readers take one for the other. *)
Definition point_names : list string := ["xy"; "start"; "end"; "size"; "center"; "rect_delta"].
Definition point_name (s : str) : Prop := exists k, In k point_names /\ s = lit k.
Definition w_point := Named point_name [One (num V); One (num V)].
Definition w_pts := Form "pts" [Rep [w_point]].
Definition w_font := Form "font" [Opt w_point; Opt (fld "thickness" (num V)); Opt (word ["italic"])].
Definition w_justify := start "justify" (word ["left"; "right"; "mirror"]).
Definition w_effects := Form "effects" [One w_font; Opt w_justify].

(** *** Footprints *)
Definition w_parts : list gram :=
  [g_net V; start "zone_connect" (int V); start "solder_paste_margin" (num V); start "solder_mask_margin" (num V); start "clearance" (num V); start "thermal_gap" (num V)].
Definition w_pad :=
  Form "pad" [One text; One (word ["smd"; "thru_hole"; "np_thru_hole"]); One (word ["rect"; "circle"; "oval"; "trapezoid"]);
    Opt (g_at V); Opt w_point; Opt (GramSpec.drill V); Opt (g_layers V); Rep w_parts].
Definition w_text := Form "fp_text" [One text; One text; Opt (g_at V); Opt (g_layer V); Opt (word ["hide"]); Opt w_effects].
Definition w_poly := Form "fp_poly" [Opt w_pts; Opt (g_layer V); Opt (g_width V)].
Definition w_line := Form "fp_line" [Opt w_point; Opt w_point; Opt (g_layer V); Opt (g_width V)].
Definition w_circle := Form "fp_circle" [Opt w_point; Opt w_point; Opt (g_layer V); Opt (g_width V)].
Definition w_arc := Form "fp_arc" [Opt w_point; Opt w_point; Opt (fld "angle" (num V)); Opt (g_layer V); Opt (g_width V)].
Definition w_elements : list gram :=
  [word ["locked"]; start "solder_mask_margin" (num V); start "clearance" (num V); g_layer V; start "descr" text; start "tags" text; start "attr" text;
   start "path" text; start "tedit" (hex V); start "tstamp" (hex V); g_at V; w_text; w_pad; g_model V; w_poly; w_line; w_circle; w_arc].
Definition w_module := Form "module" [One text; Rep w_elements].

(** *** Boards *)
Definition w_stack := Form "layers" [Rep [Bare [One (int V); One (layer_name V); One g_kind; Opt text]]].
Definition w_gr_text := Form "gr_text" [One text; One (g_at V); One (g_layer V); One w_effects; Opt g_stamp].
Definition w_dimension :=
  Form "dimension" [One text; One (g_width V); One (g_layer V); Opt g_stamp; One w_gr_text;
    One (fld "feature1" w_pts); One (fld "feature2" w_pts); One (fld "crossbar" w_pts);
    One (fld "arrow1a" w_pts); One (fld "arrow1b" w_pts); One (fld "arrow2a" w_pts); One (fld "arrow2b" w_pts)].
Definition w_fill :=
  Form "fill" [Opt (word ["yes"]); Opt (fld "mode" text); One (fld "arc_segments" (int V)); One (fld "thermal_gap" (num V));
    One (fld "thermal_bridge_width" (num V)); Opt (fld "smoothing" text); Opt (fld "radius" (num V))].
Definition w_keepout := Form "keepout" [One (fld "tracks" text); One (fld "vias" text); One (fld "copperpour" text)].
Definition w_zone :=
  Form "zone" [One (fld "net" (int V)); One (fld "net_name" text); One (g_layer V); One g_stamp; One (g_hatch V);
    Opt (fld "priority" (int V)); One (g_connect V); One (fld "min_thickness" (num V)); Opt w_keepout; One w_fill; ignored].
Definition w_gr_line :=
  Form "gr_line" [One w_point; One w_point; Opt (fld "angle" (num V)); One (g_layer V); Opt (g_width V); Opt g_stamp].
Definition w_gr_arc :=
  Form "gr_arc" [One w_point; One w_point; One (fld "angle" (num V)); One (g_layer V); Opt (g_width V); Opt g_stamp].
Definition w_gr_circle := Form "gr_circle" [One w_point; One w_point; One (g_layer V); Opt (g_width V); Opt g_stamp].
Definition w_segment :=
  Form "segment" [One w_point; One w_point; One (g_width V); One (g_layer V); One (fld "net" (int V)); Opt g_stamp; Opt (fld "status" text)].
Definition w_heads : list gram := [fld "version" (int V); g_host; g_general V; fld "page" text; w_stack; g_setup V].
Definition w_known : list gram :=
  [w_module; g_net V; g_net_class V; w_gr_text; w_dimension; w_zone; w_gr_line; w_gr_arc; w_gr_circle; w_segment; g_via V].
Definition w_board_elements : list gram := w_heads ++ w_known ++ others V.
Definition w_board := Form "kicad_pcb" [Rep w_board_elements].

(** *** Library tables *)
Definition w_lib :=
  Form "lib" [One (fld "name" text); One (fld "type" text); One (fld "uri" text); One (fld "options" text); One (fld "descr" text); ignored].
Definition w_table := Form "fp_lib_table" [Rep [w_lib]].

(** ** Meaning *)
Definition is_point (s : sexp) : bool := existsb (fun k => called k s) point_names.
Definition any_point_of (s : sexp) : xy :=
  point_of (choose [("xy", XXy); ("start", XStart); ("end", XEnd); ("size", XSize); ("center", XCenter)] XRectDelta (name_of s)) s.
(** The [n]th point of a list, whatever its name *)
Definition nth_point (n : nat) (l : list sexp) : option sexp := nth_error (filter is_point l) n.
Definition take_point (n : nat) (l : list sexp) : xy := match nth_point n l with Some s => any_point_of s | None => origin XXy end.
(** The same if it has the right name, and otherwise the origin *)
Definition right_point (n : nat) (k : string) (t : xy_type) (l : list sexp) : xy :=
  match nth_point n l with Some s => if called k s then point_of t s else origin t | None => origin t end.
Definition any_points_of (s : sexp) : pts := map any_point_of (kids s).
Definition w_font_of (s : sexp) : font :=
  let l := kids s in
  mk_font (match nth_point 0 l with Some p => point_of XXy p | None => origin XXy end) (field "thickness" (value number) fzero l) (has "italic" l).
Definition w_effects_of (s : sexp) : effects :=
  let l := kids s in mk_effects (field "font" w_font_of (mk_font (origin XXy) fzero false) l) (field "justify" (valued justify_of) None l).
Definition w_pad_of (s : sexp) : pad :=
  let l := kids s in
  let p := pad_of s in
  mk_pad (pa_name p) (pa_t p) (pa_shape p) (right_point 0 "size" XSize l)
    (match nth_point 0 l with Some q => if called "rect_delta" q then Some (point_of XRectDelta q) else None | None => None end)
    (pa_at p) (pa_layers p) (pa_net p) (pa_zone_connect p) (pa_drill p) (pa_paste_margin p) (pa_mask_margin p) (pa_clearance p) (pa_thermal_gap p).
Definition w_text_of (s : sexp) : fp_text :=
  let l := kids s in
  mk_text (txt (arg 0 l)) (txt (arg 1 l)) (field "at" at_of (mk_at fzero fzero fzero) l) (field "layer" (value layer_of) front_copper l)
    (field "effects" w_effects_of no_effects l) (has "hide" (skipn 2 l)).
Definition w_poly_of (s : sexp) : fp_poly :=
  let l := kids s in mk_poly (field "pts" any_points_of [] l) (num_field "width" l) (field "layer" (value layer_of) front_copper l).
Definition w_line_of (s : sexp) : fp_line :=
  let l := kids s in
  mk_line (right_point 0 "start" XStart l) (right_point 1 "end" XEnd l) (field "layer" (value layer_of) front_copper l) (num_field "width" l).
Definition w_circle_of (s : sexp) : fp_circle :=
  let l := kids s in
  mk_circle (right_point 0 "center" XCenter l) (right_point 1 "end" XEnd l) (field "layer" (value layer_of) front_copper l) (num_field "width" l).
Definition w_arc_of (s : sexp) : fp_arc :=
  let l := kids s in
  mk_arc (right_point 0 "start" XStart l) (right_point 1 "end" XEnd l) (num_field "angle" l) (field "layer" (value layer_of) front_copper l) (num_field "width" l).
Definition w_element_of (s : sexp) : element :=
  choose [("fp_text", EFpText (w_text_of s)); ("pad", EPad (w_pad_of s)); ("fp_poly", EFpPoly (w_poly_of s)); ("fp_line", EFpLine (w_line_of s));
      ("fp_circle", EFpCircle (w_circle_of s)); ("fp_arc", EFpArc (w_arc_of s))]
    (element_of s) (name_of s).
Definition w_module_of (s : sexp) : module := mk_module (txt (arg 0 (kids s))) (map w_element_of (tl (kids s))).

Definition w_gr_text_of (s : sexp) : gr_text :=
  let l := kids s in
  mk_grtext (txt (arg 0 l)) (field "at" at_of (mk_at fzero fzero fzero) l) (field "layer" (value layer_of) front_copper l)
    (field "effects" w_effects_of no_effects l) (stamp_of l).
Definition any_outline (k : string) (l : list sexp) : pts := field k (value any_points_of) [] l.
Definition w_dimension_of (s : sexp) : dimension :=
  let l := kids s in
  mk_dim (txt (arg 0 l)) (num_field "width" l) (field "layer" (value layer_of) front_copper l) (stamp_of l)
    (field "gr_text" w_gr_text_of (mk_grtext [] (mk_at fzero fzero fzero) front_copper no_effects None) l)
    (any_outline "feature1" l) (any_outline "feature2" l) (any_outline "crossbar" l)
    (any_outline "arrow1a" l) (any_outline "arrow1b" l) (any_outline "arrow2a" l) (any_outline "arrow2b" l).
Definition w_gr_line_of (s : sexp) : gr_line :=
  let l := kids s in
  mk_grline (take_point 0 l) (take_point 1 l) (num_field "angle" l) (field "layer" (value layer_of) front_copper l) (num_field "width" l) (stamp_of l).
Definition w_gr_arc_of (s : sexp) : gr_arc :=
  let l := kids s in
  mk_grarc (take_point 0 l) (take_point 1 l) (num_field "angle" l) (field "layer" (value layer_of) front_copper l) (num_field "width" l) (stamp_of l).
Definition w_gr_circle_of (s : sexp) : gr_circle :=
  let l := kids s in
  mk_grcircle (take_point 0 l) (take_point 1 l) (field "layer" (value layer_of) front_copper l) (num_field "width" l) (stamp_of l).
Definition w_segment_of (s : sexp) : segment :=
  let l := kids s in
  mk_seg (take_point 0 l) (take_point 1 l) (num_field "width" l) (field "layer" (value layer_of) front_copper l) (int_field "net" l) (stamp_of l)
    (field "status" (valued txt) None l).
(** Whatever begins with [not] forbids. *)
Definition w_rule_of (k : string) (l : list sexp) : bool :=
  match txt_field k l with 110%N :: 111%N :: 116%N :: _ => false | _ => true end.
Definition w_keepout_of (s : sexp) : keepout := let l := kids s in mk_ko (w_rule_of "tracks" l) (w_rule_of "vias" l) (w_rule_of "copperpour" l).
Definition w_zone_of (s : sexp) : zone :=
  let z := zone_of s in
  mk_zone (zo_net z) (zo_net_name z) (zo_layer z) (zo_tstamp z) (zo_hatch z) (zo_priority z) (zo_connect z) (zo_min z)
    (field "keepout" (fun x => Some (w_keepout_of x)) None (upto "fill" (kids s))) (zo_fill z) (zo_polygons z) (zo_filled z) (zo_segments z) (zo_other z).
Definition w_board_element_of (s : sexp) : ly_element :=
  choose [("module", YModule (w_module_of s)); ("gr_text", YGrText (w_gr_text_of s)); ("dimension", YDimension (w_dimension_of s)); ("zone", YZone (w_zone_of s));
      ("gr_line", YGrLine (w_gr_line_of s)); ("gr_arc", YGrArc (w_gr_arc_of s)); ("gr_circle", YGrCircle (w_gr_circle_of s)); ("segment", YSegment (w_segment_of s))]
    (board_element_of s) (name_of s).
Definition w_layout_of (s : sexp) : layout :=
  let l := kids s in
  let b := layout_of s in
  mk_layout (ly_version b) (ly_host b) (ly_general b) (ly_page b) (ly_setup b) (ly_layers b)
    (map w_board_element_of (filter (fun x => negb (is_head x)) l)).

(** ** Crashes *)
(** A footprint stops the program at its first empty element that is reached. *)
Definition one_of (gs : list gram) (s : sexp) : Prop := exists g, In g gs /\ follows g s.
Definition module_crash (s : sexp) : Prop :=
  exists n es r, s = SList (SStr (lit "module") :: SStr n :: es ++ SEmpty :: r) /\ Forall (one_of w_elements) es.
Definition board_crash (s : sexp) : Prop :=
  exists es m r, s = SList (SStr (lit "kicad_pcb") :: es ++ m :: r) /\ Forall (one_of w_board_elements) es /\ module_crash m.
