(** Specification: what the program says about a tree that is not a footprint or a board (C106).
    The grammar of the parts before the complaint is that of WideSpec.v. *)
From Coq Require Import String.
From Verif Require Import Base Str Num F64 Sexp DecSpec FpData GramSpec MeanSpec WideSpec.
Open Scope string_scope. Open Scope list_scope.

(** What may be said about a tree *)
Definition says := sexp -> str -> Prop.
Definition nothing : says := fun _ _ => False.
(** The parts of a list in order: one that must be there, with what is said when it is wrong;
    one that may be there, about which nothing is said; and all the rest. *)
Inductive slot := Need (g : gram) (c : says) | May (g : gram) | Rest (c : list sexp -> str -> Prop).
Inductive slots_say : list slot -> list sexp -> str -> Prop :=
| ss_here g (c : says) b s l m : c s m -> slots_say (Need g c :: b) (s :: l) m
| ss_next g (c : says) b s l m : follows g s -> slots_say b l m -> slots_say (Need g c :: b) (s :: l) m
| ss_take g b s l m : follows g s -> slots_say b l m -> slots_say (May g :: b) (s :: l) m
| ss_skip g b s l m : ~ follows g s -> slots_say b (s :: l) m -> slots_say (May g :: b) (s :: l) m
| ss_none g b m : slots_say b [] m -> slots_say (May g :: b) [] m
| ss_rest (c : list sexp -> str -> Prop) b l m : c l m -> slots_say (Rest c :: b) l m.
Definition form_says (k : string) (b : list slot) : says := fun s m => exists l, s = SList (SStr (lit k) :: l) /\ slots_say b l m.
Definition bare_says (b : list slot) : says := fun s m => exists l, s = SList l /\ slots_say b l m.
(** The first of a row that is wrong *)
Definition each (gs : list gram) (c : says) (l : list sexp) (m : str) : Prop := exists a s r, l = a ++ s :: r /\ Forall (one_of gs) a /\ c s m.
(** The value of a named field *)
Definition fld_says (k : string) (c : says) : says := fun s m => exists v, s = SList [SStr (lit k); v] /\ c v m.
(** A word that is not one of the known ones *)
Definition known (l : list string) (w : str) : Prop := exists k, In k l /\ w = lit k.
Definition word_says (l : list string) (f : str -> str) : says := fun s m => exists w, s = SStr w /\ ~ known l w /\ m = f w.
(** A list with a name that is not one of the known ones *)
Definition name_says (l : list string) (t : string) : says := fun s m => exists k r, s = SList (SStr k :: r) /\ ~ known l k /\ m = lit t ++ k.

(** ** Footprints *)
Definition sides : list string := map fst layer_sides.
Definition side_says : says := fun s m => exists a b, s = SStr (a ++ 46%N :: b) /\ no_dots a /\ no_dots b /\ ~ known sides a /\ m = lit "unknown layer side " ++ a.
Definition layer_says : says := form_says "layer" [Need (layer_name V) side_says].
Definition layers_says : says := form_says "layers" [Rest (each [layer_name V] side_says)].
Definition point_says : says := name_says point_names "unknown XyType ".
Definition pts_says : says := form_says "pts" [Rest (each [w_point] point_says)].

Section Show.
Context (sh : sexp -> str) (dbg : f64 -> str).
Definition value_parts : list string := ["thickness"; "solder_paste_margin"; "solder_mask_margin"; "clearance"; "thermal_gap"; "zone_connect"].
Definition g_thickness : gram := start "thickness" (num V).
Definition part_says : says := fun s m =>
  (exists k, In k value_parts /\ s = SList [SStr (lit k)] /\ m = lit "not enough elements in " ++ sh s) \/
  name_says ("net" :: value_parts) "unknown part " s m.
(** A pad has no thickness; this is noticed when all parts have been read. *)
Definition parts_say (l : list sexp) (m : str) : Prop :=
  each (g_thickness :: w_parts) part_says l m \/
  (Forall (one_of (g_thickness :: w_parts)) l /\
   exists a s r, l = a ++ s :: r /\ Forall (one_of w_parts) a /\ follows g_thickness s /\
     m = lit "pad: unknown Thickness(" ++ dbg (value number s) ++ lit ")").
Definition pad_types : list string := ["smd"; "thru_hole"; "np_thru_hole"].
Definition pad_shapes : list string := ["rect"; "circle"; "oval"; "trapezoid"].
Definition pad_says : says :=
  form_says "pad" [Need text nothing; Need (word pad_types) (word_says pad_types (fun w => lit "unknown PadType " ++ w));
    Need (word pad_shapes) (word_says pad_shapes (fun w => lit "unknown PadShape: " ++ w));
    May (g_at V); May w_point; May (GramSpec.drill V); May (g_layers V); Rest parts_say].
Definition element_names : list string :=
  ["solder_mask_margin"; "clearance"; "layer"; "descr"; "tags"; "attr"; "path"; "tedit"; "tstamp"; "at"; "fp_text"; "pad"; "model"; "fp_poly"; "fp_line";
   "fp_circle"; "fp_arc"].
Definition element_says : says := fun s m =>
  word_says ["locked"] (fun w => lit "unknown element in module: " ++ w) s m \/ name_says element_names "unknown element in module: " s m \/
  layer_says s m \/ pad_says s m.
Definition module_says : says := form_says "module" [Need text nothing; Rest (each w_elements element_says)].

(** ** Boards *)
Definition kinds : list string := ["signal"; "power"; "mixed"; "jumper"; "user"].
Definition kind_says : says := word_says kinds (fun w => lit "unknown layertype " ++ w ++ lit " in " ++ sh (SStr w)).
Definition w_row : gram := Bare [One (int V); One (layer_name V); One g_kind; Opt text].
Definition stack_says : says :=
  form_says "layers" [Rest (each [w_row] (bare_says [Need (int V) nothing; Need (layer_name V) side_says; Need g_kind kind_says]))].
Definition class_values : list string :=
  ["clearance"; "trace_width"; "via_dia"; "via_drill"; "uvia_dia"; "uvia_drill"; "diff_pair_gap"; "diff_pair_width"].
Definition class_fields : list gram := map (fun k => fld k (num V)) class_values ++ [fld "add_net" text].
Definition class_says : says :=
  form_says "net_class" [Need text nothing; Need text nothing; Rest (each class_fields (name_says ("add_net" :: class_values) "unknown net_class field "))].
Definition gr_text_says : says := form_says "gr_text" [Need text nothing; Need (g_at V) nothing; Need (g_layer V) layer_says].
Definition gr_line_says : says :=
  form_says "gr_line" [Need w_point point_says; Need w_point point_says; May (fld "angle" (num V)); Need (g_layer V) layer_says].
Definition gr_arc_says : says :=
  form_says "gr_arc" [Need w_point point_says; Need w_point point_says; Need (fld "angle" (num V)) nothing; Need (g_layer V) layer_says].
Definition gr_circle_says : says := form_says "gr_circle" [Need w_point point_says; Need w_point point_says; Need (g_layer V) layer_says].
Definition line_says (k : string) : slot := Need (fld k w_pts) (fld_says k pts_says).
Definition dimension_says : says :=
  form_says "dimension" [Need text nothing; Need (g_width V) nothing; Need (g_layer V) layer_says; May g_stamp; Need w_gr_text gr_text_says;
    line_says "feature1"; line_says "feature2"; line_says "crossbar"; line_says "arrow1a"; line_says "arrow1b"; line_says "arrow2a"; line_says "arrow2b"].
Definition zone_says : says := form_says "zone" [Need (fld "net" (int V)) nothing; Need (fld "net_name" text) nothing; Need (g_layer V) layer_says].
Definition segment_says : says :=
  form_says "segment" [Need w_point point_says; Need w_point point_says; Need (g_width V) nothing; Need (g_layer V) layer_says].
Definition via_says : says :=
  form_says "via" [May (word ["blind"]); May (word ["micro"]); Need (g_at V) nothing; Need (fld "size" (num V)) nothing; May (fld "drill" (num V));
    Need (g_layers V) layers_says].
Definition board_element_says : says := fun s m =>
  exists c, In c [module_says; stack_says; class_says; gr_text_says; gr_line_says; gr_arc_says; gr_circle_says; dimension_says; zone_says; segment_says; via_says] /\
    c s m.
Definition board_says : says := form_says "kicad_pcb" [Rest (each w_board_elements board_element_says)].
End Show.
