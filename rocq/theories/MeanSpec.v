(** Specification: what a footprint file, a board file or a library table means (C69).
    Every value is looked up by name, whatever stands before it; nothing here is in the
    manner of the readers, which take one part after the other. *)
From Coq Require Import String.
From Verif Require Import Base Str Num F64 F64Text Sexp FpData FpLayer LyData FpLibTable.
Open Scope string_scope. Open Scope list_scope.

(** ** Trees *)
Definition kids (s : sexp) : list sexp := match s with SList (_ :: l) => l | _ => [] end.
Definition items (s : sexp) : list sexp := match s with SList l => l | _ => [] end.
Definition txt (s : sexp) : str := match s with SStr t => t | _ => [] end.
Definition arg (n : nat) (l : list sexp) : sexp := nth n l SEmpty.
Definition number (s : sexp) : f64 := match f64_of_str (txt s) with Some x => x | None => fzero end.
Definition integer (s : sexp) : Z := match i64_of_str (txt s) with Some z => z | None => 0%Z end.
Definition hexa_value (s : sexp) : Z := match parse_int 16 (txt s) with Some z => z | None => 0%Z end.
Definition called (k : string) (s : sexp) : bool := match s with SList (SStr n :: _) => str_eqb n (lit k) | _ => false end.
Definition is_word (w : string) (s : sexp) : bool := match s with SStr t => str_eqb t (lit w) | _ => false end.
Definition has (w : string) (l : list sexp) : bool := existsb (is_word w) l.
(** The part called [k], or [d] if there is none *)
Definition field {A} (k : string) (f : sexp -> A) (d : A) (l : list sexp) : A :=
  match find (called k) l with Some s => f s | None => d end.
(** The last part called [k] *)
Definition last_field {A} (k : string) (f : sexp -> A) (d : A) (l : list sexp) : A :=
  fold_left (fun a s => if called k s then f s else a) l d.
(** The only value of a part *)
Definition value {A} (f : sexp -> A) (s : sexp) : A := f (arg 0 (kids s)).
Definition valued {A} (f : sexp -> A) (s : sexp) : option A := Some (value f s).
(** The alternative named by a list, or by a word *)
Fixpoint choose {A} (t : list (string * A)) (d : A) (n : str) : A :=
  match t with [] => d | (k, a) :: r => if str_eqb n (lit k) then a else choose r d n end.
Definition name_of (s : sexp) : str := match s with SList (SStr n :: _) => n | _ => [] end.

(** ** Parts *)
Definition at_of (s : sexp) : at_t := let l := kids s in mk_at (number (arg 0 l)) (number (arg 1 l)) (number (arg 2 l)).
Definition point_of (t : xy_type) (s : sexp) : xy := let l := kids s in mk_xy (number (arg 0 l)) (number (arg 1 l)) t.
Definition xyz_of (s : sexp) : xyz := let l := kids s in mk_xyz (number (arg 0 l)) (number (arg 1 l)) (number (arg 2 l)).
Definition layer_of (s : sexp) : layer := match layer_of_str (txt s) with Some l => l | None => mk_layer SFront LCu end.
Definition points_of (s : sexp) : pts := map (point_of XXy) (kids s).
Definition layers_of (s : sexp) : layers := map layer_of (kids s).
Definition front_copper := mk_layer SFront LCu.
Definition origin (t : xy_type) := mk_xy fzero fzero t.
Definition font_of (s : sexp) : font :=
  let l := kids s in mk_font (field "size" (point_of XXy) (origin XXy) l) (field "thickness" (value number) fzero l) (has "italic" l).
Definition justify_of (s : sexp) : justify := choose [("left", JLeft); ("right", JRight)] JMirror (txt s).
Definition effects_of (s : sexp) : effects :=
  let l := kids s in mk_effects (field "font" font_of (mk_font (origin XXy) fzero false) l) (field "justify" (valued justify_of) None l).
Definition no_effects := mk_effects (mk_font (origin XXy) fzero false) None.

(** ** Footprints *)
Definition net_of (s : sexp) : fnet := let l := kids s in mk_fnet (integer (arg 0 l)) (txt (arg 1 l)).
(** A drill with one number is round. *)
Definition drill_of (s : sexp) : drill :=
  let l := kids s in
  let n := filter (fun x => match x with SStr _ => negb (is_word "oval" x) | _ => false end) l in
  let w := number (arg 0 n) in
  mk_drill (if has "oval" l then Some (lit "oval") else None) w (match n with [_; h] => number h | _ => w end)
    (field "offset" (fun o => number (arg 0 (kids o))) fzero l) (field "offset" (fun o => number (arg 1 (kids o))) fzero l).
Definition pad_of (s : sexp) : pad :=
  let l := kids s in
  mk_pad (txt (arg 0 l)) (choose [("smd", Smd); ("thru_hole", Pth)] NpPth (txt (arg 1 l)))
    (choose [("rect", Rect); ("circle", Circle); ("oval", Oval)] Trapezoid (txt (arg 2 l)))
    (field "size" (point_of XSize) (origin XSize) l) None
    (field "at" at_of (mk_at fzero fzero fzero) l) (field "layers" layers_of [] l)
    (last_field "net" (fun x => Some (net_of x)) None l) (last_field "zone_connect" (valued integer) None l)
    (field "drill" (fun x => Some (drill_of x)) None l)
    (last_field "solder_paste_margin" (valued number) None l) (last_field "solder_mask_margin" (valued number) None l)
    (last_field "clearance" (valued number) None l) (last_field "thermal_gap" (valued number) None l).
Definition text_of (s : sexp) : fp_text :=
  let l := kids s in
  mk_text (txt (arg 0 l)) (txt (arg 1 l)) (field "at" at_of (mk_at fzero fzero fzero) l) (field "layer" (value layer_of) front_copper l)
    (field "effects" effects_of no_effects l) (has "hide" (skipn 2 l)).
Definition model_of (s : sexp) : model :=
  let l := kids s in
  let zero := mk_xyz fzero fzero fzero in
  mk_model (txt (arg 0 l)) (field "at" (value xyz_of) zero l) (field "scale" (value xyz_of) zero l) (field "rotate" (value xyz_of) zero l).
Definition poly_of (s : sexp) : fp_poly :=
  let l := kids s in mk_poly (field "pts" points_of [] l) (field "width" (value number) fzero l) (field "layer" (value layer_of) front_copper l).
Definition line_of (s : sexp) : fp_line :=
  let l := kids s in
  mk_line (field "start" (point_of XStart) (origin XStart) l) (field "end" (point_of XEnd) (origin XEnd) l)
    (field "layer" (value layer_of) front_copper l) (field "width" (value number) fzero l).
Definition circle_of (s : sexp) : fp_circle :=
  let l := kids s in
  mk_circle (field "center" (point_of XCenter) (origin XCenter) l) (field "end" (point_of XEnd) (origin XEnd) l)
    (field "layer" (value layer_of) front_copper l) (field "width" (value number) fzero l).
Definition arc_of (s : sexp) : fp_arc :=
  let l := kids s in
  mk_arc (field "start" (point_of XStart) (origin XStart) l) (field "end" (point_of XEnd) (origin XEnd) l)
    (field "angle" (value number) fzero l) (field "layer" (value layer_of) front_copper l) (field "width" (value number) fzero l).
Definition element_of (s : sexp) : element :=
  choose [("solder_mask_margin", ESolderMaskMargin (value number s)); ("clearance", EClearance (value number s));
      ("layer", ELayer (value layer_of s)); ("descr", EDescr (value txt s)); ("tags", ETags (value txt s)); ("attr", EAttr (value txt s));
      ("path", EPath (value txt s)); ("tedit", ETEdit (value hexa_value s)); ("tstamp", ETStamp (value hexa_value s));
      ("at", EAt (at_of s)); ("fp_text", EFpText (text_of s)); ("pad", EPad (pad_of s)); ("model", EModel (model_of s));
      ("fp_poly", EFpPoly (poly_of s)); ("fp_line", EFpLine (line_of s)); ("fp_circle", EFpCircle (circle_of s)); ("fp_arc", EFpArc (arc_of s))]
    ELocked (name_of s).
Definition module_of (s : sexp) : module := mk_module (txt (arg 0 (kids s))) (map element_of (tl (kids s))).

(** ** Boards *)
Definition area_of (s : sexp) : area :=
  let l := kids s in mk_area (number (arg 0 l)) (number (arg 1 l)) (number (arg 2 l)) (number (arg 3 l)).
Definition int_field (k : string) (l : list sexp) : Z := field k (value integer) 0%Z l.
Definition num_field (k : string) (l : list sexp) : f64 := field k (value number) fzero l.
Definition txt_field (k : string) (l : list sexp) : str := field k (value txt) [] l.
Definition general_of (s : sexp) : general :=
  let l := kids s in
  mk_general (int_field "links" l) (int_field "no_connects" l) (field "area" area_of (mk_area fzero fzero fzero fzero) l)
    (num_field "thickness" l) (int_field "drawings" l) (int_field "tracks" l) (int_field "zones" l) (int_field "modules" l) (int_field "nets" l).
Definition board_layer_of (s : sexp) : ly_layer :=
  let l := items s in
  mk_ly_layer (integer (arg 0 l)) (layer_of (arg 1 l))
    (choose [("signal", TSignal); ("power", TPower); ("mixed", TMixed); ("jumper", TJumper)] TUser (txt (arg 2 l)))
    (match l with [_; _; _; _] => true | _ => false end).
Definition setting_of (s : sexp) : setup_element :=
  let l := items s in mk_se (txt (arg 0 l)) (txt (arg 1 l)) (match l with [_; _; v] => Some (txt v) | _ => None end).
Definition setup_of (s : sexp) : setup :=
  let l := kids s in
  mk_setup (map setting_of (filter (fun x => negb (called "pcbplotparams" x)) l))
    (flat_map (fun x => map setting_of (kids x)) (filter (called "pcbplotparams") l)).
Definition class_of (s : sexp) : net_class :=
  let l := kids s in
  let num k d := last_field k (value number) (flit d) l in
  mk_nc (txt (arg 0 l)) (txt (arg 1 l)) (num "clearance" "0.1524") (num "trace_width" "0.2032") (num "via_dia" "0.675")
    (num "via_drill" "0.25") (num "uvia_dia" "0.508") (num "uvia_drill" "0.127")
    (last_field "diff_pair_gap" (valued number) None l) (last_field "diff_pair_width" (valued number) None l)
    (map (value txt) (filter (called "add_net") l)).
Definition stamp_of (l : list sexp) : option str := field "tstamp" (valued txt) None l.
Definition board_net_of (s : sexp) : net := let l := kids s in mk_net (integer (arg 0 l)) (txt (arg 1 l)).
Definition board_text_of (s : sexp) : gr_text :=
  let l := kids s in
  mk_grtext (txt (arg 0 l)) (field "at" at_of (mk_at fzero fzero fzero) l) (field "layer" (value layer_of) front_copper l)
    (field "effects" effects_of no_effects l) (stamp_of l).
Definition outline (k : string) (l : list sexp) : pts := field k (value points_of) [] l.
Definition dimension_of (s : sexp) : dimension :=
  let l := kids s in
  mk_dim (txt (arg 0 l)) (num_field "width" l) (field "layer" (value layer_of) front_copper l) (stamp_of l)
    (field "gr_text" board_text_of (mk_grtext [] (mk_at fzero fzero fzero) front_copper no_effects None) l)
    (outline "feature1" l) (outline "feature2" l) (outline "crossbar" l) (outline "arrow1a" l) (outline "arrow1b" l) (outline "arrow2a" l) (outline "arrow2b" l).
Definition board_line_of (s : sexp) : gr_line :=
  let l := kids s in
  mk_grline (field "start" (point_of XStart) (origin XStart) l) (field "end" (point_of XEnd) (origin XEnd) l)
    (num_field "angle" l) (field "layer" (value layer_of) front_copper l) (num_field "width" l) (stamp_of l).
Definition board_arc_of (s : sexp) : gr_arc :=
  let l := kids s in
  mk_grarc (field "start" (point_of XStart) (origin XStart) l) (field "end" (point_of XEnd) (origin XEnd) l)
    (num_field "angle" l) (field "layer" (value layer_of) front_copper l) (num_field "width" l) (stamp_of l).
Definition board_circle_of (s : sexp) : gr_circle :=
  let l := kids s in
  mk_grcircle (field "center" (point_of XCenter) (origin XCenter) l) (field "end" (point_of XEnd) (origin XEnd) l)
    (field "layer" (value layer_of) front_copper l) (num_field "width" l) (stamp_of l).
Definition segment_of (s : sexp) : segment :=
  let l := kids s in
  mk_seg (field "start" (point_of XStart) (origin XStart) l) (field "end" (point_of XEnd) (origin XEnd) l) (num_field "width" l)
    (field "layer" (value layer_of) front_copper l) (int_field "net" l) (stamp_of l) (field "status" (valued txt) None l).
Definition via_of (s : sexp) : via :=
  let l := kids s in
  mk_via (has "blind" l) (has "micro" l) (field "at" at_of (mk_at fzero fzero fzero) l) (num_field "size" l) (num_field "drill" l)
    (field "layers" layers_of [] l) (int_field "net" l).
Definition hatch_of (s : sexp) : hatch := let l := kids s in mk_hatch (txt (arg 0 l)) (number (arg 1 l)).
Definition connect_of (s : sexp) : connect_pads :=
  let l := kids s in mk_cp (match l with SStr t :: _ => Some t | _ => None end) (num_field "clearance" l).
(** Forbidden exactly if the word is [not_allowed] *)
Definition rule_of (k : string) (l : list sexp) : bool := negb (str_eqb (txt_field k l) (lit "not_allowed")).
Definition keepout_of (s : sexp) : keepout := let l := kids s in mk_ko (rule_of "tracks" l) (rule_of "vias" l) (rule_of "copperpour" l).
Definition fill_of (s : sexp) : fill :=
  let l := kids s in
  mk_fill (has "yes" l) (existsb (called "mode") l) (int_field "arc_segments" l) (num_field "thermal_gap" l) (num_field "thermal_bridge_width" l)
    (field "smoothing" (valued txt) None l) (num_field "radius" l).
(** A zone: the outlines after the filling are those lists of the given name that hold
    nothing but a list of points; the rest is kept as it is. *)
Definition free_point (s : sexp) : option xy :=
  match s with
  | SList [SStr n; SStr a; SStr b] =>
      match f64_of_str a, f64_of_str b,
            choose [("xy", Some XXy); ("start", Some XStart); ("end", Some XEnd); ("size", Some XSize); ("center", Some XCenter); ("rect_delta", Some XRectDelta)] None n with
      | Some x, Some y, Some t => Some (mk_xy x y t)
      | _, _, _ => None
      end
  | _ => None
  end.
Fixpoint free_points (l : list sexp) : option pts :=
  match l with
  | [] => Some []
  | s :: r => match free_point s, free_points r with Some p, Some ps => Some (p :: ps) | _, _ => None end
  end.
Definition free_outline (k : string) (s : sexp) : option pts :=
  match s with
  | SList [SStr n; SList (SStr p :: l)] => if str_eqb n (lit k) && str_eqb p (lit "pts") then free_points l else None
  | _ => None
  end.
Definition outlines (k : string) (l : list sexp) : list pts := flat_map (fun s => match free_outline k s with Some p => [p] | None => [] end) l.
Fixpoint after (k : string) (l : list sexp) : list sexp :=
  match l with [] => [] | s :: r => if called k s then r else after k r end.
Fixpoint upto (k : string) (l : list sexp) : list sexp :=
  match l with [] => [] | s :: r => if called k s then [s] else s :: upto k r end.
Definition zone_of (s : sexp) : zone :=
  let l := upto "fill" (kids s) in
  let r := after "fill" (kids s) in
  mk_zone (int_field "net" l) (txt_field "net_name" l) (field "layer" (value layer_of) front_copper l) (txt_field "tstamp" l)
    (field "hatch" hatch_of (mk_hatch [] fzero) l) (int_field "priority" l mod 2 ^ 64)%Z
    (field "connect_pads" connect_of (mk_cp None fzero) l) (num_field "min_thickness" l) (field "keepout" (fun x => Some (keepout_of x)) None l)
    (field "fill" fill_of (mk_fill false false 0 fzero fzero None fzero) l)
    (outlines "polygon" r) (outlines "filled_polygon" r)
    (fold_left (fun a x => match free_outline "fill_segments" x with Some p => Some p | None => a end) r None)
    (filter (fun x => match free_outline "polygon" x, free_outline "filled_polygon" x, free_outline "fill_segments" x with None, None, None => true | _, _, _ => false end) r).
Definition host_of (s : sexp) : host := let l := kids s in mk_host (txt (arg 0 l)) (txt (arg 1 l)).
Definition heads : list string := ["version"; "host"; "general"; "page"; "layers"; "setup"].
Definition is_head (s : sexp) : bool := existsb (fun k => called k s) heads.
Definition board_element_of (s : sexp) : ly_element :=
  choose [("module", YModule (module_of s)); ("net", YNet (board_net_of s)); ("net_class", YNetClass (class_of s)); ("gr_text", YGrText (board_text_of s));
      ("dimension", YDimension (dimension_of s)); ("zone", YZone (zone_of s)); ("gr_line", YGrLine (board_line_of s)); ("gr_arc", YGrArc (board_arc_of s));
      ("gr_circle", YGrCircle (board_circle_of s)); ("segment", YSegment (segment_of s)); ("via", YVia (via_of s))]
    (YOther s) (name_of s).
Definition layout_of (s : sexp) : layout :=
  let l := kids s in
  mk_layout (last_field "version" (value integer) 4%Z l) (last_field "host" host_of (mk_host (lit "pcbnew") (lit "custom")) l)
    (last_field "general" general_of (mk_general 0 0 (mk_area fzero fzero fzero fzero) (flit "1.6") 0 0 0 0 0) l)
    (last_field "page" (value txt) (lit "A4") l) (last_field "setup" setup_of (mk_setup [] []) l)
    (last_field "layers" (fun x => map board_layer_of (kids x)) [] l)
    (map board_element_of (filter (fun x => negb (is_head x)) l)).

(** ** Library tables *)
Definition lib_of (s : sexp) : flib :=
  let l := kids s in mk_flib (txt_field "name" l) (txt_field "type" l) (txt_field "uri" l) (txt_field "options" l) (txt_field "descr" l).
Definition table_of (s : sexp) : fp_lib_table := map lib_of (kids s).
