(** What the program says when a tree is not a footprint or a board: the readers of FpDe.v and
    LyDe.v with the texts the program itself gives its errors
    (/repo/src/footprint/de.rs, /repo/src/footprint/data.rs, /repo/src/layout/de.rs). *)
From Coq Require Import String.
From Verif Require Import Base Str Num F64 F64Text Sexp FpData FpLayer FpDe LyData LyDe.
Open Scope string_scope. Open Scope list_scope.

(** The outcome of a reader: a value; an error made from a text of the program, as in
    [format!(..).into()]; an error of the dependency, whose text is not modelled; an abort. *)
Inductive told (A : Type) : Type :=
| TFine (a : A) | TSays (m : str) | TOther | TStops.
Arguments TFine {A} a. Arguments TSays {A} m. Arguments TOther {A}. Arguments TStops {A}.

(** The operator [?] *)
Definition tbind {A B} (r : told A) (f : A -> told B) : told B :=
  match r with TFine a => f a | TSays m => TSays m | TOther => TOther | TStops => TStops end.
Notation "'ask' x <- r ; k" := (tbind r (fun x => k)) (at level 200, x pattern, r at level 100, k at level 200, right associativity).
(** A reader all of whose errors come from the dependency, or are dropped by [maybe_t]
    before they get out *)
Definition tlift {A} (r : res A) : told A := match r with Ok a => TFine a | Err _ => TOther | Panic => TStops end.

(** ** The [IterAtom] helper; see Sexp.v *)
Definition TP (A : Type) := list sexp -> told (A * list sexp).
Definition tpbind {A B} (p : TP A) (f : A -> TP B) : TP B :=
  fun l => match p l with TFine (a, r) => f a r | TSays m => TSays m | TOther => TOther | TStops => TStops end.
Notation "'see' x := p 'in' k" := (tpbind p (fun x => k)) (at level 200, x pattern, p at level 100, k at level 200, right associativity).
Definition tplift {A} (r : told A) : TP A := fun l => ask a <- r; TFine (a, l).
Definition tp_of {A} (p : P A) : TP A := fun l => tlift (p l).
Definition t_new {A} (s : sexp) (name : str) (p : TP A) : told A :=
  match s with
  | SList (SStr n :: r) => if str_eqb n name then ask ar <- p r; TFine (fst ar) else TOther
  | _ => TOther
  end.
Definition t_nameless {A} (s : sexp) (p : TP A) : told A :=
  match s with SList l => ask ar <- p l; TFine (fst ar) | _ => TOther end.
Definition tp_t {A} (from : sexp -> told A) : TP A :=
  fun l => match l with x :: r => ask a <- from x; TFine (a, r) | [] => TOther end.
Definition tp_in_list {A} (name : string) (from : sexp -> told A) : TP A :=
  tp_t (fun s => ask v <- tlift (sx_slice1 (lit name) s); from v).
Fixpoint tmapM {A} (f : sexp -> told A) (l : list sexp) : told (list A) :=
  match l with
  | [] => TFine []
  | x :: r => ask a <- f x; ask v <- tmapM f r; TFine (a :: v)
  end.
Definition tp_vec {A} (from : sexp -> told A) : TP (list A) := fun l => ask v <- tmapM from l; TFine (v, []).
Fixpoint tfoldM {A} (f : A -> sexp -> told A) (a : A) (l : list sexp) : told A :=
  match l with
  | [] => TFine a
  | x :: r => ask b <- f a x; tfoldM f b r
  end.
Definition tmap {A B} (f : A -> B) (r : told A) : told B := ask a <- r; TFine (f a).

(** ** Footprints *)
(** data.rs:934-954 *)
Definition layer_told (s : str) : told layer :=
  match split_on is_dot s with
  | [a; b] => match side_of_str a with
              | Some sd => TFine (mk_layer sd (ltype_of_str b))
              | None => TSays (lit "unknown layer side " ++ a)
              end
  | a :: _ => TFine (mk_layer SNone (ltype_of_str a))
  | [] => TOther
  end.
(** de.rs:44-51 *)
Definition t_layer (s : sexp) : told layer :=
  t_new s (lit "layer") (see n := tp_of p_s in see l := tplift (layer_told n) in tp_of (p_close l)).
(** de.rs:94-105 *)
Definition t_layers (s : sexp) : told layers :=
  t_new s (lit "layers") (tp_vec (fun x => ask n <- tlift (sx_string x); layer_told n)).
(** de.rs:134-142 *)
Definition xy_type_told (s : str) : told xy_type :=
  if str_eqb s (lit "xy") then TFine XXy
  else if str_eqb s (lit "start") then TFine XStart
  else if str_eqb s (lit "end") then TFine XEnd
  else if str_eqb s (lit "size") then TFine XSize
  else if str_eqb s (lit "center") then TFine XCenter
  else if str_eqb s (lit "rect_delta") then TFine XRectDelta
  else TSays (lit "unknown XyType " ++ s).
(** de.rs:131-149 *)
Definition t_xy (s : sexp) : told xy :=
  ask name <- tlift (sx_list_name s);
  ask t <- xy_type_told name;
  t_new s name (see x := tp_of p_f in see y := tp_of p_f in tp_of (p_close (mk_xy x y t))).
(** de.rs:151-157 *)
Definition t_pts (s : sexp) : told pts := t_new s (lit "pts") (tp_vec t_xy).

Section Show.
(** How the dependency shows a tree (its [Display]), and how the standard library shows a
    number with [{:?}]; neither is modelled here. *)
Context (sh : sexp -> str) (dbg : f64 -> str).

(** de.rs:107-129 *)
Definition t_second {A} (conv : sexp -> res A) (s : sexp) : told A :=
  ask l <- tlift (sx_list s);
  match l with
  | _ :: x :: _ => tlift (conv x)
  | _ => TSays (lit "not enough elements in " ++ sh s)
  end.
(** de.rs:196-210 *)
Definition t_part (s : sexp) : told part :=
  ask name <- tlift (sx_list_name s);
  if str_eqb name (lit "thickness") then tmap PaThickness (t_second sx_f s)
  else if str_eqb name (lit "net") then tmap PaNet (tlift (de_fnet s))
  else if str_eqb name (lit "solder_paste_margin") then tmap PaPaste (t_second sx_f s)
  else if str_eqb name (lit "solder_mask_margin") then tmap PaMask (t_second sx_f s)
  else if str_eqb name (lit "clearance") then tmap PaClearance (t_second sx_f s)
  else if str_eqb name (lit "thermal_gap") then tmap PaThermalGap (t_second sx_f s)
  else if str_eqb name (lit "zone_connect") then tmap PaZoneConnect (t_second sx_i s)
  else TSays (lit "unknown part " ++ name).
(** data.rs:798-804, 823-830 *)
Definition pad_type_told (s : str) : told pad_type :=
  if str_eqb s (lit "smd") then TFine Smd
  else if str_eqb s (lit "thru_hole") then TFine Pth
  else if str_eqb s (lit "np_thru_hole") then TFine NpPth
  else TSays (lit "unknown PadType " ++ s).
Definition pad_shape_told (s : str) : told pad_shape :=
  if str_eqb s (lit "rect") then TFine Rect
  else if str_eqb s (lit "circle") then TFine Circle
  else if str_eqb s (lit "oval") then TFine Oval
  else if str_eqb s (lit "trapezoid") then TFine Trapezoid
  else TSays (lit "unknown PadShape: " ++ s).
(** de.rs:262-272; the derived [Debug] of [Part::Thickness(f)] is its name and the number. *)
Definition pad_part_told (p : pad) (x : part) : told pad :=
  match x with
  | PaThickness f => TSays (lit "pad: unknown Thickness(" ++ dbg f ++ lit ")")
  | _ => tlift (pad_part p x)
  end.
Fixpoint pad_parts_told (p : pad) (l : list part) : told pad :=
  match l with
  | [] => TFine p
  | x :: r => ask q <- pad_part_told p x; pad_parts_told q r
  end.
(** de.rs:236-275 *)
Definition t_pad (s : sexp) : told pad :=
  t_new s (lit "pad")
    (see name := tp_of p_s in
     see ts := tp_of p_s in
     see t := tplift (pad_type_told ts) in
     see ss := tp_of p_s in
     see shp := tplift (pad_shape_told ss) in
     see a := tp_of (p_maybe de_at) in
     see p := tp_of (p_maybe de_xy) in
     let size := match p with
                 | Some q => if xy_type_eqb (xy_t q) XSize then q else xy_empty XSize
                 | None => xy_empty XSize
                 end in
     let rd := match p with
               | Some q => if xy_type_eqb (xy_t q) XSize then None
                           else if xy_type_eqb (xy_t q) XRectDelta then Some q else None
               | None => None
               end in
     see dr := tp_of (p_maybe de_drill) in
     see la := tp_of (p_maybe de_layers) in
     see parts := tp_vec t_part in
     tplift (pad_parts_told
              (mk_pad name t shp size rd (default at_default a) (default [] la) None None dr
                      None None None None) parts)).
(** de.rs:407-440 *)
Definition t_element (s : sexp) : told element :=
  match s with
  | SStr w => if str_eqb w (lit "locked") then TFine ELocked else TSays (lit "unknown element in module: " ++ w)
  | SList _ =>
      ask name <- tlift (sx_list_name s);
      if str_eqb name (lit "solder_mask_margin") then tmap ESolderMaskMargin (tlift (de_float_element s))
      else if str_eqb name (lit "layer") then tmap ELayer (t_layer s)
      else if str_eqb name (lit "descr") then tmap EDescr (tlift (de_string_element s))
      else if str_eqb name (lit "tags") then tmap ETags (tlift (de_string_element s))
      else if str_eqb name (lit "attr") then tmap EAttr (tlift (de_string_element s))
      else if str_eqb name (lit "fp_text") then tmap EFpText (tlift (de_text s))
      else if str_eqb name (lit "pad") then tmap EPad (t_pad s)
      else if str_eqb name (lit "fp_poly") then tmap EFpPoly (tlift (de_poly s))
      else if str_eqb name (lit "fp_line") then tmap EFpLine (tlift (de_line s))
      else if str_eqb name (lit "fp_circle") then tmap EFpCircle (tlift (de_circle s))
      else if str_eqb name (lit "fp_arc") then tmap EFpArc (tlift (de_arc s))
      else if str_eqb name (lit "tedit") then tmap ETEdit (tlift (de_stamp_element s))
      else if str_eqb name (lit "tstamp") then tmap ETStamp (tlift (de_stamp_element s))
      else if str_eqb name (lit "path") then tmap EPath (tlift (de_string_element s))
      else if str_eqb name (lit "at") then tmap EAt (tlift (de_at s))
      else if str_eqb name (lit "model") then tmap EModel (tlift (de_model s))
      else if str_eqb name (lit "clearance") then tmap EClearance (tlift (de_float_element s))
      else TSays (lit "unknown element in module: " ++ name)
  | SEmpty => TStops
  end.
(** de.rs:442-453 *)
Definition t_module (s : sexp) : told module :=
  t_new s (lit "module")
    (see name := tp_of p_s in see es := tp_vec t_element in tp_of (pret (mk_module name es))).

(** ** Boards (layout/de.rs) *)
(** de.rs:147-159 *)
Definition t_ly_type (s : sexp) : told ly_layer_type :=
  ask x <- tlift (sx_string s);
  if str_eqb x (lit "signal") then TFine TSignal
  else if str_eqb x (lit "power") then TFine TPower
  else if str_eqb x (lit "mixed") then TFine TMixed
  else if str_eqb x (lit "jumper") then TFine TJumper
  else if str_eqb x (lit "user") then TFine TUser
  else TSays (lit "unknown layertype " ++ x ++ lit " in " ++ sh s).
(** de.rs:131-145 *)
Definition t_ly_layer (s : sexp) : told ly_layer :=
  t_nameless s
    (see n := tp_of p_i in
     see w := tp_of p_s in
     see l := tplift (layer_told w) in
     see t := tp_t t_ly_type in
     see h := tp_of p_maybe_s in
     tp_of (p_close (mk_ly_layer n l t (is_some h)))).
(** de.rs:117-129 *)
Definition t_ly_layers (s : sexp) : told (list ly_layer) := t_new s (lit "layers") (tp_vec t_ly_layer).
(** de.rs:194-212; the names of the fields are those of [nc_step]. *)
Definition nc_told (n : net_class) (x : sexp) : told net_class :=
  ask k <- tlift (sx_list_name x);
  if existsb (fun j => str_eqb k (lit j))
       ["add_net"; "clearance"; "trace_width"; "via_dia"; "via_drill"; "uvia_dia"; "uvia_drill"; "diff_pair_gap"; "diff_pair_width"]
  then tlift (nc_step n x)
  else TSays (lit "unknown net_class field " ++ k).
(** de.rs:173-226 *)
Definition t_net_class (s : sexp) : told net_class :=
  t_new s (lit "net_class")
    (see name := tp_of p_s in
     see desc := tp_of p_s in
     (fun l => ask n <- tfoldM nc_told (nc_start name desc) l; TFine (n, []))).
(** de.rs:259-270 *)
Definition t_gr_text (s : sexp) : told gr_text :=
  t_new s (lit "gr_text")
    (see v := tp_of p_s in see a := tp_of (p_t de_at) in see l := tp_t t_layer in
     see e := tp_of (p_t de_effects) in see t := tp_of p_tstamp in
     tp_of (p_close (mk_grtext v a l e t))).
(** de.rs:272-284 *)
Definition t_gr_line (s : sexp) : told gr_line :=
  t_new s (lit "gr_line")
    (see a := tp_t t_xy in see b := tp_t t_xy in
     see an := tp_of (p_maybe_in "angle" sx_f) in
     see l := tp_t t_layer in
     see w := tp_of (p_maybe_in "width" sx_f) in
     see t := tp_of p_tstamp in
     tp_of (p_close (mk_grline a b (default fzero an) l (default fzero w) t))).
(** de.rs:286-299 *)
Definition t_gr_arc (s : sexp) : told gr_arc :=
  t_new s (lit "gr_arc")
    (see a := tp_t t_xy in see b := tp_t t_xy in
     see an := tp_of (p_f_in "angle") in
     see l := tp_t t_layer in
     see w := tp_of (p_maybe_in "width" sx_f) in
     see t := tp_of p_tstamp in
     tp_of (p_close (mk_grarc a b an l (default fzero w) t))).
(** de.rs:301-313 *)
Definition t_gr_circle (s : sexp) : told gr_circle :=
  t_new s (lit "gr_circle")
    (see a := tp_t t_xy in see b := tp_t t_xy in
     see l := tp_t t_layer in
     see w := tp_of (p_maybe_in "width" sx_f) in
     see t := tp_of p_tstamp in
     tp_of (p_close (mk_grcircle a b l (default fzero w) t))).
(** de.rs:316-334 *)
Definition t_dimension (s : sexp) : told dimension :=
  t_new s (lit "dimension")
    (see n := tp_of p_s in
     see w := tp_of (p_f_in "width") in
     see l := tp_t t_layer in
     see t := tp_of p_tstamp in
     see tx := tp_t t_gr_text in
     see f1 := tp_in_list "feature1" t_pts in
     see f2 := tp_in_list "feature2" t_pts in
     see cb := tp_in_list "crossbar" t_pts in
     see a1 := tp_in_list "arrow1a" t_pts in
     see b1 := tp_in_list "arrow1b" t_pts in
     see a2 := tp_in_list "arrow2a" t_pts in
     see b2 := tp_in_list "arrow2b" t_pts in
     tp_of (p_close (mk_dim n w l t tx f1 f2 cb a1 b1 a2 b2))).
(** de.rs:336-382; what follows the fixed part cannot fail. *)
Definition t_zone (s : sexp) : told zone :=
  t_new s (lit "zone")
    (see n := tp_of (p_i_in "net") in
     see nn := tp_of (p_s_in "net_name") in
     see l := tp_t t_layer in
     tp_of
    (let* t := p_s_in "tstamp" in
     let* h := p_t de_hatch in
     let* pr := p_maybe_in "priority" sx_i in
     let* cp := p_t de_connect in
     let* mt := p_f_in "min_thickness" in
     let* ko := p_maybe de_keepout in
     let* fi := p_t de_fill in
     (fun r => do z <- foldM zone_step (mk_zr [] [] None []) r;
               Ok (mk_zone n nn l t h (u64_of_i64 (default 0%Z pr)) cp mt ko fi
                     (zr_polygons z) (zr_filled z) (zr_segments z) (zr_other z), [])))).
(** de.rs:431-444 *)
Definition t_segment (s : sexp) : told segment :=
  t_new s (lit "segment")
    (see a := tp_t t_xy in see b := tp_t t_xy in
     see w := tp_of (p_f_in "width") in
     see l := tp_t t_layer in
     see n := tp_of (p_i_in "net") in
     see t := tp_of p_tstamp in
     see st := tp_of (p_maybe_in "status" sx_string) in
     tp_of (p_close (mk_seg a b w l n t st))).
(** de.rs:447-460 *)
Definition t_via (s : sexp) : told via :=
  t_new s (lit "via")
    (see b := tp_of (p_maybe_lit "blind") in
     see m := tp_of (p_maybe_lit "micro") in
     see a := tp_of (p_t de_at) in
     see sz := tp_of (p_f_in "size") in
     see dr := tp_of (p_maybe_in "drill" sx_f) in
     see ls := tp_t t_layers in
     see n := tp_of (p_maybe_in "net" sx_i) in
     tp_of (p_close (mk_via (is_some b) (is_some m) a sz (default fzero dr) ls (default 0%Z n)))).
Definition push_told {A} (l : layout) (c : A -> ly_element) (r : told A) : told layout :=
  ask a <- r; TFine (push_element l (c a)).
(** de.rs:468-523 *)
Definition layout_told (l : layout) (e : sexp) : told layout :=
  let '(mk_layout v h g p su la es) := l in
  ask k <- tlift (sx_list_name e);
  if str_eqb k (lit "layers") then ask x <- t_ly_layers e; TFine (mk_layout v h g p su x es)
  else if str_eqb k (lit "module") then push_told l YModule (t_module e)
  else if str_eqb k (lit "net_class") then push_told l YNetClass (t_net_class e)
  else if str_eqb k (lit "gr_text") then push_told l YGrText (t_gr_text e)
  else if str_eqb k (lit "gr_line") then push_told l YGrLine (t_gr_line e)
  else if str_eqb k (lit "gr_arc") then push_told l YGrArc (t_gr_arc e)
  else if str_eqb k (lit "gr_circle") then push_told l YGrCircle (t_gr_circle e)
  else if str_eqb k (lit "dimension") then push_told l YDimension (t_dimension e)
  else if str_eqb k (lit "zone") then push_told l YZone (t_zone e)
  else if str_eqb k (lit "segment") then push_told l YSegment (t_segment e)
  else if str_eqb k (lit "via") then push_told l YVia (t_via e)
  else tlift (layout_step l e).
(** de.rs:462-527 *)
Definition t_layout (s : sexp) : told layout :=
  t_new s (lit "kicad_pcb") (fun l => ask x <- tfoldM layout_told layout_default l; TFine (x, [])).
End Show.
