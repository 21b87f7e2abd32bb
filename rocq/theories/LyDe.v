(** S-expression to layout (/repo/src/layout/de.rs). *)
From Coq Require Import String.
From Verif Require Import Base Str Num F64 F64Text Sexp FpData FpLayer FpDe LyData.
Open Scope string_scope. Open Scope list_scope.

(** de.rs:19-25, 29-35 *)
Definition de_version (s : sexp) : res Z :=
  iter_new s (lit "version") (let* v := p_i in p_close v).
Definition de_page (s : sexp) : res str :=
  iter_new s (lit "page") (let* v := p_s in p_close v).

(** de.rs:39-45, 49-55, 59-65: Polygon, FilledPolygon, FillSegments *)
Definition de_pts_in (name : string) (s : sexp) : res pts :=
  iter_new s (lit name) (let* p := p_t de_pts in p_close p).

(** de.rs:67-75 *)
Definition de_net (s : sexp) : res net :=
  iter_new s (lit "net") (let* n := p_i in let* name := p_s in p_close (mk_net n name)).

(** de.rs:77-85 *)
Definition de_host (s : sexp) : res host :=
  iter_new s (lit "host") (let* t := p_s in let* b := p_s in p_close (mk_host t b)).

(** de.rs:104-115 *)
Definition de_area (s : sexp) : res area :=
  iter_new s (lit "area")
    (let* x1 := p_f in let* y1 := p_f in let* x2 := p_f in let* y2 := p_f in
     p_close (mk_area x1 y1 x2 y2)).

(** de.rs:87-102 *)
Definition de_general (s : sexp) : res general :=
  iter_new s (lit "general")
    (let* links := p_i_in "links" in
     let* nc := p_i_in "no_connects" in
     let* a := p_t de_area in
     let* th := p_f_in "thickness" in
     let* dr := p_i_in "drawings" in
     let* tr := p_i_in "tracks" in
     let* zo := p_i_in "zones" in
     let* mo := p_i_in "modules" in
     let* ne := p_i_in "nets" in
     p_close (mk_general links nc a th dr tr zo mo ne)).

(** de.rs:147-159 *)
Definition de_ly_type (s : sexp) : res ly_layer_type :=
  do x <- sx_string s;
  if str_eqb x (lit "signal") then Ok TSignal
  else if str_eqb x (lit "power") then Ok TPower
  else if str_eqb x (lit "mixed") then Ok TMixed
  else if str_eqb x (lit "jumper") then Ok TJumper
  else if str_eqb x (lit "user") then Ok TUser
  else Err ESexp.

(** de.rs:131-145 *)
Definition de_ly_layer (s : sexp) : res ly_layer :=
  iter_nameless s
    (let* n := p_i in
     let* w := p_s in
     let* l := plift (layer_from_str w) in
     let* t := p_t de_ly_type in
     let* h := p_maybe_s in
     p_close (mk_ly_layer n l t (is_some h))).

(** de.rs:117-129 *)
Definition de_ly_layers (s : sexp) : res (list ly_layer) :=
  iter_new s (lit "layers") (p_vec de_ly_layer).

(** de.rs:161-171 *)
Definition de_setup_element (s : sexp) : res setup_element :=
  iter_nameless s
    (let* n := p_s in let* v1 := p_s in let* v2 := p_maybe_s in p_close (mk_se n v1 v2)).

(** de.rs:175-179 *)
Definition de_nc_float (name : str) (s : sexp) : res f64 :=
  iter_new s name (let* f := p_f in p_close f).

(** The loop body de.rs:194-212 for one element.  [named_value_s] is a
    method of the dependency: the single string after the name. *)
Definition nc_step (n : net_class) (x : sexp) : res net_class :=
  let '(mk_nc nm de cl tw vd vr ud ur gap wid nets) := n in
  do k <- sx_list_name x;
  if str_eqb k (lit "add_net") then
    do v <- (do w <- sx_slice1 (lit "add_net") x; sx_string w);
    Ok (mk_nc nm de cl tw vd vr ud ur gap wid (nets ++ [v]))
  else if str_eqb k (lit "clearance") then
    do v <- de_nc_float k x; Ok (mk_nc nm de v tw vd vr ud ur gap wid nets)
  else if str_eqb k (lit "trace_width") then
    do v <- de_nc_float k x; Ok (mk_nc nm de cl v vd vr ud ur gap wid nets)
  else if str_eqb k (lit "via_dia") then
    do v <- de_nc_float k x; Ok (mk_nc nm de cl tw v vr ud ur gap wid nets)
  else if str_eqb k (lit "via_drill") then
    do v <- de_nc_float k x; Ok (mk_nc nm de cl tw vd v ud ur gap wid nets)
  else if str_eqb k (lit "uvia_dia") then
    do v <- de_nc_float k x; Ok (mk_nc nm de cl tw vd vr v ur gap wid nets)
  else if str_eqb k (lit "uvia_drill") then
    do v <- de_nc_float k x; Ok (mk_nc nm de cl tw vd vr ud v gap wid nets)
  else if str_eqb k (lit "diff_pair_gap") then
    do v <- de_nc_float k x; Ok (mk_nc nm de cl tw vd vr ud ur (Some v) wid nets)
  else if str_eqb k (lit "diff_pair_width") then
    do v <- de_nc_float k x; Ok (mk_nc nm de cl tw vd vr ud ur gap (Some v) nets)
  else Err ESexp.

(** A [for] loop that updates a state and may stop with an error. *)
Fixpoint foldM {A B} (f : A -> B -> res A) (a : A) (l : list B) : res A :=
  match l with
  | [] => Ok a
  | x :: r => do a' <- f a x; foldM f a' r
  end.

(** The initial values of de.rs:183-192. *)
Definition nc_start (name desc : str) : net_class :=
  mk_nc name desc (flit "0.1524") (flit "0.2032") (flit "0.675") (flit "0.25") (flit "0.508")
    (flit "0.127") None None [].

(** de.rs:173-226 *)
Definition de_net_class (s : sexp) : res net_class :=
  iter_new s (lit "net_class")
    (let* name := p_s in
     let* desc := p_s in
     (fun l => do n <- foldM nc_step (nc_start name desc) l; Ok (n, []))).

(** The loop body de.rs:233-245. *)
Definition setup_step (u : setup) (v : sexp) : res setup :=
  do n <- sx_list_name v;
  if str_eqb n (lit "pcbplotparams") then
    do ps <- iter_new v (lit "pcbplotparams") (p_vec de_setup_element);
    Ok (mk_setup (su_elements u) (su_plot u ++ ps))
  else
    do e <- de_setup_element v; Ok (mk_setup (su_elements u ++ [e]) (su_plot u)).

(** de.rs:228-251 *)
Definition de_setup (s : sexp) : res setup :=
  iter_new s (lit "setup") (fun l => do u <- foldM setup_step setup_default l; Ok (u, [])).

Definition p_tstamp : P (option str) := p_maybe_in "tstamp" sx_string.

(** de.rs:259-270 *)
Definition de_gr_text (s : sexp) : res gr_text :=
  iter_new s (lit "gr_text")
    (let* v := p_s in let* a := p_t de_at in let* l := p_t de_layer in
     let* e := p_t de_effects in let* t := p_tstamp in
     p_close (mk_grtext v a l e t)).

(** de.rs:272-284 *)
Definition de_gr_line (s : sexp) : res gr_line :=
  iter_new s (lit "gr_line")
    (let* a := p_t de_xy in let* b := p_t de_xy in
     let* an := p_maybe_in "angle" sx_f in
     let* l := p_t de_layer in
     let* w := p_maybe_in "width" sx_f in
     let* t := p_tstamp in
     p_close (mk_grline a b (default fzero an) l (default fzero w) t)).

(** de.rs:286-299 *)
Definition de_gr_arc (s : sexp) : res gr_arc :=
  iter_new s (lit "gr_arc")
    (let* a := p_t de_xy in let* b := p_t de_xy in
     let* an := p_f_in "angle" in
     let* l := p_t de_layer in
     let* w := p_maybe_in "width" sx_f in
     let* t := p_tstamp in
     p_close (mk_grarc a b an l (default fzero w) t)).

(** de.rs:301-313 *)
Definition de_gr_circle (s : sexp) : res gr_circle :=
  iter_new s (lit "gr_circle")
    (let* a := p_t de_xy in let* b := p_t de_xy in
     let* l := p_t de_layer in
     let* w := p_maybe_in "width" sx_f in
     let* t := p_tstamp in
     p_close (mk_grcircle a b l (default fzero w) t)).

(** de.rs:316-334 *)
Definition de_dimension (s : sexp) : res dimension :=
  iter_new s (lit "dimension")
    (let* n := p_s in
     let* w := p_f_in "width" in
     let* l := p_t de_layer in
     let* t := p_tstamp in
     let* tx := p_t de_gr_text in
     let* f1 := p_in_list "feature1" de_pts in
     let* f2 := p_in_list "feature2" de_pts in
     let* cb := p_in_list "crossbar" de_pts in
     let* a1 := p_in_list "arrow1a" de_pts in
     let* b1 := p_in_list "arrow1b" de_pts in
     let* a2 := p_in_list "arrow2a" de_pts in
     let* b2 := p_in_list "arrow2b" de_pts in
     p_close (mk_dim n w l t tx f1 f2 cb a1 b1 a2 b2)).

(** de.rs:384-392, 394-402 *)
Definition de_hatch (s : sexp) : res hatch :=
  iter_new s (lit "hatch") (let* st := p_s in let* p := p_f in p_close (mk_hatch st p)).
Definition de_connect (s : sexp) : res connect_pads :=
  iter_new s (lit "connect_pads")
    (let* c := p_maybe_s in let* cl := p_f_in "clearance" in p_close (mk_cp c cl)).

(** de.rs:403-412 *)
Definition not_not (s : str) : bool := negb (starts_with (lit "not") s).
Definition de_keepout (s : sexp) : res keepout :=
  iter_new s (lit "keepout")
    (let* t := p_s_in "tracks" in let* v := p_s_in "vias" in let* c := p_s_in "copperpour" in
     p_close (mk_ko (not_not t) (not_not v) (not_not c))).

(** de.rs:415-428 *)
Definition de_fill (s : sexp) : res fill :=
  iter_new s (lit "fill")
    (let* y := p_maybe_lit "yes" in
     let* m := p_maybe_in "mode" sx_string in
     let* a := p_i_in "arc_segments" in
     let* g := p_f_in "thermal_gap" in
     let* b := p_f_in "thermal_bridge_width" in
     let* sm := p_maybe_in "smoothing" sx_string in
     let* r := p_maybe_in "radius" sx_f in
     p_close (mk_fill (is_some y) (is_some m) a g b sm (default fzero r))).

(** The trailing elements of a zone, de.rs:348-365: [if let Ok(..)] keeps
    what cannot be read as uninterpreted.  A crash inside would propagate. *)
Record zone_rest := mk_zr {
  zr_polygons : list pts; zr_filled : list pts; zr_segments : option pts; zr_other : list sexp }.
Definition zone_step (z : zone_rest) (x : sexp) : res zone_rest :=
  let '(mk_zr ps fs sg ot) := z in
  match de_pts_in "polygon" x with
  | Ok p => Ok (mk_zr (ps ++ [p]) fs sg ot)
  | Panic => Panic
  | Err _ =>
      match de_pts_in "filled_polygon" x with
      | Ok p => Ok (mk_zr ps (fs ++ [p]) sg ot)
      | Panic => Panic
      | Err _ =>
          match de_pts_in "fill_segments" x with
          | Ok p => Ok (mk_zr ps fs (Some p) ot)
          | Panic => Panic
          | Err _ => Ok (mk_zr ps fs sg (ot ++ [x]))
          end
      end
  end.

(** Rust's [i64 as u64] *)
Definition u64_of_i64 (z : Z) : Z := (z mod 2 ^ 64)%Z.

(** de.rs:336-382 *)
Definition de_zone (s : sexp) : res zone :=
  iter_new s (lit "zone")
    (let* n := p_i_in "net" in
     let* nn := p_s_in "net_name" in
     let* l := p_t de_layer in
     let* t := p_s_in "tstamp" in
     let* h := p_t de_hatch in
     let* pr := p_maybe_in "priority" sx_i in
     let* cp := p_t de_connect in
     let* mt := p_f_in "min_thickness" in
     let* ko := p_maybe de_keepout in
     let* fi := p_t de_fill in
     (fun r => do z <- foldM zone_step (mk_zr [] [] None []) r;
               Ok (mk_zone n nn l t h (u64_of_i64 (default 0%Z pr)) cp mt ko fi
                     (zr_polygons z) (zr_filled z) (zr_segments z) (zr_other z), []))).

(** de.rs:431-444 *)
Definition de_segment (s : sexp) : res segment :=
  iter_new s (lit "segment")
    (let* a := p_t de_xy in let* b := p_t de_xy in
     let* w := p_f_in "width" in
     let* l := p_t de_layer in
     let* n := p_i_in "net" in
     let* t := p_tstamp in
     let* st := p_maybe_in "status" sx_string in
     p_close (mk_seg a b w l n t st)).

(** de.rs:447-460 *)
Definition de_via (s : sexp) : res via :=
  iter_new s (lit "via")
    (let* b := p_maybe_lit "blind" in
     let* m := p_maybe_lit "micro" in
     let* a := p_t de_at in
     let* sz := p_f_in "size" in
     let* dr := p_maybe_in "drill" sx_f in
     let* ls := p_t de_layers in
     let* n := p_maybe_in "net" sx_i in
     p_close (mk_via (is_some b) (is_some m) a sz (default fzero dr) ls (default 0%Z n))).

Definition push_element (l : layout) (e : ly_element) : layout :=
  let '(mk_layout v h g p su la es) := l in mk_layout v h g p su la (es ++ [e]).

(** [wrap(e, from_sexp, Element::X)] (lib.rs:239) followed by [push]. *)
Definition push_wrap {A} (l : layout) (c : A -> ly_element) (r : res A) : res layout :=
  do a <- r; Ok (push_element l (c a)).

(** The loop body de.rs:468-523. *)
Definition layout_step (l : layout) (e : sexp) : res layout :=
  let '(mk_layout v h g p su la es) := l in
  do k <- sx_list_name e;
  if str_eqb k (lit "version") then do x <- de_version e; Ok (mk_layout x h g p su la es)
  else if str_eqb k (lit "host") then do x <- de_host e; Ok (mk_layout v x g p su la es)
  else if str_eqb k (lit "general") then do x <- de_general e; Ok (mk_layout v h x p su la es)
  else if str_eqb k (lit "page") then do x <- de_page e; Ok (mk_layout v h g x su la es)
  else if str_eqb k (lit "layers") then do x <- de_ly_layers e; Ok (mk_layout v h g p su x es)
  else if str_eqb k (lit "module") then push_wrap l YModule (de_module e)
  else if str_eqb k (lit "net") then push_wrap l YNet (de_net e)
  else if str_eqb k (lit "net_class") then push_wrap l YNetClass (de_net_class e)
  else if str_eqb k (lit "gr_text") then push_wrap l YGrText (de_gr_text e)
  else if str_eqb k (lit "gr_line") then push_wrap l YGrLine (de_gr_line e)
  else if str_eqb k (lit "gr_arc") then push_wrap l YGrArc (de_gr_arc e)
  else if str_eqb k (lit "gr_circle") then push_wrap l YGrCircle (de_gr_circle e)
  else if str_eqb k (lit "dimension") then push_wrap l YDimension (de_dimension e)
  else if str_eqb k (lit "zone") then push_wrap l YZone (de_zone e)
  else if str_eqb k (lit "segment") then push_wrap l YSegment (de_segment e)
  else if str_eqb k (lit "via") then push_wrap l YVia (de_via e)
  else if str_eqb k (lit "setup") then do x <- de_setup e; Ok (mk_layout v h g p x la es)
  else Ok (push_element l (YOther e)).

(** de.rs:462-527 *)
Definition de_layout (s : sexp) : res layout :=
  iter_new s (lit "kicad_pcb")
    (fun l => do x <- foldM layout_step layout_default l; Ok (x, [])).
