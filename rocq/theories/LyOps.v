(** Operations on layouts (/repo/src/layout/data.rs). *)
From Coq Require Import String.
From Verif Require Import Base Str Num F64 F64Text Sexp FpData FpOps Bound LyData.
Open Scope string_scope. Open Scope list_scope.

(** ** Adjust *)
(** data.rs:351-355 *)
Definition adjust_gr_text (x y : f64) (t : gr_text) : gr_text :=
  mk_grtext (gt_value t) (adjust_at x y (gt_at t)) (gt_layer t) (gt_effects t) (gt_tstamp t).
(** data.rs:381-386, 415-420, 448-455 *)
Definition adjust_gr_line (x y : f64) (l : gr_line) : gr_line :=
  mk_grline (adjust_xy x y (gl_start l)) (adjust_xy x y (gl_end l)) (gl_angle l) (gl_layer l)
            (gl_width l) (gl_tstamp l).
Definition adjust_gr_arc (x y : f64) (l : gr_arc) : gr_arc :=
  mk_grarc (adjust_xy x y (ga_start l)) (adjust_xy x y (ga_end l)) (ga_angle l) (ga_layer l)
           (ga_width l) (ga_tstamp l).
Definition adjust_gr_circle (x y : f64) (c : gr_circle) : gr_circle :=
  mk_grcircle (adjust_xy x y (gc_center c)) (adjust_xy x y (gc_end c)) (gc_layer c) (gc_width c)
              (gc_tstamp c).
(** data.rs:500-511 *)
Definition adjust_dimension (x y : f64) (d : dimension) : dimension :=
  mk_dim (di_name d) (di_width d) (di_layer d) (di_tstamp d) (adjust_gr_text x y (di_text d))
    (adjust_pts x y (di_feature1 d)) (adjust_pts x y (di_feature2 d))
    (adjust_pts x y (di_crossbar d)) (adjust_pts x y (di_arrow1a d))
    (adjust_pts x y (di_arrow1b d)) (adjust_pts x y (di_arrow2a d))
    (adjust_pts x y (di_arrow2b d)).
(** data.rs:548-553, 586-590 *)
Definition adjust_segment (x y : f64) (s : segment) : segment :=
  mk_seg (adjust_xy x y (sg_start s)) (adjust_xy x y (sg_end s)) (sg_width s) (sg_layer s)
         (sg_net s) (sg_tstamp s) (sg_status s).
Definition adjust_via (x y : f64) (v : via) : via :=
  mk_via (vi_blind v) (vi_micro v) (adjust_at x y (vi_at v)) (vi_size v) (vi_drill v)
         (vi_layers v) (vi_net v).
(** data.rs:93-105 *)
Definition adjust_zone (x y : f64) (z : zone) : zone :=
  mk_zone (zo_net z) (zo_net_name z) (zo_layer z) (zo_tstamp z) (zo_hatch z) (zo_priority z)
    (zo_connect z) (zo_min z) (zo_keepout z) (zo_fill z)
    (map (adjust_pts x y) (zo_polygons z)) (map (adjust_pts x y) (zo_filled z))
    (option_map (adjust_pts x y) (zo_segments z)) (zo_other z).
(** data.rs:868-883 *)
Definition adjust_ly_element (x y : f64) (e : ly_element) : ly_element :=
  match e with
  | YModule m => YModule (adjust_module x y m)
  | YGrText t => YGrText (adjust_gr_text x y t)
  | YGrLine l => YGrLine (adjust_gr_line x y l)
  | YGrArc a => YGrArc (adjust_gr_arc x y a)
  | YGrCircle c => YGrCircle (adjust_gr_circle x y c)
  | YDimension d => YDimension (adjust_dimension x y d)
  | YSegment s => YSegment (adjust_segment x y s)
  | YVia v => YVia (adjust_via x y v)
  | YZone z => YZone (adjust_zone x y z)
  | YNet _ | YNetClass _ | YOther _ => e
  end.
Definition with_elements (l : layout) (es : list ly_element) : layout :=
  mk_layout (ly_version l) (ly_host l) (ly_general l) (ly_page l) (ly_setup l) (ly_layers l) es.
(** data.rs:616-622 *)
Definition adjust_layout (x y : f64) (l : layout) : layout :=
  with_elements l (map (adjust_ly_element x y) (ly_elements l)).

(** ** Bounding boxes *)
(** data.rs:357-362 *)
Definition gr_text_bound (t : gr_text) : bound := bound_point (at_x (gt_at t)) (at_y (gt_at t)).
(** The same four lines in data.rs:388-396, 422-430, 555-563. *)
Definition minmax_bound (a b : xy) : bound :=
  bound_new (fmin (xy_x a) (xy_x b)) (fmin (xy_y a) (xy_y b))
            (fmax (xy_x a) (xy_x b)) (fmax (xy_y a) (xy_y b)).
(** data.rs:457-469 *)
Definition gr_circle_bound (c : gr_circle) : bound :=
  let dx := fsub (xy_x (gc_center c)) (xy_x (gc_end c)) in
  let dy := fsub (xy_y (gc_center c)) (xy_y (gc_end c)) in
  let r := fsqrt (fadd (fmul dx dx) (fmul dy dy)) in
  bound_new (fsub (xy_x (gc_center c)) r) (fsub (xy_y (gc_center c)) r)
            (fadd (xy_x (gc_center c)) r) (fadd (xy_y (gc_center c)) r).
(** data.rs:513-526; no [swap_if_needed] here *)
Definition dimension_bound (d : dimension) : bound :=
  bound_all bound_default
    [gr_text_bound (di_text d); pts_bound (di_feature1 d); pts_bound (di_feature2 d);
     pts_bound (di_crossbar d); pts_bound (di_arrow1a d); pts_bound (di_arrow1b d);
     pts_bound (di_arrow2a d); pts_bound (di_arrow2b d)].
(** data.rs:592-600 *)
Definition via_bound (v : via) : bound :=
  bound_new (fsub (at_x (vi_at v)) (vi_size v)) (fsub (at_y (vi_at v)) (vi_size v))
            (fadd (at_x (vi_at v)) (vi_size v)) (fadd (at_y (vi_at v)) (vi_size v)).
Definition opt_to_list {A} (o : option A) : list A := match o with Some x => [x] | None => [] end.
(** data.rs:107-122 *)
Definition zone_bound (z : zone) : bound :=
  bound_swap
    (bound_all bound_default
       (map pts_bound (zo_polygons z) ++ map pts_bound (zo_filled z)
        ++ map pts_bound (opt_to_list (zo_segments z)))).
(** data.rs:885-900 *)
Definition ly_element_bound (e : ly_element) : bound :=
  match e with
  | YModule m => module_bound m
  | YGrText t => gr_text_bound t
  | YGrLine l => minmax_bound (gl_start l) (gl_end l)
  | YGrArc a => minmax_bound (ga_start a) (ga_end a)
  | YGrCircle c => gr_circle_bound c
  | YDimension d => dimension_bound d
  | YSegment s => minmax_bound (sg_start s) (sg_end s)
  | YVia v => via_bound v
  | YZone z => zone_bound z
  | YNet _ | YNetClass _ | YOther _ => bound_default
  end.
(** data.rs:624-633 *)
Definition layout_bound (l : layout) : bound :=
  bound_swap (bound_all bound_default (map ly_element_bound (ly_elements l))).

(** ** Net names *)
(** data.rs:285-290 *)
Definition replace_block (from to n : str) : str :=
  replace (lit "/" ++ from ++ lit "/") (lit "/" ++ to ++ lit "/") n.
(** data.rs:293-297 *)
Definition rename (from to n : str) : str := if str_eqb n from then to else n.

(** An update function [Fn(&mut NetName) -> Result<(), KicadError>]: the text it
    leaves behind and the error it reports, if any. *)
Definition name_update := str -> str * option ekind.

(** [for x in .. { f(x)?; }] over mutable items: stops at the first error,
    leaving the later items untouched. *)
Fixpoint for_each {A} (f : A -> A * option ekind) (l : list A) : list A * option ekind :=
  match l with
  | [] => ([], None)
  | x :: r =>
      let '(x', e) := f x in
      match e with
      | Some k => (x' :: r, Some k)
      | None => let '(r', e') := for_each f r in (x' :: r', e')
      end
  end.

Definition with_net (p : pad) (n : option fnet) : pad :=
  mk_pad (pa_name p) (pa_t p) (pa_shape p) (pa_size p) (pa_rect_delta p) (pa_at p) (pa_layers p)
         n (pa_zone_connect p) (pa_drill p)
         (pa_paste_margin p) (pa_mask_margin p) (pa_clearance p) (pa_thermal_gap p).

(** data.rs:669-675, one footprint element *)
Definition update_pad_net (u : name_update) (e : element) : element * option ekind :=
  match e with
  | EPad p =>
      match pa_net p with
      | Some n => let '(s, k) := u (fn_name n) in (EPad (with_net p (Some (mk_fnet (fn_num n) s))), k)
      | None => (e, None)
      end
  | _ => (e, None)
  end.

Definition with_nc_nets (n : net_class) (l : list str) : net_class :=
  mk_nc (nc_name n) (nc_desc n) (nc_clearance n) (nc_trace_width n) (nc_via_dia n) (nc_via_drill n)
        (nc_uvia_dia n) (nc_uvia_drill n) (nc_dp_gap n) (nc_dp_width n) l.
Definition with_zone_name (z : zone) (s : str) : zone :=
  mk_zone (zo_net z) s (zo_layer z) (zo_tstamp z) (zo_hatch z) (zo_priority z)
    (zo_connect z) (zo_min z) (zo_keepout z) (zo_fill z) (zo_polygons z) (zo_filled z)
    (zo_segments z) (zo_other z).

(** data.rs:662-680, one layout element *)
Definition update_element_nets (u : name_update) (e : ly_element) : ly_element * option ekind :=
  match e with
  | YNet n => let '(s, k) := u (ne_name n) in (YNet (mk_net (ne_num n) s), k)
  | YNetClass n => let '(l, k) := for_each u (nc_nets n) in (YNetClass (with_nc_nets n l), k)
  | YModule m =>
      let '(l, k) := for_each (update_pad_net u) (m_elements m) in
      (YModule (mk_module (m_name m) l), k)
  | YZone z => let '(s, k) := u (zo_net_name z) in (YZone (with_zone_name z s), k)
  | _ => (e, None)
  end.
(** data.rs:657-683 *)
Definition update_net_names (u : name_update) (l : layout) : layout * option ekind :=
  let '(es, k) := for_each (update_element_nets u) (ly_elements l) in (with_elements l es, k).
(** data.rs:648-654; [unwrap] panics on an error *)
Definition change_net_name (old new : str) (l : layout) : res layout :=
  match update_net_names (fun n => (rename old new n, None)) l with
  | (l', None) => Ok l'
  | (_, Some _) => Panic
  end.

Definition is_net_sep (c : N) : bool := N.eqb c 45 || N.eqb c 40 || N.eqb c 41.
(** data.rs:904-915 *)
Definition is_unnamed_net (n : str) : option (str * str) :=
  if starts_with (lit "Net-(") n then
    match split_on is_net_sep n with
    | [_; _; a; b; _] => Some (a, b)
    | _ => None
    end
  else None.
(** data.rs:918-925: the new text and the result *)
Definition set_unnamed_net (new n : str) : str * option ekind :=
  match is_unnamed_net n with
  | Some (_, pad) => (lit "Net-(" ++ new ++ lit "-" ++ pad ++ lit ")", None)
  | None => (n, Some EOther)
  end.

(** ** Views and lookups *)
(** data.rs:637-645 *)
Definition nets (l : layout) : list net :=
  flat_map (fun e => match e with YNet n => [n] | _ => [] end) (ly_elements l).
(** data.rs:686-694 *)
Definition netclasses (l : layout) : list net_class :=
  flat_map (fun e => match e with YNetClass n => [n] | _ => [] end) (ly_elements l).
(** data.rs:720-728 *)
Definition get_modules (l : layout) : list module :=
  flat_map (fun e => match e with YModule m => [m] | _ => [] end) (ly_elements l).

(** data.rs:697-717 *)
Definition get_module (l : layout) (r : str) : option module :=
  find_map (fun e => match e with
                     | YModule m => if is_reference_with_name m r then Some m else None
                     | _ => None
                     end) (ly_elements l).

(** data.rs:731-754: the layout afterwards and the result *)
Fixpoint modify_first (r : str) (f : module -> module) (l : list ly_element)
  : list ly_element * option ekind :=
  match l with
  | [] => ([], Some EOther)
  | YModule m :: t =>
      if is_reference_with_name m r then (YModule (f m) :: t, None)
      else let '(t', k) := modify_first r f t in (YModule m :: t', k)
  | e :: t => let '(t', k) := modify_first r f t in (e :: t', k)
  end.
Definition modify_module (l : layout) (r : str) (f : module -> module) : layout * option ekind :=
  let '(es, k) := modify_first r f (ly_elements l) in (with_elements l es, k).

(** data.rs:757-762 *)
Definition add_net (num : Z) (name : str) (l : layout) : layout :=
  with_elements l (ly_elements l ++ [YNet (mk_net num name)]).
(** data.rs:765-792; the eleven arguments are the fields of the class *)
Definition add_netclass (n : net_class) (l : layout) : layout :=
  with_elements l (ly_elements l ++ [YNetClass n]).

(** data.rs:831-838 *)
Definition has_net (n : net_class) (name : str) : bool := existsb (fun s => str_eqb s name) (nc_nets n).
(** derived [PartialEq], data.rs:310 *)
Definition net_class_eqb (a b : net_class) : bool :=
  str_eqb (nc_name a) (nc_name b) && str_eqb (nc_desc a) (nc_desc b)
  && feqb (nc_clearance a) (nc_clearance b) && feqb (nc_trace_width a) (nc_trace_width b)
  && feqb (nc_via_dia a) (nc_via_dia b) && feqb (nc_via_drill a) (nc_via_drill b)
  && feqb (nc_uvia_dia a) (nc_uvia_dia b) && feqb (nc_uvia_drill a) (nc_uvia_drill b)
  && opt_eqb feqb (nc_dp_gap a) (nc_dp_gap b) && opt_eqb feqb (nc_dp_width a) (nc_dp_width b)
  && list_eqb str_eqb (nc_nets a) (nc_nets b).
(** data.rs:822-828 *)
Definition equal_no_net (a b : net_class) : bool :=
  net_class_eqb (with_nc_nets a []) (with_nc_nets b []).

(** ** Setup *)
(** data.rs:843-850 *)
Definition setup_get (u : setup) (n : str) : option str :=
  find_map (fun e => if str_eqb (se_name e) n then Some (se_value1 e) else None) (su_elements u).
(** data.rs:853-865 *)
Fixpoint update_first (n v : str) (l : list setup_element) : list setup_element :=
  match l with
  | [] => [mk_se n v None]
  | e :: r => if str_eqb (se_name e) n then mk_se (se_name e) v (se_value2 e) :: r
              else e :: update_first n v r
  end.
Definition setup_update (n v : str) (u : setup) : setup :=
  mk_setup (update_first n v (su_elements u)) (su_plot u).
