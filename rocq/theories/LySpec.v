(** Specification notions for layout operations. *)
From Coq Require Import String.
From Flocq Require Import IEEE754.BinarySingleNaN.
From Verif Require Import Base Str Num F64 F64Text Sexp FpData FpOps FpOpsSpec LyData.
Open Scope string_scope. Open Scope list_scope.

(** ** Positions *)

(** All positions an element of a layout has, in order.  For a footprint this
    is the place where it is put. *)
Definition at_point (a : at_t) : f64 * f64 := (at_x a, at_y a).
Definition place_points (e : element) : list (f64 * f64) :=
  match e with EAt a => [at_point a] | _ => [] end.
Definition dim_pts (d : dimension) : list pts :=
  [di_feature1 d; di_feature2 d; di_crossbar d; di_arrow1a d; di_arrow1b d; di_arrow2a d; di_arrow2b d].
Definition zone_pts (z : zone) : list pts :=
  zo_polygons z ++ zo_filled z ++ match zo_segments z with Some p => [p] | None => [] end.
Definition pts_points (p : pts) : list (f64 * f64) := map xy_point p.
Definition positions (e : ly_element) : list (f64 * f64) :=
  match e with
  | YModule m => flat_map place_points (m_elements m)
  | YGrText t => [at_point (gt_at t)]
  | YGrLine l => [xy_point (gl_start l); xy_point (gl_end l)]
  | YGrArc a => [xy_point (ga_start a); xy_point (ga_end a)]
  | YGrCircle c => [xy_point (gc_center c); xy_point (gc_end c)]
  | YDimension d => at_point (gt_at (di_text d)) :: flat_map pts_points (dim_pts d)
  | YSegment s => [xy_point (sg_start s); xy_point (sg_end s)]
  | YVia v => [at_point (vi_at v)]
  | YZone z => flat_map pts_points (zone_pts z)
  | YNet _ | YNetClass _ | YOther _ => []
  end.

(** The element with all positions wiped out: what must not change. *)
Definition wipe_at (a : at_t) : at_t := mk_at fzero fzero (at_rot a).
Definition wipe_xy (p : xy) : xy := mk_xy fzero fzero (xy_t p).
Definition wipe_pts (p : pts) : pts := map wipe_xy p.
Definition wipe_text (t : gr_text) : gr_text :=
  mk_grtext (gt_value t) (wipe_at (gt_at t)) (gt_layer t) (gt_effects t) (gt_tstamp t).
Definition wipe (e : ly_element) : ly_element :=
  match e with
  | YModule m =>
      YModule (mk_module (m_name m)
                 (map (fun x => match x with EAt a => EAt (wipe_at a) | _ => x end) (m_elements m)))
  | YGrText t => YGrText (wipe_text t)
  | YGrLine (mk_grline a b an l w t) => YGrLine (mk_grline (wipe_xy a) (wipe_xy b) an l w t)
  | YGrArc (mk_grarc a b an l w t) => YGrArc (mk_grarc (wipe_xy a) (wipe_xy b) an l w t)
  | YGrCircle (mk_grcircle a b l w t) => YGrCircle (mk_grcircle (wipe_xy a) (wipe_xy b) l w t)
  | YDimension (mk_dim n w l t tx f1 f2 cb a1 b1 a2 b2) =>
      YDimension (mk_dim n w l t (wipe_text tx) (wipe_pts f1) (wipe_pts f2) (wipe_pts cb)
                    (wipe_pts a1) (wipe_pts b1) (wipe_pts a2) (wipe_pts b2))
  | YSegment (mk_seg a b w l n t st) => YSegment (mk_seg (wipe_xy a) (wipe_xy b) w l n t st)
  | YVia (mk_via b m a s d l n) => YVia (mk_via b m (wipe_at a) s d l n)
  | YZone (mk_zone n nn l t h pr cp mt ko fi ps fs sg ot) =>
      YZone (mk_zone n nn l t h pr cp mt ko fi (map wipe_pts ps) (map wipe_pts fs)
               (option_map wipe_pts sg) ot)
  | YNet _ | YNetClass _ | YOther _ => e
  end.

(** Header of a layout: everything but the elements. *)
Definition ly_header (l : layout) : Z * host * general * str * setup * list ly_layer :=
  (ly_version l, ly_host l, ly_general l, ly_page l, ly_setup l, ly_layers l).

(** Coordinates finite, via sizes not negative, footprints placed and drawn
    with finite coordinates. *)
Definition fin_at (a : at_t) : bool := is_finite (at_x a) && is_finite (at_y a).
Definition ly_geo_ok (e : ly_element) : bool :=
  match e with
  | YModule m => is_finite (fst (module_at m)) && is_finite (snd (module_at m))
                 && forallb geo_ok (m_elements m)
  | YGrText t => fin_at (gt_at t)
  | YGrLine l => fin2 (gl_start l) && fin2 (gl_end l)
  | YGrArc a => fin2 (ga_start a) && fin2 (ga_end a)
  | YGrCircle c => fin2 (gc_center c) && fin2 (gc_end c)
  | YDimension d => fin_at (gt_at (di_text d)) && forallb (forallb fin2) (dim_pts d)
  | YSegment s => fin2 (sg_start s) && fin2 (sg_end s)
  | YVia v => fin_at (vi_at v) && is_finite (vi_size v) && fleb fzero (vi_size v)
  | YZone z => forallb (forallb fin2) (zone_pts z)
  | YNet _ | YNetClass _ | YOther _ => true
  end.
(** The points that must be in the box: all positions, except that a circle
    counts with its centre only and a footprint with its own box. *)
Definition drawn_points (e : ly_element) : list (f64 * f64) :=
  match e with
  | YGrCircle c => [xy_point (gc_center c)]
  | YModule _ => []
  | _ => positions e
  end.

(** ** Net names *)

(** All net names an element of a layout carries, in order. *)
Definition pad_net_names (e : element) : list str :=
  match e with
  | EPad p => match pa_net p with Some n => [fn_name n] | None => [] end
  | _ => []
  end.
Definition net_names (e : ly_element) : list str :=
  match e with
  | YNet n => [ne_name n]
  | YNetClass n => nc_nets n
  | YModule m => flat_map pad_net_names (m_elements m)
  | YZone z => [zo_net_name z]
  | _ => []
  end.
Definition layout_names (l : layout) : list str := flat_map net_names (ly_elements l).

(** The element with all net names wiped out: what must not change. *)
Definition hide_pad (e : element) : element :=
  match e with
  | EPad (mk_pad n t sh sz rd a la net zc dr pm mm cl tg) =>
      EPad (mk_pad n t sh sz rd a la (option_map (fun x => mk_fnet (fn_num x) []) net)
              zc dr pm mm cl tg)
  | _ => e
  end.
Definition hide_names (e : ly_element) : ly_element :=
  match e with
  | YNet n => YNet (mk_net (ne_num n) [])
  | YNetClass (mk_nc nm de cl tw vd vr ud ur gap wid nets) =>
      YNetClass (mk_nc nm de cl tw vd vr ud ur gap wid (map (fun _ => []) nets))
  | YModule m => YModule (mk_module (m_name m) (map hide_pad (m_elements m)))
  | YZone (mk_zone n nn l t h pr cp mt ko fi ps fs sg ot) =>
      YZone (mk_zone n [] l t h pr cp mt ko fi ps fs sg ot)
  | _ => e
  end.

(** No '-', '(' or ')'. *)
Definition plain_name (s : str) : bool :=
  forallb (fun c => negb (N.eqb c 45 || N.eqb c 40 || N.eqb c 41)) s.

(** The footprint has a reference text reading [r]. *)
Definition carries (r : str) (m : module) : Prop := exists e, In e (m_elements m) /\ ref_reads r e.

(** [m] is the first footprint of the list that carries reference [r]. *)
Definition first_carrier (r : str) (l l1 : list ly_element) (m : module) (l2 : list ly_element) : Prop :=
  l = l1 ++ YModule m :: l2 /\ carries r m /\ forall m', In (YModule m') l1 -> ~ carries r m'.

(** Element kinds. *)
Definition is_module_el (e : ly_element) : bool := match e with YModule _ => true | _ => false end.
Definition is_net_el (e : ly_element) : bool := match e with YNet _ => true | _ => false end.
Definition is_netclass_el (e : ly_element) : bool := match e with YNetClass _ => true | _ => false end.

(** The value written last for [n] in a sequence of (name, value) updates. *)
Fixpoint last_written (n : str) (us : list (str * str)) : option str :=
  match us with
  | [] => None
  | (m, v) :: r => match last_written n r with
                   | Some w => Some w
                   | None => if str_eqb m n then Some v else None
                   end
  end.
