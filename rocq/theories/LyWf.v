(** Which layouts the writer can represent (specification side, used in the
    hypotheses of the round trip theorems). *)
From Coq Require Import String.
From Verif Require Import Base Str Num F64 F64Text Sexp FpData FpLayer FpWf LyData LyDe.
Open Scope string_scope. Open Scope list_scope.

Definition general_ok (g : general) : bool :=
  i64_ok (ge_links g) && i64_ok (ge_no_connects g) && i64_ok (ge_drawings g)
  && i64_ok (ge_tracks g) && i64_ok (ge_zones g) && i64_ok (ge_modules g) && i64_ok (ge_nets g).
Definition ly_layer_ok (l : ly_layer) : bool := i64_ok (ll_num l) && layer_ok (ll_layer l).

(** An element called pcbplotparams would be read as the block of that name. *)
Definition setup_name_ok (e : setup_element) : bool :=
  negb (str_eqb (se_name e) (lit "pcbplotparams")).
Definition setup_ok (s : setup) : bool := forallb setup_name_ok (su_elements s).

Definition gr_text_ok (t : gr_text) : bool :=
  at_ok (gt_at t) && layer_ok (gt_layer t) && effects_ok (gt_effects t).

(** A number that is left out when zero must not be -0.0. *)
Definition zero_ok (x : f64) : bool := negb (is_negzero x).

Definition fill_ok (f : fill) : bool := i64_ok (fi_arc_segments f) && zero_ok (fi_radius f).
(** The priority is a u64 that is read back as an i64. *)
Definition priority_ok (z : Z) : bool := ((0 <=? z) && (z <=? i64_max))%Z.

(** Text kept uninterpreted in a zone must not be readable as one of the three
    kinds of point lists. *)
Definition zone_other_ok (s : sexp) : bool :=
  negb (is_ok (de_pts_in "polygon" s)) && negb (is_ok (de_pts_in "filled_polygon" s))
  && negb (is_ok (de_pts_in "fill_segments" s)).

Definition zone_ok (z : zone) : bool :=
  i64_ok (zo_net z) && layer_ok (zo_layer z) && priority_ok (zo_priority z)
  && fill_ok (zo_fill z) && forallb zone_other_ok (zo_other z).

Definition via_ok (v : via) : bool :=
  at_ok (vi_at v) && zero_ok (vi_drill v) && forallb layer_ok (vi_layers v) && i64_ok (vi_net v).

Definition layout_keys : list string :=
  ["version"; "host"; "general"; "page"; "layers"; "module"; "net"; "net_class"; "gr_text";
   "gr_line"; "gr_arc"; "gr_circle"; "dimension"; "zone"; "segment"; "via"; "setup"].
(** Uninterpreted text must be a named list whose name has no meaning. *)
Definition other_ok (s : sexp) : bool :=
  match s with
  | SList (SStr n :: _) => negb (existsb (fun k => str_eqb n (lit k)) layout_keys)
  | _ => false
  end.

Definition ly_element_ok (e : ly_element) : bool :=
  match e with
  | YModule m => module_ok m
  | YNet n => i64_ok (ne_num n)
  | YNetClass _ => true
  | YGrText t => gr_text_ok t
  | YGrLine l => layer_ok (gl_layer l)
  | YGrArc a => layer_ok (ga_layer a)
  | YGrCircle c => layer_ok (gc_layer c)
  | YDimension d => layer_ok (di_layer d) && gr_text_ok (di_text d)
  | YSegment s => layer_ok (sg_layer s) && i64_ok (sg_net s)
  | YVia v => via_ok v
  | YZone z => zone_ok z
  | YOther s => other_ok s
  end.

Definition layout_ok (l : layout) : bool :=
  i64_ok (ly_version l) && general_ok (ly_general l) && setup_ok (ly_setup l)
  && forallb ly_layer_ok (ly_layers l) && forallb ly_element_ok (ly_elements l).

(** What a layout read from a file must additionally satisfy to be written back
    unchanged: footprints as in [module_clean]; no rotation, drill or radius of
    -0.0; font sizes the writer keeps; no zone priority above i64::MAX (which
    can only come from a negative number in the file). *)
Definition gr_text_clean (t : gr_text) : bool :=
  at_ok (gt_at t) && font_clean (ef_font (gt_effects t)).
Definition ly_element_clean (e : ly_element) : bool :=
  match e with
  | YModule m => module_clean m
  | YGrText t => gr_text_clean t
  | YDimension d => gr_text_clean (di_text d)
  | YVia v => at_ok (vi_at v) && zero_ok (vi_drill v)
  | YZone z => (zo_priority z <=? i64_max)%Z && zero_ok (fi_radius (zo_fill z))
  | _ => true
  end.
Definition layout_clean (l : layout) : bool := forallb ly_element_clean (ly_elements l).
