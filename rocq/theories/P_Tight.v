(** Property theorems: boxes are not larger than needed (C58), and the distance of the courtyard
    (C48). *)
From Coq Require Import String Reals Lra.
From Flocq Require Import IEEE754.BinarySingleNaN Core.
From Verif Require Import Base Str F64 F64Text F64Order FpData FpOps FpOpsSpec FpExamples LyExamples Bound BoundSpec LyData LyOps LySpec
  CheckSpec CourtFacts ClassSpec TightSpec TightFacts CircleFacts FpCheck FpOpsWit.
Open Scope string_scope. Open Scope list_scope.

(** A layout has a box exactly if one of its elements has a place on the board. *)
Theorem C58_layout_some (l : layout) : bounded (layout_bound l) = existsb has_extent (ly_elements l).
Proof. exact (layout_some l). Qed.
Print Assumptions C58_layout_some.
(** Any box that covers the boxes of all elements covers the layout's box. *)
Theorem C58_layout_least (l : layout) (c : bound) : forallb ly_geo_ok (ly_elements l) = true -> bounded (layout_bound l) = true ->
  (forall e, In e (ly_elements l) -> bounded (ly_element_bound e) = true -> covers c (ly_element_bound e) = true) ->
  covers c (layout_bound l) = true.
Proof. exact (layout_least l c). Qed.
Print Assumptions C58_layout_least.
(** For drawings of lines, arcs, texts, dimensions, tracks and zones: any box that
    contains all drawn points covers the layout's box. *)
Theorem C58_layout_points (l : layout) (c : bound) : forallb ly_geo_ok (ly_elements l) = true -> forallb pointlike (ly_elements l) = true ->
  bounded (layout_bound l) = true ->
  (forall e p, In e (ly_elements l) -> In p (drawn_points e) -> inside (fst p) (snd p) c = true) -> covers c (layout_bound l) = true.
Proof. exact (layout_points_least l c). Qed.
Print Assumptions C58_layout_points.
(** Any box that contains the anchor of a footprint and the boxes of its pads and of its
    drawings on the fabrication layer covers the footprint's box. *)
Theorem C58_module_least (m : module) (x y : f64) (c : bound) :
  module_at m = (x, y) -> is_finite x = true -> is_finite y = true ->
  forallb geo_ok (m_elements m) = true -> inside x y c = true ->
  (forall e, In e (m_elements m) -> counts e -> bounded (element_bound e) = true ->
     covers c (bound_shift x y (element_bound e)) = true) ->
  covers c (module_bound m) = true.
Proof. exact (module_least_counts m x y c). Qed.
Print Assumptions C58_module_least.
(** The box of a pad has the pad's size around its centre; at a quarter turn width and
    height change places. *)
Theorem C58_pad (p : pad) : moderate (at_x (pa_at p)) -> moderate (at_y (pa_at p)) -> moderate (xy_x (pa_size p)) -> moderate (xy_y (pa_size p)) ->
  is_finite (at_rot (pa_at p)) = true ->
  let x := B2R (at_x (pa_at p)) in let y := B2R (at_y (pa_at p)) in
  let w := B2R (xy_x (pa_size p)) in let h := B2R (xy_y (pa_size p)) in
  ((upright (B2R (at_rot (pa_at p))) -> near_box (pad_bound p) (x - w / 2) (y - h / 2) (x + w / 2) (y + h / 2)) /\
   (turned (B2R (at_rot (pa_at p))) -> near_box (pad_bound p) (x - h / 2) (y - w / 2) (x + h / 2) (y + w / 2)))%R.
Proof. exact (pad_box p). Qed.
Print Assumptions C58_pad.
(** The box of a via reaches its size in every direction. *)
Theorem C58_via (v : via) : moderate (at_x (vi_at v)) -> moderate (at_y (vi_at v)) -> moderate (vi_size v) ->
  (near_box (via_bound v) (B2R (at_x (vi_at v)) - B2R (vi_size v)) (B2R (at_y (vi_at v)) - B2R (vi_size v))
     (B2R (at_x (vi_at v)) + B2R (vi_size v)) (B2R (at_y (vi_at v)) + B2R (vi_size v)))%R.
Proof. exact (via_box v). Qed.
Print Assumptions C58_via.

(** The box of a circle reaches as far from the centre as the given point. *)
Theorem C58_circle (c : fp_circle) : modest2 (ci_center c) -> modest2 (ci_end c) -> around (ci_center c) (ci_end c) (circle_bound c).
Proof. exact (fp_circle_box c). Qed.
Print Assumptions C58_circle.
Theorem C58_gr_circle (c : gr_circle) : modest2 (gc_center c) -> modest2 (gc_end c) -> around (gc_center c) (gc_end c) (gr_circle_bound c).
Proof. exact (gr_circle_box c). Qed.
Print Assumptions C58_gr_circle.
(** The box of a text is its anchor; the box of a line or arc of a footprint has the
    end points as corners. *)
Theorem C58_text_line (e : element) :
  (forall t, e = EFpText t -> element_bound e = mk_bound (at_x (tx_at t)) (at_y (tx_at t)) (at_x (tx_at t)) (at_y (tx_at t)) true) /\
  (forall l, e = EFpLine l -> element_bound e = mk_bound (xy_x (li_start l)) (xy_y (li_start l)) (xy_x (li_end l)) (xy_y (li_end l)) true) /\
  (forall a, e = EFpArc a -> element_bound e = mk_bound (xy_x (ar_start a)) (xy_y (ar_start a)) (xy_x (ar_end a)) (xy_y (ar_end a)) true).
Proof. split; [|split]; intros t ->; reflexivity. Qed.
Print Assumptions C58_text_line.

Definition c58_layout := mk_layout 4 (ly_host ex_layout) (ly_general ex_layout) (ly_page ex_layout) (ly_setup ex_layout) (ly_layers ex_layout)
  [YNet (mk_net 0 []); YGrText ex_gtext; YDimension ex_dim; YZone ex_zone;
   YSegment (mk_seg (mkxy "1" "2" XStart) (mkxy "3" "4" XEnd) (fl "0.25") f_cu 12 None None)].
Example C58_ex : forallb ly_geo_ok (ly_elements ex_layout) = true /\ bounded (layout_bound ex_layout) = true
  /\ forallb ly_geo_ok (ly_elements c58_layout) = true /\ forallb pointlike (ly_elements c58_layout) = true
  /\ same_bound (layout_bound c58_layout) (bound_new (fl "0") (fl "-3") (fl "10.5") (fl "4")) = true
  /\ forallb geo_ok (m_elements ex_module) = true
  /\ bounded (layout_bound (with_elements ex_layout [YNet (mk_net 0 [])])) = false.
Proof. split; [|split; [|split; [|split; [|split; [|split]]]]]; vm_compute; reflexivity. Qed.
Example C58_ex_pads : moderate (at_x (pa_at ex_pad1)) /\ moderate (xy_y (pa_size ex_pad1))
  /\ turned (B2R (at_rot (pa_at ex_pad1))) /\ upright (B2R (at_rot (pa_at ex_pad2)))
  /\ same_bound (pad_bound ex_pad2) (bound_new (fl "0.5") (fl "-0.5") (fl "1.5") (fl "0.5")) = true.
Proof.
  split; [apply small_moderate; vm_compute; reflexivity|]. split; [apply small_moderate; vm_compute; reflexivity|].
  split; [|split; [|vm_compute; reflexivity]].
  - exists 270%R. split; [cbn; auto|]. change (at_rot (pa_at ex_pad1)) with f270. rewrite (proj2 val270).
    replace (270 - 270)%R with 0%R by ring. rewrite Rabs_R0. lra.
  - assert (Z : B2R (at_rot (pa_at ex_pad2)) = 0%R).
    { rewrite <- SF2R_B2SF. replace (B2SF (at_rot (pa_at ex_pad2))) with (SpecFloat.S754_zero false) by (vm_compute; reflexivity). reflexivity. }
    rewrite Z. intros k [<-|[<-|[<-|[<-|[]]]]]; unfold Rabs; destruct (Rcase_abs _); lra.
Qed.
(** The size of a via is its diameter, so its box should reach half of it in every
    direction; the code takes the whole. *)
Theorem C58_via_refuted : exists v, moderate (at_x (vi_at v)) /\ moderate (at_y (vi_at v)) /\ moderate (vi_size v) /\
  ~ (near_box (via_bound v) (B2R (at_x (vi_at v)) - B2R (vi_size v) / 2) (B2R (at_y (vi_at v)) - B2R (vi_size v) / 2)
     (B2R (at_x (vi_at v)) + B2R (vi_size v) / 2) (B2R (at_y (vi_at v)) + B2R (vi_size v) / 2))%R.
Proof.
  assert (M : moderate f90) by (apply small_moderate; vm_compute; reflexivity).
  exists (mk_via false false (mk_at f90 f90 fzero) f90 f90 [] 0%Z). split; [exact M|]. split; [exact M|]. split; [exact M|].
  intros (_ & _ & H & _). pose proof (via_box (mk_via false false (mk_at f90 f90 fzero) f90 f90 [] 0%Z) M M M) as (_ & _ & K & _).
  cbn [vi_at vi_size at_x at_y] in H, K. rewrite (proj2 val90) in H, K. apply Rabs_le_inv in H, K. lra.
Qed.
Print Assumptions C58_via_refuted.

Definition c58_circle := mk_circle (mkxy "1" "2" XCenter) (mkxy "4" "-2" XEnd) (mk_layer SFront LFab) (fl "0.1").
Example C58_circle_ex : modest2 (ci_center c58_circle) /\ modest2 (ci_end c58_circle)
  /\ same_bound (circle_bound c58_circle) (bound_new (fl "-4") (fl "-3") (fl "6") (fl "7")) = true.
Proof. split; [|split; [|vm_compute; reflexivity]]; split; apply small_modest; vm_compute; reflexivity. Qed.

(** ** C48 *)
(** The courtyard keeps the distance of the rule book from the box of the footprint:
    0.15 mm for small parts, 0.1 mm for ball grids, else 0.25 mm. *)
Theorem C48_courtyard_margin : forall m x y t, module_at m = (x, y) -> modest x -> modest y -> modest_box (module_bound m) ->
  let b := module_bound m in
  (clearance (m_name m) (B2R (bx2 b) - B2R (bx1 b)) (B2R (by2 b) - B2R (by1 b)) t ->
   exists x1 y1 x2 y2, rectangle_of x1 y1 x2 y2 (courtyard m) /\
     near_box (mk_bound x1 y1 x2 y2 true) (B2R (bx1 b) - B2R x - t) (B2R (by1 b) - B2R y - t) (B2R (bx2 b) - B2R x + t) (B2R (by2 b) - B2R y + t))%R.
Proof. exact courtyard_margin. Qed.
Print Assumptions C48_courtyard_margin.
Example C48_margin_ex : let b := module_bound ex_asc in modest (fl "10") /\ modest (fl "20") /\ modest_box b
  /\ clearance (m_name ex_asc) (B2R (bx2 b) - B2R (bx1 b))%R (B2R (by2 b) - B2R (by1 b))%R 0.25.
Proof.
  cbv zeta. assert (M : modest_box (module_bound ex_asc)) by (split; [|split; [|split]]; apply small_modest; vm_compute; reflexivity).
  split; [apply small_modest; vm_compute; reflexivity|]. split; [apply small_modest; vm_compute; reflexivity|]. split; [exact M|].
  apply court_example; [exact M|vm_compute; reflexivity|vm_compute; reflexivity].
Qed.
