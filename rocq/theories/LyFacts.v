(** The layout reader undoes the layout writer. *)
From Coq Require Import String Lia.
From Verif Require Import Base Str Num F64 F64Text Sexp StrFacts NumFacts F64Facts SexpFacts
  FpData FpLayer FpSer FpDe FpWf FpFacts NoPanic LyData LySer LyDe LyWf.
Open Scope string_scope. Open Scope list_scope.

Lemma sx_string_str s : sx_string (SStr s) = Ok s.
Proof. reflexivity. Qed.
Lemma sx_string_lit s : sx_string (a_lit s) = Ok (lit s).
Proof. reflexivity. Qed.
#[export] Hint Resolve sx_string_str sx_string_lit : rt.

Lemma rt_net n : i64_ok (ne_num n) = true -> de_net (ser_net n) = Ok n.
Proof.
  destruct n as [n s]; cbn [ne_num]; intros H. unfold de_net, ser_net; cbn [ne_num ne_name].
  start. do 2 nxt. reflexivity.
Qed.

Lemma rt_area a : de_area (ser_area a) = Ok a.
Proof. destruct a as [a b c d]; unfold de_area, ser_area; cbn [ae_x1 ae_y1 ae_x2 ae_y2]. start. do 4 nxt. reflexivity. Qed.
#[export] Hint Resolve rt_area : rt.

Lemma rt_general g : general_ok g = true -> de_general (ser_general g) = Ok g.
Proof.
  destruct g as [a b c d e f g h i]; unfold general_ok;
    cbn [ge_links ge_no_connects ge_drawings ge_tracks ge_zones ge_modules ge_nets]; intros H; andb_split.
  unfold de_general, ser_general;
    cbn [ge_links ge_no_connects ge_area ge_thickness ge_drawings ge_tracks ge_zones ge_modules ge_nets].
  start. do 9 nxt. reflexivity.
Qed.

Lemma rt_ly_type t : de_ly_type (a_lit (show_ly_type t)) = Ok t.
Proof. destruct t; reflexivity. Qed.
#[export] Hint Resolve rt_ly_type : rt.

Lemma rt_ly_layer l : ly_layer_ok l = true -> de_ly_layer (ser_ly_layer l) = Ok l.
Proof.
  destruct l as [n l t h]; unfold ly_layer_ok; cbn [ll_num ll_layer]; intros H; andb_split.
  unfold de_ly_layer, ser_ly_layer; cbn [ll_num ll_layer ll_type ll_hide].
  destruct h; start; cbn [sx_list bind]; do 5 nxt; reflexivity.
Qed.

Lemma rt_ly_layers ls : forallb ly_layer_ok ls = true ->
  de_ly_layers (node "layers" (map ser_ly_layer ls)) = Ok ls.
Proof.
  intros H. unfold de_ly_layers; start. erewrite p_vec_ok; [reflexivity|].
  apply mapM_map. intros x Hx. apply rt_ly_layer. rewrite forallb_forall in H; auto.
Qed.

Lemma rt_setup_element e : de_setup_element (ser_setup_element e) = Ok e.
Proof.
  destruct e as [n a b]; unfold de_setup_element, ser_setup_element; cbn [se_name se_value1 se_value2].
  destruct b; start; cbn [sx_list bind]; do 3 nxt; reflexivity.
Qed.

Lemma foldM_app {A B} (f : A -> B -> res A) l1 l2 a :
  foldM f a (l1 ++ l2) = do b <- foldM f a l1; foldM f b l2.
Proof.
  revert a; induction l1 as [|x l1 IH]; intros a; cbn [app foldM bind]; [reflexivity|].
  destruct (f a x); cbn [bind]; auto.
Qed.

Lemma setup_fold es : forall u, forallb setup_name_ok es = true ->
  foldM setup_step u (map ser_setup_element es) = Ok (mk_setup (su_elements u ++ es) (su_plot u)).
Proof.
  induction es as [|e es IH]; intros u H; cbn [map foldM].
  - rewrite app_nil_r. destruct u; reflexivity.
  - cbn [forallb] in H. andb_split. unfold setup_step at 1.
    change (sx_list_name (ser_setup_element e)) with (Ok (se_name e)); cbn [bind].
    unfold setup_name_ok in H. apply negb_true_iff in H. rewrite H.
    rewrite rt_setup_element; cbn [bind]. rewrite IH by assumption.
    cbn [su_elements su_plot]. now rewrite <- app_assoc.
Qed.

Lemma rt_setup s : setup_ok s = true -> de_setup (ser_setup s) = Ok s.
Proof.
  destruct s as [es ps]; unfold setup_ok; cbn [su_elements]; intros H.
  unfold de_setup, ser_setup; cbn [su_elements su_plot]. rewrite iter_new_node.
  rewrite foldM_app, setup_fold by assumption. cbn [bind foldM su_elements su_plot setup_default app].
  unfold setup_step. change (sx_list_name (node "pcbplotparams" ?l)) with (Ok (lit "pcbplotparams")).
  cbn [bind]. rewrite str_eqb_refl, iter_new_node.
  erewrite p_vec_ok; [|apply mapM_map; intros; apply rt_setup_element].
  reflexivity.
Qed.

Lemma de_nc_float_kv k f : de_nc_float (lit k) (kv k (a_f f)) = Ok f.
Proof.
  unfold de_nc_float. change (kv k ?x) with (node k [x]). start. nxt. reflexivity.
Qed.

Lemma nc_nets l : forall n,
  foldM nc_step n (map (fun s => kv "add_net" (SStr s)) l)
  = Ok (let '(mk_nc nm de cl tw vd vr ud ur gap wid nets) := n in
        mk_nc nm de cl tw vd vr ud ur gap wid (nets ++ l)).
Proof.
  induction l as [|s l IH]; intros [nm de cl tw vd vr ud ur gap wid nets]; cbn [map foldM].
  - now rewrite app_nil_r.
  - change (nc_step ?n (kv "add_net" (SStr s))) with (Ok (mk_nc nm de cl tw vd vr ud ur gap wid (nets ++ [s]))).
    cbn [bind]. rewrite IH. now rewrite <- app_assoc.
Qed.

Lemma nc_step_float n k f :
  nc_step n (kv k (a_f f)) =
  let '(mk_nc nm de cl tw vd vr ud ur gap wid nets) := n in
  if str_eqb (lit k) (lit "add_net") then Ok (mk_nc nm de cl tw vd vr ud ur gap wid (nets ++ [f64_to_str f]))
  else if str_eqb (lit k) (lit "clearance") then Ok (mk_nc nm de f tw vd vr ud ur gap wid nets)
  else if str_eqb (lit k) (lit "trace_width") then Ok (mk_nc nm de cl f vd vr ud ur gap wid nets)
  else if str_eqb (lit k) (lit "via_dia") then Ok (mk_nc nm de cl tw f vr ud ur gap wid nets)
  else if str_eqb (lit k) (lit "via_drill") then Ok (mk_nc nm de cl tw vd f ud ur gap wid nets)
  else if str_eqb (lit k) (lit "uvia_dia") then Ok (mk_nc nm de cl tw vd vr f ur gap wid nets)
  else if str_eqb (lit k) (lit "uvia_drill") then Ok (mk_nc nm de cl tw vd vr ud f gap wid nets)
  else if str_eqb (lit k) (lit "diff_pair_gap") then Ok (mk_nc nm de cl tw vd vr ud ur (Some f) wid nets)
  else if str_eqb (lit k) (lit "diff_pair_width") then Ok (mk_nc nm de cl tw vd vr ud ur gap (Some f) nets)
  else Err ESexp.
Proof.
  destruct n as [nm de cl tw vd vr ud ur gap wid nets]. unfold nc_step.
  change (sx_list_name (kv k ?x)) with (Ok (lit k)). cbn [bind]. rewrite de_nc_float_kv. cbn [bind].
  destruct (str_eqb_spec (lit k) (lit "add_net")) as [E|]; [|reflexivity].
  unfold sx_slice1, kv, a_lit. cbn [sx_list bind]. rewrite E, str_eqb_refl. reflexivity.
Qed.

Ltac ncs :=
  rewrite nc_step_float; cbv beta iota;
  repeat match goal with
  | |- context [str_eqb (lit ?a) (lit ?b)] =>
      let v := eval vm_compute in (str_eqb (lit a) (lit b)) in
      change (str_eqb (lit a) (lit b)) with v; cbv beta iota
  end; cbn [bind].

Lemma rt_net_class n : de_net_class (ser_net_class n) = Ok n.
Proof.
  destruct n as [nm de cl tw vd vr ud ur gap wid nets].
  unfold de_net_class, ser_net_class;
    cbn [nc_name nc_desc nc_clearance nc_trace_width nc_via_dia nc_via_drill nc_uvia_dia nc_uvia_drill
         nc_dp_gap nc_dp_width nc_nets].
  rewrite iter_new_node. cbn [app]. do 2 nxt. unfold nc_start.
  cbn [foldM]. do 6 ncs.
  destruct gap, wid; cbn [opt_list app foldM]; repeat ncs; rewrite nc_nets; reflexivity.
Qed.

Ltac ts t := destruct t; unfold ser_tstamp, p_tstamp.

Lemma rt_gr_text t : gr_text_ok t = true -> de_gr_text (ser_gr_text t) = Ok t.
Proof.
  destruct t as [v a l e ts]; unfold gr_text_ok; cbn [gt_at gt_layer gt_effects]; intros H; andb_split.
  unfold de_gr_text, ser_gr_text; cbn [gt_value gt_at gt_layer gt_effects gt_tstamp].
  ts ts; start; do 5 nxt; reflexivity.
Qed.
Lemma rt_gr_line l : layer_ok (gl_layer l) = true -> de_gr_line (ser_gr_line l) = Ok l.
Proof.
  destruct l as [a b an l w ts]; cbn [gl_layer]; intros H.
  unfold de_gr_line, ser_gr_line; cbn [gl_start gl_end gl_angle gl_layer gl_width gl_tstamp].
  ts ts; start; do 6 nxt; reflexivity.
Qed.
Lemma rt_gr_arc l : layer_ok (ga_layer l) = true -> de_gr_arc (ser_gr_arc l) = Ok l.
Proof.
  destruct l as [a b an l w ts]; cbn [ga_layer]; intros H.
  unfold de_gr_arc, ser_gr_arc; cbn [ga_start ga_end ga_angle ga_layer ga_width ga_tstamp].
  ts ts; start; do 6 nxt; reflexivity.
Qed.
Lemma rt_gr_circle l : layer_ok (gc_layer l) = true -> de_gr_circle (ser_gr_circle l) = Ok l.
Proof.
  destruct l as [a b l w ts]; cbn [gc_layer]; intros H.
  unfold de_gr_circle, ser_gr_circle; cbn [gc_center gc_end gc_layer gc_width gc_tstamp].
  ts ts; start; do 5 nxt; reflexivity.
Qed.
#[export] Hint Resolve rt_gr_text : rt.

Lemma rt_dimension d : layer_ok (di_layer d) && gr_text_ok (di_text d) = true ->
  de_dimension (ser_dimension d) = Ok d.
Proof.
  destruct d as [n w l ts tx f1 f2 cb a1 b1 a2 b2]; cbn [di_layer di_text]; intros H; andb_split.
  unfold de_dimension, ser_dimension; cbn [di_name di_width di_layer di_tstamp di_text di_feature1
    di_feature2 di_crossbar di_arrow1a di_arrow1b di_arrow2a di_arrow2b].
  ts ts; start; do 12 nxt; reflexivity.
Qed.

Lemma rt_hatch h : de_hatch (ser_hatch h) = Ok h.
Proof. destruct h as [s p]; unfold de_hatch, ser_hatch; cbn [ha_style ha_pitch]; start; do 2 nxt; reflexivity. Qed.
Lemma rt_connect c : de_connect (ser_connect c) = Ok c.
Proof.
  destruct c as [c cl]; unfold de_connect, ser_connect; cbn [cp_connection cp_clearance].
  destruct c; start; do 2 nxt; reflexivity.
Qed.
Lemma rt_keepout k : de_keepout (ser_keepout k) = Ok k.
Proof. destruct k as [[] [] []]; vm_compute; reflexivity. Qed.
Lemma rt_fill f : fill_ok f = true -> de_fill (ser_fill f) = Ok f.
Proof.
  destruct f as [y m a g b sm r]; unfold fill_ok; cbn [fi_arc_segments fi_radius]; intros H; andb_split.
  unfold zero_ok in H0. apply negb_true_iff in H0.
  unfold de_fill, ser_fill; cbn [fi_filled fi_segment fi_arc_segments fi_gap fi_bridge fi_smoothing fi_radius].
  destruct (fneb r fzero) eqn:E; [|rewrite (fneb_false_zero r E H0)];
    destruct y, m, sm; start; do 7 nxt; reflexivity.
Qed.
#[export] Hint Resolve rt_hatch rt_connect rt_keepout rt_fill : rt.

Lemma de_pts_in_kv k p : de_pts_in k (kv k (ser_pts p)) = Ok p.
Proof. unfold de_pts_in. change (kv k ?x) with (node k [x]). start. nxt. reflexivity. Qed.
Lemma de_pts_in_no k k' v : str_eqb (lit k') (lit k) = false -> de_pts_in k (kv k' v) = Err ESexp.
Proof. unfold de_pts_in, iter_new, kv, a_lit; cbn [sx_list bind]. now intros ->. Qed.

Lemma zone_polygons l : forall ps fs sg ot,
  foldM zone_step (mk_zr ps fs sg ot) (map (fun p => kv "polygon" (ser_pts p)) l)
  = Ok (mk_zr (ps ++ l) fs sg ot).
Proof.
  induction l as [|p l IH]; intros ps fs sg ot; cbn [map foldM]; [now rewrite app_nil_r|].
  unfold zone_step at 1. rewrite de_pts_in_kv; cbn [bind]. rewrite IH. now rewrite <- app_assoc.
Qed.
Lemma zone_filleds l : forall ps fs sg ot,
  foldM zone_step (mk_zr ps fs sg ot) (map (fun p => kv "filled_polygon" (ser_pts p)) l)
  = Ok (mk_zr ps (fs ++ l) sg ot).
Proof.
  induction l as [|p l IH]; intros ps fs sg ot; cbn [map foldM]; [now rewrite app_nil_r|].
  unfold zone_step at 1. rewrite de_pts_in_no by reflexivity. rewrite de_pts_in_kv; cbn [bind].
  rewrite IH. now rewrite <- app_assoc.
Qed.
Lemma zone_segs o : forall ps fs ot,
  foldM zone_step (mk_zr ps fs None ot) (opt_list (fun p => kv "fill_segments" (ser_pts p)) o)
  = Ok (mk_zr ps fs o ot).
Proof.
  destruct o; intros ps fs ot; cbn [opt_list foldM]; [|reflexivity].
  unfold zone_step. rewrite !de_pts_in_no by reflexivity. rewrite de_pts_in_kv. reflexivity.
Qed.

Lemma np_pts_in k x : de_pts_in k x <> Panic.
Proof. apply np_iter, np_bind; [apply np_t, np_pts|intros; apply np_close]. Qed.

Lemma zone_others l : forall ps fs sg ot,
  forallb zone_other_ok l = true ->
  foldM zone_step (mk_zr ps fs sg ot) l = Ok (mk_zr ps fs sg (ot ++ l)).
Proof.
  induction l as [|x l IH]; intros ps fs sg ot H; cbn [foldM]; [now rewrite app_nil_r|].
  cbn [forallb] in H. andb_split. unfold zone_other_ok in H. andb_split.
  assert (S : zone_step (mk_zr ps fs sg ot) x = Ok (mk_zr ps fs sg (ot ++ [x]))).
  { unfold zone_step.
    pose proof (np_pts_in "polygon" x); pose proof (np_pts_in "filled_polygon" x);
    pose proof (np_pts_in "fill_segments" x).
    destruct (de_pts_in "polygon" x); cbn [is_ok negb] in *; try congruence.
    destruct (de_pts_in "filled_polygon" x); cbn [is_ok negb] in *; try congruence.
    destruct (de_pts_in "fill_segments" x); cbn [is_ok negb] in *; try congruence. }
  rewrite S; cbn [bind]. rewrite IH by assumption. now rewrite <- app_assoc.
Qed.

Lemma u64_of_i64_id z : (0 <= z <= i64_max)%Z -> u64_of_i64 z = z.
Proof. intros H. unfold u64_of_i64. apply Z.mod_small. unfold i64_max in H. lia. Qed.

Lemma rt_zone z : zone_ok z = true -> de_zone (ser_zone z) = Ok z.
Proof.
  destruct z as [n nn l t h pr cp mt ko fi ps fs sg ot]; unfold zone_ok;
    cbn [zo_net zo_layer zo_priority zo_fill zo_other]; intros H; andb_split.
  assert (P : (0 <= pr <= i64_max)%Z) by (unfold priority_ok in *; lia).
  assert (I : i64_ok pr = true) by (unfold i64_ok, i64_min, i64_max in *; lia).
  unfold de_zone, ser_zone; cbn [zo_net zo_net_name zo_layer zo_tstamp zo_hatch zo_priority zo_connect
    zo_min zo_keepout zo_fill zo_polygons zo_filled zo_segments zo_other].
  rewrite iter_new_node.
  assert (Q : exists o, u64_of_i64 (default 0%Z o) = pr /\
    when (0 <? pr)%Z [kv "priority" (a_i pr)] = opt_list (fun z => kv "priority" (a_i z)) o
    /\ match o with Some z => i64_ok z = true | None => True end).
  { destruct (0 <? pr)%Z eqn:E.
    - exists (Some pr). cbn [default]. rewrite u64_of_i64_id by assumption. auto.
    - exists None. split; [|split]; [|reflexivity|exact Logic.I]. cbn [default]. apply Z.ltb_ge in E.
      assert (pr = 0%Z) as -> by lia. reflexivity. }
  destruct Q as (o & Qo & -> & Qi).
  destruct cp as [[c|] cl]; destruct o as [o|]; destruct ko as [ko|]; cbn [opt_list app]; do 10 nxt;
    rewrite !foldM_app, zone_polygons; cbn [bind app]; rewrite foldM_app, zone_filleds; cbn [bind app];
    rewrite foldM_app, zone_segs; cbn [bind app]; rewrite zone_others by assumption; cbn [bind app fst];
    cbn [zr_polygons zr_filled zr_segments zr_other]; rewrite Qo; reflexivity.
Qed.

Lemma rt_segment s : layer_ok (sg_layer s) && i64_ok (sg_net s) = true -> de_segment (ser_segment s) = Ok s.
Proof.
  destruct s as [a b w l n t st]; cbn [sg_layer sg_net]; intros H; andb_split.
  unfold de_segment, ser_segment; cbn [sg_start sg_end sg_width sg_layer sg_net sg_tstamp sg_status].
  ts t; destruct st; start; do 7 nxt; reflexivity.
Qed.

Lemma slice1_other k k' l : str_eqb (lit k') (lit k) = false ->
  sx_slice1 (lit k) (node k' l) = Err ESexp.
Proof.
  intros H. unfold sx_slice1, node, a_lit; cbn [sx_list bind].
  destruct l as [|v [|? ?]]; try reflexivity. now rewrite H.
Qed.
Ltac nxt' := first [nxt | erewrite pbind_ok;
  [|eapply p_maybe_no; unfold ser_layers; rewrite slice1_other by reflexivity; reflexivity]].

Lemma rt_via v : via_ok v = true -> de_via (ser_via v) = Ok v.
Proof.
  destruct v as [b m a sz dr ls n]; unfold via_ok; cbn [vi_at vi_drill vi_layers vi_net]; intros H; andb_split.
  match goal with H : zero_ok dr = true |- _ => unfold zero_ok in H; apply negb_true_iff in H; rename H into Hz end.
  unfold de_via, ser_via; cbn [vi_blind vi_micro vi_at vi_size vi_drill vi_layers vi_net].
  destruct (fneb dr fzero) eqn:E; [|rewrite (fneb_false_zero dr E Hz)];
    destruct b, m; start; do 7 nxt'; reflexivity.
Qed.

(** Elements: reading what was written appends the element. *)
Lemma push_wrap_ok {A} l (c : A -> ly_element) r a : r = Ok a -> push_wrap l c r = Ok (push_element l (c a)).
Proof. now intros ->. Qed.

Lemma other_step l s : other_ok s = true -> layout_step l s = Ok (push_element l (YOther s)).
Proof.
  destruct s as [|[|[n| |] r]|]; cbn [other_ok]; try discriminate. intros H.
  apply negb_true_iff in H. unfold layout_keys in H. cbn [existsb] in H.
  destruct l as [v h g p su la es]. unfold layout_step.
  change (sx_list_name (SList (SStr n :: r))) with (Ok n); cbn [bind].
  repeat (apply orb_false_iff in H; destruct H as [-> H]). reflexivity.
Qed.

Lemma element_step l e : ly_element_ok e = true ->
  layout_step l (ser_ly_element e) = Ok (push_element l e).
Proof.
  destruct e; cbn [ly_element_ok ser_ly_element]; intros H;
    try (apply other_step; exact H);
    destruct l as [v' h' g' p' su' la' es'].
  - transitivity (push_wrap (mk_layout v' h' g' p' su' la' es') YModule (de_module (ser_module m)));
      [reflexivity|apply push_wrap_ok, rt_module, H].
  - transitivity (push_wrap (mk_layout v' h' g' p' su' la' es') YNet (de_net (ser_net n)));
      [reflexivity|apply push_wrap_ok, rt_net, H].
  - transitivity (push_wrap (mk_layout v' h' g' p' su' la' es') YNetClass (de_net_class (ser_net_class n)));
      [reflexivity|apply push_wrap_ok, rt_net_class].
  - transitivity (push_wrap (mk_layout v' h' g' p' su' la' es') YGrText (de_gr_text (ser_gr_text t)));
      [reflexivity|apply push_wrap_ok, rt_gr_text, H].
  - transitivity (push_wrap (mk_layout v' h' g' p' su' la' es') YGrLine (de_gr_line (ser_gr_line l0)));
      [reflexivity|apply push_wrap_ok, rt_gr_line, H].
  - transitivity (push_wrap (mk_layout v' h' g' p' su' la' es') YGrArc (de_gr_arc (ser_gr_arc a)));
      [reflexivity|apply push_wrap_ok, rt_gr_arc, H].
  - transitivity (push_wrap (mk_layout v' h' g' p' su' la' es') YGrCircle (de_gr_circle (ser_gr_circle c)));
      [reflexivity|apply push_wrap_ok, rt_gr_circle, H].
  - transitivity (push_wrap (mk_layout v' h' g' p' su' la' es') YDimension (de_dimension (ser_dimension d)));
      [reflexivity|apply push_wrap_ok, rt_dimension, H].
  - transitivity (push_wrap (mk_layout v' h' g' p' su' la' es') YSegment (de_segment (ser_segment s)));
      [reflexivity|apply push_wrap_ok, rt_segment, H].
  - transitivity (push_wrap (mk_layout v' h' g' p' su' la' es') YVia (de_via (ser_via v)));
      [reflexivity|apply push_wrap_ok, rt_via, H].
  - transitivity (push_wrap (mk_layout v' h' g' p' su' la' es') YZone (de_zone (ser_zone z)));
      [reflexivity|apply push_wrap_ok, rt_zone, H].
Qed.

Lemma elements_fold es : forall v h g p su la es0, forallb ly_element_ok es = true ->
  foldM layout_step (mk_layout v h g p su la es0) (map ser_ly_element es)
  = Ok (mk_layout v h g p su la (es0 ++ es)).
Proof.
  induction es as [|e es IH]; intros v h g p su la es0 H; cbn [map foldM]; [now rewrite app_nil_r|].
  cbn [forallb] in H; andb_split. rewrite element_step by assumption. cbn [bind push_element].
  rewrite IH by assumption. now rewrite <- app_assoc.
Qed.

Lemma de_version_kv z : i64_ok z = true -> de_version (kv "version" (a_i z)) = Ok z.
Proof. intros H. unfold de_version. change (kv "version" ?x) with (node "version" [x]). start. nxt. reflexivity. Qed.

Lemma rt_layout l : layout_ok l = true -> de_layout (ser_layout l) = Ok l.
Proof.
  destruct l as [v h g p su la es]; unfold layout_ok;
    cbn [ly_version ly_general ly_setup ly_layers ly_elements]; intros H; andb_split.
  unfold de_layout, ser_layout;
    cbn [ly_version ly_host ly_general ly_page ly_setup ly_layers ly_elements].
  rewrite iter_new_node, foldM_app. unfold layout_default at 1.
  cbn [foldM].
  assert (S1 : forall v0 h0 g0 p0 s0 l0 e0,
    layout_step (mk_layout v0 h0 g0 p0 s0 l0 e0) (kv "version" (a_i v)) = Ok (mk_layout v h0 g0 p0 s0 l0 e0)).
  { intros. change (layout_step (mk_layout v0 h0 g0 p0 s0 l0 e0) (kv "version" (a_i v)))
      with (do x <- de_version (kv "version" (a_i v)); Ok (mk_layout x h0 g0 p0 s0 l0 e0)).
    now rewrite de_version_kv. }
  assert (S2 : forall v0 h0 g0 p0 s0 l0 e0,
    layout_step (mk_layout v0 h0 g0 p0 s0 l0 e0) (node "host" [SStr (ho_tool h); SStr (ho_build h)])
    = Ok (mk_layout v0 h g0 p0 s0 l0 e0)) by (intros; destruct h; reflexivity).
  assert (S3 : forall v0 h0 g0 p0 s0 l0 e0,
    layout_step (mk_layout v0 h0 g0 p0 s0 l0 e0) (ser_general g) = Ok (mk_layout v0 h0 g p0 s0 l0 e0)).
  { intros. change (layout_step (mk_layout v0 h0 g0 p0 s0 l0 e0) (ser_general g))
      with (do x <- de_general (ser_general g); Ok (mk_layout v0 h0 x p0 s0 l0 e0)).
    now rewrite rt_general. }
  assert (S4 : forall v0 h0 g0 p0 s0 l0 e0,
    layout_step (mk_layout v0 h0 g0 p0 s0 l0 e0) (kv "page" (SStr p)) = Ok (mk_layout v0 h0 g0 p s0 l0 e0))
    by reflexivity.
  assert (S5 : forall v0 h0 g0 p0 s0 l0 e0,
    layout_step (mk_layout v0 h0 g0 p0 s0 l0 e0) (node "layers" (map ser_ly_layer la))
    = Ok (mk_layout v0 h0 g0 p0 s0 la e0)).
  { intros. change (layout_step (mk_layout v0 h0 g0 p0 s0 l0 e0) (node "layers" (map ser_ly_layer la)))
      with (do x <- de_ly_layers (node "layers" (map ser_ly_layer la)); Ok (mk_layout v0 h0 g0 p0 s0 x e0)).
    now rewrite rt_ly_layers. }
  assert (S6 : forall v0 h0 g0 p0 s0 l0 e0,
    layout_step (mk_layout v0 h0 g0 p0 s0 l0 e0) (ser_setup su) = Ok (mk_layout v0 h0 g0 p0 su l0 e0)).
  { intros. change (layout_step (mk_layout v0 h0 g0 p0 s0 l0 e0) (ser_setup su))
      with (do x <- de_setup (ser_setup su); Ok (mk_layout v0 h0 g0 p0 x l0 e0)).
    now rewrite rt_setup. }
  rewrite S1; cbn [bind]. rewrite S2; cbn [bind]. rewrite S3; cbn [bind]. rewrite S4; cbn [bind].
  rewrite S5; cbn [bind]. rewrite S6; cbn [bind].
  rewrite elements_fold by assumption. reflexivity.
Qed.
