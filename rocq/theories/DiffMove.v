(** Positions and reference texts as marked atoms; replacing and adding parts of
    a board (lemmas for C86, C87). *)
From Coq Require Import String Lia.
From Verif Require Import Base Str StrFacts Num F64 F64Text Sexp FpData FpLayer FpSer FpOps FpOpsSpec LyData LySer LyOps LySpec Formatter FormatterSpec FormatterFacts DocText TextSpec TextMain TextDocs DiffSpec DiffTree DiffFacts.
Open Scope string_scope. Open Scope list_scope.

Definition t_f (x : f64) : tmpl := TMark (f64_to_str x).
Definition t_at (a : at_t) : tmpl := tnode "at" (t_f (at_x a) :: t_f (at_y a) :: trees (when (fneb (at_rot a) fzero) [a_f (at_rot a)])).
Definition t_xy (p : xy) : tmpl := tnode (xy_name (xy_t p)) [t_f (xy_x p); t_f (xy_y p)].
Definition t_pts (p : pts) : tmpl := tnode "pts" (map t_xy p).
Definition t_kv (k : string) (t : tmpl) : tmpl := tnode k [t].
Definition p_fp (e : element) : tmpl := match e with EAt a => t_at a | _ => TTree (ser_element e) end.
Definition p_module (m : module) : tmpl := tnode "module" (TTree (SStr (m_name m)) :: map p_fp (m_elements m)).
Definition p_text (t : gr_text) : tmpl :=
  tnode "gr_text" (TTree (SStr (gt_value t)) :: t_at (gt_at t)
    :: trees ([kv "layer" (ser_layer (gt_layer t)); ser_effects (gt_effects t)] ++ ser_tstamp (gt_tstamp t))).
Definition p_zone (z : zone) : tmpl :=
  tnode "zone"
    (trees ([kv "net" (a_i (zo_net z)); kv "net_name" (SStr (zo_net_name z));
      kv "layer" (ser_layer (zo_layer z)); kv "tstamp" (SStr (zo_tstamp z));
      ser_hatch (zo_hatch z)]
     ++ when (0 <? zo_priority z)%Z [kv "priority" (a_i (zo_priority z))]
     ++ [ser_connect (zo_connect z); kv "min_thickness" (a_f (zo_min z))]
     ++ opt_list ser_keepout (zo_keepout z)
     ++ [ser_fill (zo_fill z)])
     ++ map (fun p => t_kv "polygon" (t_pts p)) (zo_polygons z)
     ++ map (fun p => t_kv "filled_polygon" (t_pts p)) (zo_filled z)
     ++ map (fun p => t_kv "fill_segments" (t_pts p)) (match zo_segments z with Some p => [p] | None => [] end)
     ++ trees (zo_other z)).
Definition p_element (e : ly_element) : tmpl :=
  match e with
  | YModule m => p_module m
  | YGrText t => p_text t
  | YGrLine l => tnode "gr_line" (t_xy (gl_start l) :: t_xy (gl_end l)
      :: trees ([kv "angle" (a_f (gl_angle l)); kv "layer" (ser_layer (gl_layer l)); kv "width" (a_f (gl_width l))] ++ ser_tstamp (gl_tstamp l)))
  | YGrArc l => tnode "gr_arc" (t_xy (ga_start l) :: t_xy (ga_end l)
      :: trees ([kv "angle" (a_f (ga_angle l)); kv "layer" (ser_layer (ga_layer l)); kv "width" (a_f (ga_width l))] ++ ser_tstamp (ga_tstamp l)))
  | YGrCircle c => tnode "gr_circle" (t_xy (gc_center c) :: t_xy (gc_end c)
      :: trees ([kv "layer" (ser_layer (gc_layer c)); kv "width" (a_f (gc_width c))] ++ ser_tstamp (gc_tstamp c)))
  | YDimension d => tnode "dimension"
      (trees ([SStr (di_name d); kv "width" (a_f (di_width d)); kv "layer" (ser_layer (di_layer d))] ++ ser_tstamp (di_tstamp d))
       ++ [p_text (di_text d); t_kv "feature1" (t_pts (di_feature1 d)); t_kv "feature2" (t_pts (di_feature2 d));
           t_kv "crossbar" (t_pts (di_crossbar d)); t_kv "arrow1a" (t_pts (di_arrow1a d));
           t_kv "arrow1b" (t_pts (di_arrow1b d)); t_kv "arrow2a" (t_pts (di_arrow2a d));
           t_kv "arrow2b" (t_pts (di_arrow2b d))])
  | YSegment s => tnode "segment" (t_xy (sg_start s) :: t_xy (sg_end s)
      :: trees ([kv "width" (a_f (sg_width s)); kv "layer" (ser_layer (sg_layer s)); kv "net" (a_i (sg_net s))]
         ++ ser_tstamp (sg_tstamp s) ++ opt_list (fun t => kv "status" (SStr t)) (sg_status s)))
  | YVia v => tnode "via"
      (trees (when (vi_blind v) [a_lit "blind"] ++ when (vi_micro v) [a_lit "micro"]) ++ t_at (vi_at v)
       :: trees ([kv "size" (a_f (vi_size v))] ++ when (fneb (vi_drill v) fzero) [kv "drill" (a_f (vi_drill v))]
          ++ [ser_layers (vi_layers v); kv "net" (a_i (vi_net v))]))
  | YZone z => p_zone z
  | _ => TTree (ser_ly_element e)
  end.

Definition shown (l : list (f64 * f64)) : list str := map f64_to_str (coords l).
Lemma shown_app l m : shown (l ++ m) = shown l ++ shown m.
Proof. unfold shown, coords. now rewrite flat_map_app, map_app. Qed.
Lemma shown_flat {A} (f : A -> list (f64 * f64)) l : shown (flat_map f l) = flat_map (fun x => shown (f x)) l.
Proof. induction l; cbn [flat_map]; [reflexivity|]. now rewrite shown_app, IHl. Qed.

Lemma at_plain a : plain (t_at a) = ser_at a. Proof. unfold t_at. tm. reflexivity. Qed.
Lemma xy_plain p : plain (t_xy p) = ser_xy p. Proof. reflexivity. Qed.
Lemma pts_plain p : plain (t_pts p) = ser_pts p. Proof. unfold t_pts, ser_pts. tm. rewrite map_map. reflexivity. Qed.
Lemma kv_plain k t : plain (t_kv k t) = kv k (plain t). Proof. reflexivity. Qed.
Lemma at_marks a : marks (t_at a) = shown [at_point a]. Proof. unfold t_at. tm. reflexivity. Qed.
Lemma xy_marks p : marks (t_xy p) = shown [xy_point p]. Proof. reflexivity. Qed.
Lemma pts_marks p : marks (t_pts p) = shown (pts_points p).
Proof. unfold t_pts. tm. rewrite flat_map_map. unfold pts_points. induction p as [|q p IH]; [reflexivity|]. cbn [flat_map map]. change (xy_point q :: map xy_point p) with ([xy_point q] ++ map xy_point p). now rewrite shown_app, IH, xy_marks. Qed.
Lemma kv_marks k t : marks (t_kv k t) = marks t. Proof. unfold t_kv, tnode. cbn. apply app_nil_r. Qed.
Lemma at_blank a : blank (t_at (wipe_at a)) = blank (t_at a). Proof. reflexivity. Qed.
Lemma xy_blank p : blank (t_xy (wipe_xy p)) = blank (t_xy p). Proof. reflexivity. Qed.
Lemma pts_blank p : blank (t_pts (wipe_pts p)) = blank (t_pts p).
Proof. unfold t_pts, wipe_pts. tm. rewrite !map_map. reflexivity. Qed.
Lemma kv_blank k t : blank (t_kv k t) = TNode (lit k) [blank t]. Proof. reflexivity. Qed.

Lemma kvs_plain k l : map (fun x => plain (t_kv k (t_pts x))) l = map (fun p => kv k (ser_pts p)) l.
Proof. apply map_same. intros x. now rewrite kv_plain, pts_plain. Qed.
Lemma kvs_marks k l : flat_map (fun x => marks (t_kv k (t_pts x))) l = flat_map (fun p => shown (pts_points p)) l.
Proof. apply flat_map_same. intros x. now rewrite kv_marks, pts_marks. Qed.
Lemma kvs_blank k l : map (fun x => blank (t_kv k (t_pts (wipe_pts x)))) l = map (fun x => blank (t_kv k (t_pts x))) l.
Proof. apply map_same. intros x. now rewrite !kv_blank, pts_blank. Qed.

Lemma p_fp_plain e : plain (p_fp e) = ser_element e. Proof. destruct e; try reflexivity. apply at_plain. Qed.
Lemma p_fp_marks e : marks (p_fp e) = shown (place_points e). Proof. destruct e; try reflexivity. apply at_marks. Qed.
Lemma p_text_plain t : plain (p_text t) = ser_gr_text t.
Proof. unfold p_text. tm. rewrite at_plain. reflexivity. Qed.
Lemma p_text_marks t : marks (p_text t) = shown [at_point (gt_at t)].
Proof. unfold p_text. tm. apply at_marks. Qed.
Lemma p_text_blank t : blank (p_text (wipe_text t)) = blank (p_text t). Proof. reflexivity. Qed.

Lemma p_element_plain e : plain (p_element e) = ser_ly_element e.
Proof.
  destruct e; try reflexivity; cbn [p_element ser_ly_element].
  - unfold p_module, ser_module. tm. unfold node, a_lit. do 3 f_equal. rewrite map_map. apply map_same, p_fp_plain.
  - apply p_text_plain.
  - tm. reflexivity.
  - tm. reflexivity.
  - tm. reflexivity.
  - tm. rewrite p_text_plain, !kv_plain, !pts_plain. reflexivity.
  - tm. reflexivity.
  - tm. rewrite at_plain. unfold ser_via, node, a_lit. now rewrite <- !app_assoc.
  - unfold p_zone, ser_zone. tm. rewrite !map_map. unfold node, a_lit. cbn [app].
    rewrite !kvs_plain.
    rewrite <- !app_assoc. cbn [app]. rewrite <- !app_assoc. destruct (zo_segments z); reflexivity.
Qed.
Lemma p_element_marks e : marks (p_element e) = shown (positions e).
Proof.
  destruct e; try reflexivity; cbn [p_element positions].
  - unfold p_module. tm. rewrite flat_map_map, shown_flat. apply flat_map_same, p_fp_marks.
  - apply p_text_marks.
  - tm. reflexivity.
  - tm. reflexivity.
  - tm. reflexivity.
  - tm. rewrite p_text_marks, !kv_marks, !pts_marks. unfold dim_pts. cbn [flat_map]. rewrite app_nil_r.
    change (at_point (gt_at (di_text d)) :: ?l) with ([at_point (gt_at (di_text d))] ++ l). now rewrite !shown_app.
  - tm. reflexivity.
  - tm. apply at_marks.
  - unfold p_zone. tm. rewrite !flat_map_map, shown_flat. unfold zone_pts. rewrite !flat_map_app.
    rewrite !kvs_marks.
    reflexivity.
Qed.
Lemma p_element_blank e : blank (p_element (wipe e)) = blank (p_element e).
Proof.
  destruct e; try reflexivity; cbn [p_element wipe].
  - unfold p_module. tm. cbn [m_elements m_name]. do 2 f_equal. rewrite !map_map. apply map_same. intros x. destruct x; reflexivity.
  - destruct l. reflexivity.
  - destruct a. reflexivity.
  - destruct c. reflexivity.
  - destruct d as [n w l t tx f1 f2 cb a1 b1 a2 b2]. cbn [p_element]. tm.
    cbn [di_name di_width di_layer di_tstamp di_text di_feature1 di_feature2 di_crossbar di_arrow1a di_arrow1b di_arrow2a di_arrow2b].
    rewrite p_text_blank, !kv_blank, !pts_blank. reflexivity.
  - destruct s. reflexivity.
  - destruct v as [b m a s d l n]. cbn [wipe p_element]. tm. reflexivity.
  - destruct z as [n nn l t h pr cp mt ko fi ps fs sg ot]. cbn [p_element]. unfold p_zone. tm.
    cbn [zo_net zo_net_name zo_layer zo_tstamp zo_hatch zo_priority zo_connect zo_min zo_keepout zo_fill zo_polygons zo_filled zo_segments zo_other].
    rewrite !map_map.
    rewrite !kvs_blank.
    destruct sg as [s|]; cbn [option_map map]; [|reflexivity]. rewrite !kv_blank, pts_blank. reflexivity.
Qed.

(** ** References of a footprint *)
Definition r_fp (e : element) : tmpl :=
  match e with
  | EFpText t =>
      if str_eqb (tx_name t) (lit "reference") then
        tnode "fp_text" (TTree (SStr (tx_name t)) :: TMark (tx_value t)
          :: trees ([ser_at (tx_at t); kv "layer" (ser_layer (tx_layer t))] ++ when (tx_hide t) [a_lit "hide"] ++ [ser_effects (tx_effects t)]))
      else TTree (ser_element e)
  | _ => TTree (ser_element e)
  end.
Lemma r_fp_plain e : plain (r_fp e) = ser_element e.
Proof. destruct e; try reflexivity. cbn [r_fp]. destruct (str_eqb _ _); [|reflexivity]. tm. reflexivity. Qed.
Lemma r_fp_marks e : marks (r_fp e) = ref_value e.
Proof. destruct e; try reflexivity. cbn [r_fp ref_value]. destruct (str_eqb _ _); [|reflexivity]. tm. reflexivity. Qed.
Lemma r_fp_blank e : blank (r_fp (hide_ref e)) = blank (r_fp e).
Proof. destruct e; try reflexivity. cbn [r_fp hide_ref]. destruct (str_eqb _ _) eqn:E; cbn [r_fp tx_name]; rewrite E; tm; reflexivity. Qed.

Section Fp.
Context (te : element -> tmpl) (names : element -> list str) (hide : element -> element).
Hypothesis P : forall e, plain (te e) = ser_element e.
Hypothesis M : forall e, marks (te e) = names e.
Hypothesis B : forall e, blank (te (hide e)) = blank (te e).
Definition t_module (m : module) : tmpl := tnode "module" (TTree (SStr (m_name m)) :: map te (m_elements m)).
Lemma fp_pieces nq n m : exists ps, length ps = S (length (flat_map names (m_elements m))) /\
  forall m', m_name m' = m_name m -> map hide (m_elements m') = map hide (m_elements m) ->
    module_to_string nq m' n = weave ps (map (atom nq) (flat_map names (m_elements m'))).
Proof.
  assert (TP : forall m, plain (t_module m) = ser_module m).
  { intros k. unfold t_module, ser_module. tm. unfold node, a_lit. do 3 f_equal. rewrite map_map. apply map_same, P. }
  assert (TM : forall m, marks (t_module m) = flat_map names (m_elements m)).
  { intros k. unfold t_module. tm. rewrite flat_map_map. apply flat_map_same, M. }
  destruct (tmpl_pretty nq (t_module m) n) as (ps & L & K). rewrite TM in L. exists ps. split; [exact L|].
  intros m' H E. unfold module_to_string. rewrite <- TP, (K (t_module m')); [unfold words; now rewrite TM|].
  unfold t_module. tm. rewrite H. do 2 f_equal.
  assert (X : forall l, map blank (map te l) = map blank (map te (map hide l))).
  { intros k. rewrite !map_map. apply map_same. intros x. symmetry. apply B. }
  rewrite (X (m_elements m')), (X (m_elements m)), E. reflexivity.
Qed.
End Fp.

Lemma set_reference_views old new m :
  m_name (set_reference old new m) = m_name m /\ map hide_ref (m_elements (set_reference old new m)) = map hide_ref (m_elements m) /\
  flat_map ref_value (m_elements (set_reference old new m)) = map (rename old new) (flat_map ref_value (m_elements m)).
Proof.
  unfold set_reference. cbn [m_name m_elements]. split; [reflexivity|]. induction (m_elements m) as [|e l [IH1 IH2]]; [split; reflexivity|].
  cbn [map flat_map]. rewrite map_app, IH1, IH2. split; f_equal; destruct e as [| | | | |t| | | | | | | | | | | |]; try reflexivity; cbn [hide_ref ref_value];
  destruct (str_eqb (tx_name t) (lit "reference")) eqn:E; cbn [andb hide_ref ref_value]; rewrite ?E; try reflexivity;
  destruct (str_eqb (tx_value t) old) eqn:V; cbn [hide_ref ref_value tx_name]; rewrite ?E; try reflexivity; cbn [map tx_value]; unfold rename; now rewrite V.
Qed.
Lemma rename_net_views old new m :
  m_name (module_rename_net old new m) = m_name m /\ map hide_pad (m_elements (module_rename_net old new m)) = map hide_pad (m_elements m) /\
  flat_map pad_net_names (m_elements (module_rename_net old new m)) = map (rename old new) (flat_map pad_net_names (m_elements m)).
Proof.
  unfold module_rename_net. cbn [m_name m_elements]. split; [reflexivity|]. induction (m_elements m) as [|e l [IH1 IH2]]; [split; reflexivity|].
  cbn [map flat_map]. rewrite map_app, IH1, IH2. split; f_equal; destruct e as [| | | | | |p| | | | | | | | | | |]; try reflexivity;
  destruct p as [? ? ? ? ? ? ? [[z s]|] ? ? ? ? ? ?]; try reflexivity; cbn; unfold rename; destruct (str_eqb s old); reflexivity.
Qed.
