(** Boards as trees with marked atoms (lemmas for C86, C87). *)
From Coq Require Import String Lia.
From Verif Require Import Base Str StrFacts Num F64 F64Text Sexp FpData FpLayer FpSer FpOps FpOpsSpec LyData LySer LyOps LySpec Formatter FormatterSpec FormatterFacts DocText TextSpec DiffSpec DiffTree.
Open Scope string_scope. Open Scope list_scope.

Lemma plain_trees l : map plain (map TTree l) = l.
Proof. induction l; cbn; congruence. Qed.
Lemma blank_trees l : map blank (map TTree l) = map TTree l.
Proof. induction l; cbn; congruence. Qed.
Lemma marks_trees l : flat_map marks (map TTree l) = [].
Proof. induction l; cbn; auto. Qed.
Definition tnode (k : string) (l : list tmpl) : tmpl := TNode (lit k) l.
Definition trees (l : list sexp) : list tmpl := map TTree l.

(** ** Net names *)
Definition n_pad (p : pad) (n : fnet) : tmpl :=
  tnode "pad"
    (trees ([SStr (pa_name p); a_lit (show_pad_type (pa_t p)); a_lit (show_pad_shape (pa_shape p));
      ser_at (pa_at p); ser_xy (pa_size p)]
     ++ opt_list ser_drill (pa_drill p)
     ++ opt_list ser_xy (pa_rect_delta p)
     ++ [ser_layers (pa_layers p)])
     ++ tnode "net" [TTree (a_i (fn_num n)); TMark (fn_name n)]
     :: trees (opt_list (fun z => kv "zone_connect" (a_i z)) (pa_zone_connect p)
     ++ opt_list (fun f => kv "solder_paste_margin" (a_f f)) (pa_paste_margin p)
     ++ opt_list (fun f => kv "solder_mask_margin" (a_f f)) (pa_mask_margin p)
     ++ opt_list (fun f => kv "clearance" (a_f f)) (pa_clearance p)
     ++ opt_list (fun f => kv "thermal_gap" (a_f f)) (pa_thermal_gap p))).
Definition n_fp (e : element) : tmpl :=
  match e with
  | EPad p => match pa_net p with Some n => n_pad p n | None => TTree (ser_pad p) end
  | _ => TTree (ser_element e)
  end.
Definition n_module (m : module) : tmpl := tnode "module" (TTree (SStr (m_name m)) :: map n_fp (m_elements m)).
Definition n_class (n : net_class) : tmpl :=
  tnode "net_class"
    (trees ([SStr (nc_name n); SStr (nc_desc n); kv "clearance" (a_f (nc_clearance n));
      kv "trace_width" (a_f (nc_trace_width n)); kv "via_dia" (a_f (nc_via_dia n));
      kv "via_drill" (a_f (nc_via_drill n)); kv "uvia_dia" (a_f (nc_uvia_dia n));
      kv "uvia_drill" (a_f (nc_uvia_drill n))]
     ++ opt_list (fun f => kv "diff_pair_gap" (a_f f)) (nc_dp_gap n)
     ++ opt_list (fun f => kv "diff_pair_width" (a_f f)) (nc_dp_width n))
     ++ map (fun s => tnode "add_net" [TMark s]) (nc_nets n)).
Definition n_zone (z : zone) : tmpl :=
  tnode "zone"
    (TTree (kv "net" (a_i (zo_net z))) :: tnode "net_name" [TMark (zo_net_name z)]
     :: trees ([kv "layer" (ser_layer (zo_layer z)); kv "tstamp" (SStr (zo_tstamp z));
      ser_hatch (zo_hatch z)]
     ++ when (0 <? zo_priority z)%Z [kv "priority" (a_i (zo_priority z))]
     ++ [ser_connect (zo_connect z); kv "min_thickness" (a_f (zo_min z))]
     ++ opt_list ser_keepout (zo_keepout z)
     ++ [ser_fill (zo_fill z)]
     ++ map (fun p => kv "polygon" (ser_pts p)) (zo_polygons z)
     ++ map (fun p => kv "filled_polygon" (ser_pts p)) (zo_filled z)
     ++ opt_list (fun p => kv "fill_segments" (ser_pts p)) (zo_segments z)
     ++ zo_other z)).
Definition n_element (e : ly_element) : tmpl :=
  match e with
  | YNet n => tnode "net" [TTree (a_i (ne_num n)); TMark (ne_name n)]
  | YNetClass n => n_class n
  | YModule m => n_module m
  | YZone z => n_zone z
  | _ => TTree (ser_ly_element e)
  end.

Ltac tm := unfold tnode, trees; cbn [plain marks blank map flat_map app];
  repeat (rewrite ?map_app, ?flat_map_app, ?plain_trees, ?marks_trees, ?blank_trees, ?app_nil_r; cbn [plain marks blank map flat_map app]).

Lemma n_fp_plain e : plain (n_fp e) = ser_element e.
Proof.
  destruct e as [| | | | | |p| | | | | | | | | | |]; try reflexivity. cbn [n_fp]. destruct (pa_net p) as [n|] eqn:E; [|reflexivity].
  unfold n_pad. tm. cbn [ser_element]. unfold ser_pad. rewrite E. unfold node, a_lit. cbn [opt_list app]. now rewrite <- !app_assoc.
Qed.
Lemma n_fp_marks e : marks (n_fp e) = pad_net_names e.
Proof. destruct e as [| | | | | |p| | | | | | | | | | |]; try reflexivity. cbn [n_fp pad_net_names]. destruct (pa_net p) as [n|]; [|reflexivity]. unfold n_pad. now tm. Qed.
Lemma n_fp_blank e : blank (n_fp (hide_pad e)) = blank (n_fp e).
Proof.
  destruct e as [| | | | | |p| | | | | | | | | | |]; try reflexivity. destruct p as [? ? ? ? ? ? ? [n|] ? ? ? ? ? ?]; cbn [hide_pad n_fp pa_net option_map]; [|reflexivity].
  unfold n_pad. tm. reflexivity.
Qed.
Lemma map_same {A B} (f g : A -> B) l : (forall x, f x = g x) -> map f l = map g l.
Proof. intros H. induction l; cbn; congruence. Qed.
Lemma n_module_plain m : plain (n_module m) = ser_module m.
Proof. unfold n_module, ser_module. tm. unfold node, a_lit. do 3 f_equal. rewrite map_map. apply map_same, n_fp_plain. Qed.
Lemma flat_map_map {A B C} (f : A -> B) (g : B -> list C) l : flat_map g (map f l) = flat_map (fun x => g (f x)) l.
Proof. induction l; cbn; congruence. Qed.
Lemma flat_map_same {A B} (f g : A -> list B) l : (forall x, f x = g x) -> flat_map f l = flat_map g l.
Proof. intros H. induction l; cbn; congruence. Qed.
Lemma n_module_marks m : marks (n_module m) = flat_map pad_net_names (m_elements m).
Proof. unfold n_module. tm. rewrite flat_map_map. apply flat_map_same, n_fp_marks. Qed.
Lemma n_element_plain e : plain (n_element e) = ser_ly_element e.
Proof.
  destruct e; try reflexivity; cbn [n_element ser_ly_element].
  - apply n_module_plain.
  - unfold n_class, ser_net_class. tm. unfold node, a_lit. cbn [app]. rewrite map_map. cbn [plain map]. do 2 f_equal. rewrite <- !app_assoc. reflexivity.
  - unfold n_zone, ser_zone. tm. reflexivity.
Qed.
Lemma n_element_marks e : marks (n_element e) = net_names e.
Proof.
  destruct e; try reflexivity; cbn [n_element net_names].
  - apply n_module_marks.
  - unfold n_class. tm. rewrite flat_map_map. cbn [marks flat_map app]. match goal with |- _ = ?l => induction l; cbn; congruence end.
  - unfold n_zone. tm. reflexivity.
Qed.
Lemma n_element_blank e : blank (n_element (hide_names e)) = blank (n_element e).
Proof.
  destruct e; try reflexivity; cbn [n_element hide_names].
  - unfold n_module. tm. cbn [m_elements m_name]. do 2 f_equal. rewrite !map_map. apply map_same, n_fp_blank.
  - destruct n as [a b c d e f g h i j k]. cbn [n_element hide_names]. unfold n_class. cbn [nc_nets]. tm. rewrite !map_map. reflexivity.
  - destruct z. reflexivity.
Qed.

(** ** Whole boards *)
Definition head_trees (l : layout) : list sexp :=
  [kv "version" (a_i (ly_version l)); node "host" [SStr (ho_tool (ly_host l)); SStr (ho_build (ly_host l))];
   ser_general (ly_general l); kv "page" (SStr (ly_page l)); node "layers" (map ser_ly_layer (ly_layers l)); ser_setup (ly_setup l)].
Definition t_layout (te : ly_element -> tmpl) (l : layout) : tmpl := tnode "kicad_pcb" (trees (head_trees l) ++ map te (ly_elements l)).
Section Board.
Context (te : ly_element -> tmpl) (names : ly_element -> list str) (hide : ly_element -> ly_element).
Hypothesis P : forall e, plain (te e) = ser_ly_element e.
Hypothesis M : forall e, marks (te e) = names e.
Hypothesis B : forall e, blank (te (hide e)) = blank (te e).
Lemma t_layout_plain l : plain (t_layout te l) = ser_layout l.
Proof. unfold t_layout, head_trees, ser_layout. tm. unfold node, a_lit. do 9 f_equal. rewrite map_map. apply map_same, P. Qed.
Lemma t_layout_marks l : marks (t_layout te l) = flat_map names (ly_elements l).
Proof. unfold t_layout, head_trees. tm. rewrite flat_map_map. apply flat_map_same, M. Qed.
Lemma t_layout_blank l l' : ly_header l' = ly_header l -> map hide (ly_elements l') = map hide (ly_elements l) ->
  blank (t_layout te l') = blank (t_layout te l).
Proof.
  intros H E. unfold t_layout. tm. unfold ly_header in H. injection H as H1 H2 H3 H4 H5 H6. unfold head_trees. rewrite H1, H2, H3, H4, H5, H6. do 2 f_equal.
  assert (X : forall l, map blank (map te l) = map blank (map te (map hide l))).
  { intros k. rewrite !map_map. apply map_same. intros x. symmetry. apply B. }
  rewrite (X (ly_elements l')), (X (ly_elements l)), E. reflexivity.
Qed.
Lemma board_pieces nq n l : exists ps, length ps = S (length (flat_map names (ly_elements l))) /\
  forall l', ly_header l' = ly_header l -> map hide (ly_elements l') = map hide (ly_elements l) ->
    layout_to_string nq l' n = weave ps (map (atom nq) (flat_map names (ly_elements l'))) ++ [10%N].
Proof.
  destruct (tmpl_pretty nq (t_layout te l) n) as (ps & L & K). rewrite t_layout_marks in L. exists ps. split; [exact L|].
  intros l' H E. unfold layout_to_string. f_equal. rewrite <- t_layout_plain, (K _ (t_layout_blank l l' H E)). unfold words. now rewrite t_layout_marks.
Qed.
End Board.
