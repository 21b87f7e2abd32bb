(** The meaning of zones and of whole boards and library tables (C69). *)
From Coq Require Import String Lia.
From Verif Require Import Base Str StrFacts Num F64 F64Text Sexp FpData FpLayer FpDe LyData LyDe NoPanic LyFacts FpLibTable GramSpec GramRead MeanSpec MeanFacts.
Open Scope string_scope. Open Scope list_scope.

(** *** Outlines of zones *)
Definition told {A} (o : option A) : res A := match o with Some v => Ok v | None => Err ESexp end.
Lemma point_told s : de_xy s = told (free_point s).
Proof.
  destruct s as [n|l|]; try reflexivity. destruct l as [|x l]; [reflexivity|]. destruct x as [n|q|]; try reflexivity.
  unfold de_xy. cbn [sx_list_name sx_list bind sx_string].
  assert (T : xy_type_of_str n = told (choose [("xy", Some XXy); ("start", Some XStart); ("end", Some XEnd); ("size", Some XSize); ("center", Some XCenter); ("rect_delta", Some XRectDelta)] None n)).
  { unfold xy_type_of_str. cbn [choose]. repeat match goal with |- context [str_eqb n ?b] => destruct (str_eqb n b); [reflexivity|] end. reflexivity. }
  rewrite T. destruct l as [|a [|b [|c l]]]; cbn [free_point].
  - destruct (choose _ _ _) as [t|]; cbn [told bind]; [|reflexivity]. unfold iter_new. cbn [sx_list bind]. rewrite str_eqb_refl. reflexivity.
  - destruct (choose _ _ _) as [t|]; cbn [told bind]; [|destruct a; reflexivity]. unfold iter_new. cbn [sx_list bind]. rewrite str_eqb_refl.
    unfold pbind, p_f, p_t. destruct (sx_f a) eqn:E; cbn [bind]; [destruct a; reflexivity| |].
    + destruct a; cbn in E; try (injection E as <-; reflexivity). destruct (f64_of_str s); cbn in E; [discriminate E|]. now injection E as <-.
    + destruct a; cbn in E; try discriminate E. destruct (f64_of_str s); discriminate E.
  - destruct (choose _ _ _) as [t|]; cbn [told bind].
    2: { destruct a; try reflexivity. destruct b; try reflexivity. destruct (f64_of_str s); [|reflexivity]. destruct (f64_of_str s0); reflexivity. }
    unfold iter_new. cbn [sx_list bind]. rewrite str_eqb_refl. unfold pbind, p_f, p_t, sx_f.
    destruct a as [a| |]; try reflexivity. cbn [sx_string bind]. destruct (f64_of_str a) as [va|]; [|destruct b; reflexivity]. cbn [of_option bind].
    destruct b as [b| |]; try reflexivity. cbn [sx_string bind]. destruct (f64_of_str b) as [vb|]; reflexivity.
  - assert (N : match a with SStr _ => match b with SStr _ => @None xy | _ => None end | _ => None end = None) by (destruct a; try reflexivity; destruct b; reflexivity).
    transitivity (@Err xy ESexp); [|destruct a; try reflexivity; destruct b; reflexivity].
    destruct (choose _ _ _) as [t|]; cbn [told bind]; [|reflexivity].
    unfold iter_new. cbn [sx_list bind]. rewrite str_eqb_refl. unfold pbind, p_f, p_t, sx_f.
    destruct a as [a| |]; try reflexivity. cbn [sx_string bind]. destruct (f64_of_str a) as [va|]; [|reflexivity]. cbn [of_option bind].
    destruct b as [b| |]; try reflexivity. cbn [sx_string bind]. destruct (f64_of_str b) as [vb|]; reflexivity.
Qed.
Lemma points_told l : mapM de_xy l = told (free_points l).
Proof.
  induction l as [|x l IH]; [reflexivity|]. cbn [mapM free_points]. rewrite point_told. destruct (free_point x); cbn [told bind]; [|reflexivity].
  rewrite IH. destruct (free_points l); reflexivity.
Qed.
Lemma outline_told k s : de_pts_in k s = told (free_outline k s).
Proof.
  destruct s as [n|l|]; try reflexivity. destruct l as [|x l]; [reflexivity|]. destruct x as [n|q|]; try reflexivity.
  unfold de_pts_in, iter_new. cbn [sx_list bind]. destruct (str_eqb n (lit k)) eqn:E.
  2: { cbn [free_outline]. destruct l as [|[|[|[]]|] []]; try reflexivity. now rewrite E. }
  destruct l as [|y l]; [reflexivity|]. unfold pbind, p_t. destruct y as [|q|].
  - destruct l; reflexivity.
  - unfold de_pts at 1, iter_new. cbn [sx_list bind]. destruct q as [|[p| |] q].
    + destruct l; reflexivity.
    + destruct (str_eqb p (lit "pts")) eqn:F.
      * unfold p_vec. rewrite points_told. destruct l as [|z l].
        -- cbn [free_outline]. rewrite E, F. cbn [andb]. destruct (free_points q); reflexivity.
        -- transitivity (@Err pts ESexp); [|reflexivity]. destruct (free_points q); reflexivity.
      * destruct l as [|z l]; [|reflexivity]. cbn [free_outline]. now rewrite E, F.
    + destruct l; reflexivity.
    + destruct l; reflexivity.
  - destruct l; reflexivity.
Qed.
Definition zone_upd (z : zone_rest) (x : sexp) : zone_rest :=
  match free_outline "polygon" x, free_outline "filled_polygon" x, free_outline "fill_segments" x with
  | Some p, _, _ => mk_zr (zr_polygons z ++ [p]) (zr_filled z) (zr_segments z) (zr_other z)
  | None, Some p, _ => mk_zr (zr_polygons z) (zr_filled z ++ [p]) (zr_segments z) (zr_other z)
  | None, None, Some p => mk_zr (zr_polygons z) (zr_filled z) (Some p) (zr_other z)
  | None, None, None => mk_zr (zr_polygons z) (zr_filled z) (zr_segments z) (zr_other z ++ [x])
  end.
Lemma zone_step_upd z x : zone_step z x = Ok (zone_upd z x).
Proof.
  destruct z as [ps fs sg ot]. unfold zone_step, zone_upd. rewrite !outline_told. destruct (free_outline "polygon" x); [reflexivity|].
  destruct (free_outline "filled_polygon" x); [reflexivity|]. destruct (free_outline "fill_segments" x); reflexivity.
Qed.
(** Different names *)
Lemma outline_name k x p : free_outline k x = Some p -> called k x = true.
Proof.
  destruct x as [|[|[n| |] [|[|[|[q| |] r]|] [|]]]|]; try discriminate. cbn [free_outline called]. now destruct (str_eqb n (lit k)).
Qed.
Lemma called_other k j x : called k x = true -> str_eqb (lit k) (lit j) = false -> free_outline j x = None.
Proof.
  intros C D. destruct (free_outline j x) eqn:E; [|reflexivity]. apply outline_name in E. destruct x as [|[|[n| |] r]|]; try discriminate C. cbn [called] in C, E.
  apply str_eqb_eq in C. apply str_eqb_eq in E. subst n. rewrite E, str_eqb_refl in D. discriminate D.
Qed.
Lemma zone_fold l : forall z, fold_left zone_upd l z =
  mk_zr (zr_polygons z ++ outlines "polygon" l) (zr_filled z ++ outlines "filled_polygon" l)
    (fold_left (fun a x => match free_outline "fill_segments" x with Some p => Some p | None => a end) l (zr_segments z))
    (zr_other z ++ filter (fun x => match free_outline "polygon" x, free_outline "filled_polygon" x, free_outline "fill_segments" x with None, None, None => true | _, _, _ => false end) l).
Proof.
  induction l as [|x l IH]; intros z; cbn [fold_left].
  - cbn [outlines flat_map filter]. rewrite !app_nil_r. now destruct z.
  - rewrite IH. unfold outlines at 3 4. cbn [flat_map filter]. fold (outlines "polygon" l). fold (outlines "filled_polygon" l).
    unfold zone_upd. destruct (free_outline "polygon" x) as [p|] eqn:P.
    + rewrite (called_other "polygon" "filled_polygon" x), (called_other "polygon" "fill_segments" x) by (try reflexivity; eapply outline_name; exact P).
      cbn [zr_polygons zr_filled zr_segments zr_other app]. now rewrite <- app_assoc.
    + destruct (free_outline "filled_polygon" x) as [q|] eqn:Q.
      * rewrite (called_other "filled_polygon" "fill_segments" x) by (try reflexivity; eapply outline_name; exact Q).
        cbn [zr_polygons zr_filled zr_segments zr_other app]. now rewrite <- app_assoc.
      * destruct (free_outline "fill_segments" x) as [r|]; cbn [zr_polygons zr_filled zr_segments zr_other app]; [reflexivity|]. now rewrite <- app_assoc.
Qed.
Lemma foldM_all {A} (f : A -> sexp -> res A) (v : A -> sexp -> A) l : (forall a s, f a s = Ok (v a s)) -> forall a, foldM f a l = Ok (fold_left v l a).
Proof. intros E. induction l as [|x l IH]; intros a; [reflexivity|]. cbn [foldM fold_left]. rewrite E. cbn [bind]. apply IH. Qed.
Lemma mn_zone : means de_zone (g_zone W) zone_of.
Proof.
  intros s H. destruct (form_inv _ _ _ H) as (l & -> & F); clear H. apply eq_form with []. parts; repeat estep.
  all: match goal with |- context [foldM zone_step ?a ?r] => rewrite (foldM_all zone_step zone_upd r zone_step_upd a) end; cbn [bind]; rewrite zone_fold.
  all: cbv beta delta [g_hatch g_connect g_keepout g_fill g_layer g_stamp] in *; names; reflexivity.
Qed.

(** ** Boards *)
Definition board_upd (b : layout) (x : sexp) : layout :=
  mk_layout (up x "version" (value integer) (ly_version b)) (up x "host" host_of (ly_host b)) (up x "general" general_of (ly_general b))
    (up x "page" (value txt) (ly_page b)) (up x "setup" setup_of (ly_setup b)) (up x "layers" (fun x => map board_layer_of (kids x)) (ly_layers b))
    (ly_elements b ++ (if is_head x then [] else [board_element_of x])).
Lemma board_fold l : forall b, fold_left board_upd l b =
  mk_layout (last_field "version" (value integer) (ly_version b) l) (last_field "host" host_of (ly_host b) l) (last_field "general" general_of (ly_general b) l)
    (last_field "page" (value txt) (ly_page b) l) (last_field "setup" setup_of (ly_setup b) l)
    (last_field "layers" (fun x => map board_layer_of (kids x)) (ly_layers b) l) (ly_elements b ++ map board_element_of (filter (fun x => negb (is_head x)) l)).
Proof.
  induction l as [|x l IH]; intros b; cbn [fold_left].
  - cbn [filter map]. rewrite app_nil_r. now destruct b.
  - rewrite IH. unfold board_upd. cbn [ly_version ly_host ly_general ly_page ly_setup ly_layers ly_elements]. rewrite <- app_assoc.
    unfold last_field, up. cbn [fold_left filter]. destruct (is_head x); reflexivity.
Qed.
Ltac keys := repeat match goal with |- context [str_eqb (lit ?a) (lit ?b)] => let E := fresh in first [assert (E : str_eqb (lit a) (lit b) = true) by reflexivity | assert (E : str_eqb (lit a) (lit b) = false) by reflexivity]; rewrite E; clear E end; cbv iota.
Lemma push_upd {A} k b s (c : A -> ly_element) (f : sexp -> res A) v a : means f (Form k b) v -> follows (Form k b) s ->
  (forall l, layout_step a (SList (SStr (lit k) :: l)) = push_wrap a c (f (SList (SStr (lit k) :: l)))) -> forallb (fun h => negb (str_eqb (lit k) (lit h))) heads = true ->
  (forall l, board_element_of (SList (SStr (lit k) :: l)) = c (v (SList (SStr (lit k) :: l)))) -> layout_step a s = Ok (board_upd a s).
Proof.
  intros F H E N V. pose proof (F s H) as K. destruct (form_inv _ _ _ H) as (l & -> & _). rewrite E. unfold push_wrap. rewrite K. cbn [bind].
  unfold board_upd. cbn [forallb heads] in N. repeat (apply andb_prop in N as [? N]).
  repeat match goal with H : negb _ = true |- _ => apply Bool.negb_true_iff in H end.
  unfold up, is_head. cbn [called existsb heads]. repeat match goal with H : str_eqb _ _ = false |- _ => rewrite !H; clear H end. cbn [orb].
  rewrite V. destruct a. reflexivity.
Qed.
Ltac pu lm := eapply push_upd; [apply lm|eassumption|intros; match goal with a : layout |- _ => destruct a end; reflexivity|reflexivity|intros; reflexivity].
Lemma eq_known a g : In g (g_known W) -> forall s, follows g s -> layout_step a s = Ok (board_upd a s).
Proof.
  unfold g_known. cbn [In]. intros I s H. repeat destruct I as [<-|I]; try contradiction.
  - pu mn_module.
  - pu mn_net.
  - pu mn_net_class.
  - pu mn_gr_text.
  - pu mn_dimension.
  - pu mn_zone.
  - pu mn_gr_line.
  - pu mn_gr_arc.
  - pu mn_gr_circle.
  - pu mn_segment.
  - pu mn_via.
Qed.
Lemma eq_other a g : In g (others W) -> forall s, follows g s -> layout_step a s = Ok (board_upd a s).
Proof.
  intros [<-|[]] s H. inversion H as [|? ? n l N F| |]; subst. destruct a.
  assert (D : forall k, In k board_names -> str_eqb n (lit k) = false).
  { intros k I. destruct (str_eqb_spec n (lit k)); [|reflexivity]. destruct N. now exists k. }
  unfold layout_step. cbn [sx_list_name sx_list bind sx_string]. rewrite !D by (cbn [In board_names]; tauto).
  unfold board_upd, up, is_head, board_element_of. cbn [called existsb heads name_of choose]. rewrite !D by (cbn [In board_names]; tauto). reflexivity.
Qed.
Lemma head_upd {A} k b s (c : A -> layout) (f : sexp -> res A) v a : means f (Form k b) v -> follows (Form k b) s ->
  (forall l, layout_step a (SList (SStr (lit k) :: l)) = (do x <- f (SList (SStr (lit k) :: l)); Ok (c x))) ->
  (forall l, board_upd a (SList (SStr (lit k) :: l)) = c (v (SList (SStr (lit k) :: l)))) -> layout_step a s = Ok (board_upd a s).
Proof.
  intros F H E V. pose proof (F s H) as K. destruct (form_inv _ _ _ H) as (l & -> & _). rewrite E, K, V. reflexivity.
Qed.
Lemma hd_eq v h g p su la es x : board_upd (mk_layout v h g p su la es) x =
  mk_layout (up x "version" (value integer) v) (up x "host" host_of h) (up x "general" general_of g)
    (up x "page" (value txt) p) (up x "setup" setup_of su) (up x "layers" (fun x => map board_layer_of (kids x)) la)
    (es ++ (if is_head x then [] else [board_element_of x])).
Proof. reflexivity. Qed.
Ltac hd lm cc := eapply head_upd with (c := cc); [apply lm|eassumption|intros; reflexivity|intros; rewrite hd_eq; unfold up; cbn [called is_head existsb heads]; keys; cbn [orb]; rewrite app_nil_r; reflexivity].
Lemma eq_head a g : In g [fld "version" (int W); g_host; g_general W; fld "page" text; g_stack W; g_setup W] -> forall s, follows g s -> layout_step a s = Ok (board_upd a s).
Proof.
  destruct a as [v h g0 p su la es]. cbn [In]. intros I s H. repeat destruct I as [<-|I]; try contradiction.
  - hd mn_version (fun x => mk_layout x h g0 p su la es).
  - hd mn_host (fun x => mk_layout v x g0 p su la es).
  - hd mn_general (fun x => mk_layout v h x p su la es).
  - hd mn_page (fun x => mk_layout v h g0 x su la es).
  - hd mn_stack (fun x => mk_layout v h g0 p su x es).
  - hd mn_setup (fun x => mk_layout v h g0 p x la es).
Qed.
Lemma mn_layout : means de_layout (g_board W) layout_of.
Proof.
  intros s H. destruct (form_inv _ _ _ H) as (l & -> & F); clear H. apply eq_form with [].
  rewrite (foldM_means layout_step board_upd _ l) with (2 := F).
  - cbn [bind]. rewrite board_fold. reflexivity.
  - intros g I a s H. cbn [flat_map loose W app] in I. rewrite app_nil_r in I.
    assert (C : In g [fld "version" (int W); g_host; g_general W; fld "page" text; g_stack W; g_setup W] \/ In g (g_known W ++ others W)) by (cbn [In] in I |- *; tauto).
    destruct C as [C|C]; [now apply eq_head with g|]. apply in_app_or in C as [C|C]; [now apply eq_known with g|now apply eq_other with g].
Qed.

(** ** Library tables *)
Lemma mn_lib : means de_flib g_lib lib_of. Proof. go. Qed.
Lemma mn_table : means de_fp_lib_table g_table table_of.
Proof.
  intros s H. destruct (form_inv _ _ _ H) as (l & -> & F); clear H. apply eq_form with []. apply means_vec with (gs := [g_lib]); [|exact F].
  constructor; [apply mn_lib|constructor].
Qed.
