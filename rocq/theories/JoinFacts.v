(** Facts about files put together from parts (C104). *)
From Coq Require Import List String Lia Permutation.
From Verif Require Import Base Str StrFacts Sexp SexpFacts FpData FpDe LyData LyDe FpLibTable SchData SchParse SymData SymParse MeanSpec CutSpec CutFacts SchReadSpec SchReadFacts SymReadSpec SymReadFacts LyFacts LySpec JoinSpec.
Import ListNotations.
Open Scope string_scope. Open Scope list_scope.

(** ** Lists of results *)
Lemma mapM_iff {A B} (f : A -> res B) a b w : mapM f (a ++ b) = Ok w <-> exists u v, mapM f a = Ok u /\ mapM f b = Ok v /\ w = u ++ v.
Proof.
  revert w. induction a as [|x a IH]; intros w; cbn [app mapM].
  - split; [intros H; exists [], w; auto|]. intros (u & v & [= <-] & H & ->). exact H.
  - destruct (f x) as [y|e|]; cbn [bind].
    + split.
      * intros H. apply bind_inv in H as (ys & H & E). injection E as <-. apply IH in H as (u & v & -> & -> & ->). exists (y :: u), v. auto.
      * intros (u & v & U & V & ->). apply bind_inv in U as (ys & U & E). injection E as <-.
        assert (W : mapM f (a ++ b) = Ok (ys ++ v)) by (apply IH; exists ys, v; auto). rewrite W. reflexivity.
    + split; [discriminate|]. intros (u & v & U & _). discriminate U.
    + split; [discriminate|]. intros (u & v & U & _). discriminate U.
Qed.
Lemma mapM_perm {A B} (f : A -> res B) a b : Permutation a b -> forall u, mapM f a = Ok u -> exists v, mapM f b = Ok v /\ Permutation u v.
Proof.
  induction 1 as [|x a b P IH|x y a|a b c P IH Q IK]; intros u U.
  - exists u. split; [exact U|apply Permutation_refl].
  - cbn [mapM] in *. apply bind_inv in U as (z & Z & U). apply bind_inv in U as (zs & U & E). injection E as <-.
    destruct (IH zs U) as (v & V & R). exists (z :: v). rewrite Z, V. split; [reflexivity|now constructor].
  - cbn [mapM] in *. apply bind_inv in U as (z & Z & U). apply bind_inv in U as (w & W & U). apply bind_inv in W as (z2 & Z2 & W).
    apply bind_inv in W as (zs & ZS & E). injection E as <-. injection U as <-. exists (z2 :: z :: zs). rewrite Z2. cbn [bind]. rewrite Z. cbn [bind]. rewrite ZS.
    split; [reflexivity|constructor].
  - destruct (IH u U) as (v & V & R). destruct (IK v V) as (w & W & T). exists w. split; [exact W|]. exact (perm_trans R T).
Qed.

(** ** Footprints and tables *)
Lemma module_tree n es : de_module (footprint_tree n es) = do v <- mapM de_element es; Ok (mk_module n v).
Proof.
  unfold de_module, footprint_tree, iter_new. cbn [sx_list bind]. rewrite str_eqb_refl. unfold pbind, p_s, p_t. cbn [sx_string bind].
  unfold p_vec. destruct (mapM de_element es); reflexivity.
Qed.
Lemma table_tree_eq es : de_fp_lib_table (table_tree es) = mapM de_flib es.
Proof. unfold de_fp_lib_table, table_tree, iter_new. cbn [sx_list bind]. rewrite str_eqb_refl. unfold p_vec. destruct (mapM de_flib es); reflexivity. Qed.
Theorem module_join n a b m : de_module (footprint_tree n (a ++ b)) = Ok m <->
  exists m1 m2, de_module (footprint_tree n a) = Ok m1 /\ de_module (footprint_tree n b) = Ok m2 /\ m = mk_module n (m_elements m1 ++ m_elements m2).
Proof.
  rewrite !module_tree. split.
  - intros H. apply bind_inv in H as (w & W & E). injection E as <-. apply mapM_iff in W as (u & v & U & V & ->).
    exists (mk_module n u), (mk_module n v). rewrite U, V. auto.
  - intros (m1 & m2 & A & B & ->). apply bind_inv in A as (u & U & E). injection E as <-. apply bind_inv in B as (v & V & E). injection E as <-.
    assert (W : mapM de_element (a ++ b) = Ok (u ++ v)) by (apply mapM_iff; exists u, v; auto). rewrite W. reflexivity.
Qed.
Theorem module_perm n a b m : Permutation a b -> de_module (footprint_tree n a) = Ok m ->
  exists m', de_module (footprint_tree n b) = Ok m' /\ m_name m' = m_name m /\ Permutation (m_elements m) (m_elements m').
Proof.
  intros P. rewrite !module_tree. intros H. apply bind_inv in H as (u & U & E). injection E as <-. destruct (mapM_perm _ _ _ P u U) as (v & V & R).
  exists (mk_module n v). rewrite V. auto.
Qed.
Theorem table_join a b t : de_fp_lib_table (table_tree (a ++ b)) = Ok t <->
  exists t1 t2, de_fp_lib_table (table_tree a) = Ok t1 /\ de_fp_lib_table (table_tree b) = Ok t2 /\ t = t1 ++ t2.
Proof. rewrite !table_tree_eq. apply mapM_iff. Qed.
Theorem table_perm a b t : Permutation a b -> de_fp_lib_table (table_tree a) = Ok t ->
  exists t', de_fp_lib_table (table_tree b) = Ok t' /\ Permutation t t'.
Proof. rewrite !table_tree_eq. intros P. exact (mapM_perm de_flib a b P t). Qed.

(** ** Boards *)
Inductive entry :=
| HVersion (x : Z) | HHost (x : host) | HGeneral (x : general) | HPage (x : str) | HSetup (x : setup) | HLayers (x : list ly_layer) | HElement (x : ly_element).
Definition put (l : layout) (x : entry) : layout :=
  let '(mk_layout v h g p su la es) := l in
  match x with
  | HVersion x => mk_layout x h g p su la es
  | HHost x => mk_layout v x g p su la es
  | HGeneral x => mk_layout v h x p su la es
  | HPage x => mk_layout v h g x su la es
  | HSetup x => mk_layout v h g p x la es
  | HLayers x => mk_layout v h g p su x es
  | HElement x => mk_layout v h g p su la (es ++ [x])
  end.

Definition el {A} (c : A -> ly_element) (r : res A) : res entry := do a <- r; Ok (HElement (c a)).
Definition eff (e : sexp) : res entry :=
  do k <- sx_list_name e;
  if str_eqb k (lit "version") then do x <- de_version e; Ok (HVersion x)
  else if str_eqb k (lit "host") then do x <- de_host e; Ok (HHost x)
  else if str_eqb k (lit "general") then do x <- de_general e; Ok (HGeneral x)
  else if str_eqb k (lit "page") then do x <- de_page e; Ok (HPage x)
  else if str_eqb k (lit "layers") then do x <- de_ly_layers e; Ok (HLayers x)
  else if str_eqb k (lit "module") then el YModule (de_module e)
  else if str_eqb k (lit "net") then el YNet (de_net e)
  else if str_eqb k (lit "net_class") then el YNetClass (de_net_class e)
  else if str_eqb k (lit "gr_text") then el YGrText (de_gr_text e)
  else if str_eqb k (lit "gr_line") then el YGrLine (de_gr_line e)
  else if str_eqb k (lit "gr_arc") then el YGrArc (de_gr_arc e)
  else if str_eqb k (lit "gr_circle") then el YGrCircle (de_gr_circle e)
  else if str_eqb k (lit "dimension") then el YDimension (de_dimension e)
  else if str_eqb k (lit "zone") then el YZone (de_zone e)
  else if str_eqb k (lit "segment") then el YSegment (de_segment e)
  else if str_eqb k (lit "via") then el YVia (de_via e)
  else if str_eqb k (lit "setup") then do x <- de_setup e; Ok (HSetup x)
  else Ok (HElement (YOther e)).
Lemma bind_bind {A B C} (r : res A) (f : A -> res B) (g : B -> res C) : bind (bind r f) g = bind r (fun a => bind (f a) g).
Proof. destruct r; reflexivity. Qed.
Lemma wrap_el {A} (c : A -> ly_element) (r : res A) l : push_wrap l c r = do x <- el c r; Ok (put l x).
Proof. unfold push_wrap, el. rewrite bind_bind. destruct r; [|reflexivity|reflexivity]. cbn [bind]. destruct l. reflexivity. Qed.
Lemma step_eff l e : layout_step l e = do x <- eff e; Ok (put l x).
Proof.
  unfold layout_step, eff. destruct l as [v h g p su la es]. rewrite bind_bind. destruct (sx_list_name e) as [k|k|]; [|reflexivity|reflexivity]. cbn [bind].
  repeat match goal with |- context [if ?b then _ else _] => destruct b; [first [exact (wrap_el _ _ _)|rewrite bind_bind; reflexivity]|] end. reflexivity.
Qed.
Lemma fold_eff es : forall l, foldM layout_step l es = do xs <- mapM eff es; Ok (fold_left put xs l).
Proof.
  induction es as [|e es IH]; intros l; [reflexivity|]. cbn [foldM mapM]. rewrite step_eff, !bind_bind. destruct (eff e) as [x|k|]; [|reflexivity|reflexivity].
  cbn [bind]. rewrite IH, !bind_bind. destruct (mapM eff es); reflexivity.
Qed.
Lemma board_tree_eq es : de_layout (board_tree es) = do xs <- mapM eff es; Ok (fold_left put xs layout_default).
Proof. unfold de_layout, board_tree, iter_new. cbn [sx_list bind]. rewrite str_eqb_refl, fold_eff. destruct (mapM eff es); reflexivity. Qed.

(** Folds that keep the last of some entries *)
Section keep.
Context {A X : Type} (g : A -> X -> A) (sel : X -> bool) (G1 : forall x a b, sel x = true -> g a x = g b x) (G0 : forall x a, sel x = false -> g a x = a).
Lemma keep_none xs a : existsb sel xs = false -> fold_left g xs a = a.
Proof. revert a. induction xs as [|x xs IH]; intros a H; [reflexivity|]. cbn in *. apply Bool.orb_false_iff in H as [H K]. now rewrite (G0 x a H), IH. Qed.
Lemma keep_some xs a b : existsb sel xs = true -> fold_left g xs a = fold_left g xs b.
Proof.
  revert a b. induction xs as [|x xs IH]; intros a b H; [discriminate|]. cbn in *. destruct (sel x) eqn:S; [now rewrite (G1 x a b S)|]. now rewrite !(G0 x _ S), (IH a b H).
Qed.
Lemma keep_app xs ys a : fold_left g (xs ++ ys) a = if existsb sel ys then fold_left g ys a else fold_left g xs a.
Proof. rewrite fold_left_app. destruct (existsb sel ys) eqn:E; [now apply keep_some|now apply keep_none]. Qed.
Lemma keep_filter xs a : fold_left g xs a = fold_left g (filter sel xs) a.
Proof. revert a. induction xs as [|x xs IH]; intros a; [reflexivity|]. cbn. destruct (sel x) eqn:S; cbn; [apply IH|now rewrite (G0 x a S)]. Qed.
Lemma keep_perm xs ys a : Permutation xs ys -> (length (filter sel xs) <= 1)%nat -> fold_left g xs a = fold_left g ys a.
Proof.
  intros P L. rewrite (keep_filter xs), (keep_filter ys).
  assert (Q : Permutation (filter sel xs) (filter sel ys)).
  { clear L. induction P as [|x xs ys P IH|x y xs|xs ys zs P IH Q IK]; cbn; [constructor| | |].
    - destruct (sel x); [now constructor|exact IH].
    - destruct (sel x), (sel y); try apply Permutation_refl. constructor.
    - exact (perm_trans IH IK). }
  destruct (filter sel xs) as [|x [|? ?]]; [apply Permutation_nil in Q; now rewrite Q|apply Permutation_length_1_inv in Q; now rewrite Q|cbn in L; lia].
Qed.
End keep.

Definition sel (k : string) (x : entry) : bool :=
  match x with
  | HVersion _ => String.eqb k "version" | HHost _ => String.eqb k "host" | HGeneral _ => String.eqb k "general"
  | HPage _ => String.eqb k "page" | HSetup _ => String.eqb k "setup" | HLayers _ => String.eqb k "layers" | HElement _ => false
  end.
Lemma eff_called k e x : In k heads -> eff e = Ok x -> called k e = sel k x.
Proof.
  intros K H. unfold eff in H. destruct e as [t|l|]; try discriminate H. unfold sx_list_name in H. cbn [sx_list bind] in H. destruct l as [|[n|l2|] l]; try discriminate H.
  cbn [sx_string bind] in H. cbn [called].
  repeat match type of H with
  | (if str_eqb n (lit ?w) then _ else _) = _ => let D := fresh "D" in destruct (str_eqb_spec n (lit w)) as [D|D]
  end;
  try (subst n; unfold el in H; apply bind_inv in H as (? & _ & H); injection H as <-;
    cbn [heads In] in K; decompose [or] K; try contradiction; subst k; vm_compute; reflexivity).
  injection H as <-. cbn [sel]. cbn [heads In] in K. decompose [or] K; try contradiction; subst k; destruct (str_eqb_spec n (lit "version")); congruence || auto;
  match goal with |- str_eqb n ?w = false => destruct (str_eqb_spec n w); congruence end.
Qed.
Lemma effs_called k es xs : In k heads -> mapM eff es = Ok xs -> existsb (called k) es = existsb (sel k) xs /\ length (filter (called k) es) = length (filter (sel k) xs).
Proof.
  intros K. revert xs. induction es as [|e es IH]; intros xs H; cbn [mapM] in H; [injection H as <-; auto|].
  apply bind_inv in H as (x & X & H). apply bind_inv in H as (ys & Y & H). injection H as <-. destruct (IH ys Y) as [A B]. cbn [existsb filter].
  rewrite (eff_called k e x K X), A. split; [reflexivity|]. destruct (sel k x); cbn [length]; now rewrite B.
Qed.

Lemma fold_proj {B} (pr : layout -> B) (g : B -> entry -> B) : (forall l x, pr (put l x) = g (pr l) x) -> forall xs l, pr (fold_left put xs l) = fold_left g xs (pr l).
Proof. intros P. induction xs as [|x xs IH]; intros l; [reflexivity|]. cbn [fold_left]. now rewrite IH, P. Qed.
Definition g_version (a : Z) (x : entry) : Z := match x with HVersion y => y | _ => a end.
Lemma g_version_ok : (forall l x, ly_version (put l x) = g_version (ly_version l) x) /\ (forall x a b, sel "version" x = true -> g_version a x = g_version b x) /\ (forall x a, sel "version" x = false -> g_version a x = a).
Proof. split; [intros [] []; reflexivity|]. split; [intros [] a b H; try discriminate H; reflexivity|intros [] a H; try discriminate H; reflexivity]. Qed.
Definition g_host (a : host) (x : entry) : host := match x with HHost y => y | _ => a end.
Lemma g_host_ok : (forall l x, ly_host (put l x) = g_host (ly_host l) x) /\ (forall x a b, sel "host" x = true -> g_host a x = g_host b x) /\ (forall x a, sel "host" x = false -> g_host a x = a).
Proof. split; [intros [] []; reflexivity|]. split; [intros [] a b H; try discriminate H; reflexivity|intros [] a H; try discriminate H; reflexivity]. Qed.
Definition g_general (a : general) (x : entry) : general := match x with HGeneral y => y | _ => a end.
Lemma g_general_ok : (forall l x, ly_general (put l x) = g_general (ly_general l) x) /\ (forall x a b, sel "general" x = true -> g_general a x = g_general b x) /\ (forall x a, sel "general" x = false -> g_general a x = a).
Proof. split; [intros [] []; reflexivity|]. split; [intros [] a b H; try discriminate H; reflexivity|intros [] a H; try discriminate H; reflexivity]. Qed.
Definition g_page (a : str) (x : entry) : str := match x with HPage y => y | _ => a end.
Lemma g_page_ok : (forall l x, ly_page (put l x) = g_page (ly_page l) x) /\ (forall x a b, sel "page" x = true -> g_page a x = g_page b x) /\ (forall x a, sel "page" x = false -> g_page a x = a).
Proof. split; [intros [] []; reflexivity|]. split; [intros [] a b H; try discriminate H; reflexivity|intros [] a H; try discriminate H; reflexivity]. Qed.
Definition g_setup (a : setup) (x : entry) : setup := match x with HSetup y => y | _ => a end.
Lemma g_setup_ok : (forall l x, ly_setup (put l x) = g_setup (ly_setup l) x) /\ (forall x a b, sel "setup" x = true -> g_setup a x = g_setup b x) /\ (forall x a, sel "setup" x = false -> g_setup a x = a).
Proof. split; [intros [] []; reflexivity|]. split; [intros [] a b H; try discriminate H; reflexivity|intros [] a H; try discriminate H; reflexivity]. Qed.
Definition g_layers (a : list ly_layer) (x : entry) : list ly_layer := match x with HLayers y => y | _ => a end.
Lemma g_layers_ok : (forall l x, ly_layers (put l x) = g_layers (ly_layers l) x) /\ (forall x a b, sel "layers" x = true -> g_layers a x = g_layers b x) /\ (forall x a, sel "layers" x = false -> g_layers a x = a).
Proof. split; [intros [] []; reflexivity|]. split; [intros [] a b H; try discriminate H; reflexivity|intros [] a H; try discriminate H; reflexivity]. Qed.
Definition els (xs : list entry) : list ly_element := flat_map (fun x => match x with HElement y => [y] | _ => [] end) xs.
Lemma put_elements xs : forall l, ly_elements (fold_left put xs l) = ly_elements l ++ els xs.
Proof.
  induction xs as [|x xs IH]; intros l; [cbn; now rewrite app_nil_r|]. cbn [fold_left]. rewrite IH. destruct l, x; unfold els; cbn; try reflexivity. rewrite <- app_assoc. reflexivity.
Qed.
Lemma one_field {B} k (pr : layout -> B) g b xs ys :
  ((forall l x, pr (put l x) = g (pr l) x) /\ (forall x a b, sel k x = true -> g a x = g b x) /\ (forall x a, sel k x = false -> g a x = a)) ->
  In k heads -> mapM eff b = Ok ys ->
  pr (fold_left put (xs ++ ys) layout_default) = later k b (pr (fold_left put xs layout_default)) (pr (fold_left put ys layout_default)).
Proof.
  intros (P & G1 & G0) K Y. rewrite !(fold_proj pr g P), (keep_app g (sel k) G1 G0). unfold later. now rewrite (proj1 (effs_called k b ys K Y)).
Qed.
Lemma one_field_perm {B} k (pr : layout -> B) g a xs ys :
  ((forall l x, pr (put l x) = g (pr l) x) /\ (forall x a b, sel k x = true -> g a x = g b x) /\ (forall x a, sel k x = false -> g a x = a)) ->
  In k heads -> mapM eff a = Ok xs -> Permutation xs ys -> heads_once a ->
  pr (fold_left put ys layout_default) = pr (fold_left put xs layout_default).
Proof.
  intros (P & G1 & G0) K X Q O. rewrite !(fold_proj pr g P). symmetry. apply (keep_perm g (sel k) G1 G0 xs ys _ Q). rewrite <- (proj2 (effs_called k a xs K X)). exact (O k K).
Qed.
Theorem board_join a b l : de_layout (board_tree (a ++ b)) = Ok l <->
  exists l1 l2, de_layout (board_tree a) = Ok l1 /\ de_layout (board_tree b) = Ok l2 /\ l = board_joined b l1 l2.
Proof.
  assert (J : forall xs ys, mapM eff b = Ok ys ->
    fold_left put (xs ++ ys) layout_default = board_joined b (fold_left put xs layout_default) (fold_left put ys layout_default)).
  { intros xs ys Y.
    assert (E : forall l, l = mk_layout (ly_version l) (ly_host l) (ly_general l) (ly_page l) (ly_setup l) (ly_layers l) (ly_elements l)) by (intros []; reflexivity).
    rewrite (E (fold_left put (xs ++ ys) layout_default)). unfold board_joined. f_equal.
    - apply (one_field "version" ly_version g_version b xs ys g_version_ok); [left; reflexivity|exact Y].
    - apply (one_field "host" ly_host g_host b xs ys g_host_ok); [right; left; reflexivity|exact Y].
    - apply (one_field "general" ly_general g_general b xs ys g_general_ok); [right; right; left; reflexivity|exact Y].
    - apply (one_field "page" ly_page g_page b xs ys g_page_ok); [right; right; right; left; reflexivity|exact Y].
    - apply (one_field "setup" ly_setup g_setup b xs ys g_setup_ok); [right; right; right; right; left; reflexivity|exact Y].
    - apply (one_field "layers" ly_layers g_layers b xs ys g_layers_ok); [right; right; right; right; right; left; reflexivity|exact Y].
    - rewrite !put_elements. unfold els. rewrite flat_map_app. reflexivity. }
  rewrite !board_tree_eq. split.
  - intros H. apply bind_inv in H as (w & W & E). injection E as <-. apply mapM_iff in W as (xs & ys & X & Y & ->).
    exists (fold_left put xs layout_default), (fold_left put ys layout_default). rewrite X, Y. split; [reflexivity|]. split; [reflexivity|]. exact (J xs ys Y).
  - intros (l1 & l2 & A & B & ->). apply bind_inv in A as (xs & X & E). injection E as <-. apply bind_inv in B as (ys & Y & E). injection E as <-.
    assert (W : mapM eff (a ++ b) = Ok (xs ++ ys)) by (apply mapM_iff; exists xs, ys; auto). rewrite W. cbn [bind]. f_equal. exact (J xs ys Y).
Qed.
Theorem board_perm a b l : Permutation a b -> heads_once a -> de_layout (board_tree a) = Ok l ->
  exists l', de_layout (board_tree b) = Ok l' /\ ly_header l' = ly_header l /\ Permutation (ly_elements l) (ly_elements l').
Proof.
  intros P O. rewrite !board_tree_eq. intros H. apply bind_inv in H as (xs & X & E). injection E as <-. destruct (mapM_perm _ _ _ P xs X) as (ys & Y & Q).
  exists (fold_left put ys layout_default). rewrite Y. split; [reflexivity|]. split.
  - assert (E : forall l, ly_header l = ly_header (mk_layout (ly_version l) (ly_host l) (ly_general l) (ly_page l) (ly_setup l) (ly_layers l) [])) by (intros []; reflexivity).
    rewrite (E (fold_left put ys layout_default)), (E (fold_left put xs layout_default)).
    rewrite (one_field_perm "version" ly_version g_version a xs ys g_version_ok ltac:(left; reflexivity) X Q O).
    rewrite (one_field_perm "host" ly_host g_host a xs ys g_host_ok ltac:(right; left; reflexivity) X Q O).
    rewrite (one_field_perm "general" ly_general g_general a xs ys g_general_ok ltac:(right; right; left; reflexivity) X Q O).
    rewrite (one_field_perm "page" ly_page g_page a xs ys g_page_ok ltac:(right; right; right; left; reflexivity) X Q O).
    rewrite (one_field_perm "setup" ly_setup g_setup a xs ys g_setup_ok ltac:(right; right; right; right; left; reflexivity) X Q O).
    rewrite (one_field_perm "layers" ly_layers g_layers a xs ys g_layers_ok ltac:(right; right; right; right; right; left; reflexivity) X Q O).
    reflexivity.
  - rewrite !put_elements. unfold els. apply Permutation_app_head. now apply Permutation_flat_map.
Qed.

(** ** Symbol libraries *)
Lemma symbols_join a xs : symbols_text a xs -> ~ In (lit "#End Library") a -> forall b zs,
  symbols_text (a ++ b) zs <-> exists ys, symbols_text b ys /\ zs = xs ++ ys.
Proof.
  induction 1 as [|r|l y r ys Y E S IH]; intros N b zs.
  - cbn [app]. split; [intros H; now exists zs|]. now intros (ys & H & ->).
  - exfalso. apply N. now left.
  - assert (N' : ~ In (lit "#End Library") r) by (intros I; apply N; apply in_or_app; now right). rewrite <- app_assoc. split.
    + intros H. inversion H as [Q|r' Q|l' y' r' ys' Y' E' S' Q]; clear H.
      * destruct Y; discriminate.
      * exfalso. destruct l as [|x l]; [inversion Y|]. cbn [app] in Q. apply E. cbn. f_equal. congruence.
      * subst zs. pose proof (symbol_bw l y (r ++ b) Y) as P. pose proof (symbol_bw l' y' r' Y') as P'. rewrite Q in P'. rewrite P in P'. injection P' as <- <-.
        apply (IH N') in S' as (ys2 & S2 & ->). exists ys2. auto.
    + intros (ys2 & S2 & ->). cbn [app]. apply sy_more; [exact Y|exact E|]. apply (IH N'). now exists ys2.
Qed.
Theorem library_join a b t t1 t2 xs : text_lines t (lib_heading ++ a ++ b) -> text_lines t1 (lib_heading ++ a) -> text_lines t2 (lib_heading ++ b) ->
  ~ In (lit "#End Library") a -> parse_symbol_lib t1 = Ok xs ->
  forall zs, parse_symbol_lib t = Ok zs <-> exists ys, parse_symbol_lib t2 = Ok ys /\ zs = xs ++ ys.
Proof.
  intros T T1 T2 N P zs. apply lines_iff in T, T1, T2. unfold parse_symbol_lib in *. rewrite T, T2. rewrite T1 in P. apply library_ls in P as (r & E & S).
  unfold lib_heading in E. cbn [app] in E. injection E as <-.
  rewrite library_ls. unfold library_text. split.
  - intros (r & E & S'). unfold lib_heading in E. cbn [app] in E. injection E as <-. apply (symbols_join a xs S N) in S' as (ys & S2 & ->).
    exists ys. split; [|reflexivity]. apply library_ls. exists b. now split.
  - intros (ys & P2 & ->). apply library_ls in P2 as (r & E & S2). unfold lib_heading in E. cbn [app] in E. injection E as <-.
    exists (a ++ b). split; [reflexivity|]. apply (symbols_join a xs S N). now exists ys.
Qed.

(** ** Schematics *)
Definition empty_with (d : description) : schematic := mk_sch None [] d [] [] [].
Lemma put_fun s s' : (forall c, sec_put c s = sec_put c s') -> s = s'.
Proof.
  intros H. set (d0 := mk_descr [] 0 0 [] [] [] [] [] [] [] [] 0 0). set (d1 := mk_descr [] 1 0 [] [] [] [] [] [] [] [] 0 0).
  pose proof (H (empty_with d0)) as A. pose proof (H (empty_with d1)) as B.
  assert (K : d0 <> d1) by (unfold d0, d1; discriminate).
  pose proof (f_equal sc_description A) as AD. pose proof (f_equal sc_description B) as BD. pose proof (f_equal sc_sheets A) as AS. pose proof (f_equal sc_elements A) as AE.
  clear A B. destruct s as [d|h|e|], s' as [d'|h'|e'|]; cbn in AD, BD, AS, AE; try discriminate AS; try discriminate AE; try reflexivity.
  all: try (exfalso; apply K; first [exact (eq_trans (eq_sym AD) BD)|exact (eq_trans AD (eq_sym BD))]).
  - now rewrite AD.
  - now injection AS as ->.
  - now injection AE as ->.
Qed.
Lemma section_uniq a s b a' s' b' : section_text a s -> section_text a' s' -> a ++ b = a' ++ b' -> s = s' /\ b = b'.
Proof.
  intros A A' E. split.
  - apply put_fun. intros c. destruct (round_bw a s b c A) as (q & R & _). destruct (round_bw a' s' b' c A') as (q' & R' & _). rewrite E in R. congruence.
  - set (c := empty_with (mk_descr [] 0 0 [] [] [] [] [] [] [] [] 0 0)). destruct (round_bw a s b c A) as (q & R & Q). destruct (round_bw a' s' b' c A') as (q' & R' & Q').
    rewrite E in R. rewrite R in R'. injection R' as _ <-. congruence.
Qed.
Lemma sections_join a sa : sections a sa -> forall b sb, sections (a ++ b) sb <-> exists sr, sections b sr /\ sb = sa ++ sr.
Proof.
  induction 1 as [|x r s sr X R IH]; intros b sb.
  - cbn [app]. split; [intros H; now exists sb|]. now intros (sr & H & ->).
  - rewrite <- app_assoc. split.
    + intros H. inversion H as [Q|x' r' s' sr' X' R' Q]; clear H.
      * exfalso. symmetry in Q. apply app_eq_nil in Q as [Q _]. subst x. exact (section_ne _ _ X eq_refl).
      * subst sb. destruct (section_uniq x s (r ++ b) x' s' r' X X' (eq_sym Q)) as [<- <-]. apply IH in R' as (s2 & S2 & ->). exists s2. auto.
    + intros (s2 & S2 & ->). cbn [app]. constructor; [exact X|]. apply IH. now exists s2.
Qed.
Lemma described_iff b sb : sections b sb -> (described b <-> exists d, In (SecDescr d) sb).
Proof.
  intros S. split.
  - intros (p & l & q & sp & d & E & P & D). rewrite E in S. destruct (proj1 (sections_join p sp P (l ++ q) sb) S) as (s1 & S1 & E2). rewrite E2. clear E2 S. exists d. apply in_or_app. right.
    inversion S1 as [Q|x r s sr X R Q]; clear S1.
    + exfalso. symmetry in Q. apply app_eq_nil in Q as [Q _]. subst l. inversion D.
    + destruct (section_uniq l (SecDescr d) q x s r (st_descr l d D) X (eq_sym Q)) as [<- _]. now left.
  - intros [d I]. induction S as [|x r s sr X R IH]; [destruct I|]. destruct I as [-> |I].
    + inversion X as [l d' D E F|? ? ? ? ? E F|? ? ? ? ? ? E F|? ? E F|? ? ? E F|? ? ? ? E F]; subst.
      exists [], x, r, [], d. split; [reflexivity|]. split; [constructor|exact D].
    + destruct (IH I) as (p & l & q & sp & d' & E & P & D). exists (x ++ p), l, q, (s :: sp), d'. rewrite <- app_assoc. split; [now rewrite E|]. split; [now constructor|exact D].
Qed.
Lemma heading_lines fn libs e body : starts_with (lit "EELAYER ") e = true ->
  parse_lines fn (sch_heading libs e ++ body) = main_loop (length body) body (mk_sch fn libs descr_default [] [] e).
Proof.
  intros S. unfold parse_lines, sch_heading. cbn [app]. rewrite (proj2 (assume_line_iff _ _ _) eq_refl). cbn [bind].
  assert (E : starts_with (lit "LIBS:") e = false). { apply starts_iff in S as [r ->]. reflexivity. }
  rewrite <- app_assoc. cbn [app]. rewrite libs_bw by exact E. cbn [here bind]. rewrite S. cbn [negb next tl]. rewrite (proj2 (assume_line_iff _ _ _) eq_refl). reflexivity.
Qed.
Lemma heading_iff fn libs e body c : starts_with (lit "EELAYER ") e = true ->
  (parse_lines fn (sch_heading libs e ++ body) = Ok c <-> exists l, sections body l /\ c = fold_left sec_put l (mk_sch fn libs descr_default [] [] e)).
Proof.
  intros S. rewrite (heading_lines fn libs e body S). split; [apply main_fw|]. intros (l & L & ->). now apply main_bw.
Qed.
Lemma last_app {A B} (f : A -> option B) l : forall d k, last_of f d (l ++ k) = last_of f (last_of f d l) k.
Proof. induction l as [|x l IH]; intros d k; [reflexivity|]. cbn [app last_of]. destruct (f x); apply IH. Qed.
Lemma last_descr l d : (exists x, In (SecDescr x) l) -> forall d', last_of (fun s => match s with SecDescr d => Some d | _ => None end) d l = last_of (fun s => match s with SecDescr d => Some d | _ => None end) d' l.
Proof.
  intros H d'. revert d d' H. induction l as [|s l IH]; intros d d' [x I]; [destruct I|]. cbn [last_of]. destruct s as [y|h|e|]; try reflexivity;
    (apply IH; destruct I as [I|I]; [discriminate I|now exists x]).
Qed.
Lemma last_none l d : ~ (exists x, In (SecDescr x) l) -> last_of (fun s => match s with SecDescr d => Some d | _ => None end) d l = d.
Proof.
  revert d. induction l as [|s l IH]; intros d H; [reflexivity|]. cbn [last_of]. destruct s as [y|h|e|]; [exfalso; apply H; exists y; now left| | |];
    (apply IH; intros [x I]; apply H; exists x; now right).
Qed.
Lemma joined_fun b s1 s2 s s' : (described b \/ ~ described b) -> sch_joined b s1 s2 s -> sch_joined b s1 s2 s' -> s = s'.
Proof.
  intros D (A1 & A2 & A3 & A4 & A5 & A6 & A7) (B1 & B2 & B3 & B4 & B5 & B6 & B7). destruct s, s'. cbn in *.
  assert (sc_description = sc_description0) by (destruct D as [D|D]; [rewrite (A6 D), (B6 D)|rewrite (A7 D), (B7 D)]; reflexivity). congruence.
Qed.
Theorem schematic_join fn libs e a b t t1 t2 s1 : starts_with (lit "EELAYER ") e = true ->
  text_lines t (sch_heading libs e ++ a ++ b) -> text_lines t1 (sch_heading libs e ++ a) -> text_lines t2 (sch_heading libs e ++ b) ->
  parse_schematic fn t1 = Ok s1 -> forall s, parse_schematic fn t = Ok s <-> exists s2, parse_schematic fn t2 = Ok s2 /\ sch_joined b s1 s2 s.
Proof.
  intros ST T T1 T2 P s. apply lines_iff in T, T1, T2. unfold parse_schematic in *. rewrite T, T2. rewrite T1 in P.
  apply (heading_iff fn libs e a s1 ST) in P as (sa & SA & ->). rewrite (heading_iff fn libs e (a ++ b) s ST).
  assert (J : forall sb, sections b sb -> sch_joined b (fold_left sec_put sa (mk_sch fn libs descr_default [] [] e)) (fold_left sec_put sb (mk_sch fn libs descr_default [] [] e))
     (fold_left sec_put (sa ++ sb) (mk_sch fn libs descr_default [] [] e))).
  { intros sb SB. rewrite !sec_fold. unfold sch_joined. cbn [sc_filename sc_libraries sc_eelayer sc_elements sc_sheets sc_description app]. rewrite !flat_map_app, last_app.
    pose proof (described_iff b sb SB) as D.
    split; [reflexivity|]. split; [reflexivity|]. split; [reflexivity|]. split; [reflexivity|]. split; [reflexivity|]. split.
    - intros Q. apply last_descr. now apply D.
    - intros Q. apply last_none. intros X. apply Q. now apply D. }
  split.
  - intros (l & L & ->). apply (sections_join a sa SA) in L as (sb & SB & ->). exists (fold_left sec_put sb (mk_sch fn libs descr_default [] [] e)).
    split; [apply (heading_iff fn libs e b _ ST); now exists sb|]. exact (J sb SB).
  - intros (s2 & P2 & Q). apply (heading_iff fn libs e b s2 ST) in P2 as (sb & SB & ->). exists (sa ++ sb). split; [apply (sections_join a sa SA); now exists sb|].
    refine (joined_fun b _ _ _ _ _ Q (J sb SB)). rewrite (described_iff b sb SB).
    clear. induction sb as [|x sb IH]; [right; intros [d []]|]. destruct x as [d|h|k|]; [left; exists d; now left| | |];
      (destruct IH as [[d I]|I]; [left; exists d; now right|right; intros [d [Z|Z]]; [discriminate Z|apply I; now exists d]]).
Qed.
