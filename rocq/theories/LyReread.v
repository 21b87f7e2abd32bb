(** What the layout reader yields is (up to the stated exceptions) something
    the writer can represent. *)
From Coq Require Import String Lia.
From Verif Require Import Base Str Num F64 F64Text Sexp StrFacts NumFacts F64Facts SexpFacts
  FpData FpLayer FpSer FpDe FpWf FpFacts NoPanic LyData LySer LyDe LyWf LyFacts.
Open Scope string_scope. Open Scope list_scope.

Ltac inew H := apply iter_new_inv in H as (?l1 & ?r & _ & H).
Lemma iter_nameless_inv {A} s (p : P A) a :
  iter_nameless s p = Ok a -> exists l r, s = SList l /\ p l = Ok (a, r).
Proof.
  unfold iter_nameless. destruct s as [|l|]; cbn [sx_list bind]; try discriminate.
  destruct (p l) as [[b r]| |] eqn:E; cbn [bind fst]; try discriminate. intros [= <-]. eauto.
Qed.

Lemma p_i_range l z r : p_i l = Ok (z, r) -> i64_ok z = true.
Proof. intros H. apply p_t_inv in H as (x & _ & H). eapply sx_i_inv, H. Qed.
Lemma p_i_in_range k l z r : p_i_in k l = Ok (z, r) -> i64_ok z = true.
Proof.
  intros H. apply p_t_inv in H as (x & _ & H). apply bind_inv in H as (y & _ & H). eapply sx_i_inv, H.
Qed.
Lemma p_t_layer l x r : p_t de_layer l = Ok (x, r) -> layer_ok x = true.
Proof. intros H. apply p_t_inv in H as (y & _ & H). eapply de_layer_ok, H. Qed.

Lemma de_net_ok s n : de_net s = Ok n -> i64_ok (ne_num n) = true.
Proof.
  unfold de_net. intros H. inew H. pinv H. apply p_close_inv in H as [-> _]. cbn [ne_num].
  eapply p_i_range, Hv.
Qed.

Lemma de_general_ok s g : de_general s = Ok g -> general_ok g = true.
Proof.
  unfold de_general. intros H. inew H. pinv H. apply p_close_inv in H as [-> _].
  unfold general_ok; cbn [ge_links ge_no_connects ge_drawings ge_tracks ge_zones ge_modules ge_nets].
  repeat match goal with H : p_i_in _ _ = Ok (?z, _) |- _ => apply p_i_in_range in H; rewrite H; clear H end.
  reflexivity.
Qed.

Lemma de_ly_layer_ok s l : de_ly_layer s = Ok l -> ly_layer_ok l = true.
Proof.
  unfold de_ly_layer. intros H. apply iter_nameless_inv in H as (l1 & r & _ & H). pinv H.
  apply p_close_inv in H as [-> _]. unfold ly_layer_ok; cbn [ll_num ll_layer].
  apply andb_true_intro; split; [eapply p_i_range, Hv|].
  apply plift_inv in Hv1 as [Hv1 _]. eapply layer_from_str_ok, Hv1.
Qed.
Lemma de_ly_layers_ok s l : de_ly_layers s = Ok l -> forallb ly_layer_ok l = true.
Proof.
  unfold de_ly_layers. intros H. inew H. apply p_vec_inv in H as [H _]. apply forallb_Forall.
  eapply mapM_Forall; [exact H|]. intros x y _ E. eapply de_ly_layer_ok, E.
Qed.

(** Loops: an invariant that every step keeps. *)
Lemma foldM_inv {A B} (f : A -> B -> res A) (Q : A -> Prop) l : forall a b,
  (forall a x a', In x l -> Q a -> f a x = Ok a' -> Q a') -> Q a -> foldM f a l = Ok b -> Q b.
Proof.
  induction l as [|x l IH]; intros a b Hs Ha H; cbn [foldM] in H.
  - injection H as <-. exact Ha.
  - apply bind_inv in H as (a' & Hx & H). eapply IH; [|eapply Hs; [left; reflexivity|exact Ha|exact Hx]|exact H].
    intros; eapply Hs; [right; eassumption| |]; eassumption.
Qed.

Lemma p_s_name l w r x : l = SStr w :: x -> p_s l = Ok (w, r) -> r = x.
Proof. intros -> [= <-]. reflexivity. Qed.

Lemma de_setup_element_name s e n : de_setup_element s = Ok e -> sx_list_name s = Ok n -> se_name e = n.
Proof.
  unfold de_setup_element. intros H Hn. apply iter_nameless_inv in H as (l & r & -> & H). pinv H.
  apply p_close_inv in H as [-> _]. cbn [se_name]. apply p_t_inv in Hv as (x & -> & Hv).
  unfold sx_list_name in Hn; cbn [sx_list bind] in Hn. congruence.
Qed.

Lemma de_setup_ok s u : de_setup s = Ok u -> setup_ok u = true.
Proof.
  unfold de_setup. intros H. inew H. apply bind_inv in H as (u' & H & E). injection E as -> _.
  revert H. apply foldM_inv with (Q := fun u => setup_ok u = true); [|reflexivity].
  intros a x a' _ Ha Hs. unfold setup_step in Hs. apply bind_inv in Hs as (n & Hn & Hs).
  destruct (str_eqb n (lit "pcbplotparams")) eqn:E.
  - apply bind_inv in Hs as (ps & _ & Hs). injection Hs as <-. exact Ha.
  - apply bind_inv in Hs as (e & He & Hs). injection Hs as <-. unfold setup_ok in *; cbn [su_elements].
    rewrite forallb_app, Ha. cbn [forallb]. unfold setup_name_ok.
    rewrite (de_setup_element_name _ _ _ He Hn), E. reflexivity.
Qed.

Lemma effects_clean_ok s e : de_effects s = Ok e -> font_clean (ef_font e) = true -> effects_ok e = true.
Proof.
  intros H C. unfold effects_ok, font_ok. unfold font_clean in C. rewrite C, andb_true_r.
  eapply de_effects_type, H.
Qed.

Lemma de_gr_text_ok s t : de_gr_text s = Ok t -> gr_text_clean t = true -> gr_text_ok t = true.
Proof.
  unfold de_gr_text. intros H. inew H. pinv H. apply p_close_inv in H as [-> _].
  unfold gr_text_clean, gr_text_ok; cbn [gt_at gt_layer gt_effects]. intros C; andb_split.
  rewrite (p_t_layer _ _ _ Hv1). apply p_t_inv in Hv2 as (x & _ & Hv2).
  rewrite (effects_clean_ok _ _ Hv2) by assumption.
  repeat match goal with H : at_ok _ = true |- _ => rewrite H; clear H end. reflexivity.
Qed.
Lemma de_gr_line_ok s l : de_gr_line s = Ok l -> layer_ok (gl_layer l) = true.
Proof.
  unfold de_gr_line. intros H. inew H. pinv H. apply p_close_inv in H as [-> _]. cbn [gl_layer].
  eapply p_t_layer; eassumption.
Qed.
Lemma de_gr_arc_ok s l : de_gr_arc s = Ok l -> layer_ok (ga_layer l) = true.
Proof.
  unfold de_gr_arc. intros H. inew H. pinv H. apply p_close_inv in H as [-> _]. cbn [ga_layer].
  eapply p_t_layer; eassumption.
Qed.
Lemma de_gr_circle_ok s l : de_gr_circle s = Ok l -> layer_ok (gc_layer l) = true.
Proof.
  unfold de_gr_circle. intros H. inew H. pinv H. apply p_close_inv in H as [-> _]. cbn [gc_layer].
  eapply p_t_layer; eassumption.
Qed.
Lemma de_dimension_ok s d : de_dimension s = Ok d -> gr_text_clean (di_text d) = true ->
  layer_ok (di_layer d) && gr_text_ok (di_text d) = true.
Proof.
  unfold de_dimension. intros H. inew H. pinv H. apply p_close_inv in H as [-> _].
  cbn [di_text di_layer]. intros C. rewrite (p_t_layer _ _ _ Hv1). cbn [andb].
  apply p_t_inv in Hv3 as (x & _ & Hv3). eapply de_gr_text_ok; eassumption.
Qed.
Lemma de_segment_ok s g : de_segment s = Ok g -> layer_ok (sg_layer g) && i64_ok (sg_net g) = true.
Proof.
  unfold de_segment. intros H. inew H. pinv H. apply p_close_inv in H as [-> _]. cbn [sg_layer sg_net].
  erewrite p_t_layer by eassumption. eapply p_i_in_range; eassumption.
Qed.
Lemma maybe_i_range k l o r : p_maybe_in k sx_i l = Ok (o, r) -> i64_ok (default 0%Z o) = true.
Proof.
  intros H. apply p_maybe_inv in H. destruct o; [|reflexivity]. destruct H as (x & _ & H).
  apply bind_inv in H as (y & _ & H). eapply sx_i_inv, H.
Qed.
Lemma de_via_ok s v : de_via s = Ok v -> at_ok (vi_at v) && zero_ok (vi_drill v) = true -> via_ok v = true.
Proof.
  unfold de_via. intros H. inew H. pinv H. apply p_close_inv in H as [-> _]. unfold via_ok.
  cbn [vi_at vi_drill vi_layers vi_net]. intros ->. cbn [andb].
  apply maybe_i_range in Hv5. rewrite Hv5, andb_true_r.
  apply p_t_inv in Hv4 as (x & _ & Hv4). eapply de_layers_ok, Hv4.
Qed.
Lemma de_fill_ok s f : de_fill s = Ok f -> zero_ok (fi_radius f) = true -> fill_ok f = true.
Proof.
  unfold de_fill. intros H. inew H. pinv H. apply p_close_inv in H as [-> _]. unfold fill_ok.
  cbn [fi_radius fi_arc_segments]. intros ->. rewrite andb_true_r. eapply p_i_in_range; eassumption.
Qed.

Lemma zone_step_other z x z' : zone_step z x = Ok z' ->
  forallb zone_other_ok (zr_other z) = true -> forallb zone_other_ok (zr_other z') = true.
Proof.
  destruct z as [ps fs sg ot]; cbn [zone_step zr_other]. intros H Ho.
  destruct (de_pts_in "polygon" x) eqn:E1; [injection H as <-; exact Ho| |discriminate].
  destruct (de_pts_in "filled_polygon" x) eqn:E2; [injection H as <-; exact Ho| |discriminate].
  destruct (de_pts_in "fill_segments" x) eqn:E3; [injection H as <-; exact Ho| |discriminate].
  injection H as <-. cbn [zr_other]. rewrite forallb_app, Ho. cbn [forallb]. unfold zone_other_ok.
  now rewrite E1, E2, E3.
Qed.

Lemma de_zone_ok s z : de_zone s = Ok z ->
  (zo_priority z <=? i64_max)%Z && zero_ok (fi_radius (zo_fill z)) = true -> zone_ok z = true.
Proof.
  unfold de_zone. intros H. inew H. pinv H.
  apply bind_inv in H as (zr & Hz & H). injection H as <- _. unfold zone_ok.
  cbn [zo_priority zo_fill zo_net zo_layer zo_other]. intros C; andb_split.
  rewrite (p_i_in_range _ _ _ _ Hv), (p_t_layer _ _ _ Hv1).
  apply p_t_inv in Hv8 as (x & _ & Hv8). rewrite (de_fill_ok _ _ Hv8) by assumption.
  assert (Q : forallb zone_other_ok (zr_other zr) = true).
  { revert Hz. apply foldM_inv with (Q := fun z => forallb zone_other_ok (zr_other z) = true); [|reflexivity].
    intros a y a' _ Ha Hs. eapply zone_step_other; eassumption. }
  rewrite Q. unfold priority_ok. rewrite H. rewrite !andb_true_r. cbn [andb].
  apply Z.leb_le. unfold u64_of_i64. apply Z.mod_pos_bound. lia.
Qed.

Lemma layout_step_ok l x l' :
  layout_step l x = Ok l' ->
  (layout_clean l = true -> layout_ok l = true) ->
  (layout_clean l' = true -> layout_ok l' = true).
Proof.
  destruct l as [v h g p su la es].
  cbn [layout_step]. intros H Hl. apply bind_inv in H as (k & Hk & H).
  unfold layout_clean, layout_ok in Hl; cbn [ly_version ly_general ly_setup ly_layers ly_elements] in Hl.
  assert (PW : forall {A} (c : A -> ly_element) r, push_wrap (mk_layout v h g p su la es) c r = Ok l' ->
    (forall a, r = Ok a -> ly_element_clean (c a) = true -> ly_element_ok (c a) = true) ->
    layout_clean l' = true -> layout_ok l' = true).
  { intros A c r Hr Hc. apply bind_inv in Hr as (a & Ha & Hr). injection Hr as <-.
    unfold layout_clean, layout_ok; cbn [ly_version ly_general ly_setup ly_layers ly_elements push_element].
    rewrite !forallb_app. cbn [forallb]. rewrite !andb_true_r. intros C. apply andb_prop in C as [C1 C2].
    specialize (Hl C1). rewrite (Hc _ Ha C2), andb_true_r. exact Hl. }
  assert (SET : forall v' h' g' p' su' la',
    mk_layout v' h' g' p' su' la' es = l' ->
    (i64_ok v = true -> i64_ok v' = true) -> (general_ok g = true -> general_ok g' = true) ->
    (setup_ok su = true -> setup_ok su' = true) ->
    (forallb ly_layer_ok la = true -> forallb ly_layer_ok la' = true) ->
    layout_clean l' = true -> layout_ok l' = true).
  { intros v' h' g' p' su' la' <- F1 F2 F3 F4.
    unfold layout_clean, layout_ok; cbn [ly_version ly_general ly_setup ly_layers ly_elements].
    intros C. specialize (Hl C). do 4 (apply andb_prop in Hl as [Hl ?]).
    rewrite F1, F2, F3, F4 by assumption. cbn [andb]. assumption. }
  destruct (str_eqb_spec k (lit "version")).
  { apply bind_inv in H as (x' & Hx & H). injection H as H. eapply SET; [exact H|auto..].
    intros _. unfold de_version in Hx. inew Hx. pinv Hx. apply p_close_inv in Hx as [-> _]. eapply p_i_range, Hv. }
  destruct (str_eqb_spec k (lit "host")).
  { apply bind_inv in H as (x' & Hx & H). injection H as H. eapply SET; [exact H|auto..]. }
  destruct (str_eqb_spec k (lit "general")).
  { apply bind_inv in H as (x' & Hx & H). injection H as H. eapply SET; [exact H|auto..].
    intros _. eapply de_general_ok, Hx. }
  destruct (str_eqb_spec k (lit "page")).
  { apply bind_inv in H as (x' & Hx & H). injection H as H. eapply SET; [exact H|auto..]. }
  destruct (str_eqb_spec k (lit "layers")).
  { apply bind_inv in H as (x' & Hx & H). injection H as H. eapply SET; [exact H|auto..].
    intros _. eapply de_ly_layers_ok, Hx. }
  destruct (str_eqb_spec k (lit "module")).
  { eapply PW; [exact H|]. intros; eapply de_module_ok; eassumption. }
  destruct (str_eqb_spec k (lit "net")).
  { eapply PW; [exact H|]. intros; eapply de_net_ok; eassumption. }
  destruct (str_eqb_spec k (lit "net_class")).
  { eapply PW; [exact H|]. reflexivity. }
  destruct (str_eqb_spec k (lit "gr_text")).
  { eapply PW; [exact H|]. intros; eapply de_gr_text_ok; eassumption. }
  destruct (str_eqb_spec k (lit "gr_line")).
  { eapply PW; [exact H|]. intros; eapply de_gr_line_ok; eassumption. }
  destruct (str_eqb_spec k (lit "gr_arc")).
  { eapply PW; [exact H|]. intros; eapply de_gr_arc_ok; eassumption. }
  destruct (str_eqb_spec k (lit "gr_circle")).
  { eapply PW; [exact H|]. intros; eapply de_gr_circle_ok; eassumption. }
  destruct (str_eqb_spec k (lit "dimension")).
  { eapply PW; [exact H|]. intros; eapply de_dimension_ok; eassumption. }
  destruct (str_eqb_spec k (lit "zone")).
  { eapply PW; [exact H|]. intros; eapply de_zone_ok; eassumption. }
  destruct (str_eqb_spec k (lit "segment")).
  { eapply PW; [exact H|]. intros; eapply de_segment_ok; eassumption. }
  destruct (str_eqb_spec k (lit "via")).
  { eapply PW; [exact H|]. intros; eapply de_via_ok; eassumption. }
  destruct (str_eqb_spec k (lit "setup")).
  { apply bind_inv in H as (x' & Hx & H). injection H as H. eapply SET; [exact H|auto..].
    intros _. eapply de_setup_ok, Hx. }
  apply (PW _ YOther (Ok x)); [exact H|]. intros a [= <-] _. cbn [ly_element_ok].
  unfold sx_list_name in Hk. destruct x as [|[|[w| |] r]|]; cbn in Hk; try discriminate.
  injection Hk as ->. cbn [other_ok layout_keys existsb].
  repeat match goal with |- context [str_eqb k ?y] => destruct (str_eqb_spec k y); [contradiction|] end.
  reflexivity.
Qed.

Lemma de_layout_ok s l : de_layout s = Ok l -> layout_clean l = true -> layout_ok l = true.
Proof.
  unfold de_layout. intros H. inew H. apply bind_inv in H as (l' & H & E). injection E as -> _.
  eapply (foldM_inv _ (fun l => layout_clean l = true -> layout_ok l = true)); [| |exact H].
  - intros a x a' _ Ha Hs. eapply layout_step_ok; eassumption.
  - reflexivity.
Qed.

Lemma reread_layout s l : de_layout s = Ok l -> layout_clean l = true -> de_layout (ser_layout l) = Ok l.
Proof. intros H C. apply rt_layout. eapply de_layout_ok; eassumption. Qed.
