(** Saving settles after one time (C63): footprints and layouts. *)
From Coq Require Import String Lia.
From Coq Require Import Floats.SpecFloat.
From Flocq Require Import IEEE754.BinarySingleNaN Core.
From Coq Require Import Reals.
From Verif Require Import Base Str Num F64 F64Text Sexp StrFacts NumFacts F64Facts F64Grid SexpFacts
  FpData FpLayer FpSer FpDe FpWf FpFacts ExactFacts LyData LySer LyDe LyWf LyFacts LyReread
  Formatter FormatterSpec FormatterFacts DocSpec DocFacts DocText DocTextFacts SxText KeepSpec KeepFacts KeepEdits ExactLy.
Open Scope string_scope. Open Scope list_scope.

Lemma self_diff x : fgtb (fabs (fsub x x)) f_eps = false.
Proof.
  destruct (BinarySingleNaN.is_finite x) eqn:F.
  - pose proof (Bminus_correct 53 1024 _ _ mode_NE x x F F) as H.
    rewrite Rminus_diag_eq in H by reflexivity. rewrite round_0 in H by apply valid_rnd_N. rewrite Rabs_R0 in H.
    rewrite Rlt_bool_true in H by apply bpow_gt_0. destruct H as (H & G & _). fold (fsub x x) in *.
    change (B2R (fsub x x) = 0%R) in H. change (BinarySingleNaN.is_finite (fsub x x) = true) in G.
    destruct (fsub x x) as [s|s| |s m e B]; try discriminate G; [destruct s; vm_compute; reflexivity|].
    exfalso. cbn [B2R] in H. apply eq_0_F2R in H. cbn in H. destruct s; discriminate H.
  - destruct x as [s|[]| |s m e B]; try discriminate F; vm_compute; reflexivity.
Qed.

(** ** Drills and pads *)
Lemma tidy_drill_is d : shape_ok d = true -> is_ok (de_drill (ser_drill d)) = true ->
  drill_ok (tidy_drill d) = true /\ ser_drill (tidy_drill d) = ser_drill d.
Proof.
  intros S K. unfold tidy_drill. rewrite (drill_exact d S) in *. destruct d as [sh w h ox oy].
  unfold shape_ok, height_written, offset_written, drill_ok, ser_drill in *; cbn [dr_shape dr_width dr_height dr_ox dr_oy] in *.
  change f_epsilon with f_eps in *.
  assert (O : forall x y, x = (if (fneb ox fzero || fneb oy fzero)%bool then ox else fzero) ->
    y = (if (fneb ox fzero || fneb oy fzero)%bool then oy else fzero) ->
    (fneb x fzero || fneb y fzero || (is_poszero x && is_poszero y))%bool = true /\
    when (fneb x fzero || fneb y fzero) [node "offset" [a_f x; a_f y]] = when (fneb ox fzero || fneb oy fzero) [node "offset" [a_f ox; a_f oy]]).
  { intros x y -> ->. destruct (fneb ox fzero || fneb oy fzero)%bool eqn:E; [rewrite E; split; reflexivity|].
    split; [rewrite zero_pos; apply orb_true_r|]. reflexivity. }
  set (x := if (fneb ox fzero || fneb oy fzero)%bool then ox else fzero) in *.
  set (y := if (fneb ox fzero || fneb oy fzero)%bool then oy else fzero) in *.
  destruct (O x y eq_refl eq_refl) as [O1 O2]. clearbody x y. clear O.
  destruct (fgtb w fzero) eqn:W.
  - destruct (fgtb h fzero && fgtb (fabs (fsub h w)) f_eps)%bool eqn:G; cbn [dr_shape dr_width dr_height dr_ox dr_oy].
    + rewrite S, W, G, O1, O2. rewrite orb_true_r. split; reflexivity.
    + rewrite S, W, self_diff, O1, O2. rewrite (proj2 (fsame_eq w w) eq_refl). rewrite andb_false_r. split; reflexivity.
  - destruct (fgtb h fzero && fgtb (fabs (fsub h w)) f_eps)%bool eqn:G; [|discriminate K]. cbn [dr_shape dr_width dr_height dr_ox dr_oy].
    apply andb_prop in G as [G _]. rewrite S, G, self_diff, O1, O2. rewrite (proj2 (fsame_eq h h) eq_refl). rewrite andb_false_r. split; reflexivity.
Qed.
Definition tidy_pad (p : pad) : pad := mk_pad (pa_name p) (pa_t p) (pa_shape p) (pa_size p) (pa_rect_delta p) (tidy_at (pa_at p)) (pa_layers p) (pa_net p)
  (pa_zone_connect p) (option_map tidy_drill (pa_drill p)) (pa_paste_margin p) (pa_mask_margin p) (pa_clearance p) (pa_thermal_gap p).
Lemma tidy_pad_is s p q : de_pad s = Ok p -> de_pad (ser_pad p) = Ok q -> pad_ok (tidy_pad p) = true /\ ser_pad (tidy_pad p) = ser_pad p.
Proof.
  intros H R. destruct (de_pad_weak _ _ H) as (Sz & La & Ne & Zc & Dr). pose proof (pad_rect_none _ _ R) as Rd.
  assert (D : opt_ok drill_ok (option_map tidy_drill (pa_drill p)) = true
    /\ opt_list ser_drill (option_map tidy_drill (pa_drill p)) = opt_list ser_drill (pa_drill p)).
  { destruct (pa_drill p) as [d|] eqn:E; [|split; reflexivity]. cbn [option_map opt_ok opt_list] in *.
    destruct (tidy_drill_is d Dr (pad_drill_ok p q d R E)) as [D1 D2]. rewrite D2. split; [exact D1|reflexivity]. }
  destruct D as [D1 D2]. split.
  - unfold pad_ok, tidy_pad; cbn [pa_size pa_rect_delta pa_at pa_layers pa_net pa_zone_connect pa_drill].
    rewrite Sz, La, Ne, Zc, D1, Rd, tidy_at_ok. reflexivity.
  - unfold ser_pad, tidy_pad; cbn [pa_name pa_t pa_shape pa_size pa_rect_delta pa_at pa_layers pa_net pa_zone_connect pa_drill pa_paste_margin
      pa_mask_margin pa_clearance pa_thermal_gap]. rewrite D2, tidy_at_ser. reflexivity.
Qed.
Definition tidy_text (t : fp_text) : fp_text :=
  mk_text (tx_name t) (tx_value t) (tidy_at (tx_at t)) (tx_layer t) (tidy_effects (tx_effects t)) (tx_hide t).
Lemma tidy_text_is s t : de_text s = Ok t -> text_ok (tidy_text t) = true /\ ser_text (tidy_text t) = ser_text t.
Proof.
  intros H. destruct (de_text_weak _ _ H) as [L T]. split.
  - unfold text_ok, tidy_text; cbn [tx_at tx_layer tx_effects]. rewrite tidy_at_ok, L. now apply tidy_effects_ok.
  - unfold ser_text, tidy_text; cbn [tx_name tx_value tx_at tx_layer tx_effects tx_hide]. now rewrite tidy_at_ser, tidy_effects_ser.
Qed.
Definition tidy_element (e : element) : element :=
  match e with EFpText t => EFpText (tidy_text t) | EPad p => EPad (tidy_pad p) | EAt a => EAt (tidy_at a) | e => e end.
Lemma stamp_sign k z y : (i64_ok z = true) -> de_stamp_element (kv k (SStr (show_hex64 z))) = Ok y -> (0 <=? z)%Z = true.
Proof.
  intros R. unfold de_stamp_element, first_after. change (sx_list_name (kv k (SStr (show_hex64 z)))) with (Ok (lit k)). cbn [bind].
  change (kv k ?x) with (node k [x]). start. nxt. intros H.
  destruct (0 <=? z)%Z eqn:N; [reflexivity|]. exfalso. apply Z.leb_gt in N. rewrite (hex_negative z R N) in H. discriminate H.
Qed.
Lemma stamp_range s z : de_stamp_element s = Ok z -> i64_ok z = true.
Proof.
  unfold de_stamp_element, first_after. intros H. apply bind_inv in H as (n & _ & H).
  apply iter_new_inv in H as (l1 & r & _ & H). pinv H. apply plift_inv in H as [H _].
  destruct (parse_int 16 v) eqn:E; cbn in H; [|discriminate]. injection H as ->. exact (parse_int_range _ _ _ E).
Qed.
Lemma rmap_ok' {A B} (f : A -> B) r b : rmap f r = Ok b -> exists a, r = Ok a.
Proof. destruct r as [a| |]; cbn; try discriminate. intros _. now exists a. Qed.
Lemma tidy_element_is s e q : de_element s = Ok e -> de_element (ser_element e) = Ok q ->
  element_ok (tidy_element e) = true /\ ser_element (tidy_element e) = ser_element e.
Proof.
  destruct s as [w|l|]; cbn [de_element]; intros H R.
  - destruct (str_eqb w (lit "locked")); [|discriminate]. injection H as <-. split; reflexivity.
  - apply bind_inv in H as (n & _ & H).
    repeat match type of H with
    | (if ?b then _ else _) = _ => destruct b
    end; try discriminate; apply rmap_inv in H as (a & H & ->); cbn [element_ok tidy_element ser_element];
      try (split; reflexivity).
    + split; [|reflexivity]. eapply de_layer_ok, H.
    + destruct (tidy_text_is _ _ H) as [A B]. rewrite B. split; [exact A|reflexivity].
    + cbn [ser_element] in R. change (rmap EPad (de_pad (ser_pad a)) = Ok q) in R. apply rmap_ok' in R as (p' & R).
      destruct (tidy_pad_is _ _ _ H R) as [A B]. rewrite B. split; [exact A|reflexivity].
    + split; [|reflexivity]. eapply de_poly_ok, H.
    + split; [|reflexivity]. eapply de_line_ok, H.
    + split; [|reflexivity]. eapply de_circle_ok, H.
    + split; [|reflexivity]. eapply de_arc_ok, H.
    + split; [|reflexivity]. cbn [ser_element] in R. change (rmap ETEdit (de_stamp_element (kv "tedit" (SStr (show_hex64 a)))) = Ok q) in R.
      apply rmap_ok' in R as (z' & R). eapply de_stamp_ok; [exact H|]. exact (stamp_sign _ _ _ (stamp_range _ _ H) R).
    + split; [|reflexivity]. cbn [ser_element] in R. change (rmap ETStamp (de_stamp_element (kv "tstamp" (SStr (show_hex64 a)))) = Ok q) in R.
      apply rmap_ok' in R as (z' & R). eapply de_stamp_ok; [exact H|]. exact (stamp_sign _ _ _ (stamp_range _ _ H) R).
    + split; [exact (tidy_at_ok a)|]. exact (tidy_at_ser a).
  - discriminate.
Qed.
Definition tidy_module (m : module) : module := mk_module (m_name m) (map tidy_element (m_elements m)).
Lemma mapM_each {A B C} (g : B -> res C) (f : A -> B) l v : mapM g (map f l) = Ok v -> forall x, In x l -> exists y, g (f x) = Ok y.
Proof.
  revert v. induction l as [|y l IH]; intros v H x I; [contradiction|]. cbn [map mapM] in H.
  apply bind_inv in H as (b & Hb & H). apply bind_inv in H as (w & Hw & H).
  destruct I as [<-|I]; [now exists b|]. eapply IH; eassumption.
Qed.
Lemma mapM_from {A B} (g : B -> res A) l v : mapM g l = Ok v -> forall x, In x v -> exists s, g s = Ok x.
Proof.
  revert v. induction l as [|y l IH]; intros v H x I; cbn [mapM] in H; [injection H as <-; contradiction|].
  apply bind_inv in H as (b & Hb & H). apply bind_inv in H as (w & Hw & H). injection H as <-.
  destruct I as [<-|I]; [now exists y|]. eapply IH; eassumption.
Qed.
Lemma tidy_module_is s m q : de_module s = Ok m -> de_module (ser_module m) = Ok q ->
  module_ok (tidy_module m) = true /\ ser_module (tidy_module m) = ser_module m.
Proof.
  intros H R.
  assert (F : forall e, In e (m_elements m) -> exists s, de_element s = Ok e).
  { unfold de_module in H. apply iter_new_inv in H as (l1 & r & _ & H). pinv H. injection H as <- _. cbn [m_elements].
    apply p_vec_inv in Hv0 as [Hv0 _]. exact (mapM_from _ _ _ Hv0). }
  assert (G : forall e, In e (m_elements m) -> exists q, de_element (ser_element e) = Ok q).
  { destruct m as [n es]. unfold de_module, ser_module in R; cbn [m_name m_elements] in *. revert R. start. nxt. intros R.
    match type of R with (do ar <- ?r; _) = _ => destruct r as [[q' r']| |] eqn:E; try discriminate R end.
    pinv E. apply p_vec_inv in Hv as [Hv _]. exact (mapM_each _ _ _ _ Hv). }
  assert (T : forall e, In e (m_elements m) -> element_ok (tidy_element e) = true /\ ser_element (tidy_element e) = ser_element e).
  { intros e I. destruct (F e I) as (x & Hx). destruct (G e I) as (y & Hy). eapply tidy_element_is; eassumption. }
  split.
  - unfold module_ok, tidy_module; cbn [m_elements]. apply forallb_forall. intros e I. apply in_map_iff in I as (x & <- & I). now apply T.
  - unfold ser_module, tidy_module; cbn [m_name m_elements].
    replace (map ser_element (map tidy_element (m_elements m))) with (map ser_element (m_elements m)); [reflexivity|].
    rewrite map_map. apply map_ext_in. intros e I. symmetry. now apply T.
Qed.
Lemma settle_module s m q : de_module s = Ok m -> de_module (ser_module m) = Ok q -> module_ok q = true /\ ser_module q = ser_module m.
Proof.
  intros H R. destruct (tidy_module_is _ _ _ H R) as [A B]. pose proof (rt_module _ A) as K. rewrite B, R in K.
  assert (Q : q = tidy_module m) by (injection K as K; exact K). rewrite Q. split; [exact A|exact B].
Qed.

(** ** Layouts *)
Definition tidy_dimension (d : dimension) : dimension :=
  mk_dim (di_name d) (di_width d) (di_layer d) (di_tstamp d) (tidy_gr_text (di_text d)) (di_feature1 d) (di_feature2 d) (di_crossbar d)
    (di_arrow1a d) (di_arrow1b d) (di_arrow2a d) (di_arrow2b d).
Lemma tidy_dimension_is s d : de_dimension s = Ok d ->
  layer_ok (di_layer (tidy_dimension d)) && gr_text_ok (di_text (tidy_dimension d)) = true /\ ser_dimension (tidy_dimension d) = ser_dimension d.
Proof.
  intros H. split.
  - unfold de_dimension in H. inew H. pinv H. apply p_close_inv in H as [-> _]. unfold tidy_dimension. cbn [di_layer di_text].
    rewrite (p_t_layer _ _ _ Hv1). apply p_t_inv in Hv3 as (x & _ & Hv3). exact (tidy_gr_text_ok _ _ Hv3).
  - unfold ser_dimension, tidy_dimension; cbn [di_name di_width di_layer di_tstamp di_text di_feature1 di_feature2
    di_crossbar di_arrow1a di_arrow1b di_arrow2a di_arrow2b]; now rewrite tidy_gr_text_ser.
Qed.
Definition tidy_via (v : via) : via := mk_via (vi_blind v) (vi_micro v) (tidy_at (vi_at v)) (vi_size v) (tidy_zero (vi_drill v)) (vi_layers v) (vi_net v).
Lemma tidy_via_is s v : de_via s = Ok v -> via_ok (tidy_via v) = true /\ ser_via (tidy_via v) = ser_via v.
Proof.
  intros H. split.
  - assert (W : forallb layer_ok (vi_layers v) = true /\ i64_ok (vi_net v) = true).
    { unfold de_via in H. inew H. pinv H. apply p_close_inv in H as [-> _]. cbn [vi_layers vi_net].
      split; [apply p_t_inv in Hv4 as (x & _ & Hv4); eapply de_layers_ok, Hv4|eapply maybe_i_range; eassumption]. }
    destruct W as [L N]. assert (Z : zero_ok (tidy_zero (vi_drill v)) = true) by apply tidy_zero_ok.
    unfold via_ok, tidy_via; cbn [vi_at vi_drill vi_layers vi_net]; rewrite tidy_at_ok, L, N, Z; reflexivity.
  - unfold ser_via, tidy_via; cbn [vi_blind vi_micro vi_at vi_size vi_drill vi_layers vi_net]. rewrite tidy_at_ser, tidy_zero_same.
    unfold tidy_zero. destruct (fneb (vi_drill v) fzero); reflexivity.
Qed.
Definition tidy_fill (f : fill) : fill :=
  mk_fill (fi_filled f) (fi_segment f) (fi_arc_segments f) (fi_gap f) (fi_bridge f) (fi_smoothing f) (tidy_zero (fi_radius f)).
Lemma tidy_fill_ser f : ser_fill (tidy_fill f) = ser_fill f.
Proof.
  unfold ser_fill, tidy_fill; cbn [fi_filled fi_segment fi_arc_segments fi_gap fi_bridge fi_smoothing fi_radius]. rewrite tidy_zero_same.
  unfold tidy_zero. destruct (fneb (fi_radius f) fzero); reflexivity.
Qed.
Definition tidy_zone (z : zone) : zone := mk_zone (zo_net z) (zo_net_name z) (zo_layer z) (zo_tstamp z) (zo_hatch z) (zo_priority z) (zo_connect z)
  (zo_min z) (zo_keepout z) (tidy_fill (zo_fill z)) (zo_polygons z) (zo_filled z) (zo_segments z) (zo_other z).
Lemma tidy_zone_is s z q : de_zone s = Ok z -> de_zone (ser_zone z) = Ok q -> zone_ok (tidy_zone z) = true /\ ser_zone (tidy_zone z) = ser_zone z.
Proof.
  intros H R. destruct (de_zone_weak _ _ H) as (N & L & P0 & A & O). pose proof (zone_priority _ _ R N L) as P1. split.
  - assert (Z : zero_ok (tidy_zero (fi_radius (zo_fill z))) = true) by apply tidy_zero_ok.
    unfold zone_ok, tidy_zone; cbn [zo_net zo_layer zo_priority zo_fill zo_other]. unfold fill_ok, tidy_fill; cbn [fi_arc_segments fi_radius].
    rewrite N, L, O, Z, A. unfold priority_ok. rewrite P1. apply Z.leb_le in P0. rewrite P0. reflexivity.
  - unfold ser_zone, tidy_zone; cbn [zo_net zo_net_name zo_layer zo_tstamp zo_hatch zo_priority zo_connect zo_min zo_keepout zo_fill zo_polygons zo_filled
      zo_segments zo_other]. now rewrite tidy_fill_ser.
Qed.
Definition tidy_ly_element (e : ly_element) : ly_element :=
  match e with
  | YModule m => YModule (tidy_module m)
  | YGrText t => YGrText (tidy_gr_text t)
  | YDimension d => YDimension (tidy_dimension d)
  | YVia v => YVia (tidy_via v)
  | YZone z => YZone (tidy_zone z)
  | e => e
  end.
(** What a part of the text gives. *)
Definition element_from (e : ly_element) : Prop :=
  match e with
  | YModule m => exists s, de_module s = Ok m
  | YGrText t => exists s, de_gr_text s = Ok t
  | YDimension d => exists s, de_dimension s = Ok d
  | YVia v => exists s, de_via s = Ok v
  | YZone z => exists s, de_zone s = Ok z
  | e => ly_element_ok e = true
  end.
Definition layout_from (l : layout) : Prop :=
  i64_ok (ly_version l) && general_ok (ly_general l) && setup_ok (ly_setup l) && forallb ly_layer_ok (ly_layers l) = true
  /\ forall e, In e (ly_elements l) -> element_from e.
Lemma step_from l x l' : layout_step l x = Ok l' -> layout_from l -> layout_from l'.
Proof.
  destruct l as [v h g p su la es]. unfold layout_from; cbn [ly_version ly_general ly_setup ly_layers ly_elements].
  unfold layout_step. intros H [HH HE]. apply bind_inv in H as (k & Hk & H).
  assert (PW : forall {A} (c : A -> ly_element) r, push_wrap (mk_layout v h g p su la es) c r = Ok l' ->
    (forall a, r = Ok a -> element_from (c a)) -> i64_ok (ly_version l') && general_ok (ly_general l') && setup_ok (ly_setup l') && forallb ly_layer_ok (ly_layers l') = true
    /\ forall e, In e (ly_elements l') -> element_from e).
  { intros A c r Hr Hc. apply bind_inv in Hr as (a & Ha & Hr). injection Hr as <-.
    cbn [ly_version ly_general ly_setup ly_layers ly_elements push_element]. split; [exact HH|].
    intros e I. apply in_app_or in I as [I|[<-|[]]]; [now apply HE|now apply Hc]. }
  assert (SET : forall v' h' g' p' su' la',
    mk_layout v' h' g' p' su' la' es = l' ->
    (i64_ok v = true -> i64_ok v' = true) -> (general_ok g = true -> general_ok g' = true) ->
    (setup_ok su = true -> setup_ok su' = true) ->
    (forallb ly_layer_ok la = true -> forallb ly_layer_ok la' = true) ->
    i64_ok (ly_version l') && general_ok (ly_general l') && setup_ok (ly_setup l') && forallb ly_layer_ok (ly_layers l') = true
    /\ forall e, In e (ly_elements l') -> element_from e).
  { intros v' h' g' p' su' la' <- F1 F2 F3 F4. cbn [ly_version ly_general ly_setup ly_layers ly_elements]. split; [|exact HE].
    do 3 (apply andb_prop in HH as [HH ?]). rewrite F1, F2, F3, F4 by assumption. reflexivity. }
  destruct (str_eqb_spec k (lit "version")).
  { apply bind_inv in H as (x' & Hx & H). injection H as H. eapply SET; [exact H|auto..].
    intros _. unfold de_version in Hx. inew Hx. pinv Hx. apply p_close_inv in Hx as [-> _]. eapply p_i_range, Hv. }
  destruct (str_eqb_spec k (lit "host")).
  { apply bind_inv in H as (x' & Hx & H). injection H as H. eapply SET; [exact H|auto..]. }
  destruct (str_eqb_spec k (lit "general")).
  { apply bind_inv in H as (x' & Hx & H). injection H as H. eapply SET; [exact H|auto..].
    intros _. eapply de_general_ok, Hx. }
  destruct (str_eqb_spec k (lit "page")).
  { apply bind_inv in H as (x' & Hx & H). injection H as H. eapply SET; [exact H|auto..]. }
  destruct (str_eqb_spec k (lit "layers")).
  { apply bind_inv in H as (x' & Hx & H). injection H as H. eapply SET; [exact H|auto..].
    intros _. eapply de_ly_layers_ok, Hx. }
  destruct (str_eqb_spec k (lit "module")).
  { eapply PW; [exact H|]. intros a Ha. exists x; exact Ha. }
  destruct (str_eqb_spec k (lit "net")).
  { eapply PW; [exact H|]. intros; eapply de_net_ok; eassumption. }
  destruct (str_eqb_spec k (lit "net_class")).
  { eapply PW; [exact H|]. reflexivity. }
  destruct (str_eqb_spec k (lit "gr_text")).
  { eapply PW; [exact H|]. intros a Ha. exists x; exact Ha. }
  destruct (str_eqb_spec k (lit "gr_line")).
  { eapply PW; [exact H|]. intros; eapply de_gr_line_ok; eassumption. }
  destruct (str_eqb_spec k (lit "gr_arc")).
  { eapply PW; [exact H|]. intros; eapply de_gr_arc_ok; eassumption. }
  destruct (str_eqb_spec k (lit "gr_circle")).
  { eapply PW; [exact H|]. intros; eapply de_gr_circle_ok; eassumption. }
  destruct (str_eqb_spec k (lit "dimension")).
  { eapply PW; [exact H|]. intros a Ha. exists x; exact Ha. }
  destruct (str_eqb_spec k (lit "zone")).
  { eapply PW; [exact H|]. intros a Ha. exists x; exact Ha. }
  destruct (str_eqb_spec k (lit "segment")).
  { eapply PW; [exact H|]. intros; eapply de_segment_ok; eassumption. }
  destruct (str_eqb_spec k (lit "via")).
  { eapply PW; [exact H|]. intros a Ha. exists x; exact Ha. }
  destruct (str_eqb_spec k (lit "setup")).
  { apply bind_inv in H as (x' & Hx & H). injection H as H. eapply SET; [exact H|auto..].
    intros _. eapply de_setup_ok, Hx. }
  apply (PW _ YOther (Ok x)); [exact H|]. intros a [= <-]. cbn [element_from ly_element_ok].
  unfold sx_list_name in Hk. destruct x as [|[|[w| |] r]|]; cbn in Hk; try discriminate.
  injection Hk as ->. cbn [other_ok layout_keys existsb].
  repeat match goal with |- context [str_eqb k ?y] => destruct (str_eqb_spec k y); [contradiction|] end.
  reflexivity.
Qed.
Lemma layout_from_read s l : de_layout s = Ok l -> layout_from l.
Proof.
  unfold de_layout. intros H. inew H. apply bind_inv in H as (l' & H & E). injection E as -> _.
  eapply (foldM_inv _ layout_from); [| |exact H].
  - intros a x a' _ Ha Hs. eapply step_from; eassumption.
  - split; [reflexivity|]. intros e [].
Qed.
Lemma fold_ok es : forall l l', foldM layout_step l (map ser_ly_element es) = Ok l' ->
  forall e, In e es -> exists a b, layout_step a (ser_ly_element e) = Ok b.
Proof.
  induction es as [|x es IH]; intros l l' H e I; [contradiction|]. cbn [map foldM] in H.
  apply bind_inv in H as (l1 & H1 & H). destruct I as [<-|I]; [exists l, l1; exact H1|]. apply (IH _ _ H e I).
Qed.
Lemma wrap_ok {A} l (c : A -> ly_element) r b : push_wrap l c r = Ok b -> exists a, r = Ok a.
Proof. intros H. apply bind_inv in H as (a & -> & _). now exists a. Qed.
Lemma tidy_ly_is e a b : element_from e -> layout_step a (ser_ly_element e) = Ok b ->
  ly_element_ok (tidy_ly_element e) = true /\ ser_ly_element (tidy_ly_element e) = ser_ly_element e.
Proof.
  destruct e; cbn [ser_ly_element tidy_ly_element element_from]; intros F H; try (split; [exact F|reflexivity]); destruct a as [v' h' g' p' su' la' es'];
    destruct F as (x & F).
  - change (push_wrap (mk_layout v' h' g' p' su' la' es') YModule (de_module (ser_module m)) = Ok b) in H. apply wrap_ok in H as (q & H).
    exact (tidy_module_is _ _ _ F H).
  - split; [exact (tidy_gr_text_ok _ _ F)|apply tidy_gr_text_ser].
  - exact (tidy_dimension_is _ _ F).
  - exact (tidy_via_is _ _ F).
  - change (push_wrap (mk_layout v' h' g' p' su' la' es') YZone (de_zone (ser_zone z)) = Ok b) in H. apply wrap_ok in H as (q & H).
    exact (tidy_zone_is _ _ _ F H).
Qed.
Definition tidy_layout (l : layout) : layout :=
  mk_layout (ly_version l) (ly_host l) (ly_general l) (ly_page l) (ly_setup l) (ly_layers l) (map tidy_ly_element (ly_elements l)).
Lemma tidy_layout_is s l q : de_layout s = Ok l -> de_layout (ser_layout l) = Ok q ->
  layout_ok (tidy_layout l) = true /\ ser_layout (tidy_layout l) = ser_layout l.
Proof.
  intros H R. destruct (layout_from_read _ _ H) as [FH F].
  assert (G : forall e, In e (ly_elements l) -> exists a b, layout_step a (ser_ly_element e) = Ok b).
  { unfold de_layout, ser_layout in R. rewrite iter_new_node in R.
    match type of R with (do ar <- ?r; _) = _ => destruct r as [[q' r']| |] eqn:E; [|discriminate R|discriminate R] end.
    apply bind_inv in E as (q'' & E & _). rewrite foldM_app in E. apply bind_inv in E as (l0 & _ & E). exact (fold_ok _ _ _ E). }
  assert (T : forall e, In e (ly_elements l) -> ly_element_ok (tidy_ly_element e) = true /\ ser_ly_element (tidy_ly_element e) = ser_ly_element e).
  { intros e I. destruct (G e I) as (a & b & S). exact (tidy_ly_is e a b (F e I) S). }
  split.
  - unfold layout_ok, tidy_layout; cbn [ly_version ly_general ly_setup ly_layers ly_elements]. rewrite FH. cbn [andb].
    apply forallb_forall. intros e I. apply in_map_iff in I as (x & <- & I). now apply T.
  - unfold ser_layout, tidy_layout; cbn [ly_version ly_host ly_general ly_page ly_setup ly_layers ly_elements].
    replace (map ser_ly_element (map tidy_ly_element (ly_elements l))) with (map ser_ly_element (ly_elements l)); [reflexivity|].
    rewrite map_map. apply map_ext_in. intros e I. symmetry. now apply T.
Qed.
Lemma settle_layout s l q : de_layout s = Ok l -> de_layout (ser_layout l) = Ok q -> layout_ok q = true /\ ser_layout q = ser_layout l.
Proof.
  intros H R. destruct (tidy_layout_is _ _ _ H R) as [A B]. pose proof (rt_layout _ A) as K. rewrite B, R in K.
  assert (Q : q = tidy_layout l) by (apply (f_equal (fun r => match r with Ok x => x | _ => q end)) in K; exact K).
  rewrite Q. split; [exact A|exact B].
Qed.

(** ** Texts *)
Lemma settle_module_text nq s m n m' : quote_contract nq -> parse_module s = Ok m -> parse_module (module_to_string nq m n) = Ok m' ->
  (forall k, module_to_string nq m' k = module_to_string nq m k) /\ module_saves m' = true.
Proof.
  intros Q H R. pose proof R as R0.
  assert (N : forallb no_quote (module_strs m) = true).
  { unfold parse_module in H. apply bind_inv in H as (t & Ht & H). apply read_doc_ok in Ht. exact (cv_module _ _ Ht H). }
  assert (K : read_sexp (module_to_string nq m n) = Ok (ser_module m)).
  { unfold module_to_string. rewrite <- (app_nil_r (pretty _ _ _)). apply read_pretty; [exact Q|now apply doc_module|reflexivity]. }
  apply (bind_of _ _ _ _ K) in R. unfold parse_module in H. apply bind_inv in H as (t & Ht & H).
  destruct (settle_module _ _ _ H R) as [A B]. split; [intros k; unfold module_to_string; now rewrite B|].
  apply (opened_saves _ _ R0). apply exact_module. now apply rt_module.
Qed.
Lemma settle_layout_text nq s l n l' : quote_contract nq -> parse_layout s = Ok l -> parse_layout (layout_to_string nq l n) = Ok l' ->
  (forall k, layout_to_string nq l' k = layout_to_string nq l k) /\ layout_saves l' = true.
Proof.
  intros Q H R. destruct (parse_layout_q _ _ H) as [N D].
  pose proof (parse_layout_of _ _ _ (layout_text_reads nq l n Q N D) R) as R1.
  unfold parse_layout in H. apply bind_inv in H as (t & Ht & H).
  destruct (settle_layout _ _ _ H R1) as [A B]. split; [intros k; unfold layout_to_string; now rewrite B|].
  apply (lopened_saves _ _ R). apply exact_layout. now apply rt_layout.
Qed.
Lemma settled_module nq s m n m' : quote_contract nq -> parse_module s = Ok m -> parse_module (module_to_string nq m n) = Ok m' ->
  (forall k, module_to_string nq m' k = module_to_string nq m k) /\ (forall k, parse_module (module_to_string nq m' k) = Ok m').
Proof. intros Q H R. destruct (settle_module_text _ _ _ _ _ Q H R) as [A B]. split; [exact A|]. intros k. exact (saves_read nq m' k Q B). Qed.
Lemma settled_layout nq s l n l' : quote_contract nq -> parse_layout s = Ok l -> parse_layout (layout_to_string nq l n) = Ok l' ->
  (forall k, layout_to_string nq l' k = layout_to_string nq l k) /\ (forall k, parse_layout (layout_to_string nq l' k) = Ok l').
Proof. intros Q H R. destruct (settle_layout_text _ _ _ _ _ Q H R) as [A B]. split; [exact A|]. intros k. exact (lsaves_read nq l' k Q B). Qed.
