(** The conditions of the round trip theorems are necessary (C62): layouts, texts. *)
From Coq Require Import String Lia.
From Verif Require Import Base Str Num F64 F64Text Sexp StrFacts NumFacts F64Facts SexpFacts
  FpData FpLayer FpSer FpDe FpWf FpFacts ExactFacts LyData LySer LyDe LyWf LyFacts LyReread
  FpLibTable Formatter FormatterSpec FormatterFacts DocSpec DocFacts DocText DocTextFacts SxText KeepSpec KeepFacts KeepEdits.
Open Scope string_scope. Open Scope list_scope.

Lemma i64_not_read z : i64_ok z = false -> i64_of_str (show_Z z) = None.
Proof.
  intros Hz. unfold i64_of_str, show_Z, show_N. destruct (Z.ltb_spec z 0) as [H|H].
  - rewrite parse_int_neg; [|lia|apply to_digits_bound; lia|apply to_digits_nonnil].
    rewrite to_digits_val by lia. cbv zeta. replace (- Z.of_N (Z.abs_N z))%Z with z by lia. rewrite Hz. reflexivity.
  - rewrite parse_int_digits; [|lia|apply to_digits_bound; lia|apply to_digits_nonnil].
    rewrite to_digits_val by lia. cbv zeta. replace (Z.of_N (Z.abs_N z)) with z by lia. rewrite Hz. reflexivity.
Qed.

(** ** Elements *)
Lemma de_gr_text_weak s t : de_gr_text s = Ok t ->
  layer_ok (gt_layer t) = true /\ xy_type_eqb (xy_t (fo_size (ef_font (gt_effects t)))) XXy = true.
Proof.
  unfold de_gr_text. intros H. inew H. pinv H. apply p_close_inv in H as [-> _]. cbn [gt_layer gt_effects].
  split; [exact (p_t_layer _ _ _ Hv1)|]. apply p_t_inv in Hv2 as (x & _ & Hv2). eapply de_effects_type, Hv2.
Qed.
Definition tidy_gr_text (t : gr_text) : gr_text :=
  mk_grtext (gt_value t) (tidy_at (gt_at t)) (gt_layer t) (tidy_effects (gt_effects t)) (gt_tstamp t).
Lemma tidy_gr_text_ser t : ser_gr_text (tidy_gr_text t) = ser_gr_text t.
Proof. unfold ser_gr_text, tidy_gr_text; cbn [gt_value gt_at gt_layer gt_effects gt_tstamp]. now rewrite tidy_at_ser, tidy_effects_ser. Qed.
Lemma tidy_gr_text_ok s t : de_gr_text s = Ok t -> gr_text_ok (tidy_gr_text t) = true.
Proof.
  intros H. destruct (de_gr_text_weak _ _ H) as [L T]. unfold gr_text_ok, tidy_gr_text; cbn [gt_at gt_layer gt_effects].
  rewrite tidy_at_ok, L. now apply tidy_effects_ok.
Qed.
Lemma tidy_gr_text_clean t : gr_text_clean (tidy_gr_text t) = true.
Proof. unfold gr_text_clean, tidy_gr_text; cbn [gt_at gt_effects ef_font tidy_effects]. rewrite tidy_at_ok. apply tidy_font_clean. Qed.
Lemma exact_gr_text t : de_gr_text (ser_gr_text t) = Ok t -> gr_text_clean t = true.
Proof.
  intros H. pose proof (rt_gr_text _ (tidy_gr_text_ok _ _ H)) as R. rewrite tidy_gr_text_ser, H in R. injection R as R.
  rewrite R. apply tidy_gr_text_clean.
Qed.
Lemma exact_dimension d : de_dimension (ser_dimension d) = Ok d -> gr_text_clean (di_text d) = true.
Proof.
  intros H.
  assert (W : layer_ok (di_layer d) = true /\ exists s, de_gr_text s = Ok (di_text d)).
  { pose proof H as K. unfold de_dimension in K. inew K. pinv K. apply p_close_inv in K as [-> _]. cbn [di_layer di_text].
    split; [exact (p_t_layer _ _ _ Hv1)|]. apply p_t_inv in Hv3 as (x & _ & Hv3). exists x. exact Hv3. }
  destruct W as [L (s & T)].
  set (u := mk_dim (di_name d) (di_width d) (di_layer d) (di_tstamp d) (tidy_gr_text (di_text d)) (di_feature1 d) (di_feature2 d) (di_crossbar d)
    (di_arrow1a d) (di_arrow1b d) (di_arrow2a d) (di_arrow2b d)).
  assert (S : ser_dimension u = ser_dimension d) by (unfold ser_dimension, u; cbn [di_name di_width di_layer di_tstamp di_text di_feature1 di_feature2
    di_crossbar di_arrow1a di_arrow1b di_arrow2a di_arrow2b]; now rewrite tidy_gr_text_ser).
  assert (K : layer_ok (di_layer u) && gr_text_ok (di_text u) = true) by (unfold u; cbn [di_layer di_text]; rewrite L; exact (tidy_gr_text_ok _ _ T)).
  pose proof (rt_dimension u K) as R. rewrite S, H in R. injection R as R. rewrite R. apply tidy_gr_text_clean.
Qed.
Lemma exact_via v : de_via (ser_via v) = Ok v -> at_ok (vi_at v) && zero_ok (vi_drill v) = true.
Proof.
  intros H.
  assert (W : forallb layer_ok (vi_layers v) = true /\ i64_ok (vi_net v) = true).
  { pose proof H as K. unfold de_via in K. inew K. pinv K. apply p_close_inv in K as [-> _]. cbn [vi_layers vi_net].
    split; [apply p_t_inv in Hv4 as (x & _ & Hv4); eapply de_layers_ok, Hv4|eapply maybe_i_range; eassumption]. }
  destruct W as [L N]. set (u := mk_via (vi_blind v) (vi_micro v) (tidy_at (vi_at v)) (vi_size v) (tidy_zero (vi_drill v)) (vi_layers v) (vi_net v)).
  assert (S : ser_via u = ser_via v).
  { unfold ser_via, u; cbn [vi_blind vi_micro vi_at vi_size vi_drill vi_layers vi_net]. rewrite tidy_at_ser, tidy_zero_same.
    unfold tidy_zero. destruct (fneb (vi_drill v) fzero); reflexivity. }
  assert (Z : zero_ok (tidy_zero (vi_drill v)) = true) by apply tidy_zero_ok.
  assert (K : via_ok u = true) by (unfold via_ok, u; cbn [vi_at vi_drill vi_layers vi_net]; rewrite tidy_at_ok, L, N, Z; reflexivity).
  pose proof (rt_via u K) as R. rewrite S, H in R. injection R as R. rewrite R. unfold u. cbn [vi_at vi_drill]. rewrite tidy_at_ok. exact Z.
Qed.

Lemma de_zone_weak s z : de_zone s = Ok z -> i64_ok (zo_net z) = true /\ layer_ok (zo_layer z) = true /\ (0 <= zo_priority z)%Z
  /\ i64_ok (fi_arc_segments (zo_fill z)) = true /\ forallb zone_other_ok (zo_other z) = true.
Proof.
  unfold de_zone. intros H. inew H. pinv H. apply bind_inv in H as (zr & Hz & H). injection H as <- _.
  cbn [zo_priority zo_fill zo_net zo_layer zo_other]. split; [exact (p_i_in_range _ _ _ _ Hv)|]. split; [exact (p_t_layer _ _ _ Hv1)|].
  split; [unfold u64_of_i64; apply Z.mod_pos_bound; lia|]. split.
  - apply p_t_inv in Hv8 as (x & _ & Hv8). clear - Hv8. unfold de_fill in Hv8. inew Hv8. pinv Hv8. apply p_close_inv in Hv8 as [-> _].
    cbn [fi_arc_segments]. eapply p_i_in_range; eassumption.
  - revert Hz. apply foldM_inv with (Q := fun z => forallb zone_other_ok (zr_other z) = true); [|reflexivity].
    intros a y a' _ Ha Hs. eapply zone_step_other; eassumption.
Qed.
Lemma zone_priority z q : de_zone (ser_zone z) = Ok q -> i64_ok (zo_net z) = true -> layer_ok (zo_layer z) = true -> (zo_priority z <=? i64_max)%Z = true.
Proof.
  intros H N L. destruct (zo_priority z <=? i64_max)%Z eqn:E; [reflexivity|exfalso]. apply Z.leb_gt in E.
  assert (P : (0 <? zo_priority z)%Z = true) by (apply Z.ltb_lt; unfold i64_max in E; lia).
  assert (B : i64_ok (zo_priority z) = false) by (unfold i64_ok; apply andb_false_intro2; now apply Z.leb_gt).
  revert H. unfold de_zone, ser_zone. rewrite P, iter_new_node. cbn [when app]. do 5 nxt.
  erewrite pbind_ok; [|apply (p_maybe_no _ _ _ ESexp); unfold sx_slice1, kv, a_lit, a_i; cbn [sx_list bind]; rewrite str_eqb_refl; cbn [bind];
    unfold sx_i; cbn [sx_string bind]; rewrite (i64_not_read _ B); reflexivity].
  intros H. discriminate H.
Qed.
Lemma exact_zone z : de_zone (ser_zone z) = Ok z -> (zo_priority z <=? i64_max)%Z && zero_ok (fi_radius (zo_fill z)) = true.
Proof.
  intros H. destruct (de_zone_weak _ _ H) as (N & L & P0 & A & O). pose proof (zone_priority _ _ H N L) as P1. rewrite P1. cbn [andb].
  set (f := zo_fill z) in *.
  set (g := mk_fill (fi_filled f) (fi_segment f) (fi_arc_segments f) (fi_gap f) (fi_bridge f) (fi_smoothing f) (tidy_zero (fi_radius f))).
  set (u := mk_zone (zo_net z) (zo_net_name z) (zo_layer z) (zo_tstamp z) (zo_hatch z) (zo_priority z) (zo_connect z) (zo_min z) (zo_keepout z) g
    (zo_polygons z) (zo_filled z) (zo_segments z) (zo_other z)).
  assert (Sf : ser_fill g = ser_fill f).
  { unfold ser_fill, g; cbn [fi_filled fi_segment fi_arc_segments fi_gap fi_bridge fi_smoothing fi_radius]. rewrite tidy_zero_same.
    unfold tidy_zero. destruct (fneb (fi_radius f) fzero); reflexivity. }
  assert (S : ser_zone u = ser_zone z).
  { unfold ser_zone, u; cbn [zo_net zo_net_name zo_layer zo_tstamp zo_hatch zo_priority zo_connect zo_min zo_keepout zo_fill zo_polygons zo_filled
      zo_segments zo_other]. now rewrite Sf. }
  assert (Z : zero_ok (fi_radius g) = true) by apply tidy_zero_ok.
  assert (K : zone_ok u = true).
  { unfold zone_ok, u; cbn [zo_net zo_layer zo_priority zo_fill zo_other]. unfold fill_ok. rewrite N, L, O, Z. unfold g at 1; cbn [fi_arc_segments].
    rewrite A. unfold priority_ok. rewrite P1. apply Z.leb_le in P0. rewrite P0. reflexivity. }
  pose proof (rt_zone u K) as R. rewrite S, H in R. injection R as R. assert (Q := f_equal zo_fill R). fold f in Q. unfold u in Q. cbn [zo_fill] in Q.
  rewrite Q. exact Z.
Qed.

(** ** The loop: every part of the text adds at most one element. *)
Lemma step_shape l x l' : layout_step l x = Ok l' -> ly_elements l' = ly_elements l \/ exists e, l' = push_element l e.
Proof.
  destruct l as [v h g p su la es]. unfold layout_step. intros H. apply bind_inv in H as (k & _ & H).
  repeat match type of H with
  | (if ?b then _ else _) = _ => destruct b
  | bind _ _ = Ok _ => apply bind_inv in H as (?a & _ & H); injection H as <-; left; reflexivity
  | push_wrap _ _ _ = Ok _ => unfold push_wrap in H; apply bind_inv in H as (?a & _ & H); injection H as <-; right; eexists; reflexivity
  | Ok _ = Ok _ => injection H as <-; right; eexists; reflexivity
  end.
Qed.
Lemma push_elements l e : ly_elements (push_element l e) = ly_elements l ++ [e].
Proof. destruct l; reflexivity. Qed.
Lemma push_inj l l' e e' : push_element l e = push_element l' e' -> e = e'.
Proof. intros H. apply (f_equal ly_elements) in H. rewrite !push_elements in H. now apply app_inj_tail in H as [_ H]. Qed.
Lemma fold_shape xs : forall l l', foldM layout_step l xs = Ok l' ->
  exists new, ly_elements l' = ly_elements l ++ new /\ (length new <= length xs)%nat.
Proof.
  induction xs as [|x xs IH]; intros l l' H; cbn [foldM] in H.
  - injection H as <-. exists []. split; [now rewrite app_nil_r|apply le_n].
  - apply bind_inv in H as (l1 & H1 & H). destruct (IH _ _ H) as (new & E & N).
    destruct (step_shape _ _ _ H1) as [S|(e & ->)].
    + exists new. rewrite E, S. split; [reflexivity|]. cbn [length]. lia.
    + exists (e :: new). rewrite E, push_elements, <- app_assoc. split; [reflexivity|]. cbn [length]. lia.
Qed.
Lemma fold_each es : forall l l', foldM layout_step l (map ser_ly_element es) = Ok l' -> ly_elements l' = ly_elements l ++ es ->
  forall e, In e es -> exists a, layout_step a (ser_ly_element e) = Ok (push_element a e).
Proof.
  induction es as [|x es IH]; intros l l' H E e I; [contradiction|]. cbn [map foldM] in H.
  apply bind_inv in H as (l1 & H1 & H). destruct (fold_shape _ _ _ H) as (new & En & N).
  destruct (step_shape _ _ _ H1) as [S|(y & ->)].
  - exfalso. rewrite En, S in E. apply app_inv_head in E. subst new. rewrite map_length in N. cbn [length] in N. lia.
  - rewrite En, push_elements, <- app_assoc in E. apply app_inv_head in E. cbn [app] in E. injection E as -> ->.
    destruct I as [<-|I]; [exists l; exact H1|]. apply (IH _ _ H En e I).
Qed.
Lemma wrap_inj {A} l (c : A -> ly_element) r a : (forall x y, c x = c y -> x = y) -> push_wrap l c r = Ok (push_element l (c a)) -> r = Ok a.
Proof.
  intros I H. unfold push_wrap in H. apply bind_inv in H as (b & -> & H). f_equal.
  assert (Q := f_equal (fun r => match r with Ok x => x | _ => l end) H). cbv beta iota in Q. apply push_inj in Q. now apply I.
Qed.
Lemma exact_ly_element a e : layout_step a (ser_ly_element e) = Ok (push_element a e) -> ly_element_clean e = true.
Proof.
  destruct e; cbn [ser_ly_element ly_element_clean]; intros H; try reflexivity; destruct a as [v' h' g' p' su' la' es'].
  - change (push_wrap (mk_layout v' h' g' p' su' la' es') YModule (de_module (ser_module m)) = Ok (push_element (mk_layout v' h' g' p' su' la' es') (YModule m))) in H.
    apply exact_module. apply wrap_inj in H; [exact H|]. intros x y K. injection K as K. exact K.
  - change (push_wrap (mk_layout v' h' g' p' su' la' es') YGrText (de_gr_text (ser_gr_text t)) = Ok (push_element (mk_layout v' h' g' p' su' la' es') (YGrText t))) in H.
    apply exact_gr_text. apply wrap_inj in H; [exact H|]. intros x y K. injection K as K. exact K.
  - change (push_wrap (mk_layout v' h' g' p' su' la' es') YDimension (de_dimension (ser_dimension d)) = Ok (push_element (mk_layout v' h' g' p' su' la' es') (YDimension d))) in H.
    apply exact_dimension. apply wrap_inj in H; [exact H|]. intros x y K. injection K as K. exact K.
  - change (push_wrap (mk_layout v' h' g' p' su' la' es') YVia (de_via (ser_via v)) = Ok (push_element (mk_layout v' h' g' p' su' la' es') (YVia v))) in H.
    apply exact_via. apply wrap_inj in H; [exact H|]. intros x y K. injection K as K. exact K.
  - change (push_wrap (mk_layout v' h' g' p' su' la' es') YZone (de_zone (ser_zone z)) = Ok (push_element (mk_layout v' h' g' p' su' la' es') (YZone z))) in H.
    apply exact_zone. apply wrap_inj in H; [exact H|]. intros x y K. injection K as K. exact K.
Qed.
(** The parts before the elements add none. *)
Lemma head_step l x l' k : sx_list_name x = Ok (lit k) -> In k ["version"; "host"; "general"; "page"; "layers"; "setup"] ->
  layout_step l x = Ok l' -> ly_elements l' = ly_elements l.
Proof.
  destruct l as [v h g p su la es]. unfold layout_step. intros -> I H. cbn [bind] in H.
  cbn [In] in I. repeat destruct I as [I|I]; try contradiction; subst k; apply bind_inv in H as (y & _ & H); injection H as <-; reflexivity.
Qed.
Lemma exact_layout l : de_layout (ser_layout l) = Ok l -> layout_clean l = true.
Proof.
  unfold de_layout, ser_layout. rewrite iter_new_node. intros H.
  match type of H with (do ar <- ?r; _) = _ => destruct r as [[q r']| |] eqn:E; [|discriminate H|discriminate H] end.
  cbn [bind fst] in H. apply bind_inv in E as (q' & E & Q). injection Q as -> _. injection H as ->. rewrite foldM_app in E.
  apply bind_inv in E as (l0 & E0 & E).
  assert (Z : ly_elements l0 = []).
  { cbn [foldM] in E0.
    apply bind_inv in E0 as (a1 & A1 & E0). apply (head_step _ _ _ "version") in A1; [|reflexivity|cbn; tauto].
    apply bind_inv in E0 as (a2 & A2 & E0). apply (head_step _ _ _ "host") in A2; [|reflexivity|cbn; tauto].
    apply bind_inv in E0 as (a3 & A3 & E0). apply (head_step _ _ _ "general") in A3; [|reflexivity|cbn; tauto].
    apply bind_inv in E0 as (a4 & A4 & E0). apply (head_step _ _ _ "page") in A4; [|reflexivity|cbn; tauto].
    apply bind_inv in E0 as (a5 & A5 & E0). apply (head_step _ _ _ "layers") in A5; [|reflexivity|cbn; tauto].
    apply bind_inv in E0 as (a6 & A6 & E0). apply (head_step _ _ _ "setup") in A6; [|reflexivity|cbn; tauto].
    assert (Q := f_equal (fun r => match r with Ok x => x | _ => l0 end) E0). cbv beta iota in Q. subst a6. rewrite A6, A5, A4, A3, A2, A1. reflexivity. }
  unfold layout_clean. apply forallb_forall. intros e I.
  destruct (fold_each _ _ _ E ltac:(rewrite Z; reflexivity) e I) as (a & Ha). exact (exact_ly_element a e Ha).
Qed.
Lemma layout_iff l : de_layout (ser_layout l) = Ok l <-> layout_ok l = true.
Proof. split; [|apply rt_layout]. intros H. eapply de_layout_ok; [exact H|]. now apply exact_layout. Qed.

(** ** Texts *)
Lemma module_text_iff nq m n : quote_contract nq -> (parse_module (module_to_string nq m n) = Ok m <-> module_saves m = true).
Proof.
  intros Q. split; [|intros S; now apply saves_read]. intros H. apply (opened_saves _ _ H). apply exact_module.
  assert (N : forallb no_quote (module_strs m) = true).
  { unfold parse_module in H. apply bind_inv in H as (t & Ht & H). apply read_doc_ok in Ht. exact (cv_module _ _ Ht H). }
  unfold parse_module, module_to_string in H. rewrite <- (app_nil_r (pretty _ _ _)) in H.
  rewrite read_pretty in H by (auto using doc_module; reflexivity). exact H.
Qed.
Lemma bind_of {A B} (r : res A) a (f : A -> res B) b : r = Ok a -> bind r f = b -> f a = b.
Proof. intros -> H. exact H. Qed.
Lemma parse_layout_of s t l : read_sexp s = Ok t -> parse_layout s = Ok l -> de_layout t = Ok l.
Proof. intros R H. exact (bind_of _ _ _ _ R H). Qed.
Lemma parse_layout_q s l : parse_layout s = Ok l -> forallb no_quote (layout_strs l) = true /\ forallb doc_ok (layout_other l) = true.
Proof. intros H. unfold parse_layout in H. apply bind_inv in H as (t & Ht & H). apply read_doc_ok in Ht. exact (cv_layout _ _ Ht H). Qed.
Lemma layout_text_reads nq l n : quote_contract nq -> forallb no_quote (layout_strs l) = true -> forallb doc_ok (layout_other l) = true ->
  read_sexp (layout_to_string nq l n) = Ok (ser_layout l).
Proof. intros Q N D. unfold layout_to_string. apply read_pretty; [exact Q|apply doc_layout; [exact N|exact D]|reflexivity]. Qed.
Lemma layout_text_iff nq l n : quote_contract nq -> (parse_layout (layout_to_string nq l n) = Ok l <-> layout_saves l = true).
Proof.
  intros Q. split; [|exact (lsaves_read nq l n Q)]. intros H. apply (lopened_saves _ _ H). apply exact_layout.
  destruct (parse_layout_q _ _ H) as [N D]. exact (parse_layout_of _ _ _ (layout_text_reads nq l n Q N D) H).
Qed.
Lemma table_text_iff nq t n : quote_contract nq ->
  (parse_table (table_to_string nq t n) = Ok t <-> forallb no_quote (flat_map flib_strs t) = true).
Proof.
  intros Q. split; [|exact (rt_table_text nq t n Q)]. intros H. unfold parse_table in H. apply bind_inv in H as (x & Hx & H).
  apply read_doc_ok in Hx. exact (cv_table _ _ Hx H).
Qed.
