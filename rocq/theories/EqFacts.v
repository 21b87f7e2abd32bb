(** Lemmas for C44: exactly when pads and texts are equal. *)
From Coq Require Import String Reals Lra.
From Flocq Require Import IEEE754.BinarySingleNaN Core.
From Verif Require Import Base Str StrFacts F64 F64Order FpData FpOps FpEqFacts EqSpec.
Open Scope string_scope. Open Scope list_scope.

(** [e] decides equality after [g], for values without NaN. *)
Definition decides {A B} (e : A -> A -> bool) (ns : A -> list f64) (g : A -> B) : Prop :=
  forall a b, e a b = true <-> all_numbers (ns a) /\ all_numbers (ns b) /\ g a = g b.
Lemma an_app l m : all_numbers (l ++ m) <-> all_numbers l /\ all_numbers m.
Proof. unfold all_numbers. setoid_rewrite in_app_iff. firstorder. Qed.
Lemma an_nil : all_numbers []. Proof. intros x []. Qed.
Lemma an_one x : all_numbers [x] <-> is_nan x = false.
Proof. unfold all_numbers. split; [intros H; apply H; now left|]. intros H y [<-|[]]. exact H. Qed.
Lemma d_float : decides feqb (fun x => [x]) z0.
Proof.
  intros x y. rewrite !an_one. split.
  - intros H. destruct (feqb_not_nan _ _ H) as [A B]. split; [exact A|]. split; [exact B|].
    destruct x as [sx|sx| |sx mx ex Hx], y as [sy|sy| |sy my ey Hy]; try discriminate A; try discriminate B; try reflexivity;
      try (destruct sx; discriminate H); try (destruct sy; discriminate H); try (destruct sx, sy; discriminate H).
    + destruct sx, sy; try discriminate H; reflexivity.
    + apply feqb_rx in H; [|exact A|exact B]. apply B2R_inj; [reflexivity|reflexivity|].
      now rewrite !rx_finite in H by reflexivity.
  - intros (A & B & E). destruct x as [sx|sx| |sx mx ex Hx], y as [sy|sy| |sy my ey Hy]; try discriminate E; try discriminate A;
      try (destruct sx, sy; reflexivity); cbn [z0] in E; rewrite E; apply feqb_refl; exact B.
Qed.
Lemma d_eq {A} (e : A -> A -> bool) : (forall a b, e a b = true <-> a = b) -> decides e (fun _ => []) (fun x => x).
Proof. intros H a b. rewrite H. split; [intros E; split; [apply an_nil|]; split; [apply an_nil|exact E]|tauto]. Qed.
Lemma d_opt {A B} e ns (g : A -> B) : decides e ns g -> decides (opt_eqb e) (nums_opt ns) (option_map g).
Proof.
  intros H [a|] [b|]; cbn [opt_eqb nums_opt option_map].
  - rewrite (H a b). split; intros (X & Y & E); split; try split; auto; [now rewrite E|now injection E].
  - split; [discriminate|intros (_ & _ & E); discriminate E].
  - split; [discriminate|intros (_ & _ & E); discriminate E].
  - split; [intros _; split; [apply an_nil|]; split; [apply an_nil|reflexivity]|reflexivity].
Qed.
Lemma d_at : decides at_eqb nums_at forget_at.
Proof.
  intros a b. unfold at_eqb. rewrite !andb_true_iff. rewrite (d_float (at_x a) (at_x b)), (d_float (at_y a) (at_y b)), (d_float (at_rot a) (at_rot b)).
  unfold nums_at, forget_at. change [at_x a; at_y a; at_rot a] with ([at_x a] ++ [at_y a] ++ [at_rot a]). change [at_x b; at_y b; at_rot b] with ([at_x b] ++ [at_y b] ++ [at_rot b]).
  rewrite !an_app. split.
  - intros (((X1 & X2 & X3) & (Y1 & Y2 & Y3)) & (Z1 & Z2 & Z3)). rewrite X3, Y3, Z3. tauto.
  - intros (X & Y & E). injection E as E1 E2 E3. tauto.
Qed.
Lemma xyt_eq a b : xy_type_eqb a b = true <-> a = b.
Proof. destruct a, b; split; intros H; try reflexivity; try discriminate H. Qed.
Lemma d_xy : decides xy_eqb nums_xy forget_xy.
Proof.
  intros a b. unfold xy_eqb. rewrite !andb_true_iff, xyt_eq. rewrite (d_float (xy_x a) (xy_x b)), (d_float (xy_y a) (xy_y b)).
  unfold nums_xy, forget_xy. change [xy_x a; xy_y a] with ([xy_x a] ++ [xy_y a]). change [xy_x b; xy_y b] with ([xy_x b] ++ [xy_y b]).
  rewrite !an_app. split.
  - intros (((X1 & X2 & X3) & (Y1 & Y2 & Y3)) & Z). rewrite X3, Y3, Z. tauto.
  - intros (X & Y & E). injection E as E1 E2 E3. tauto.
Qed.
Lemma d_drill : decides drill_eqb nums_drill forget_drill.
Proof.
  intros a b. unfold drill_eqb. rewrite !andb_true_iff.
  rewrite (d_opt _ _ _ (d_eq _ str_eqb_eq) (dr_shape a) (dr_shape b)), (d_float (dr_width a) (dr_width b)), (d_float (dr_height a) (dr_height b)), (d_float (dr_ox a) (dr_ox b)), (d_float (dr_oy a) (dr_oy b)).
  unfold nums_drill, forget_drill.
  change [dr_width a; dr_height a; dr_ox a; dr_oy a] with ([dr_width a] ++ [dr_height a] ++ [dr_ox a] ++ [dr_oy a]).
  change [dr_width b; dr_height b; dr_ox b; dr_oy b] with ([dr_width b] ++ [dr_height b] ++ [dr_ox b] ++ [dr_oy b]).
  rewrite !an_app. split.
  - intros (((((_ & _ & S) & (X1 & X2 & X3)) & (Y1 & Y2 & Y3)) & (Z1 & Z2 & Z3)) & (W1 & W2 & W3)). rewrite X3, Y3, Z3, W3.
    assert (S' : dr_shape a = dr_shape b) by (destruct (dr_shape a), (dr_shape b); exact S). rewrite S'. tauto.
  - intros (X & Y & E). injection E as E0 E1 E2 E3 E4. rewrite E0.
    assert (N : all_numbers (nums_opt (fun _ : str => []) (dr_shape b))) by (destruct (dr_shape b); apply an_nil). tauto.
Qed.
Lemma layer_eq_iff a b : layer_eqb a b = true <-> forget_layer a = forget_layer b.
Proof. unfold layer_eqb, forget_layer. rewrite ltype_eqb_eq. split; [intros ->; reflexivity|intros E; now injection E]. Qed.
Lemma layers_eq_iff a : forall b, layers_eqb a b = true <-> map forget_layer a = map forget_layer b.
Proof.
  unfold layers_eqb. induction a as [|x a IH]; intros [|y b]; cbn [list_eqb map]; try (split; [discriminate|intros E; discriminate E]); [tauto|].
  rewrite andb_true_iff, layer_eq_iff, IH. split; [intros (-> & ->); reflexivity|intros E; injection E as E1 E2; split; [|exact E2]].
  unfold forget_layer. now rewrite E1.
Qed.
Lemma padt_eq a b : pad_type_eqb a b = true <-> a = b.
Proof. destruct a, b; split; intros H; try reflexivity; try discriminate H. Qed.
Lemma pads_eq a b : pad_shape_eqb a b = true <-> a = b.
Proof. destruct a, b; split; intros H; try reflexivity; try discriminate H. Qed.
Lemma just_eq a b : justify_eqb a b = true <-> a = b.
Proof. destruct a, b; split; intros H; try reflexivity; try discriminate H. Qed.
Lemma opt_eq {A} (e : A -> A -> bool) a b : (forall a b, e a b = true <-> a = b) -> opt_eqb e a b = true <-> a = b.
Proof. intros H. destruct a as [x|], b as [y|]; cbn [opt_eqb]; try (split; [discriminate|intros E; discriminate E]); [|tauto]. rewrite H. split; [intros ->; reflexivity|intros E; now injection E]. Qed.
Lemma pad_exact a b : pad_eqb a b = true <-> all_numbers (nums_pad a) /\ all_numbers (nums_pad b) /\ forget_pad a = forget_pad b.
Proof.
  unfold pad_eqb. rewrite !andb_true_iff, str_eqb_eq, padt_eq, pads_eq, layers_eq_iff, (opt_eq Z.eqb _ _ Z.eqb_eq).
  rewrite (d_at (pa_at a) (pa_at b)), (d_xy (pa_size a) (pa_size b)), (d_opt _ _ _ d_xy (pa_rect_delta a) (pa_rect_delta b)),
    (d_opt _ _ _ d_drill (pa_drill a) (pa_drill b)), (d_opt _ _ _ d_float (pa_paste_margin a) (pa_paste_margin b)),
    (d_opt _ _ _ d_float (pa_mask_margin a) (pa_mask_margin b)), (d_opt _ _ _ d_float (pa_clearance a) (pa_clearance b)),
    (d_opt _ _ _ d_float (pa_thermal_gap a) (pa_thermal_gap b)).
  unfold nums_pad, forget_pad. rewrite !an_app. split.
  - intros (((((((((((((A1 & A2 & A3) & N) & T) & S) & (B1 & B2 & B3)) & (C1 & C2 & C3)) & L) & Z) & (D1 & D2 & D3)) & (E1 & E2 & E3)) & (F1 & F2 & F3)) & (G1 & G2 & G3)) & (H1 & H2 & H3)).
    split; [tauto|]. split; [tauto|]. rewrite N, T, S, A3, B3, C3, L, Z, D3, E3, F3, G3, H3. reflexivity.
  - intros (X & Y & E).
    pose proof (f_equal pa_name E) as P0.
    pose proof (f_equal pa_t E) as P1.
    pose proof (f_equal pa_shape E) as P2.
    pose proof (f_equal pa_size E) as P3.
    pose proof (f_equal pa_rect_delta E) as P4.
    pose proof (f_equal pa_at E) as P5.
    pose proof (f_equal pa_layers E) as P6.
    pose proof (f_equal pa_zone_connect E) as P7.
    pose proof (f_equal pa_drill E) as P8.
    pose proof (f_equal pa_paste_margin E) as P9.
    pose proof (f_equal pa_mask_margin E) as P10.
    pose proof (f_equal pa_clearance E) as P11.
    pose proof (f_equal pa_thermal_gap E) as P12.
    cbn [pa_name pa_t pa_shape pa_size pa_rect_delta pa_at pa_layers pa_zone_connect pa_drill pa_paste_margin pa_mask_margin pa_clearance pa_thermal_gap] in *. clear E. tauto.
Qed.
Lemma text_exact a b : text_eqb a b = true <->
  (tx_name a = tx_name b /\ (tx_name a = lit "reference" \/ tx_name a = lit "value"))
  \/ (all_numbers (nums_text a) /\ all_numbers (nums_text b) /\ forget_text a = forget_text b).
Proof.
  rewrite text_eqb_alt, andb_true_iff, orb_true_iff, str_eqb_eq. unfold special. rewrite orb_true_iff, !str_eqb_eq.
  unfold text_full, effects_eqb, font_eqb. rewrite !andb_true_iff, !str_eqb_eq, layer_eq_iff, !Bool.eqb_true_iff, (opt_eq _ _ _ just_eq).
  rewrite (d_at (tx_at a) (tx_at b)), (d_xy (fo_size (ef_font (tx_effects a))) (fo_size (ef_font (tx_effects b)))),
    (d_float (fo_thickness (ef_font (tx_effects a))) (fo_thickness (ef_font (tx_effects b)))).
  unfold nums_text, forget_text. rewrite !an_app. split.
  - intros (N & [K|((((((A1 & A2 & A3) & _) & V) & L) & ((((B1 & B2 & B3) & (C1 & C2 & C3)) & I) & J)) & H)]); [left; tauto|right].
    split; [tauto|]. split; [tauto|]. rewrite N, V, A3, L, B3, C3, I, J, H. reflexivity.
  - intros [K|(X & Y & E)]; [tauto|]. 
    pose proof (f_equal tx_name E) as P0.
    pose proof (f_equal tx_value E) as P1.
    pose proof (f_equal tx_at E) as P2.
    pose proof (f_equal tx_layer E) as P3.
    pose proof (f_equal tx_hide E) as P4.
    pose proof (f_equal (fun t => ef_justify (tx_effects t)) E) as P5. pose proof (f_equal (fun t => fo_size (ef_font (tx_effects t))) E) as P6.
    pose proof (f_equal (fun t => fo_thickness (ef_font (tx_effects t))) E) as P7. pose proof (f_equal (fun t => fo_italic (ef_font (tx_effects t))) E) as P8.
    cbn [tx_name tx_value tx_at tx_layer tx_hide tx_effects ef_justify ef_font fo_size fo_thickness fo_italic] in *. clear E. split; [exact P0|]. right. tauto.
Qed.
