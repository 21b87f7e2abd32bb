(** Saved documents follow the grammar (C67). *)
From Coq Require Import String Lia.
From Flocq Require Import IEEE754.BinarySingleNaN.
From Verif Require Import Base Str StrFacts Num NumFacts F64 F64Text Sexp DecSpec ShortSpec ShortFacts FpData FpLayer FpSer LyData LySer FpLibTable GramSpec.
Open Scope string_scope. Open Scope list_scope.

(** ** Words *)
Section Saved.
Variable u : bool.
Notation W := (saved u).
Lemma g_num x : follows (num W) (a_f x).
Proof.
  apply fo_word. unfold decimals. destruct (is_finite x) eqn:F.
  - destruct (shown_plain x F) as (t & P & E). left. exists t. split; [exact P|]. rewrite E. destruct (Bsign x); [now right|now left].
  - right. unfold f64_to_str. destruct x as [s|s| |s m e H]; try discriminate; cbn [B2SF].
    + destruct s; [right; right|right; left]; reflexivity.
    + now left.
Qed.
Lemma dec_is_digit l : Forall (fun c => is_dec_digit c = true) l -> Forall is_digit l.
Proof. apply Forall_impl. intros c H. unfold is_dec_digit in H. unfold is_digit. lia. Qed.
Lemma g_int z : follows (int W) (a_i z).
Proof.
  apply fo_word. unfold show_Z. exists (show_N (Z.abs_N z)). split; [apply show_N_nonnil|]. split; [apply dec_is_digit, show_N_digits|].
  destruct (z <? 0)%Z; [now right|now left].
Qed.
Lemma g_hex z : follows (hex W) (SStr (show_hex64 z)).
Proof.
  apply fo_word. unfold show_hex64. set (n := Z.to_N (z mod 2 ^ 64)). assert (B : (n < 16 ^ 16)%N).
  { unfold n. pose proof (Z.mod_pos_bound z (2 ^ 64) ltac:(reflexivity)) as P. change (2 ^ 64)%Z with 18446744073709551616%Z in *.
    change (16 ^ 16)%N with 18446744073709551616%N. lia. }
  clearbody n. split; [|split].
  - unfold show_hex. pose proof (to_digits_nonnil 16 n). destruct (to_digits 16 n); [congruence|discriminate].
  - unfold show_hex. rewrite map_length. destruct (N.eq_dec n 0) as [->|Hn]; [vm_compute; lia|].
    destruct (to_digits_len 16 n ltac:(lia) ltac:(lia)) as (k & E & H1 & _). rewrite E.
    destruct (Nat.le_gt_cases (S k) 16) as [|G]; [assumption|exfalso].
    assert (16 ^ 16 <= 16 ^ N.of_nat k)%N by (apply N.pow_le_mono_r; lia). lia.
  - eapply Forall_impl; [|apply show_hex_digits]. intros c H. unfold is_hex_digit, is_dec_digit in H. lia.
Qed.
Lemma fo_form k b l : follow_all b l -> follows (Form k b) (SList (a_lit k :: l)).
Proof. intros H. now apply fo_named. Qed.
Lemma g_any s : follows text (SStr s). Proof. now apply fo_word. Qed.
Lemma g_word k l : In k l -> follows (word l) (a_lit k).
Proof. intros H. apply fo_word. now exists k. Qed.

(** ** Combinators *)
Lemma g_fld k g v : follows g v -> follows (fld k g) (kv k v).
Proof. intros H. apply fo_form. apply fa_one; [exact H|apply fa_nil]. Qed.
Lemma fa_when g b (c : bool) s l : follows g s -> follow_all b l -> follow_all (Opt g :: b) (when c [s] ++ l).
Proof. intros H1 H2. destruct c; [now apply fa_opt|now apply fa_skip]. Qed.
Lemma fa_option {A} g b (f : A -> sexp) o l : (forall x, o = Some x -> follows g (f x)) -> follow_all b l -> follow_all (Opt g :: b) (opt_list f o ++ l).
Proof. intros H1 H2. destruct o; [apply fa_opt; [now apply H1|assumption]|now apply fa_skip]. Qed.
Lemma fa_many {A} gs b (f : A -> sexp) xs l : (forall x, In x xs -> exists g, In g gs /\ follows g (f x)) -> follow_all b l -> follow_all (Rep gs :: b) (map f xs ++ l).
Proof.
  intros H1 H2. induction xs as [|x xs IH]; [now apply fa_end|]. destruct (H1 x (or_introl eq_refl)) as (g & G1 & G2). cbn [map app].
  apply fa_rep with g; [assumption|assumption|]. apply IH. intros y Hy. apply H1. now right.
Qed.
Lemma fa_many_end {A} gs (f : A -> sexp) xs : (forall x, In x xs -> exists g, In g gs /\ follows g (f x)) -> follow_all [Rep gs] (map f xs).
Proof. intros H. rewrite <- (app_nil_r (map f xs)). apply fa_many; [exact H|apply fa_nil]. Qed.
Lemma fa_when_end g (c : bool) s : follows g s -> follow_all [Opt g] (when c [s]).
Proof. intros H. rewrite <- (app_nil_r (when c [s])). apply fa_when; [exact H|apply fa_nil]. Qed.
Lemma fa_option_end {A} g (f : A -> sexp) o : (forall x, o = Some x -> follows g (f x)) -> follow_all [Opt g] (opt_list f o).
Proof. intros H. rewrite <- (app_nil_r (opt_list f o)). apply fa_option; [exact H|apply fa_nil]. Qed.
Ltac one := apply fa_one.
Ltac leaf := first [apply g_num | apply g_int | apply g_hex | apply g_any | apply g_word; cbn [In]; tauto].
Ltac step :=
  cbn [app];
  first
  [ leaf
  | apply fa_nil
  | apply fa_one
  | apply fa_when_end | apply fa_when
  | apply fa_option_end; let x := fresh "x" in intros x _ | apply fa_option; [let x := fresh "x" in intros x _|]
  | apply g_fld
  | apply fo_form | apply fo_bare ].
Ltac steps := repeat step.

Lemma f_at a : follows (g_at W) (ser_at a). Proof. unfold g_at, ser_at, node. steps. Qed.
Lemma xy_is_name t p : xy_is t p = true -> xy_name (xy_t p) = xy_name t.
Proof. unfold xy_is. destruct t, (xy_t p); intros H; try discriminate; reflexivity. Qed.
Lemma f_xy k t p : xy_name t = k -> xy_is t p = true -> follows (g_point W k) (ser_xy p).
Proof. intros <- H. unfold ser_xy. rewrite (xy_is_name _ _ H). unfold g_point, node. steps. Qed.
Lemma f_xyz p : follows (g_xyz W) (ser_xyz p). Proof. unfold g_xyz, ser_xyz, node. steps. Qed.
Lemma f_layer l : follows (g_layer W) (kv "layer" (ser_layer l)). Proof. unfold g_layer, ser_layer. steps. Qed.
Lemma f_layers l : follows (g_layers W) (ser_layers l).
Proof. unfold g_layers, ser_layers, node. apply fo_form. apply fa_many_end. intros x _. exists (layer_name W). split; [now left|]. unfold ser_layer. leaf. Qed.
Lemma f_pts p : pts_role p = true -> follows (g_pts W) (ser_pts p).
Proof.
  intros H. unfold g_pts, ser_pts, node. apply fo_form. apply fa_many_end. intros x Hx. exists (g_point W "xy"). split; [now left|].
  apply (f_xy "xy" XXy); [reflexivity|]. unfold pts_role in H. rewrite forallb_forall in H. now apply H.
Qed.
Lemma f_effects e : follows (g_effects W) (ser_effects e).
Proof.
  unfold g_effects, ser_effects, ser_font, node. apply fo_form. one; [|].
  - apply fo_form. apply fa_when; [unfold g_point, node; steps|]. cbn [app]. one; [steps|]. steps.
  - apply fa_option_end. intros j _. unfold ser_justify. apply g_fld. destruct j; leaf.
Qed.
Lemma f_drill d : follows (drill W) (ser_drill d).
Proof. cbn [drill saved]. unfold ser_drill, node. apply fo_form. apply fa_option; [intros; leaf|]. apply fa_when; [leaf|]. apply fa_when; [leaf|]. apply fa_when_end. steps. Qed.
Lemma f_pad p : roles (EPad p) = true -> follows (g_pad W) (ser_pad p).
Proof.
  cbn [roles]. intros H. apply andb_prop in H as [H1 H2]. unfold g_pad, ser_pad, node. apply fo_form. cbn [app delta loose may saved].
  one; [leaf|]. one; [destruct (pa_t p); leaf|]. one; [destruct (pa_shape p); leaf|]. one; [apply f_at|]. one; [now apply (f_xy "size" XSize)|].
  apply fa_option; [intros d _; apply f_drill|]. apply fa_option; [intros d E; rewrite E in H2; now apply (f_xy "rect_delta" XRectDelta)|]. cbn [app].
  one; [apply f_layers|]. apply fa_option; [intros n _; unfold ser_fnet, node; steps|]. steps.
Qed.
Lemma f_text t : follows (g_text W) (ser_text t).
Proof.
  unfold g_text, ser_text, node. apply fo_form. cbn [app]. one; [leaf|]. one; [leaf|]. one; [apply f_at|]. one; [apply f_layer|].
  apply fa_when; [leaf|]. one; [apply f_effects|apply fa_nil].
Qed.
Lemma f_model m : follows (g_model W) (ser_model m).
Proof. unfold g_model, ser_model, node. apply fo_form. one; [leaf|]. one; [apply g_fld, f_xyz|]. one; [apply g_fld, f_xyz|]. one; [apply g_fld, f_xyz|apply fa_nil]. Qed.
Ltac pick n := match n with O => left; reflexivity | S ?k => right; pick k end.
Ltac alt n := eexists; split; [unfold g_known; pick n|].
Lemma f_module m : module_roles m = true -> follows (g_module W) (ser_module m).
Proof.
  intros H. unfold g_module, ser_module, node. apply fo_form. one; [leaf|]. apply fa_many_end. intros e He.
  unfold module_roles in H. rewrite forallb_forall in H. specialize (H e He).
  destruct e; cbn [ser_element].
  all: try (alt 0%nat; now leaf). all: try (alt 1%nat; now steps).
  - alt 3%nat. apply f_layer.
  - alt 4%nat. steps.
  - alt 5%nat. steps.
  - alt 6%nat. steps.
  - alt 11%nat. apply f_text.
  - alt 12%nat. now apply f_pad.
  - alt 14%nat. unfold ser_poly, node. apply fo_form. one; [now apply f_pts|]. one; [apply f_layer|]. steps.
  - alt 15%nat. cbn [roles] in H. apply andb_prop in H as [H1 H2]. unfold ser_line, node. apply fo_form. one; [now apply (f_xy _ XStart)|]. one; [now apply (f_xy _ XEnd)|]. one; [apply f_layer|]. steps.
  - alt 16%nat. cbn [roles] in H. apply andb_prop in H as [H1 H2]. unfold ser_circle, node. apply fo_form. one; [now apply (f_xy _ XCenter)|]. one; [now apply (f_xy _ XEnd)|]. one; [apply f_layer|]. steps.
  - alt 17%nat. cbn [roles] in H. apply andb_prop in H as [H1 H2]. unfold ser_arc, node. apply fo_form. one; [now apply (f_xy _ XStart)|]. one; [now apply (f_xy _ XEnd)|]. one; [steps|]. one; [apply f_layer|]. steps.
  - alt 8%nat. steps.
  - alt 9%nat. steps.
  - alt 7%nat. steps.
  - alt 10%nat. apply f_at.
  - alt 13%nat. apply f_model.
  - alt 2%nat. steps.
Qed.

(** ** Boards *)
Lemma f_stamp o : follow_all [Opt g_stamp] (ser_tstamp o). Proof. unfold ser_tstamp, g_stamp. steps. Qed.
Lemma f_stamp_then b o l : follow_all b l -> follow_all (Opt g_stamp :: b) (ser_tstamp o ++ l).
Proof. intros H. unfold ser_tstamp, g_stamp. apply fa_option; [intros; steps|exact H]. Qed.
Lemma f_general g : follows (g_general W) (ser_general g). Proof. unfold g_general, ser_general, ser_area, node. steps. Qed.
Lemma f_board_layer l : follows (g_board_layer W) (ser_ly_layer l).
Proof. unfold g_board_layer, ser_ly_layer. apply fo_bare. cbn [app]. one; [leaf|]. one; [leaf|]. one; [destruct (ll_type l); leaf|]. steps. Qed.
Lemma f_setting e : follows (g_setting text) (ser_setup_element e). Proof. unfold g_setting, ser_setup_element. steps. Qed.
Lemma f_settings l : follow_all [Rep [g_setting text]] (map ser_setup_element l).
Proof. apply fa_many_end. intros x _. exists (g_setting text). split; [now left|apply f_setting]. Qed.
Lemma f_net_class n : follows (g_net_class W) (ser_net_class n).
Proof.
  unfold g_net_class, ser_net_class, node. apply fo_form. steps. rewrite <- (app_nil_r (map _ _)). apply fa_many; [|apply fa_nil].
  intros x _. exists (fld "add_net" text). split; [now left|steps].
Qed.
Lemma f_gr_text t : follows (g_gr_text W) (ser_gr_text t).
Proof. unfold g_gr_text, ser_gr_text, node. apply fo_form. cbn [app]. one; [leaf|]. one; [apply f_at|]. one; [apply f_layer|]. one; [apply f_effects|]. apply f_stamp. Qed.
Lemma f_dimension d : ly_roles (YDimension d) = true -> follows (g_dimension W) (ser_dimension d).
Proof.
  intros H. cbn [ly_roles forallb] in H. repeat (apply andb_prop in H as [? H]).
  unfold g_dimension, ser_dimension, node. apply fo_form. cbn [app map]. one; [leaf|]. one; [steps|]. one; [apply f_layer|]. apply f_stamp_then.
  one; [apply f_gr_text|]. repeat (one; [apply g_fld; now apply f_pts|]). apply fa_nil.
Qed.
Lemma f_fill f : follows (g_fill W) (ser_fill f). Proof. unfold g_fill, ser_fill, node. steps. Qed.
Lemma f_rule k b : follows (g_rule k) (kv k (allowed b)). Proof. unfold g_rule, allowed. apply g_fld. destruct b; leaf. Qed.
Lemma f_polys k l b r : forallb pts_role l = true -> follow_all b r -> follow_all (Rep [fld k (g_pts W)] :: b) (map (fun p => kv k (ser_pts p)) l ++ r).
Proof.
  intros H Hb. apply fa_many; [|exact Hb]. intros x Hx. exists (fld k (g_pts W)). split; [now left|]. apply g_fld, f_pts. rewrite forallb_forall in H. now apply H.
Qed.
Lemma f_rest l : follow_all [Rep [Any]] l.
Proof. induction l as [|s l IH]; [apply fa_end, fa_nil|]. apply fa_rep with Any; [now left|apply fo_any|exact IH]. Qed.
Lemma f_zone z : ly_roles (YZone z) = true -> follows (g_zone W) (ser_zone z).
Proof.
  cbn [ly_roles]. intros H. apply andb_prop in H as [H H3]. apply andb_prop in H as [H1 H2].
  unfold g_zone, ser_zone, node. apply fo_form. cbn [app]. one; [steps|]. one; [steps|]. one; [apply f_layer|]. one; [unfold g_stamp; steps|].
  one; [unfold ser_hatch, node; steps|]. apply fa_when; [steps|]. cbn [app]. one; [unfold ser_connect, node; steps|]. one; [steps|].
  apply fa_option; [intros k _; unfold ser_keepout, node; apply fo_form; repeat (one; [apply f_rule|]); apply fa_nil|]. cbn [app]. one; [apply f_fill|].
  apply f_polys; [exact H1|]. apply f_polys; [exact H2|]. apply fa_option; [intros p E; rewrite E in H3; now apply g_fld, f_pts|]. apply f_rest.
Qed.
Lemma f_element e : ly_roles e = true -> is_other e = false -> exists g, In g (g_known W) /\ follows g (ser_ly_element e).
Proof.
  intros H O. destruct e; cbn [ser_ly_element]; try discriminate O.
  - alt 0%nat. now apply f_module.
  - alt 1%nat. unfold ser_net, node. steps.
  - alt 2%nat. apply f_net_class.
  - alt 3%nat. apply f_gr_text.
  - alt 6%nat. cbn [ly_roles] in H. apply andb_prop in H as [H1 H2]. unfold ser_gr_line, node. apply fo_form. cbn [app]. one; [now apply (f_xy _ XStart)|]. one; [now apply (f_xy _ XEnd)|]. one; [steps|]. one; [apply f_layer|]. one; [steps|]. apply f_stamp.
  - alt 7%nat. cbn [ly_roles] in H. apply andb_prop in H as [H1 H2]. unfold ser_gr_arc, node. apply fo_form. cbn [app]. one; [now apply (f_xy _ XStart)|]. one; [now apply (f_xy _ XEnd)|]. one; [steps|]. one; [apply f_layer|]. one; [steps|]. apply f_stamp.
  - alt 8%nat. cbn [ly_roles] in H. apply andb_prop in H as [H1 H2]. unfold ser_gr_circle, node. apply fo_form. cbn [app]. one; [now apply (f_xy _ XCenter)|]. one; [now apply (f_xy _ XEnd)|]. one; [apply f_layer|]. one; [steps|]. apply f_stamp.
  - alt 4%nat. now apply f_dimension.
  - alt 9%nat. cbn [ly_roles] in H. apply andb_prop in H as [H1 H2]. unfold ser_segment, node. apply fo_form. cbn [app]. one; [now apply (f_xy _ XStart)|]. one; [now apply (f_xy _ XEnd)|]. one; [steps|]. one; [apply f_layer|]. one; [steps|]. apply f_stamp_then. steps.
  - alt 10%nat. unfold ser_via, node. apply fo_form. apply fa_when; [leaf|]. apply fa_when; [leaf|]. cbn [app]. one; [apply f_at|]. one; [steps|]. apply fa_when; [steps|]. cbn [app]. one; [apply f_layers|]. steps.
  - alt 5%nat. now apply f_zone.
Qed.
Lemma f_layout_u l : u = existsb is_other (ly_elements l) -> layout_roles l = true -> follows (g_board W) (ser_layout l).
Proof.
  intros U H. unfold g_board, ser_layout, node. apply fo_form. cbn [app]. one; [steps|]. one; [steps|]. one; [apply f_general|]. one; [steps|].
  one; [apply fo_form; apply fa_many_end; intros x _; exists (g_board_layer W); split; [now left|apply f_board_layer]|].
  one. { unfold ser_setup, node. apply fo_form. apply fa_many; [intros x _; exists (g_setting text); split; [now left|apply f_setting]|]. one; [|apply fa_nil]. apply fo_form, f_settings. }
  apply fa_many_end. intros e He. unfold layout_roles in H. rewrite forallb_forall in H. specialize (H e He).
  destruct (is_other e) eqn:O.
  - exists Any. split; [|apply fo_any]. apply in_or_app. right. cbn [others saved]. rewrite U, (proj2 (existsb_exists _ _)) by (now exists e). now left.
  - destruct (f_element e H O) as (g & G1 & G2). exists g. split; [|exact G2]. apply in_or_app. now left.
Qed.
Lemma f_table t : follows g_table (ser_fp_lib_table t).
Proof.
  unfold g_table, ser_fp_lib_table, node. apply fo_form. apply fa_many_end. intros x _. eexists. split; [left; reflexivity|]. unfold ser_flib, node. steps.
Qed.
End Saved.
Lemma f_layout l : layout_roles l = true -> follows (g_board (saved (existsb is_other (ly_elements l)))) (ser_layout l).
Proof. now apply f_layout_u. Qed.
