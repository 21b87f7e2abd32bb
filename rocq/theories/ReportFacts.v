(** Proofs: the footprint check reports exactly the violations (C34, C49). *)
From Coq Require Import String Lia.
From Verif Require Import Base Str StrFacts Num F64 F64Text FpData FpLayer FpOps FpOpsSpec FpOpsFacts FpEqFacts CheckFix SymCheck FpCheck CheckSpec CheckFacts FixFacts.
Open Scope string_scope. Open Scope list_scope.

Lemma the_text_spec m w t : get_text m (lit w) = Some t <-> the_text m w t.
Proof. unfold get_text, the_text. apply find_text_spec. Qed.
Lemma no_text_spec m w : get_text m (lit w) = None <-> no_text m w.
Proof. unfold get_text, no_text. apply find_text_none. Qed.
Lemma count_0 {A} (f : A -> bool) l : count f l = 0%nat <-> forall x, In x l -> f x = false.
Proof.
  unfold count. induction l as [|a l IH]; cbn; [split; [intros _ x []|reflexivity]|].
  destruct (f a) eqn:E; cbn.
  - split; [discriminate|]. intros H. specialize (H a (or_introl eq_refl)). congruence.
  - rewrite IH. split; [intros H x [<-|I]; auto|auto].
Qed.
Lemma in_pads m p : In p (pads m) <-> In (EPad p) (m_elements m).
Proof.
  unfold pads. rewrite in_flat_map. split.
  - intros (e & I & J). destruct e; cbn in J; try contradiction. destruct J as [<-|[]]. exact I.
  - intros I. exists (EPad p). split; [exact I|left; reflexivity].
Qed.
Lemma pad_type_eqb_eq a b : pad_type_eqb a b = true <-> a = b.
Proof. destruct a, b; cbn; split; congruence. Qed.
Lemma has_pad_spec m k : (0 < count (fun p => pad_type_eqb (pa_t p) k) (pads m))%nat <-> has_pad m k.
Proof.
  destruct (Nat.eq_dec (count (fun p => pad_type_eqb (pa_t p) k) (pads m)) 0) as [Z|Z].
  - rewrite Z. split; [lia|]. intros (p & I & K). rewrite count_0 in Z. apply in_pads in I. apply Z in I. apply pad_type_eqb_eq in K. congruence.
  - split; [|lia]. intros _.
    destruct (existsb (fun p => pad_type_eqb (pa_t p) k) (pads m)) eqn:E.
    + apply existsb_exists in E as (p & I & K). exists p. split; [now apply in_pads|now apply pad_type_eqb_eq].
    + exfalso. apply Z, count_0. intros x I. destruct (pad_type_eqb (pa_t x) k) eqn:K; [|reflexivity].
      exfalso. rewrite <- Bool.not_true_iff_false in E. apply E, existsb_exists. eauto.
Qed.
Lemma smd_only_spec m : smd_only m = true <-> has_pad m Smd /\ ~ has_pad m Pth.
Proof.
  unfold smd_only. rewrite Bool.andb_true_iff, Nat.eqb_eq, Nat.ltb_lt, <- !has_pad_spec. unfold smd_pads, pth_pads. split; intros [A B]; split; auto; lia.
Qed.
Lemma pth_only_spec m : pth_only m = true <-> has_pad m Pth /\ ~ has_pad m Smd.
Proof.
  unfold pth_only. rewrite Bool.andb_true_iff, Nat.eqb_eq, Nat.ltb_lt, <- !has_pad_spec. unfold smd_pads, pth_pads. split; intros [A B]; split; auto; lia.
Qed.
Lemma courtyard_list_spec m : length (courtyard_list m) = courtyard_lines m.
Proof.
  unfold courtyard_list, courtyard_lines, fp_lines, count. induction (m_elements m) as [|e l IH]; [reflexivity|].
  destruct e; cbn [filter flat_map app]; try exact IH. cbn [filter].
  assert (match la_t (li_layer l0) with LCrtYd => true | _ => false end = ltype_eqb (la_t (li_layer l0)) LCrtYd) as -> by now destruct (la_t (li_layer l0)).
  destruct (ltype_eqb _ _); cbn [length]; rewrite IH; reflexivity.
Qed.
Lemma differ_spec a b : far a b = true <-> differ a b. Proof. reflexivity. Qed.
Lemma neq_str a b : negb (str_eqb a b) = true <-> a <> b.
Proof. rewrite Bool.negb_true_iff, <- Bool.not_true_iff_false, str_eqb_eq. reflexivity. Qed.
Lemma neq_lt a b : negb (ltype_eqb a b) = true <-> a <> b.
Proof. rewrite Bool.negb_true_iff, <- Bool.not_true_iff_false, ltype_eqb_eq. reflexivity. Qed.
Lemma measure_spec c m what t i : measure_violation c m what t i <->
  (differ (xy_y (text_size t)) (cg_font_size c) /\ i = fp_finding m 7 3 (lit what ++ lit " label should have height " ++ f64_to_str (cg_font_size c)) true)
  \/ (differ (xy_x (text_size t)) (cg_font_size c) /\ i = fp_finding m 7 3 (lit what ++ lit " label should have width " ++ f64_to_str (cg_font_size c)) true)
  \/ (differ (fo_thickness (ef_font (tx_effects t))) (cg_font_thickness c) /\ i = fp_finding m 7 3 (lit what ++ lit " label thickness should be " ++ f64_to_str (cg_font_thickness c)) true).
Proof.
  split.
  - intros [H|H|H]; [left|right; left|right; right]; (split; [exact H|reflexivity]).
  - intros [[H ->]|[[H ->]|[H ->]]]; [exact (mv_height c m what t H)|exact (mv_width c m what t H)|exact (mv_thick c m what t H)].
Qed.

Lemma in_one i d : In i (all_findings [Item d]) <-> i = d. Proof. cbn. intuition. Qed.
Lemma reports c m i : In i (all_findings (fp_check c m)) <-> violation c m i.
Proof.
  unfold fp_check. rewrite !in_item_app.
  assert (R : In i (all_findings (check_reference c m)) <->
    (no_text m "reference" /\ i = fp_finding m 7 3 (lit "reference missing") false) \/
    exists t, the_text m "reference" t /\
      ((tx_value t <> lit "REF**" /\ i = fp_finding m 7 3 (lit "reference should be REF**") false)
       \/ (la_t (tx_layer t) <> LSilkS /\ i = fp_finding m 7 3 (lit "reference should be on SilkS layertype") false)
       \/ (tx_hide t = true /\ i = fp_finding m 7 3 (lit "reference should not be hidden") false)
       \/ (differ (xy_x (text_size t)) (xy_y (text_size t)) /\ i = fp_finding m 7 3 (lit "reference label font aspect ratio should be 1:1") false)
       \/ measure_violation c m "reference" t i)).
  { unfold check_reference. cbv zeta. destruct (get_text m (lit "reference")) as [t|] eqn:G.
    - rewrite !in_item_app. unfold cf_new, cf_info. rewrite !in_item_when, neq_str, neq_lt, !differ_spec.
      change (lit "reference label should have height " ++ f64_to_str (cg_font_size c)) with (lit "reference" ++ lit " label should have height " ++ f64_to_str (cg_font_size c)).
      split.
      + intros H. right. exists t. split; [now apply the_text_spec|]. rewrite measure_spec. exact H.
      + intros [[N _]|(t' & T & H)]; [apply no_text_spec in N; congruence|]. apply the_text_spec in T. rewrite G in T. injection T as <-. rewrite measure_spec in H. exact H.
    - unfold cf_new. rewrite in_one. split; [intros ->; left; split; [now apply no_text_spec|reflexivity]|].
      intros [[_ H]|(t' & T & _)]; [exact H|]. apply the_text_spec in T. congruence. }
  assert (V : In i (all_findings (check_value c m)) <->
    (no_text m "value" /\ i = fp_finding m 7 4 (lit "value missing") false) \/
    exists t, the_text m "value" t /\
      ((tx_value t <> m_name m /\ i = fp_finding m 7 4 (lit "value text has to match footprint name") false)
       \/ (la_t (tx_layer t) <> LFab /\ i = fp_finding m 7 4 (lit "value text has to be on Fab layer") false)
       \/ (tx_hide t = true /\ i = fp_finding m 7 4 (lit "value text should not be hidden") false)
       \/ measure_violation c m "value" t i)).
  { unfold check_value. cbv zeta. destruct (get_text m (lit "value")) as [t|] eqn:G.
    - rewrite !in_item_app. unfold cf_new, cf_info. rewrite !in_item_when, neq_str, neq_lt, !differ_spec.
      split.
      + intros H. right. exists t. split; [now apply the_text_spec|]. rewrite measure_spec. exact H.
      + intros [[N _]|(t' & T & H)]; [apply no_text_spec in N; congruence|]. apply the_text_spec in T. rewrite G in T. injection T as <-. rewrite measure_spec in H. exact H.
    - unfold cf_new. rewrite in_one. split; [intros ->; left; split; [now apply no_text_spec|reflexivity]|].
      intros [[_ H]|(t' & T & _)]; [exact H|]. apply the_text_spec in T. congruence. }
  assert (U : In i (all_findings (check_reference2 c m)) <->
    (no_text m "user" /\ i = fp_finding m 7 4 (lit "reference 2 missing") false) \/
    exists t, the_text m "user" t /\
      ((tx_value t <> lit "%R" /\ i = fp_finding m 7 4 (lit "reference 2 should be %R") false)
       \/ (la_t (tx_layer t) <> LFab /\ i = fp_finding m 7 4 (lit "reference 2 should be on Fab layertype") false)
       \/ (differ (xy_x (text_size t)) (xy_y (text_size t)) /\ i = fp_finding m 7 4 (lit "reference 2 label font aspect ratio should be 1:1") false)
       \/ measure_violation c m "reference 2" t i)).
  { unfold check_reference2. cbv zeta. destruct (get_text m (lit "user")) as [t|] eqn:G.
    - rewrite !in_item_app. unfold cf_new, cf_info. rewrite !in_item_when, neq_str, neq_lt, !differ_spec.
      split.
      + intros H. right. exists t. split; [now apply the_text_spec|]. rewrite measure_spec. exact H.
      + intros [[N _]|(t' & T & H)]; [apply no_text_spec in N; congruence|]. apply the_text_spec in T. rewrite G in T. injection T as <-. rewrite measure_spec in H. exact H.
    - unfold cf_new. rewrite in_one. split; [intros ->; left; split; [now apply no_text_spec|reflexivity]|].
      intros [[_ H]|(t' & T & _)]; [exact H|]. apply the_text_spec in T. congruence. }
  assert (A : In i (all_findings (if smd_only m then when (negb (has_smd_attr m)) (cf_new 8 1 (m_name m) placement)
      else if pth_only m then when (has_smd_attr m) (cf_new 9 1 (m_name m) placement) else [])) <->
    ((has_pad m Smd /\ ~ has_pad m Pth) /\ ~ In (EAttr (lit "smd")) (m_elements m) /\ i = fp_finding m 8 1 (lit placement_message) false)
    \/ ((has_pad m Pth /\ ~ has_pad m Smd) /\ In (EAttr (lit "smd")) (m_elements m) /\ i = fp_finding m 9 1 (lit placement_message) false)).
  { rewrite <- smd_only_spec, <- pth_only_spec, <- attr_spec.
    assert (X : smd_only m = true -> pth_only m = true -> False).
    { intros S P. apply smd_only_spec in S. apply pth_only_spec in P. tauto. }
    change (lit placement_message) with placement. unfold fp_finding, cf_new.
    destruct (smd_only m), (pth_only m), (has_smd_attr m); cbn [when negb]; rewrite ?in_one; cbn [all_findings flat_map In]; try (exfalso; now apply X);
      intuition congruence. }
  rewrite R, V, U, A. unfold cf_new. rewrite in_item_when, Nat.ltb_lt, <- courtyard_list_spec. clear R V U A.
  split.
  - intros [[[H ->]|(t & T & H)]|[[[H ->]|(t & T & H)]|[[[H ->]|(t & T & H)]|[[H ->]|[([H1 H2] & H3 & ->)|([H1 H2] & H3 & ->)]]]]].
    + exact (v_ref_missing c m H).
    + destruct H as [[H ->]|[[H ->]|[[H ->]|[[H ->]|H]]]];
        [exact (v_ref_value c m t T H)|exact (v_ref_layer c m t T H)|exact (v_ref_hidden c m t T H)|exact (v_ref_aspect c m t T H)|exact (v_ref_measure c m t i T H)].
    + exact (v_val_missing c m H).
    + destruct H as [[H ->]|[[H ->]|[[H ->]|H]]];
        [exact (v_val_value c m t T H)|exact (v_val_layer c m t T H)|exact (v_val_hidden c m t T H)|exact (v_val_measure c m t i T H)].
    + exact (v_user_missing c m H).
    + destruct H as [[H ->]|[[H ->]|[[H ->]|H]]];
        [exact (v_user_value c m t T H)|exact (v_user_layer c m t T H)|exact (v_user_aspect c m t T H)|exact (v_user_measure c m t i T H)].
    + exact (v_courtyard c m H).
    + exact (v_smd c m H1 H2 H3).
    + exact (v_tht c m H1 H2 H3).
  - intros H. destruct H as [H|t T H|t T H|t T H|t T H|t i T H|H|t T H|t T H|t T H|t i T H|H|t T H|t T H|t T H|t i T H|H|H1 H2 H3|H1 H2 H3].
    1-6: left. 7-11: right; left. 12-16: right; right; left. 
    17: right; right; right; left; split; [exact H|reflexivity].
    17: right; right; right; right; left; split; [split; assumption|split; [exact H3|reflexivity]].
    17: right; right; right; right; right; split; [split; assumption|split; [exact H3|reflexivity]].
    1,7,12: left; split; [exact H|reflexivity].
    all: right; exists t; split; [exact T|].
    1,6,10: left; split; [exact H|reflexivity].
    1,5,8: right; left; split; [exact H|reflexivity].
    1,4,6: right; right; left; split; [exact H|reflexivity].
    1: right; right; right; left; split; [exact H|reflexivity].
    1: right; right; right; right; exact H.
    all: right; right; right; exact H.
Qed.
Lemma remain c m m' i : fp_fix c m = Ok m' -> (In i (all_findings (fp_check c m')) <-> unfixable m i).
Proof.
  intros F. rewrite (check_fixed c m m' F).
  rewrite !in_item_app.
  assert (A : In i (all_findings (if pth_only m && has_smd_attr m then [cf_new 9 1 (m_name m) placement] else [])) <->
    ((has_pad m Pth /\ ~ has_pad m Smd) /\ In (EAttr (lit "smd")) (m_elements m) /\ i = fp_finding m 9 1 (lit placement_message) false)).
  { rewrite <- pth_only_spec, <- attr_spec. change (lit placement_message) with placement. unfold fp_finding, cf_new.
    destruct (pth_only m), (has_smd_attr m); cbn [andb]; rewrite ?in_one; cbn [all_findings flat_map In]; intuition congruence. }
  rewrite A. clear A.
  assert (R : forall w s r msg, In i (all_findings (match get_text m (lit w) with None => [cf_new s r (m_name m) (lit msg)] | Some _ => [] end)) <->
    no_text m w /\ i = fp_finding m s r (lit msg) false).
  { intros w s r msg. rewrite <- no_text_spec. destruct (get_text m (lit w)); [cbn; intuition congruence|]. unfold cf_new. rewrite in_one. intuition. }
  rewrite !R. split.
  - intros [[H ->]|[[H ->]|([H1 H2] & H3 & ->)]]; [exact (u_ref m H)|exact (u_val m H)|exact (u_tht m H1 H2 H3)].
  - intros [H|H|H1 H2 H3]; auto 6.
Qed.
