(** Lemmas about fixing footprints. *)
From Coq Require Import String Reals Lra Lia.
From Flocq Require Import Core.Core IEEE754.BinarySingleNaN.
From Verif Require Import Base Str StrFacts Num F64 F64Text F64Order FpData FpLayer FpWf Bound BoundSpec BoundFacts FpOps FpOpsSpec FpOpsFacts CheckFix SymCheck FpCheck CheckSpec CheckFacts.
Open Scope string_scope. Open Scope list_scope.

Lemma find_text_app w l r : find_text w (l ++ r) = match find_text w l with Some t => Some t | None => find_text w r end.
Proof. induction l as [|e l IH]; [reflexivity|]. destruct e; cbn [app find_text]; try exact IH. destruct (str_eqb (tx_name t) w); [reflexivity|exact IH]. Qed.
Lemma upd_fixed w f l t : find_text w l = Some t -> f t = t -> upd_text w f l = Some l.
Proof.
  intros H E. pose proof (upd_text_spec w f l) as U. rewrite H in U. destruct U as (l1 & l2 & E1 & _ & _ & U). rewrite U, E, E1. reflexivity.
Qed.
Lemma attr_spec m : has_smd_attr m = true <-> In (EAttr (lit "smd")) (m_elements m).
Proof.
  unfold has_smd_attr. rewrite existsb_exists. split.
  - intros (e & I & H). destruct e; try discriminate. apply str_eqb_eq in H. now subst.
  - intros H. eexists. split; [exact H|]. apply str_eqb_refl.
Qed.
Lemma fix_text_name c v lt t : tx_name (fix_text c v lt t) = tx_name t. Proof. reflexivity. Qed.
Lemma fix_text_twice c v lt t : fix_text c v lt (fix_text c v lt t) = fix_text c v lt t. Proof. reflexivity. Qed.
Definition fR (c : config) := fix_text c (lit "REF**") LSilkS.
Definition fV (c : config) (n : str) := fix_text c n LFab.
Definition fU (c : config) := fix_text c (lit "%R") LFab.
Definition ref2_of (c : config) (l : list element) : list element :=
  match find_text (lit "user") l with Some _ => [] | None => [EFpText (new_ref2 c)] end.
Definition attr_of (m : module) : list element := if smd_only m && negb (has_smd_attr m) then [EAttr (lit "smd")] else [].
Definition court_of (m : module) : list element := if Nat.ltb (courtyard_lines m) 4 then map EFpLine (courtyard m) else [].

Lemma or_same_list c w f m : c = m -> or_same m (modify_text c w f) = mk_module (m_name m) (or_list (m_elements m) (upd_text w f (m_elements m))).
Proof. intros ->. unfold modify_text. destruct m as [n l]. cbn [m_name m_elements]. destruct (upd_text w f l); reflexivity. Qed.
Lemma core_push l es : core es = [] -> core (l ++ es) = core l. Proof. intros H. rewrite core_app, H. apply app_nil_r. Qed.
Lemma core_ref2 c l : core (ref2_of c l) = []. Proof. unfold ref2_of. destruct (find_text _ l); reflexivity. Qed.

Lemma fix_stages c m : exists l1 l2 l4,
  texts_ok (lit "reference") (fR c) (m_elements m) l1 /\ texts_ok (lit "value") (fV c (m_name m)) l1 l2
  /\ texts_ok (lit "user") (fU c) (l2 ++ ref2_of c (m_elements m)) l4
  /\ find_text (lit "user") l4 <> None
  /\ core l4 = core (m_elements m) /\ (forall a, In (EAttr a) l4 <-> In (EAttr a) (m_elements m))
  /\ fp_fix c m = Ok (mk_module (m_name m) (l4 ++ attr_of m ++ court_of m)).
Proof.
  destruct m as [n l]. cbn [m_name m_elements].
  set (l1 := or_list l (upd_text (lit "reference") (fR c) l)). set (l2 := or_list l1 (upd_text (lit "value") (fV c n) l1)).
  assert (T1 : texts_ok (lit "reference") (fR c) l l1) by (apply or_list_ok; reflexivity).
  assert (T2 : texts_ok (lit "value") (fV c n) l1 l2) by (apply or_list_ok; reflexivity).
  assert (Fu : find_text (lit "user") l2 = find_text (lit "user") l).
  { destruct T1 as (_ & _ & _ & T1 & _). destruct T2 as (_ & _ & _ & T2 & _). rewrite T2. change (str_eqb (lit "user") (lit "value")) with false. cbv iota.
    rewrite T1. reflexivity. }
  assert (F3 : find_text (lit "user") (l2 ++ ref2_of c l) <> None).
  { unfold ref2_of. rewrite find_text_app, Fu. destruct (find_text (lit "user") l); [discriminate|]. discriminate. }
  destruct (upd_some (lit "user") (fU c) _ F3) as [l4 U]. exists l1, l2, l4.
  assert (T3 := upd_ok _ _ _ _ (fix_text_name c (lit "%R") LFab) U). fold (fU c) in T3.
  assert (F4 : find_text (lit "user") l4 <> None).
  { destruct T3 as (_ & _ & _ & T3 & _). rewrite T3. change (str_eqb (lit "user") (lit "user")) with true. cbv iota.
    destruct (find_text (lit "user") (l2 ++ ref2_of c l)); [discriminate|now destruct F3]. }
  assert (C4 : core l4 = core l).
  { destruct T1 as (_ & C1 & _). destruct T2 as (_ & C2 & _). destruct T3 as (_ & C3 & _). rewrite C3, core_push by apply core_ref2. congruence. }
  assert (A4 : forall a, In (EAttr a) l4 <-> In (EAttr a) l).
  { intros a. destruct T1 as (_ & _ & C1 & _). destruct T2 as (_ & _ & C2 & _). destruct T3 as (_ & _ & C3 & _). rewrite C3, in_app_iff, C2, C1.
    unfold ref2_of. destruct (find_text (lit "user") l); cbn [In]; intuition discriminate. }
  do 5 (split; [assumption|]). split; [assumption|].
  unfold fp_fix. cbn [m_name]. unfold fix_reference. rewrite or_same_list by reflexivity. cbn [m_name m_elements]. fold (fR c). fold l1.
  unfold fix_value. rewrite or_same_list by reflexivity. cbn [m_name m_elements]. fold (fV c n). fold l2.
  unfold fix_reference2. unfold get_text at 1. cbn [m_elements]. rewrite Fu.
  assert (P : match find_text (lit "user") l with Some _ => mk_module n l2 | None => push [EFpText (new_ref2 c)] (mk_module n l2) end = mk_module n (l2 ++ ref2_of c l)).
  { unfold ref2_of, push. destruct (find_text (lit "user") l); cbn [m_name m_elements]; rewrite ?app_nil_r; reflexivity. }
  rewrite P. unfold modify_text. cbn [m_name m_elements]. fold (fU c). rewrite U. cbn [option_map bind]. f_equal.
  set (m0 := mk_module n l). set (m4 := mk_module n l4). assert (Cm : core (m_elements m4) = core (m_elements m0)) by exact C4.
  assert (Ha : has_smd_attr m4 = has_smd_attr m0).
  { apply Bool.eq_iff_eq_true. rewrite !attr_spec. apply A4. }
  assert (E1 : fix_attr m4 = mk_module n (l4 ++ attr_of m0)).
  { destruct (core_same_counts m0 m4 Cm) as (_ & S1 & S2). unfold fix_attr, attr_of, smd_only. rewrite S1, S2, Ha.
    destruct (_ && _)%bool; [reflexivity|]. now rewrite app_nil_r. }
  rewrite E1. set (m5 := mk_module n (l4 ++ attr_of m0)).
  assert (Cm5 : core (m_elements m5) = core (m_elements m0)).
  { cbn [m5 m_elements]. rewrite core_push; [exact C4|]. unfold attr_of. destruct (_ && _)%bool; reflexivity. }
  unfold fix_courtyard, court_of. destruct (core_same_counts m0 m5 Cm5) as (S0 & _ & _). rewrite S0, (core_same_courtyard m0 m5 Cm5 eq_refl).
  destruct (Nat.ltb (courtyard_lines m0) 4); [|unfold m5; now rewrite app_nil_r]. unfold push, m5. cbn [m_name m_elements]. now rewrite app_assoc.
Qed.

(** *** What is found in the result *)
Lemma find_no_text w l : forallb (fun e => match e with EFpText _ => false | _ => true end) l = true -> find_text w l = None.
Proof. induction l as [|e l IH]; [reflexivity|]. cbn [forallb]. intros H. apply andb_prop in H as [H1 H2]. destruct e; try discriminate; cbn [find_text]; auto. Qed.
Lemma no_text_tail m : forallb (fun e => match e with EFpText _ => false | _ => true end) (attr_of m ++ court_of m) = true.
Proof.
  rewrite forallb_app. unfold attr_of, court_of, courtyard. destruct (module_at m). destruct (smd_only m && negb (has_smd_attr m))%bool, (Nat.ltb (courtyard_lines m) 4); reflexivity.
Qed.
Lemma fix_total c m : exists m', fp_fix c m = Ok m'.
Proof. destruct (fix_stages c m) as (l1 & l2 & l4 & H). eexists. apply H. Qed.
Lemma fix_finds c m m' : fp_fix c m = Ok m' -> m_name m' = m_name m /\
  get_text m' (lit "reference") = option_map (fR c) (get_text m (lit "reference")) /\
  get_text m' (lit "value") = option_map (fV c (m_name m)) (get_text m (lit "value")) /\
  exists t, get_text m' (lit "user") = Some (fU c t).
Proof.
  intros H. destruct (fix_stages c m) as (l1 & l2 & l4 & (_ & _ & _ & T1 & _) & (_ & _ & _ & T2 & _) & (_ & _ & _ & T3 & _) & F & _ & _ & E).
  rewrite E in H. injection H as <-. split; [reflexivity|]. unfold get_text. cbn [m_elements]. rewrite !(find_text_app _ l4), !(find_no_text _ _ (no_text_tail m)).
  assert (R : forall w, w <> lit "user" -> find_text w (ref2_of c (m_elements m)) = None).
  { intros w N. unfold ref2_of. destruct (find_text (lit "user") (m_elements m)); [reflexivity|]. cbn [find_text new_ref2 tx_name].
    destruct (str_eqb (lit "user") w) eqn:Q; [|reflexivity]. apply str_eqb_eq in Q. now destruct N. }
  split; [|split].
  - rewrite T3. change (str_eqb (lit "reference") (lit "user")) with false. cbv iota. rewrite find_text_app, T2, (R (lit "reference")) by discriminate.
    change (str_eqb (lit "reference") (lit "value")) with false. cbv iota. rewrite T1. change (str_eqb (lit "reference") (lit "reference")) with true. cbv iota.
    destruct (find_text (lit "reference") (m_elements m)); reflexivity.
  - rewrite T3. change (str_eqb (lit "value") (lit "user")) with false. cbv iota. rewrite find_text_app, T2, (R (lit "value")) by discriminate.
    change (str_eqb (lit "value") (lit "value")) with true. cbv iota. rewrite T1. change (str_eqb (lit "value") (lit "reference")) with false. cbv iota.
    destruct (find_text (lit "value") (m_elements m)); reflexivity.
  - rewrite T3 in *. change (str_eqb (lit "user") (lit "user")) with true in *. cbv iota in *.
    destruct (find_text (lit "user") (l2 ++ ref2_of c (m_elements m))) as [t|]; [|now destruct F]. exists t. reflexivity.
Qed.
Lemma courtyard_are_lines m : flat_map (fun e => match e with EFpLine p => [p] | _ => [] end) (map EFpLine (courtyard m)) = courtyard m.
Proof. induction (courtyard m) as [|x l IH]; [reflexivity|]. cbn [map flat_map app]. now rewrite IH. Qed.
Lemma fix_lines c m m' : fp_fix c m = Ok m' ->
  pads m' = pads m /\ fp_lines m' = fp_lines m ++ (if Nat.ltb (courtyard_lines m) 4 then courtyard m else []) /\
  has_smd_attr m' = (has_smd_attr m || smd_only m)%bool.
Proof.
  intros H. destruct (fix_stages c m) as (l1 & l2 & l4 & _ & _ & _ & _ & C & A & E). rewrite E in H. injection H as <-.
  set (m4 := mk_module (m_name m) l4). assert (C4 : core (m_elements m4) = core (m_elements m)) by exact C.
  split; [|split].
  - unfold pads at 1. cbn [m_elements]. rewrite !flat_map_app. change (flat_map _ l4) with (pads m4). rewrite (core_same_pads m m4 C4).
    unfold attr_of, court_of, courtyard. destruct (module_at m). destruct (smd_only m && negb (has_smd_attr m))%bool, (Nat.ltb (courtyard_lines m) 4); apply app_nil_r.
  - unfold fp_lines at 1. cbn [m_elements]. rewrite !flat_map_app. change (flat_map _ l4) with (fp_lines m4). rewrite (core_same_lines m m4 C4). f_equal.
    unfold attr_of, court_of. destruct (smd_only m && negb (has_smd_attr m))%bool, (Nat.ltb (courtyard_lines m) 4); cbn [flat_map app]; rewrite ?courtyard_are_lines; reflexivity.
  - apply Bool.eq_iff_eq_true. rewrite Bool.orb_true_iff, !attr_spec. cbn [m_elements]. rewrite !in_app_iff, A.
    assert (Nc : ~ In (EAttr (lit "smd")) (court_of m)).
    { unfold court_of, courtyard. destruct (module_at m). destruct (Nat.ltb (courtyard_lines m) 4); cbn [map In]; intuition discriminate. }
    unfold attr_of. destruct (smd_only m) eqn:S; cbn [andb].
    + destruct (has_smd_attr m) eqn:Q; cbn [negb In].
      * apply attr_spec in Q. tauto.
      * split; auto.
    + cbn [In]. intuition discriminate.
Qed.
Lemma courtyard_count m : count (fun l => ltype_eqb (la_t (li_layer l)) LCrtYd) (courtyard m) = 4%nat.
Proof. unfold courtyard. destruct (module_at m). reflexivity. Qed.
Lemma fix_count c m m' : fp_fix c m = Ok m' -> Nat.ltb (courtyard_lines m') 4 = false.
Proof.
  intros H. apply fix_lines in H as (_ & L & _). unfold courtyard_lines in *. rewrite L. unfold count at 1. rewrite filter_app, app_length.
  fold (count (fun l => ltype_eqb (la_t (li_layer l)) LCrtYd) (fp_lines m)). apply Nat.ltb_ge.
  destruct (Nat.ltb (count _ _) 4) eqn:E; [|apply Nat.ltb_ge in E; cbn; lia]. pose proof (courtyard_count m) as K. unfold count in K. rewrite K. lia.
Qed.
Lemma fix_pads c m m' : fp_fix c m = Ok m' -> smd_only m' = smd_only m /\ pth_only m' = pth_only m.
Proof. intros H. apply fix_lines in H as (P & _). unfold smd_only, pth_only, smd_pads, pth_pads. rewrite P. auto. Qed.

Lemma fix_idempotent c m m' : fp_fix c m = Ok m' -> fp_fix c m' = Ok m'.
Proof.
  intros H. pose proof (fix_finds c m m' H) as (N & R & V & t & U). pose proof (fix_lines c m m' H) as (_ & _ & A). pose proof (fix_count c m m' H) as C.
  destruct (fix_pads c m m' H) as (S & _). clear H.
  assert (E1 : fix_reference c m' = m').
  { unfold fix_reference. rewrite or_same_list by reflexivity. unfold get_text in R. destruct m' as [n' l']. cbn [m_name m_elements] in *. f_equal.
    destruct (find_text (lit "reference") (m_elements m)) as [r|]; cbn [option_map] in R.
    - rewrite (upd_fixed _ _ _ _ R); reflexivity.
    - now rewrite (upd_none _ _ _ R). }
  assert (E2 : fix_value c (m_name m') m' = m').
  { unfold fix_value. rewrite or_same_list by reflexivity. unfold get_text in V. destruct m' as [n' l']. cbn [m_name m_elements] in *. f_equal. subst n'.
    destruct (find_text (lit "value") (m_elements m)) as [r|]; cbn [option_map] in V.
    - rewrite (upd_fixed _ _ _ _ V); reflexivity.
    - now rewrite (upd_none _ _ _ V). }
  assert (E3 : fix_reference2 c m' = Ok m').
  { unfold fix_reference2. rewrite U. unfold modify_text. unfold get_text in U. destruct m' as [n' l']. cbn [m_name m_elements] in *.
    rewrite (upd_fixed _ _ _ _ U); reflexivity. }
  unfold fp_fix. rewrite E1, E2, E3. cbn [bind]. f_equal.
  assert (E4 : fix_attr m' = m'). { unfold fix_attr. rewrite S, A. destruct (smd_only m), (has_smd_attr m); reflexivity. }
  rewrite E4. unfold fix_courtyard. now rewrite C.
Qed.

(** *** What the check says afterwards *)
Lemma rx_fabs x : rx (fabs x) = Rabs (rx x).
Proof.
  destruct x as [s|s| |s m e H].
  - cbn. now rewrite Rabs_R0.
  - unfold fabs. cbn [Babs rx]. pose proof fmaxR_pos. destruct s; [rewrite Rabs_Ropp|]; rewrite Rabs_pos_eq by lra; reflexivity.
  - cbn. now rewrite Rabs_R0.
  - rewrite !rx_finite by reflexivity. apply B2R_Babs.
Qed.
Lemma fabs_nan x : is_nan (fabs x) = is_nan x. Proof. destruct x; reflexivity. Qed.
Lemma eps_facts : is_nan EPSILON = false /\ (0 < rx EPSILON)%R.
Proof.
  assert (N : is_nan EPSILON = false) by (vm_compute; reflexivity). split; [exact N|].
  assert (P : fltb fzero EPSILON = true) by (vm_compute; reflexivity). exact (proj1 (fltb_rx fzero EPSILON eq_refl N) P).
Qed.
Lemma far_self x : far x x = false.
Proof.
  unfold far. destruct eps_facts as [Ne Pe]. revert Ne Pe. generalize EPSILON. intros eps Ne Pe. destruct (is_finite x) eqn:F.
  - destruct (fsub_finite x x F F) as [V N]. apply Bool.not_true_is_false. intros H.
    assert (Na : is_nan (fabs (fsub x x)) = false) by (rewrite fabs_nan; exact N). pose proof (proj1 (fgtb_rx _ _ Na Ne) H) as H1.
    rewrite rx_fabs, V, Rminus_diag_eq in H1 by reflexivity. rewrite rnd_0, clip_id, Rabs_R0 in H1 by (rewrite Rabs_R0; apply fmaxR_pos). lra.
  - unfold fgtb. apply (fltb_nan_r eps). rewrite fabs_nan. destruct x as [s|s| |s m e B]; try discriminate F; try (destruct s); reflexivity.
Qed.
Lemma check_fixed c m m' : fp_fix c m = Ok m' -> fp_check c m' =
  (match get_text m (lit "reference") with None => [cf_new 7 3 (m_name m) (lit "reference missing")] | Some _ => [] end)
  ++ (match get_text m (lit "value") with None => [cf_new 7 4 (m_name m) (lit "value missing")] | Some _ => [] end)
  ++ (if pth_only m && has_smd_attr m then [cf_new 9 1 (m_name m) placement] else []).
Proof.
  intros H. pose proof (fix_finds c m m' H) as (N & R & V & t & U). pose proof (fix_lines c m m' H) as (_ & _ & A). pose proof (fix_count c m m' H) as C.
  destruct (fix_pads c m m' H) as (S & P). clear H. unfold fp_check. f_equal; [|f_equal].
  - unfold check_reference. rewrite R, N. destruct (get_text m (lit "reference")) as [r|]; cbn [option_map]; [|reflexivity].
    unfold fR, tx_size, tx_thick. cbn [fix_text tx_value tx_layer tx_hide tx_effects la_t ef_font fo_size fo_thickness xy_x xy_y]. rewrite !far_self. reflexivity.
  - unfold check_value. rewrite V, N. destruct (get_text m (lit "value")) as [r|]; cbn [option_map]; [|reflexivity].
    unfold fV, tx_size, tx_thick. cbn [fix_text tx_value tx_layer tx_hide tx_effects la_t ef_font fo_size fo_thickness xy_x xy_y]. rewrite !far_self, str_eqb_refl. reflexivity.
  - rewrite C, S, P, A, N. unfold check_reference2. rewrite U. unfold fU, tx_size, tx_thick.
    cbn [fix_text tx_value tx_layer tx_hide tx_effects la_t ef_font fo_size fo_thickness xy_x xy_y]. rewrite !far_self. cbn [when app].
    change (str_eqb (lit "%R") (lit "%R")) with true. change (ltype_eqb LFab LFab) with true. cbn [negb when app].
    assert (X : smd_only m = true -> pth_only m = false).
    { unfold smd_only, pth_only. intros H. apply andb_prop in H as [H _]. apply Nat.eqb_eq in H. now rewrite H. }
    destruct (smd_only m) eqn:Q.
    + rewrite (X eq_refl), Bool.orb_true_r. reflexivity.
    + rewrite Bool.orb_false_r. destruct (pth_only m), (has_smd_attr m); reflexivity.
Qed.

(** *** Frame *)
Lemma fix_frame_text c v lt t : text_frame t (fix_text c v lt t). Proof. now repeat split. Qed.
Lemma step_named w f l l' : (forall t, tx_name (f t) = tx_name t) -> texts_ok w f l l' ->
  forall w' k e e', nth_error l k = Some e -> nth_error l' k = Some e' -> text_named w' e -> text_named w' e'.
Proof.
  intros Nf (_ & _ & _ & _ & T) w' k e e' H H' X. destruct (T k e H) as [E|(t & -> & _ & E & _)]; rewrite E in H'; injection H' as <-; [exact X|].
  destruct X as (t0 & Q & W). injection Q as <-. exists (f t). split; [reflexivity|]. now rewrite Nf.
Qed.
Lemma nth_some {A} (l l' : list A) j e : length l' = length l -> nth_error l j = Some e -> exists e', nth_error l' j = Some e'.
Proof.
  intros L H. destruct (nth_error l' j) eqn:E; [eauto|]. apply nth_error_None in E. assert (nth_error l j <> None) by congruence. apply nth_error_Some in H0. lia.
Qed.
Lemma fix_elements c m m' : fp_fix c m = Ok m' ->
  (forall k e, nth_error (m_elements m) k = Some e -> nth_error (m_elements m') k = Some e
     \/ exists t t', first_text (m_elements m) k t /\ e = EFpText t /\ nth_error (m_elements m') k = Some (EFpText t')
        /\ text_frame t t' /\ as_ruled c (m_name m) t')
  /\ exists old new, m_elements m' = old ++ new /\ length old = length (m_elements m) /\ appended m new.
Proof.
  intros H. destruct (fix_stages c m) as (l1 & l2 & l4 & T1 & T2 & T3 & _ & _ & _ & E). rewrite E in H. injection H as <-. cbn [m_elements m_name].
  assert (N1 := step_named _ _ _ _ (fix_text_name c (lit "REF**") LSilkS) T1). assert (N2 := step_named _ _ _ _ (fix_text_name c (m_name m) LFab) T2).
  pose proof T1 as (L1 & _ & _ & _ & K1). pose proof T2 as (L2 & _ & _ & _ & K2). pose proof T3 as (L3 & _ & _ & _ & K3).
  rewrite app_length in L3. split.
  - intros k e He.
    assert (Lk : (k < length (m_elements m))%nat) by (apply nth_error_Some; congruence).
    assert (G : forall x, nth_error l4 k = Some x -> nth_error (l4 ++ attr_of m ++ court_of m) k = Some x).
    { intros x Hx. rewrite nth_error_app1; [exact Hx|]. apply nth_error_Some. congruence. }
    assert (G3 : forall j x, nth_error l2 j = Some x -> nth_error (l2 ++ ref2_of c (m_elements m)) j = Some x).
    { intros j x Hx. rewrite nth_error_app1; [exact Hx|]. apply nth_error_Some. congruence. }
    assert (B1 : forall w j e0, (j < k)%nat -> nth_error (m_elements m) j = Some e0 -> text_named w e0 -> exists e1, nth_error l1 j = Some e1 /\ text_named w e1).
    { intros w j e0 Hj Hn Ht. destruct (nth_some _ l1 _ _ L1 Hn) as [e1 H1]. exists e1. split; [exact H1|]. eapply N1; eassumption. }
    assert (B2 : forall w j e0, (j < k)%nat -> nth_error (m_elements m) j = Some e0 -> text_named w e0 -> exists e1, nth_error l2 j = Some e1 /\ text_named w e1).
    { intros w j e0 Hj Hn Ht. destruct (B1 w j e0 Hj Hn Ht) as (e1 & H1 & W1). destruct (nth_some _ l2 _ _ L2 H1) as [e2 H2]. exists e2. split; [exact H2|]. eapply N2; eassumption. }
    destruct (K1 k e He) as [H1|(t & -> & Nt & H1 & F1)].
    + destruct (K2 k e H1) as [H2|(t & -> & Nt & H2 & F2)].
      * apply G3 in H2. destruct (K3 k e H2) as [H3|(t & -> & Nt & H3 & F3)]; [left; now apply G|right].
        exists t, (fU c t). split; [split; [exact He|]|split; [reflexivity|split; [now apply G|split; [apply fix_frame_text|]]]].
        { rewrite Nt. split; [cbn; auto|]. intros j e0 Hj Hn Ht. destruct (B2 _ _ _ Hj Hn Ht) as (e1 & Q & W). exact (F3 j e1 Hj (G3 _ _ Q) W). }
        unfold as_ruled, fU. cbn [fix_text tx_name]. rewrite Nt. now repeat split.
      * right. assert (H3 : nth_error l4 k = Some (EFpText (fV c (m_name m) t))).
        { apply G3 in H2. destruct (K3 k _ H2) as [H3|(t0 & Q & Nt0 & _)]; [exact H3|]. injection Q as <-. exfalso. revert Nt0. change (tx_name t = lit "user" -> False). rewrite Nt. discriminate. }
        exists t, (fV c (m_name m) t). split; [split; [exact He|]|split; [reflexivity|split; [now apply G|split; [apply fix_frame_text|]]]].
        { rewrite Nt. split; [cbn; auto|]. intros j e0 Hj Hn Ht. destruct (B1 _ _ _ Hj Hn Ht) as (e1 & Q & W). exact (F2 j e1 Hj Q W). }
        unfold as_ruled, fV. cbn [fix_text tx_name]. rewrite Nt. now repeat split.
    + right. assert (H2 : nth_error l2 k = Some (EFpText (fR c t))).
      { destruct (K2 k _ H1) as [H2|(t0 & Q & Nt0 & _)]; [exact H2|]. injection Q as <-. exfalso. revert Nt0. change (tx_name t = lit "value" -> False). rewrite Nt. discriminate. }
      assert (H3 : nth_error l4 k = Some (EFpText (fR c t))).
      { apply G3 in H2. destruct (K3 k _ H2) as [H3|(t0 & Q & Nt0 & _)]; [exact H3|]. injection Q as <-. exfalso. revert Nt0. change (tx_name t = lit "user" -> False). rewrite Nt. discriminate. }
      exists t, (fR c t). split; [split; [exact He|]|split; [reflexivity|split; [now apply G|split; [apply fix_frame_text|]]]].
      { rewrite Nt. split; [cbn; auto|]. exact F1. }
      unfold as_ruled, fR. cbn [fix_text tx_name]. rewrite Nt. now repeat split.
  - exists (firstn (length (m_elements m)) l4), (skipn (length (m_elements m)) l4 ++ attr_of m ++ court_of m).
    split; [rewrite (app_assoc (firstn _ _)), firstn_skipn; reflexivity|]. split; [rewrite firstn_length; lia|].
    exists (skipn (length (m_elements m)) l4), (attr_of m), (court_of m). split; [reflexivity|]. split; [|split].
    + unfold ref2_of in *. destruct (find_text (lit "user") (m_elements m)) as [t|] eqn:Q.
      * left. apply skipn_all2. cbn in L3. lia.
      * right. split; [now apply find_text_none|]. cbn [length] in L3.
        assert (Hl : nth_error (l2 ++ [EFpText (new_ref2 c)]) (length l2) = Some (EFpText (new_ref2 c))) by (rewrite nth_error_app2, Nat.sub_diag by lia; reflexivity).
        assert (Hx : exists t, nth_error l4 (length l2) = Some (EFpText t) /\ tx_name t = lit "user").
        { destruct (K3 _ _ Hl) as [X|(t & X & Nt & X2 & _)]; [exists (new_ref2 c); split; [exact X|reflexivity]|]. exists (fU c t). split; [exact X2|exact Nt]. }
        destruct Hx as (t & Hx & Nt). exists t. split; [|exact Nt]. apply nth_error_split in Hx as (u & v & -> & Lu).
        rewrite app_length in L3. cbn [length] in L3. assert (v = []) by (destruct v; [reflexivity|cbn in L3; lia]). subst v.
        replace (length (m_elements m)) with (length u) by lia. rewrite skipn_app, skipn_all, Nat.sub_diag. reflexivity.
    + unfold attr_of. destruct (smd_only m); cbn [andb]; [|auto]. destruct (has_smd_attr m) eqn:Q; cbn [negb]; [auto|right]. split; [|reflexivity].
      rewrite <- attr_spec. congruence.
    + unfold court_of. destruct (Nat.ltb (courtyard_lines m) 4); [right|auto]. unfold courtyard. destruct (module_at m). do 4 eexists. split; [reflexivity|].
      repeat constructor.
Qed.
Lemma untouched_core l : filter untouched l = filter untouched (core l).
Proof. induction l as [|e l IH]; [reflexivity|]. destruct e; cbn [filter untouched core is_core]; rewrite ?IH; reflexivity. Qed.
Lemma fix_untouched c m m' : fp_fix c m = Ok m' -> filter untouched (m_elements m') = filter untouched (m_elements m).
Proof.
  intros H. destruct (fix_stages c m) as (l1 & l2 & l4 & _ & _ & _ & _ & C & _ & E). rewrite E in H. injection H as <-. cbn [m_elements].
  rewrite !filter_app, (untouched_core l4), C, <- untouched_core.
  assert (Z1 : filter untouched (attr_of m) = []) by (unfold attr_of; destruct (_ && _)%bool; reflexivity).
  assert (Z2 : filter untouched (court_of m) = []).
  { unfold court_of, courtyard. destruct (module_at m). destruct (Nat.ltb (courtyard_lines m) 4); reflexivity. }
  rewrite Z1, Z2. cbn [app]. now rewrite app_nil_r.
Qed.
(** Saving and loading the fixed footprint *)
Lemma step_ok w f l l' : texts_ok w f l l' -> (forall t, element_ok (EFpText t) = true -> element_ok (EFpText (f t)) = true) ->
  forallb element_ok l = true -> forallb element_ok l' = true.
Proof.
  intros (L & _ & _ & _ & K) F H. rewrite forallb_forall in *. intros e' I. apply In_nth_error in I as [k I].
  destruct (nth_some l' l k e' (eq_sym L) I) as [e He]. pose proof (nth_error_In _ _ He) as Hi.
  destruct (K k e He) as [X|(t & -> & _ & X & _)]; rewrite X in I; injection I as <-; auto.
Qed.
Definition font_size_ok (c : config) : bool := fgtb (cg_font_size c) fzero.
Lemma fix_text_ok c v lt t : font_size_ok c = true -> match lt with LOther _ => false | _ => true end = true ->
  element_ok (EFpText t) = true -> element_ok (EFpText (fix_text c v lt t)) = true.
Proof.
  intros Fs Hl. cbn [element_ok]. unfold text_ok, effects_ok, font_ok. cbn [fix_text tx_at tx_layer tx_effects ef_font fo_size xy_t xy_x xy_y].
  unfold font_size_ok in Fs. rewrite Fs. cbn [orb]. intros H. apply andb_prop in H as [H1 H2]. apply andb_prop in H1 as [H1 _]. apply andb_prop in H2 as [H2 _].
  unfold tx_size. rewrite H1, H2. unfold layer_ok. cbn [la_t]. destruct lt; try reflexivity. discriminate.
Qed.
Lemma fix_ok c m m' : module_ok m = true -> font_size_ok c = true -> fp_fix c m = Ok m' -> module_ok m' = true.
Proof.
  unfold module_ok. intros M Fs H. destruct (fix_stages c m) as (l1 & l2 & l4 & T1 & T2 & T3 & _ & _ & _ & E). rewrite E in H. injection H as <-. cbn [m_elements].
  rewrite !forallb_app.
  assert (Z1 : forallb element_ok (attr_of m) = true) by (unfold attr_of; destruct (_ && _)%bool; reflexivity).
  assert (Z2 : forallb element_ok (court_of m) = true).
  { unfold court_of, courtyard. destruct (module_at m). destruct (Nat.ltb (courtyard_lines m) 4); reflexivity. }
  rewrite Z1, Z2, Bool.andb_true_r. eapply step_ok; [exact T3|intros t; now apply fix_text_ok|]. rewrite forallb_app.
  assert (Z3 : forallb element_ok (ref2_of c (m_elements m)) = true).
  { unfold ref2_of. destruct (find_text _ _); [reflexivity|]. cbn [forallb element_ok]. unfold text_ok, effects_ok, font_ok, at_ok.
    cbn [new_ref2 tx_at tx_layer tx_effects ef_font fo_size xy_t xy_x xy_y]. unfold font_size_ok in Fs. rewrite Fs. reflexivity. }
  rewrite Z3, Bool.andb_true_r. eapply step_ok; [exact T2|intros t; now apply fix_text_ok|]. eapply step_ok; [exact T1|intros t; now apply fix_text_ok|]. exact M.
Qed.
