(** Proofs: reports and fixes exactly as specified (C79). *)
From Coq Require Import String Lia.
From Verif Require Import Base Str StrFacts Num F64 F64Text FpData FpLayer FpOps FpOpsSpec FpOpsFacts FpEqFacts Bound SymData SymPrint SymOps CheckFix SymCheck FpCheck
  CheckSpec CheckFacts FixFacts ReportFacts RuleSpec.
Open Scope string_scope. Open Scope list_scope.

(** ** Tables with tests *)
Definition tests : Type := list (bool * cf_item).
Definition run (t : tests) : list cf_data := flat_map (fun p => when (fst p) (Item (snd p))) t.
Definition passed (t : tests) : list cf_item := flat_map (fun p => if fst p : bool then [snd p] else []) t.
Lemma run_passed t : run t = map Item (passed t).
Proof. induction t as [|[b i] t IH]; [reflexivity|]. change (run ((b, i) :: t)) with (when b (Item i) ++ run t). rewrite IH. destruct b; reflexivity. Qed.
Definition reflects (r : rules) (t : tests) : Prop := Forall2 (fun p q => (fst q = true <-> fst p) /\ snd q = snd p) r t.
Lemma reflects_iff r t l : reflects r t -> (reported r l <-> passed t = l).
Proof.
  intros H. revert l. induction H as [|[P i] [b j] r t [A B] _ IH]; intros l.
  - split; [intros X; inversion X; reflexivity|intros <-; constructor].
  - cbn in A, B. subst j. change (passed ((b, i) :: t)) with ((if b then [i] else []) ++ passed t). destruct b; cbn [app].
    + split.
      * intros X. inversion X as [|? ? ? ? Q Y|? ? ? ? Q Y]; subst; [apply IH in Y; now subst|destruct Q; now apply A].
      * intros <-. constructor; [now apply A|]. now apply IH.
    + assert (N : ~ P) by (intros Q; apply A in Q; discriminate). split.
      * intros X. inversion X as [|? ? ? ? Q Y|? ? ? ? Q Y]; subst; [contradiction|now apply IH].
      * intros <-. constructor 3; [exact N|]. now apply IH.
Qed.
Lemma item_inj l l' : map Item l = map Item l' -> l = l'.
Proof. revert l'. induction l as [|a l IH]; intros [|b l'] H; try discriminate; [reflexivity|]. cbn in H. injection H as -> H. f_equal. now apply IH. Qed.
Lemma run_app a b : run (a ++ b) = run a ++ run b. Proof. apply flat_map_app. Qed.
Lemma reflects_app r r' t t' : reflects r t -> reflects r' t' -> reflects (r ++ r') (t ++ t').
Proof. apply Forall2_app. Qed.

(** ** Footprints *)
Definition has_some {A} (o : option A) (f : A -> bool) : bool := match o with Some a => f a | None => false end.
Definition is_none {A} (o : option A) : bool := match o with Some _ => false | None => true end.
Lemma none_spec m w : is_none (get_text m (lit w)) = true <-> no_text m w.
Proof. rewrite <- no_text_spec. destruct (get_text m (lit w)); cbn; split; congruence. Qed.
Lemma says_spec m w f (P : fp_text -> Prop) : (forall t, f t = true <-> P t) -> has_some (get_text m (lit w)) f = true <-> says m w P.
Proof.
  intros H. unfold says. split.
  - destruct (get_text m (lit w)) as [t|] eqn:E; cbn; [|discriminate]. intros F. exists t. split; [now apply the_text_spec|now apply H].
  - intros (t & T & Q). apply the_text_spec in T. rewrite T. cbn. now apply H.
Qed.
Definition measure_tests (c : config) (m : module) (w what : string) : tests :=
  let o := get_text m (lit w) in
  [ (has_some o (fun t => far (xy_y (tx_size t)) (cg_font_size c)), fp_finding m 7 3 (lit what ++ lit " label should have height " ++ f64_to_str (cg_font_size c)) true);
    (has_some o (fun t => far (xy_x (tx_size t)) (cg_font_size c)), fp_finding m 7 3 (lit what ++ lit " label should have width " ++ f64_to_str (cg_font_size c)) true);
    (has_some o (fun t => far (tx_thick t) (cg_font_thickness c)), fp_finding m 7 3 (lit what ++ lit " label thickness should be " ++ f64_to_str (cg_font_thickness c)) true) ].
Lemma measure_ok c m w what : reflects (measure_rules c m w what) (measure_tests c m w what).
Proof. unfold measure_rules, measure_tests. cbv zeta. repeat apply Forall2_cons; [..|apply Forall2_nil]; (split; [cbn [fst]; apply says_spec; intros t; reflexivity|reflexivity]). Qed.
Definition reference_tests (c : config) (m : module) : tests :=
  let o := get_text m (lit "reference") in
  [ (is_none o, fp_finding m 7 3 (lit "reference missing") false);
    (has_some o (fun t => negb (str_eqb (tx_value t) (lit "REF**"))), fp_finding m 7 3 (lit "reference should be REF**") false);
    (has_some o (fun t => negb (ltype_eqb (la_t (tx_layer t)) LSilkS)), fp_finding m 7 3 (lit "reference should be on SilkS layertype") false);
    (has_some o tx_hide, fp_finding m 7 3 (lit "reference should not be hidden") false);
    (has_some o (fun t => far (xy_x (tx_size t)) (xy_y (tx_size t))), fp_finding m 7 3 (lit "reference label font aspect ratio should be 1:1") false) ]
  ++ measure_tests c m "reference" "reference".
Definition value_tests (c : config) (m : module) : tests :=
  let o := get_text m (lit "value") in
  [ (is_none o, fp_finding m 7 4 (lit "value missing") false);
    (has_some o (fun t => negb (str_eqb (tx_value t) (m_name m))), fp_finding m 7 4 (lit "value text has to match footprint name") false);
    (has_some o (fun t => negb (ltype_eqb (la_t (tx_layer t)) LFab)), fp_finding m 7 4 (lit "value text has to be on Fab layer") false);
    (has_some o tx_hide, fp_finding m 7 4 (lit "value text should not be hidden") false) ]
  ++ measure_tests c m "value" "value".
Definition user_tests (c : config) (m : module) : tests :=
  let o := get_text m (lit "user") in
  [ (is_none o, fp_finding m 7 4 (lit "reference 2 missing") false);
    (has_some o (fun t => negb (str_eqb (tx_value t) (lit "%R"))), fp_finding m 7 4 (lit "reference 2 should be %R") false);
    (has_some o (fun t => negb (ltype_eqb (la_t (tx_layer t)) LFab)), fp_finding m 7 4 (lit "reference 2 should be on Fab layertype") false);
    (has_some o (fun t => far (xy_x (tx_size t)) (xy_y (tx_size t))), fp_finding m 7 4 (lit "reference 2 label font aspect ratio should be 1:1") false) ]
  ++ measure_tests c m "user" "reference 2".
Definition last_tests (m : module) : tests :=
  [ (Nat.ltb (courtyard_lines m) 4, fp_finding m 7 5 (lit "missing courtyard on CrtYd layer") false);
    (smd_only m && negb (has_smd_attr m), fp_finding m 8 1 (lit placement_message) false);
    (pth_only m && has_smd_attr m, fp_finding m 9 1 (lit placement_message) false) ]%bool.
Ltac table := repeat apply Forall2_cons; [..|apply Forall2_nil]; (split; [cbn [fst]|reflexivity]).
Lemma reference_ok c m : reflects (reference_rules c m) (reference_tests c m).
Proof.
  unfold reference_rules, reference_tests. cbv zeta. apply reflects_app; [|apply measure_ok]. table.
  - apply none_spec.
  - apply says_spec. intros t. apply neq_str.
  - apply says_spec. intros t. apply neq_lt.
  - apply says_spec. intros t. reflexivity.
  - apply says_spec. intros t. reflexivity.
Qed.
Lemma value_ok c m : reflects (value_rules c m) (value_tests c m).
Proof.
  unfold value_rules, value_tests. cbv zeta. apply reflects_app; [|apply measure_ok]. table.
  - apply none_spec.
  - apply says_spec. intros t. apply neq_str.
  - apply says_spec. intros t. apply neq_lt.
  - apply says_spec. intros t. reflexivity.
Qed.
Lemma user_ok c m : reflects (user_rules c m) (user_tests c m).
Proof.
  unfold user_rules, user_tests. cbv zeta. apply reflects_app; [|apply measure_ok]. table.
  - apply none_spec.
  - apply says_spec. intros t. apply neq_str.
  - apply says_spec. intros t. apply neq_lt.
  - apply says_spec. intros t. reflexivity.
Qed.
Lemma lone_spec m : (smd_only m && negb (has_smd_attr m))%bool = true <-> lone_smd m.
Proof.
  unfold lone_smd. rewrite Bool.andb_true_iff, smd_only_spec, Bool.negb_true_iff, <- attr_spec, Bool.not_true_iff_false. tauto.
Qed.
Lemma footprint_ok c m : reflects (footprint_rules c m) (reference_tests c m ++ value_tests c m ++ user_tests c m ++ last_tests m).
Proof.
  unfold footprint_rules. apply reflects_app; [apply reference_ok|]. apply reflects_app; [apply value_ok|]. apply reflects_app; [apply user_ok|].
  unfold last_tests. table.
  - rewrite Nat.ltb_lt, courtyard_list_spec. reflexivity.
  - apply lone_spec.
  - rewrite Bool.andb_true_iff, pth_only_spec, attr_spec. tauto.
Qed.
Lemma run_footprint c m : fp_check c m = run (reference_tests c m ++ value_tests c m ++ user_tests c m ++ last_tests m).
Proof.
  rewrite !run_app. unfold fp_check. f_equal; [|f_equal; [|f_equal]].
  - unfold check_reference, reference_tests, measure_tests, run. cbv zeta. destruct (get_text m (lit "reference")); [cbn [app flat_map fst snd has_some is_none when]; rewrite app_nil_r|]; reflexivity.
  - unfold check_value, value_tests, measure_tests, run. cbv zeta. destruct (get_text m (lit "value")); [cbn [app flat_map fst snd has_some is_none when]; rewrite app_nil_r|]; reflexivity.
  - unfold check_reference2, user_tests, measure_tests, run. cbv zeta. destruct (get_text m (lit "user")); [cbn [app flat_map fst snd has_some is_none when]; rewrite app_nil_r|]; reflexivity.
  - assert (X : smd_only m = true -> pth_only m = false).
    { unfold smd_only, pth_only. intros H. apply andb_prop in H as [H _]. apply Nat.eqb_eq in H. now rewrite H. }
    unfold last_tests, run. cbn [flat_map fst snd]. f_equal. destruct (smd_only m); [rewrite (X eq_refl)|]; cbn [andb when app].
    + now rewrite app_nil_r.
    + rewrite app_nil_r. destruct (pth_only m); reflexivity.
Qed.
Lemma footprint_report c m l : fp_check c m = map Item l <-> reported (footprint_rules c m) l.
Proof.
  rewrite (reflects_iff _ _ l (footprint_ok c m)), run_footprint, run_passed. split; [apply item_inj|now intros ->].
Qed.
Lemma reported_some r t : reflects r t -> exists l, reported r l /\ run t = map Item l.
Proof. intros H. exists (passed t). split; [now apply (reflects_iff r t)|apply run_passed]. Qed.
Lemma footprint_some c m : exists l, fp_check c m = map Item l.
Proof. rewrite run_footprint. eexists. apply run_passed. Qed.
Lemma reported_fun r l l' : reported r l -> reported r l' -> l = l'.
Proof.
  intros H. revert l'. induction H as [|P i r l p H IH|P i r l p H IH]; intros l' X; inversion X; subst; try contradiction; auto. f_equal. auto.
Qed.

(** ** Symbols *)
Definition pin_tests (p : pin) : tests :=
  [ (negb (Z.rem (pn_x p) 10 =? 0)%Z, pin_finding p 4 1 "pin x not on 100mil grid" false);
    (negb (Z.rem (pn_y p) 10 =? 0)%Z, pin_finding p 4 1 "pin y not on 100mil grid" false);
    (negb (Z.rem (pn_len p) 5 =? 0)%Z, pin_finding p 4 1 "pin length not on 50mil grid" false);
    ((pn_len p <? 100)%Z, pin_finding p 4 1 "pin length < 100mil" true);
    ((300 <? pn_len p)%Z, pin_finding p 4 1 "pin length > 300mil" true);
    (contains_nc (pn_name p) && negb (is_nc (pn_type p)), pin_finding p 4 7 "Pin should be of type Not Connected" false);
    (is_nc (pn_type p) && pn_visible p, pin_finding p 4 7 "Pin should be invisible" false);
    (negb (is_nc (pn_type p)) && negb (pn_visible p), pin_finding p 4 7 "Pin should be visible" false);
    (negb (pn_num_size p =? 50)%Z, pin_finding p 4 8 "Pin Number should be 50mil" false);
    (negb (pn_name_size p =? 50)%Z, pin_finding p 4 8 "Pin Name should be 50mil" false) ]%bool.
Lemma not_grid g x : (0 < g)%Z -> negb (Z.rem x g =? 0)%Z = true <-> ~ on_grid g x.
Proof. intros G. rewrite <- (rem_grid g x G), Bool.negb_true_iff, Bool.not_true_iff_false. reflexivity. Qed.
Lemma nc_spec t : is_nc t = true <-> t = PTNotConnected. Proof. destruct t; cbn; split; congruence. Qed.
Lemma nnc_spec t : negb (is_nc t) = true <-> t <> PTNotConnected. Proof. rewrite <- nc_spec, Bool.negb_true_iff, Bool.not_true_iff_false. reflexivity. Qed.
Lemma nz_spec a b : negb (a =? b)%Z = true <-> a <> b. Proof. rewrite Bool.negb_true_iff, Z.eqb_neq. reflexivity. Qed.
Lemma pin_ok p : reflects (pin_rules p) (pin_tests p).
Proof.
  unfold pin_rules, pin_tests. table.
  - now apply not_grid.
  - now apply not_grid.
  - now apply not_grid.
  - apply Z.ltb_lt.
  - apply Z.ltb_lt.
  - rewrite Bool.andb_true_iff, contains_nc_spec, nnc_spec. reflexivity.
  - rewrite Bool.andb_true_iff, nc_spec. reflexivity.
  - rewrite Bool.andb_true_iff, nnc_spec, Bool.negb_true_iff. reflexivity.
  - apply nz_spec.
  - apply nz_spec.
Qed.
Lemma run_pin p : pin_check p = run (pin_tests p).
Proof.
  unfold pin_check, pin_tests, run. cbv zeta. cbn [flat_map fst snd]. rewrite app_nil_r. do 6 f_equal.
  destruct (is_nc (pn_type p)), (pn_visible p); reflexivity.
Qed.
Definition rect_tests (r : rectangle) : tests :=
  [ (negb (is_filled_bg (rc_fill r)), mk_item 4 2 (print_rect r) (lit "Rectangle is not filled") false);
    (negb (rc_thickness r =? 10)%Z, mk_item 4 2 (print_rect r) (lit "Rectangle is not using a 10mil line") false) ].
Lemma rect_ok r : reflects (rect_rules r) (rect_tests r).
Proof.
  unfold rect_rules, rect_tests. table; [|apply nz_spec]. destruct (rc_fill r); cbn; split; congruence.
Qed.
Lemma run_rect r : rect_check r = run (rect_tests r).
Proof. unfold rect_check, rect_tests, run. cbn [flat_map fst snd]. now rewrite app_nil_r. Qed.
Definition field_tests (s : symbol) (f : sfield) : tests :=
  let show (m : string) := mk_item 4 9 (sy_name s) (lit m) false in
  let g := sym_is_graphics s in let w := sym_is_power s in
  [ (negb (sf_dim f =? 50)%Z, mk_item 4 8 (print_sfield f) (lit "field text is not 50mil") false);
    ((sf_i f =? 0)%Z && (g && sf_visible f), show "reference field should be invisible for graphics");
    ((sf_i f =? 0)%Z && (negb g && (negb w && negb (sf_visible f))), show "reference field should be visible for normal symbols");
    ((sf_i f =? 1)%Z && (g && sf_visible f), show "value field should be invisible for graphics");
    ((sf_i f =? 1)%Z && (negb g && (w && sf_visible f)), show "value field should be invisible for power");
    ((sf_i f =? 1)%Z && (negb g && (negb w && negb (sf_visible f))), show "value field should be visible for normal symbols");
    ((sf_i f =? 2)%Z && sf_visible f, show "Footprint field should be invisible");
    ((sf_i f =? 3)%Z && sf_visible f, show "Datasheet field should be invisible") ]%bool.
Lemma ng_spec s : negb (sym_is_graphics s) = true <-> ~ graphics s. Proof. rewrite <- graphics_spec, Bool.negb_true_iff, Bool.not_true_iff_false. reflexivity. Qed.
Lemma np_spec s : negb (sym_is_power s) = true <-> ~ power s. Proof. rewrite <- power_spec, Bool.negb_true_iff, Bool.not_true_iff_false. reflexivity. Qed.
Lemma field_ok s f : reflects (field_rules s f) (field_tests s f).
Proof.
  unfold field_rules, field_tests. cbv zeta. table; rewrite ?Bool.andb_true_iff, ?ng_spec, ?np_spec, ?graphics_spec, ?power_spec, ?Bool.negb_true_iff, ?Z.eqb_eq, ?Z.eqb_neq; reflexivity.
Qed.
Lemma run_field s f : sfield_check s f = run (field_tests s f).
Proof.
  unfold sfield_check, field_tests, run. cbv zeta. cbn [flat_map fst snd]. f_equal.
  destruct (Z.eqb_spec (sf_i f) 0) as [E|]; [try rewrite E; destruct (sym_is_graphics s), (sym_is_power s), (sf_visible f); reflexivity|].
  destruct (Z.eqb_spec (sf_i f) 1) as [E|]; [try rewrite E; destruct (sym_is_graphics s), (sym_is_power s), (sf_visible f); reflexivity|].
  destruct (Z.eqb_spec (sf_i f) 2) as [E|]; [try rewrite E; destruct (sf_visible f); reflexivity|].
  destruct (Z.eqb_spec (sf_i f) 3) as [E|]; [try rewrite E; destruct (sf_visible f); reflexivity|]. reflexivity.
Qed.
Definition draw_tests (d : draw) : tests := match d with DPin p => pin_tests p | DRect r => rect_tests r | DOther _ => [] end.
Lemma draw_ok d : reflects (draw_rules d) (draw_tests d).
Proof. destruct d; [apply pin_ok|apply rect_ok|constructor] || (destruct d; cbn; auto using pin_ok, rect_ok; constructor). Qed.
Lemma run_draw d : draw_check d = run (draw_tests d).
Proof. destruct d; cbn [draw_check draw_tests]; auto using run_pin, run_rect. Qed.
Lemma more_grouped l : more (map Item l) = grouped l.
Proof. destruct l as [|a [|b l]]; reflexivity. Qed.
Lemma passed_all {A} (rl : A -> rules) (ts : A -> tests) (H : forall a, reflects (rl a) (ts a)) l ls :
  Forall2 (fun a x => reported (rl a) x) l ls <-> ls = map (fun a => passed (ts a)) l.
Proof.
  split.
  - induction 1 as [|a x l ls R _ IH]; [reflexivity|]. cbn. rewrite <- IH. f_equal. symmetry. now apply (reflects_iff _ _ _ (H a)).
  - intros ->. induction l; constructor; auto. now apply (reflects_iff _ _ _ (H a)).
Qed.
Lemma more_all {A} (ck : A -> list cf_data) (ts : A -> tests) (H : forall a, ck a = run (ts a)) l :
  flat_map (fun a => more (ck a)) l = flat_map grouped (map (fun a => passed (ts a)) l).
Proof. induction l as [|a l IH]; [reflexivity|]. cbn. now rewrite IH, H, run_passed, more_grouped. Qed.
Lemma symbol_exact s ds : symbol_check s = ds <-> symbol_report s ds.
Proof.
  assert (E : forall gs, (((power s \/ graphics s) /\ gs = []) \/ (~ power s /\ ~ graphics s /\ Forall2 (fun d l => reported (draw_rules d) l) (sy_draw s) gs))
    <-> gs = if (sym_is_power s || sym_is_graphics s)%bool then [] else map (fun d => passed (draw_tests d)) (sy_draw s)).
  { intros gs. rewrite (passed_all draw_rules draw_tests draw_ok). rewrite <- power_spec, <- graphics_spec.
    destruct (sym_is_power s), (sym_is_graphics s); cbn [orb]; intuition congruence. }
  assert (C : symbol_check s = grouped (map (bad_char_item (without_tilde (sy_name s))) (bad_chars (without_tilde (sy_name s))))
    ++ flat_map grouped (map (fun f => passed (field_tests s f)) (sy_fields s))
    ++ flat_map grouped (if (sym_is_power s || sym_is_graphics s)%bool then [] else map (fun d => passed (draw_tests d)) (sy_draw s))).
  { unfold symbol_check. rewrite tilde_spec, items_spec, <- map_map with (g := Item), more_grouped. f_equal. f_equal.
    - apply more_all. intros f. apply run_field.
    - destruct (_ || _)%bool; [reflexivity|]. apply more_all. apply run_draw. }
  rewrite C. unfold symbol_report. split.
  - intros <-. eexists. eexists. split; [|split; [apply E; reflexivity|reflexivity]].
    apply (passed_all (field_rules s) (field_tests s) (field_ok s)). reflexivity.
  - intros (fs & gs & F & G & ->). apply E in G as ->. apply (passed_all (field_rules s) (field_tests s) (field_ok s)) in F as ->. reflexivity.
Qed.

(** ** Sections of the rule book *)
Lemma section_show n s : (exists k, klc_number k = Z.of_nat (S n) /\ klc_show k = s) <-> option_map lit (nth_error section_names n) = Some s.
Proof.
  split.
  - intros (k & H & <-). destruct k; cbn [klc_number] in H;
      match type of H with ?c = _ => assert (E : n = Z.to_nat (c - 1)) by lia end; rewrite E; reflexivity.
  - intros H. do 10 (destruct n as [|n]; [apply (f_equal (fun o => match o with Some x => x | None => s end)) in H; cbn [nth_error section_names option_map] in H; subst s;
      first [exists KGeneral; split; reflexivity|exists KSymbolLibraryNames; split; reflexivity|exists KSymbolNames; split; reflexivity
            |exists KSymbolRules; split; reflexivity|exists KFootprintLibraryNames; split; reflexivity|exists KFootprintNames; split; reflexivity
            |exists KFootprintRules; split; reflexivity|exists KSMDRules; split; reflexivity|exists KTHTRules; split; reflexivity|exists KFootprintProperties; split; reflexivity]|]).
    destruct n; discriminate H.
Qed.
