(** Lemmas about rule checks and fixes. *)
From Coq Require Import String Lia.
From Verif Require Import Base Str StrFacts Num F64 F64Text F64Order FpData FpLayer FpWf Bound BoundSpec BoundFacts FpOps FpOpsSpec FpOpsFacts SchData SchPrint SymData SymOps CheckFix SymCheck FpCheck CheckSpec.
Open Scope string_scope. Open Scope list_scope.

(** ** Results *)
Lemma findings_flatter d : findings (flatter d) = findings d.
Proof. destruct d as [i|[|x [|y l]]]; cbn [flatter findings flat_map]; try reflexivity. now rewrite app_nil_r. Qed.
Lemma flat_more l : all_findings (more l) = all_findings l.
Proof.
  unfold more. destruct l as [|x l]; [reflexivity|]. cbn [is_empty]. unfold all_findings at 1. cbn [flat_map]. rewrite findings_flatter, app_nil_r. reflexivity.
Qed.
Lemma all_app_f l m : all_findings (l ++ m) = all_findings l ++ all_findings m. Proof. apply flat_map_app. Qed.

Section CfInd.
  Context (P : cf_data -> Prop) (HI : forall i, P (Item i)) (HM : forall l, Forall P l -> P (More l)).
  Fixpoint cf_ind2 (d : cf_data) : P d :=
    match d with
    | Item i => HI i
    | More l => HM l ((fix go l := match l return Forall P l with [] => Forall_nil P | x :: r => Forall_cons x (cf_ind2 x) (go r) end) l)
    end.
End CfInd.
Lemma dump_findings d : forall n, Forall2 (fun line i => exists k, line = dump_item k i) (dump n d) (findings d).
Proof.
  induction d as [i|l IH] using cf_ind2; intros n; cbn [dump findings].
  - constructor; [now exists n|constructor].
  - induction IH as [|x l Hx _ IHl]; cbn [flat_map]; [constructor|]. apply Forall2_app; [apply Hx|apply IHl].
Qed.

Lemma findings_in_snd d : forall k, map snd (findings_in k d) = findings d.
Proof.
  induction d as [i|l IH] using cf_ind2; intros k; cbn [findings_in findings]; [reflexivity|].
  induction IH as [|x l Hx _ IHl]; [reflexivity|]. cbn [flat_map]. rewrite map_app, Hx. f_equal. apply IHl.
Qed.
Lemma dump_deep d : forall n k, (match d with Item _ => dump (n + (k - 1)) d | More _ => dump (n + k) d end) = map (finding_line n) (findings_in k d).
Proof.
  induction d as [i|l IH] using cf_ind2; intros n k.
  - cbn. unfold dump_item, finding_line. cbn [fst snd]. now rewrite Nat.mul_comm.
  - cbn [dump findings_in]. induction IH as [|x l Hx _ IHl]; [reflexivity|]. cbn [flat_map]. rewrite map_app, IHl, <- Hx. f_equal.
    replace (S k - 1)%nat with k by lia. replace (n + S k)%nat with (S (n + k)) by lia. now destruct x.
Qed.
Lemma dump_lines d n : dump n d = map (finding_line n) (findings_in 0 d).
Proof. rewrite <- dump_deep. cbn. rewrite Nat.add_0_r. now destruct d. Qed.

(** ** Names *)
Lemma name_charb_spec c : name_charb c = true <-> name_char c.
Proof.
  change (name_char c) with (65 <= c <= 90 \/ 97 <= c <= 122 \/ 48 <= c <= 57 \/ In c [95; 45; 46])%N. unfold name_charb. cbn [In].
  rewrite !Bool.orb_true_iff, !Bool.andb_true_iff, !N.leb_le, !N.eqb_eq. lia.
Qed.
Lemma allowed_mem c : existsb (N.eqb c) ALLOWED_1_7 = name_charb c.
Proof.
  destruct (existsb (N.eqb c) ALLOWED_1_7) eqn:E.
  - apply existsb_exists in E as (x & I & E). apply N.eqb_eq in E. subst x. symmetry.
    assert (A : forallb name_charb ALLOWED_1_7 = true) by reflexivity. rewrite forallb_forall in A. now apply A.
  - symmetry. apply Bool.not_true_is_false. intros H. apply Bool.not_true_iff_false in E. apply E. clear E.
    assert (Hall : forallb (fun n => negb (name_charb (N.of_nat n)) || existsb (N.eqb (N.of_nat n)) ALLOWED_1_7) (seq 0 128) = true) by (vm_compute; reflexivity).
    rewrite forallb_forall in Hall. assert (L : (c < 128)%N).
    { unfold name_charb in H. rewrite !Bool.orb_true_iff, !Bool.andb_true_iff, !N.leb_le, !N.eqb_eq in H. lia. }
    specialize (Hall (N.to_nat c)). rewrite N2Nat.id, H in Hall. apply Hall. apply in_seq. lia.
Qed.
Lemma invalid_from_spec s r : forall i, invalid_from s i r =
  map (fun p => invalid_char s (fst p) (snd p)) (filter (fun p => negb (name_charb (snd p))) (combine (seq i (length r)) r)).
Proof.
  induction r as [|c r IH]; intros i; cbn [invalid_from length seq combine filter map]; [reflexivity|]. cbn [snd].
  rewrite allowed_mem, IH. destruct (name_charb c); reflexivity.
Qed.
Lemma items_spec s : allowed_1_7_items s = map (fun p => Item (bad_char_item s p)) (bad_chars s).
Proof.
  unfold allowed_1_7_items, allowed_1_7, bad_chars. rewrite invalid_from_spec. set (l := filter _ _).
  destruct l as [|p l0]; [reflexivity|]. cbn [map is_empty]. f_equal. rewrite map_map. reflexivity.
Qed.
Lemma bad_none s : bad_chars s = [] <-> Forall name_char s.
Proof.
  unfold bad_chars. generalize 0%nat as i. induction s as [|c s IH]; intros i; cbn [length seq combine filter snd].
  - split; constructor.
  - destruct (name_charb c) eqn:E; cbn [negb].
    + rewrite IH. split; [constructor; [now apply name_charb_spec|assumption]|now intros H; inversion H].
    + split; [discriminate|]. intros H. inversion H. subst. apply name_charb_spec in H2. congruence.
Qed.
Lemma allowed_spec s : is_allowed_1_7 s = true <-> Forall name_char s.
Proof.
  rewrite <- bad_none. unfold is_allowed_1_7, allowed_1_7. rewrite invalid_from_spec. fold (bad_chars s).
  destruct (bad_chars s); cbn; intuition discriminate.
Qed.

(** ** Pins *)
Lemma rem_grid g x : (0 < g)%Z -> (Z.rem x g =? 0)%Z = true <-> on_grid g x.
Proof. intros G. rewrite Z.eqb_eq, Z.rem_divide by lia. unfold Z.divide, on_grid. split; intros (k & ->); exists k; lia. Qed.
Lemma nc_char a b : (N.eqb a 78 || N.eqb a 110) && (N.eqb b 67 || N.eqb b 99) = true <-> In a (lit "nN") /\ In b (lit "cC").
Proof.
  change (lit "nN") with [110; 78]%N. change (lit "cC") with [99; 67]%N. cbn [In].
  rewrite Bool.andb_true_iff, !Bool.orb_true_iff, !N.eqb_eq. intuition congruence.
Qed.
Lemma contains_nc_spec s : contains_nc s = true <-> reads_nc s.
Proof.
  induction s as [|a [|b r] IH].
  - split; [discriminate|]. intros (x & n & c & y & H & _). destruct x; discriminate.
  - split; [discriminate|]. intros (x & n & c & y & H & _). destruct x as [|? [|]]; discriminate.
  - cbn [contains_nc] in *. rewrite Bool.orb_true_iff, nc_char, IH. split.
    + intros [[H1 H2]|(x & n & c & y & H & I)].
      * exists [], a, b, r. auto.
      * exists (a :: x), n, c, y. cbn [app]. rewrite <- H. auto.
    + intros (x & n & c & y & H & I1 & I2). destruct x as [|a' x]; cbn [app] in H.
      * injection H as -> -> ->. auto.
      * injection H as -> H. right. exists x, n, c, y. auto.
Qed.
Lemma when_nil b d : when b d = [] <-> b = false.
Proof. destruct b; cbn; intuition discriminate. Qed.
Lemma app_nil_both {A} (l m : list A) : l ++ m = [] <-> l = [] /\ m = [].
Proof. split; [apply app_eq_nil|intros [-> ->]; reflexivity]. Qed.
Lemma pin_silent p : pin_check p = [] <-> pin_accepted p.
Proof.
  unfold pin_check, pin_accepted. cbv zeta. rewrite !app_nil_both, !when_nil, !Bool.negb_false_iff, !rem_grid by lia.
  rewrite !Z.eqb_eq, !Z.ltb_ge, Bool.andb_false_iff, Bool.negb_false_iff, <- contains_nc_spec.
  assert (T : is_nc (pn_type p) = true <-> pn_type p = PTNotConnected) by (destruct (pn_type p); cbn; intuition discriminate).
  assert (V : (if is_nc (pn_type p) then when (pn_visible p) (cf_new 4 7 (pn_name p ++ lit ":" ++ pn_number p) (lit "Pin should be invisible"))
      else when (negb (pn_visible p)) (cf_new 4 7 (pn_name p ++ lit ":" ++ pn_number p) (lit "Pin should be visible"))) = []
      <-> (pn_visible p = true <-> pn_type p <> PTNotConnected)).
  { rewrite <- T. destruct (is_nc (pn_type p)); rewrite when_nil, ?Bool.negb_false_iff; destruct (pn_visible p); intuition congruence. }
  rewrite V, T. clear V T. destruct (contains_nc (pn_name p)); intuition (try lia; try congruence).
Qed.
Lemma rect_silent r : rect_check r = [] <-> rect_accepted r.
Proof.
  unfold rect_check, rect_accepted. rewrite app_nil_both, !when_nil, !Bool.negb_false_iff, Z.eqb_eq.
  destruct (rc_fill r); cbn; intuition discriminate.
Qed.
(** Each finding of a pin and its condition *)
Lemma in_when x b d : In x (when b d) <-> b = true /\ x = d.
Proof. destruct b; cbn; intuition congruence. Qed.
Lemma more_nil l : more l = [] <-> l = [].
Proof. unfold more. destruct l; cbn; intuition discriminate. Qed.
Lemma flat_map_nil {A B} (f : A -> list B) l : flat_map f l = [] <-> Forall (fun x => f x = []) l.
Proof.
  induction l as [|x l IH]; cbn [flat_map]; [split; constructor|]. rewrite app_nil_both, IH. split.
  - intros [H1 H2]. now constructor.
  - intros H. inversion H. auto.
Qed.
Lemma pin_draws_spec s : length (pins s) = pin_draws s.
Proof. unfold pins, pin_draws. induction (sy_draw s) as [|d l IH]; [reflexivity|]. destruct d; cbn [flat_map filter app length]; auto. Qed.
Lemma power_spec s : sym_is_power s = true <-> power s.
Proof. unfold sym_is_power, power, SchParse.seq. rewrite Bool.andb_true_iff, str_eqb_eq, Nat.eqb_eq, pin_draws_spec. reflexivity. Qed.
Lemma graphics_spec s : sym_is_graphics s = true <-> graphics s.
Proof.
  unfold sym_is_graphics, graphics. rewrite Bool.andb_true_iff, <- pin_draws_spec.
  assert (H : starts_with (lit "#") (sy_reference s) = true <-> hd_error (sy_reference s) = Some 35%N).
  { change (lit "#") with [35%N]. destruct (sy_reference s) as [|c r]; cbn [starts_with hd_error]; [intuition discriminate|]. rewrite Bool.andb_true_r, N.eqb_eq. intuition congruence. }
  rewrite H. destruct (pins s); cbn; intuition discriminate.
Qed.
Lemma field_silent s f : sfield_check s f = [] <-> field_accepted s f.
Proof.
  unfold sfield_check, field_accepted. rewrite app_nil_both, when_nil, Bool.negb_false_iff, Z.eqb_eq, <- power_spec, <- graphics_spec.
  destruct (Z.eqb_spec (sf_i f) 0) as [->|N0].
  { destruct (sym_is_graphics s), (sym_is_power s), (sf_visible f); cbn [when negb andb]; intuition (try discriminate; try lia). }
  destruct (Z.eqb_spec (sf_i f) 1) as [->|N1].
  { destruct (sym_is_graphics s), (sym_is_power s), (sf_visible f); cbn [when negb andb]; intuition (try discriminate; try lia). }
  destruct (Z.eqb_spec (sf_i f) 2) as [->|N2].
  { destruct (sf_visible f); cbn [when]; intuition (try discriminate; try lia). }
  destruct (Z.eqb_spec (sf_i f) 3) as [->|N3].
  { destruct (sf_visible f); cbn [when]; intuition (try discriminate; try lia). }
  intuition lia.
Qed.
Lemma Forall_iff {A} (P Q : A -> Prop) l : (forall x, P x <-> Q x) -> Forall P l <-> Forall Q l.
Proof. intros H. split; apply Forall_impl; intros a; apply H. Qed.
Lemma tilde_spec s : match sy_name s with c :: r => if N.eqb c 126 then r else sy_name s | [] => [] end = without_tilde (sy_name s).
Proof.
  destruct (sy_name s) as [|c r]; [reflexivity|]. unfold without_tilde. destruct (N.eqb_spec c 126) as [->|N]; [reflexivity|].
  repeat (destruct c as [|c]; try reflexivity; try (now destruct N)). all: try (destruct c; try reflexivity; try now destruct N).
  repeat match goal with |- context [match ?c with _ => _ end] => destruct c; try reflexivity; try (now destruct N) end.
Qed.
Lemma symbol_silent s : symbol_check s = [] <-> symbol_accepted s.
Proof.
  unfold symbol_check, symbol_accepted. cbv zeta. rewrite tilde_spec, !app_nil_both, more_nil, items_spec, flat_map_nil.
  rewrite <- bad_none.
  assert (E1 : map (fun p => Item (bad_char_item (without_tilde (sy_name s)) p)) (bad_chars (without_tilde (sy_name s))) = [] <-> bad_chars (without_tilde (sy_name s)) = [])
    by (destruct (bad_chars _); cbn; intuition discriminate).
  assert (E2 : Forall (fun f => more (sfield_check s f) = []) (sy_fields s) <-> Forall (field_accepted s) (sy_fields s))
    by (apply Forall_iff; intros f; rewrite more_nil; apply field_silent).
  rewrite E1, E2. clear E1 E2. rewrite <- power_spec, <- graphics_spec.
  destruct (sym_is_power s), (sym_is_graphics s); cbn [orb]; try (intuition discriminate).
  rewrite flat_map_nil.
  assert (E : Forall (fun d => more (draw_check d) = []) (sy_draw s) <-> Forall (fun d => match d with DPin p => pin_accepted p | DRect r => rect_accepted r | DOther _ => True end) (sy_draw s)).
  { apply Forall_iff. intros [p|r|o]; rewrite more_nil; cbn [draw_check]; [apply pin_silent|apply rect_silent|intuition]. }
  rewrite E. intuition discriminate.
Qed.
Lemma flat_map_more {A} (f : A -> list cf_data) l : all_findings (flat_map (fun x => more (f x)) l) = flat_map (fun x => all_findings (f x)) l.
Proof. induction l as [|x l IH]; [reflexivity|]. cbn [flat_map]. rewrite all_app_f, flat_more, IH. reflexivity. Qed.
Lemma findings_map {A} (f : A -> cf_item) l : all_findings (map (fun p => Item (f p)) l) = map f l.
Proof. induction l as [|x l IH]; [reflexivity|]. unfold all_findings in *. cbn [map flat_map findings app]. now rewrite IH. Qed.
Lemma symbol_findings s : all_findings (symbol_check s) =
  map (bad_char_item (without_tilde (sy_name s))) (bad_chars (without_tilde (sy_name s)))
  ++ flat_map (fun f => all_findings (sfield_check s f)) (sy_fields s)
  ++ (if sym_is_power s || sym_is_graphics s then [] else flat_map (fun d => all_findings (draw_check d)) (sy_draw s)).
Proof.
  unfold symbol_check. cbv zeta. rewrite tilde_spec, !all_app_f, flat_more, items_spec, findings_map, flat_map_more. do 2 f_equal.
  destruct (sym_is_power s || sym_is_graphics s); [reflexivity|]. apply flat_map_more.
Qed.

(** ** Fixing: what depends only on the elements that are not texts or attributes *)
Definition is_core (e : element) : bool := match e with EFpText _ | EAttr _ => false | _ => true end.
Definition core (l : list element) : list element := filter is_core l.
Lemma core_app l m : core (l ++ m) = core l ++ core m. Proof. apply filter_app. Qed.
Lemma core_flat {B} (f : element -> list B) l : (forall t, f (EFpText t) = []) -> (forall a, f (EAttr a) = []) -> flat_map f l = flat_map f (core l).
Proof. intros H1 H2. induction l as [|e l IH]; [reflexivity|]. destruct e; cbn [flat_map core filter is_core]; rewrite IH, ?H1, ?H2; reflexivity. Qed.
Lemma core_find {B} (f : element -> option B) l : (forall t, f (EFpText t) = None) -> (forall a, f (EAttr a) = None) -> find_map f l = find_map f (core l).
Proof. intros H1 H2. induction l as [|e l IH]; [reflexivity|]. destruct e; cbn [find_map core filter is_core]; rewrite IH, ?H1, ?H2; reflexivity. Qed.
Lemma core_filter l : filter (fun e => is_fab e || is_pad e) (filter is_graphics l) = filter (fun e => is_fab e || is_pad e) (filter is_graphics (core l)).
Proof.
  induction l as [|e l IH]; [reflexivity|].
  destruct e; cbn [filter core is_core is_graphics]; try exact IH; fold (core l); destruct (is_fab _ || is_pad _)%bool eqn:E; cbn [filter]; rewrite ?E, IH; reflexivity.
Qed.
Lemma pads_core m : pads m = flat_map (fun e => match e with EPad p => [p] | _ => [] end) (core (m_elements m)).
Proof. unfold pads. now apply core_flat. Qed.
Lemma lines_core m : fp_lines m = flat_map (fun e => match e with EFpLine p => [p] | _ => [] end) (core (m_elements m)).
Proof. unfold fp_lines. now apply core_flat. Qed.
Lemma core_same_pads m m' : core (m_elements m') = core (m_elements m) -> pads m' = pads m.
Proof. intros H. rewrite !pads_core. now rewrite H. Qed.
Lemma core_same_lines m m' : core (m_elements m') = core (m_elements m) -> fp_lines m' = fp_lines m.
Proof. intros H. rewrite !lines_core. now rewrite H. Qed.
Lemma core_same_at m m' : core (m_elements m') = core (m_elements m) -> module_at m' = module_at m.
Proof. intros H. unfold module_at. rewrite (core_find _ (m_elements m)), (core_find _ (m_elements m')) by reflexivity. now rewrite H. Qed.
Lemma core_same_bound m m' : core (m_elements m') = core (m_elements m) -> module_bound m' = module_bound m.
Proof.
  intros H. unfold module_bound. rewrite (core_same_at m m' H), (core_filter (m_elements m)), (core_filter (m_elements m')). now rewrite H.
Qed.
Lemma core_same_courtyard m m' : core (m_elements m') = core (m_elements m) -> m_name m' = m_name m -> courtyard m' = courtyard m.
Proof. intros H N. unfold courtyard, courtyard_offset. rewrite (core_same_bound m m' H), (core_same_at m m' H), N. reflexivity. Qed.
Lemma core_same_counts m m' : core (m_elements m') = core (m_elements m) ->
  courtyard_lines m' = courtyard_lines m /\ smd_pads m' = smd_pads m /\ pth_pads m' = pth_pads m.
Proof. intros H. unfold courtyard_lines, smd_pads, pth_pads. rewrite (core_same_pads m m' H), (core_same_lines m m' H). auto. Qed.

(** One text step *)
Definition texts_ok (w : str) (f : fp_text -> fp_text) (l l' : list element) : Prop :=
  length l' = length l /\ core l' = core l
  /\ (forall a, In (EAttr a) l' <-> In (EAttr a) l)
  /\ (forall w', find_text w' l' = if str_eqb w' w then option_map f (find_text w' l) else find_text w' l)
  /\ forall k e, nth_error l k = Some e -> nth_error l' k = Some e
     \/ exists t, e = EFpText t /\ tx_name t = w /\ nth_error l' k = Some (EFpText (f t))
        /\ forall j e0, (j < k)%nat -> nth_error l j = Some e0 -> ~ text_named w e0.
Lemma upd_ok w f l l' : (forall t, tx_name (f t) = tx_name t) -> upd_text w f l = Some l' -> texts_ok w f l l'.
Proof.
  intros Nf. revert l'. induction l as [|e l IH]; intros l'; [discriminate|]. cbn [upd_text].
  assert (Skip : ~ text_named w e -> option_map (cons e) (upd_text w f l) = Some l' -> texts_ok w f (e :: l) l').
  { intros Ne H. destruct (upd_text w f l) as [l1|]; [|discriminate]. injection H as <-. destruct (IH l1 eq_refl) as (H1 & H2 & H3 & H4 & H5).
    split; [cbn; now rewrite H1|]. split; [unfold core in *; cbn [filter]; now rewrite H2|]. split.
    { intros a. cbn [In]. now rewrite H3. }
    split.
    { intros w'. destruct e; cbn [find_text]; try apply H4. rewrite H4. destruct (str_eqb (tx_name t) w') eqn:E; [|reflexivity].
      destruct (str_eqb w' w) eqn:E2; [|reflexivity]. apply str_eqb_eq in E, E2. exfalso. apply Ne. exists t. split; [reflexivity|congruence]. }
    intros [|k] e0; cbn [nth_error]; [auto|]. intros Hk. destruct (H5 k e0 Hk) as [?|(t & -> & Nt & Hn & Hf)]; [auto|right].
    exists t. split; [reflexivity|]. split; [exact Nt|]. split; [exact Hn|]. intros [|j] e1 Hj; cbn [nth_error]; [intros [= <-]; exact Ne|]. apply Hf. lia. }
  destruct e; try (apply Skip; intros (t0 & H & _); discriminate).
  destruct (str_eqb (tx_name t) w) eqn:E.
  - intros [= <-]. apply str_eqb_eq in E. split; [reflexivity|]. split; [reflexivity|]. split; [intros a; cbn [In]; intuition discriminate|]. split.
    { intros w'. cbn [find_text]. rewrite Nf, E. destruct (str_eqb w w') eqn:E1.
      - apply str_eqb_eq in E1. subst w'. now rewrite str_eqb_refl.
      - destruct (str_eqb w' w) eqn:E2; [|reflexivity]. apply str_eqb_eq in E2. subst w'. now rewrite str_eqb_refl in E1. }
    intros [|k] e0; cbn [nth_error]; [intros [= <-]; right|auto]. exists t. split; [reflexivity|]. split; [exact E|]. split; [reflexivity|]. intros j e1 Hj. lia.
  - apply Skip. intros (t0 & H & H1). injection H as <-. rewrite H1, str_eqb_refl in E. discriminate.
Qed.
Lemma upd_some w f l : find_text w l <> None -> exists l', upd_text w f l = Some l'.
Proof.
  intros H. pose proof (upd_text_spec w f l) as U. destruct (find_text w l); [|now destruct H]. destruct U as (l1 & l2 & _ & _ & _ & U). eauto.
Qed.
(** a step that does nothing when there is no such text *)
Definition or_list (l : list element) (o : option (list element)) : list element := match o with Some x => x | None => l end.
Lemma upd_none w f l : find_text w l = None -> upd_text w f l = None.
Proof. intros H. pose proof (upd_text_spec w f l) as U. now rewrite H in U. Qed.
Lemma texts_ok_same w f l : find_text w l = None -> texts_ok w f l l.
Proof.
  intros H. split; [reflexivity|]. split; [reflexivity|]. split; [reflexivity|]. split; [|auto].
  intros w'. destruct (str_eqb w' w) eqn:E; [|reflexivity]. apply str_eqb_eq in E. subst. now rewrite H.
Qed.
Lemma or_list_ok w f l : (forall t, tx_name (f t) = tx_name t) -> texts_ok w f l (or_list l (upd_text w f l)).
Proof.
  intros Nf. destruct (find_text w l) as [t|] eqn:E.
  - destruct (upd_some w f l) as [l' U]; [now rewrite E|]. rewrite U. now apply upd_ok.
  - rewrite (upd_none w f l E). now apply texts_ok_same.
Qed.

(** *** Each finding about a pin has its condition *)
Lemma in_item_app i l m : In i (all_findings (l ++ m)) <-> In i (all_findings l) \/ In i (all_findings m).
Proof. rewrite all_app_f. apply in_app_iff. Qed.
Lemma in_item_when i b d : In i (all_findings (when b (Item d))) <-> b = true /\ i = d.
Proof. destruct b; cbn; intuition congruence. Qed.
Lemma pin_reports p i : In i (all_findings (pin_check p)) <->
     (~ on_grid 10 (pn_x p) /\ i = pin_finding p 4 1 "pin x not on 100mil grid" false)
  \/ (~ on_grid 10 (pn_y p) /\ i = pin_finding p 4 1 "pin y not on 100mil grid" false)
  \/ (~ on_grid 5 (pn_len p) /\ i = pin_finding p 4 1 "pin length not on 50mil grid" false)
  \/ ((pn_len p < 100)%Z /\ i = pin_finding p 4 1 "pin length < 100mil" true)
  \/ ((300 < pn_len p)%Z /\ i = pin_finding p 4 1 "pin length > 300mil" true)
  \/ ((reads_nc (pn_name p) /\ pn_type p <> PTNotConnected) /\ i = pin_finding p 4 7 "Pin should be of type Not Connected" false)
  \/ ((pn_type p = PTNotConnected /\ pn_visible p = true) /\ i = pin_finding p 4 7 "Pin should be invisible" false)
  \/ ((pn_type p <> PTNotConnected /\ pn_visible p = false) /\ i = pin_finding p 4 7 "Pin should be visible" false)
  \/ (pn_num_size p <> 50%Z /\ i = pin_finding p 4 8 "Pin Number should be 50mil" false)
  \/ (pn_name_size p <> 50%Z /\ i = pin_finding p 4 8 "Pin Name should be 50mil" false).
Proof.
  unfold pin_check. cbv zeta. rewrite !in_item_app. unfold cf_new, cf_info. rewrite !in_item_when.
  assert (G : forall g x, (0 < g)%Z -> negb (Z.rem x g =? 0)%Z = true <-> ~ on_grid g x).
  { intros g x Hg. rewrite Bool.negb_true_iff, <- Bool.not_true_iff_false, rem_grid by exact Hg. reflexivity. }
  rewrite !G by lia. rewrite !Z.ltb_lt, !Bool.negb_true_iff, !Z.eqb_neq, Bool.andb_true_iff, contains_nc_spec, Bool.negb_true_iff.
  assert (T : is_nc (pn_type p) = true <-> pn_type p = PTNotConnected) by (destruct (pn_type p); cbn; intuition discriminate).
  assert (T' : is_nc (pn_type p) = false <-> pn_type p <> PTNotConnected) by (rewrite <- T; destruct (is_nc (pn_type p)); intuition congruence).
  assert (V : In i (all_findings (if is_nc (pn_type p) then when (pn_visible p) (Item (mk_item 4 7 (pn_name p ++ lit ":" ++ pn_number p) (lit "Pin should be invisible") false))
      else when (negb (pn_visible p)) (Item (mk_item 4 7 (pn_name p ++ lit ":" ++ pn_number p) (lit "Pin should be visible") false))))
      <-> ((pn_type p = PTNotConnected /\ pn_visible p = true) /\ i = pin_finding p 4 7 "Pin should be invisible" false)
       \/ ((pn_type p <> PTNotConnected /\ pn_visible p = false) /\ i = pin_finding p 4 7 "Pin should be visible" false)).
  { rewrite <- T', <- T. destruct (is_nc (pn_type p)); rewrite in_item_when, ?Bool.negb_true_iff; unfold pin_finding; intuition congruence. }
  rewrite V, T'. clear V T T' G. unfold pin_finding. tauto.
Qed.

(** ** Sections of the rule book *)
Lemma klc_range n : (exists k, klc_number k = n) <-> (1 <= n <= 10)%Z.
Proof.
  split; [intros ([] & <-); cbn; lia|]. intros H.
  assert (E : (n = 1 \/ n = 2 \/ n = 3 \/ n = 4 \/ n = 5 \/ n = 6 \/ n = 7 \/ n = 8 \/ n = 9 \/ n = 10)%Z) by lia.
  destruct E as [->|[->|[->|[->|[->|[->|[->|[->|[->| ->]]]]]]]]];
    [exists KGeneral|exists KSymbolLibraryNames|exists KSymbolNames|exists KSymbolRules|exists KFootprintLibraryNames|exists KFootprintNames
    |exists KFootprintRules|exists KSMDRules|exists KTHTRules|exists KFootprintProperties]; reflexivity.
Qed.
Lemma klc_inj j k : klc_number j = klc_number k \/ klc_show j = klc_show k -> j = k.
Proof. destruct j, k; intros [H|H]; try reflexivity; discriminate. Qed.
