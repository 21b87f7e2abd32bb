(** Lemmas for C121: names change no box and no finding. *)
From Coq Require Import String Lia.
From Verif Require Import Base Str StrFacts F64 FpData FpOps FpOpsFacts Bound LyData LyOps CheckFix SymCheck FpCheck PlaceFacts AnyOrderSpec AnyOrderFacts BlindSpec.
From Verif Require SchData SchOps.
Open Scope string_scope. Open Scope list_scope.

(** ** Without nets *)
Definition bare (e : element) : element := match e with EPad p => EPad (with_net p None) | _ => e end.
Lemma unseen_bare : unseen bare (fun t => t) (fun l => l) (fun p => with_net p None).
Proof. constructor; try reflexivity. other. Qed.
Lemma bare_rewired l l' : Forall2 same_but_net l l' -> map bare l' = map bare l.
Proof. induction 1 as [|e e' l l' [e0|p n] _ IH]; [reflexivity| |]; cbn [map]; rewrite IH; reflexivity. Qed.
Lemma rewired_bare l l' : map bare l' = map bare l -> Forall2 same_but_net l l'.
Proof.
  revert l'. induction l as [|e l IH]; intros [|e' l'] H; try discriminate H; constructor.
  - cbn [map] in H. pose proof (f_equal (@hd_error element) H) as K. cbn [hd_error] in K. clear H.
    assert (K2 : bare e' = bare e) by (change (match Some (bare e') with Some x => x | None => bare e' end = bare e); rewrite K; reflexivity). clear K.
    destruct e; destruct e'; cbn [bare] in K2; try discriminate K2; try (rewrite <- K2; apply sbn_same); try (rewrite K2; apply sbn_same); try (exact (sbn_same ELocked)).
    match goal with |- same_but_net (EPad ?p) (EPad ?q) => assert (Q : q = with_net p (pa_net q)) end.
    { assert (J : forall x y, EPad x = EPad y -> x = y) by (intros x y E; now injection E). apply J in K2.
      match goal with |- ?q = with_net ?p _ => rewrite <- (eq_refl : with_net (with_net p None) (pa_net q) = with_net p (pa_net q)), <- K2; destruct q; reflexivity end. }
    rewrite Q. apply sbn_pad.
  - apply IH. cbn [map] in H. exact (f_equal (@tl element) H).
Qed.
Lemma rewired_act m m' : rewired m m' <-> act bare m' = act bare m.
Proof.
  unfold rewired, act. split.
  - intros [N F]. rewrite N. f_equal. now apply bare_rewired.
  - intros E. split; [exact (f_equal m_name E)|]. apply rewired_bare. exact (f_equal m_elements E).
Qed.
Lemma check_rewired c m m' : rewired m m' -> fp_check c m' = fp_check c m.
Proof. intros R. apply rewired_act in R. rewrite <- (check_act _ _ _ _ unseen_bare c m), <- (check_act _ _ _ _ unseen_bare c m'). now rewrite R. Qed.
Lemma at_bare m : module_at (act bare m) = module_at m.
Proof.
  unfold module_at. cbn [act m_elements]. assert (E : forall l, find_map (fun e => match e with EAt a => Some (at_x a, at_y a) | _ => None end) (map bare l) =
    find_map (fun e => match e with EAt a => Some (at_x a, at_y a) | _ => None end) l).
  { induction l as [|e l IH]; [reflexivity|]. destruct e; cbn [map bare find_map]; try exact IH. reflexivity. }
  now rewrite E.
Qed.
Lemma box_bare m : module_bound (act bare m) = module_bound m.
Proof.
  unfold module_bound. rewrite at_bare. destruct (module_at m) as [x y]. f_equal. f_equal. cbn [act m_elements].
  induction (m_elements m) as [|e l IH]; [reflexivity|]. destruct e; cbn [map bare filter is_graphics is_fab is_pad orb]; try exact IH;
    try (match goal with |- context [filter _ (?a :: filter _ _)] => cbn [filter is_fab is_pad orb] end);
    try (match goal with |- context [if ?b then _ else _] => destruct b end); cbn [map]; rewrite ?IH; reflexivity.
Qed.
Lemma box_rewired m m' : rewired m m' -> module_bound m' = module_bound m.
Proof. intros R. apply rewired_act in R. rewrite <- (box_bare m), <- (box_bare m'). now rewrite R. Qed.
Lemma court_bare m : courtyard (act bare m) = courtyard m.
Proof. unfold courtyard, courtyard_offset. rewrite box_bare, at_bare. reflexivity. Qed.
Lemma fix_bare c m : fp_fix c (act bare m) = match fp_fix c m with Ok x => Ok (act bare x) | Err e => Err e | Panic => Panic end.
Proof.
  unfold fp_fix. change (m_name (act bare m)) with (m_name m). rewrite (reference_act _ _ _ _ unseen_bare), (value_act _ _ _ _ unseen_bare), (reference2_act _ _ _ _ unseen_bare) by reflexivity.
  destruct (fix_reference2 c (fix_value c (m_name m) (fix_reference c m))) as [q| |]; try reflexivity. cbn [bind]. rewrite (attr_act _ _ _ _ unseen_bare). f_equal.
  unfold fix_courtyard. rewrite (court_act _ _ _ _ unseen_bare), court_bare. destruct (Nat.ltb _ 4); [|reflexivity].
  unfold push, act. cbn [m_name m_elements]. rewrite map_app. f_equal. f_equal. rewrite map_map. reflexivity.
Qed.
Lemma fix_rewired c m m' q : rewired m m' -> fp_fix c m = Ok q -> exists q', fp_fix c m' = Ok q' /\ rewired q q'.
Proof.
  intros R E. apply rewired_act in R. pose proof (fix_bare c m) as A. pose proof (fix_bare c m') as B. rewrite R, A, E in B.
  destruct (fp_fix c m') as [q'| |]; try discriminate B. exists q'. split; [reflexivity|]. apply rewired_act.
  assert (J : forall x y : module, Ok x = Ok y -> x = y) by (intros x y H; now injection H). symmetry. now apply J.
Qed.

(** ** Boards *)
Lemma element_rewired e e' : board_but_net e e' -> ly_element_bound e' = ly_element_bound e.
Proof. intros [e0|m m' R|n n'|n n'|z s]; try reflexivity. now apply box_rewired. Qed.
Lemma board_rewired l l' : rewired_board l l' -> layout_bound l' = layout_bound l.
Proof.
  intros R. unfold layout_bound. f_equal. f_equal. induction R as [|e e' a b E _ IH]; [reflexivity|]. cbn [map]. now rewrite IH, (element_rewired _ _ E).
Qed.
Lemma modules_rewired l l' : rewired_board l l' -> Forall2 rewired (get_modules l) (get_modules l').
Proof.
  intros R. unfold get_modules. induction R as [|e e' a b E _ IH]; [constructor|]. destruct E as [e0|m m' E|n n'|n n'|z s]; cbn [flat_map app]; try exact IH.
  - destruct e0; cbn [app]; try exact IH. constructor; [|exact IH]. split; [reflexivity|]. clear. match goal with |- Forall2 _ ?k _ => induction k as [|x k2 IHl] end; constructor; [apply sbn_same|exact IHl].
  - now constructor.
Qed.
Lemma each_rewired {A} (R : A -> A -> Prop) (f : A -> A * option ekind) : (forall x, R x x) -> (forall x, R x (fst (f x))) -> forall l, Forall2 R l (fst (for_each f l)).
Proof.
  intros Rr Rf. induction l as [|x l IH]; [constructor|]. cbn [for_each]. specialize (Rf x). destruct (f x) as [x' [k|]]; cbn [fst] in *.
  - constructor; [exact Rf|]. clear -Rr. induction l as [|y l IHl]; constructor; [apply Rr|exact IHl].
  - destruct (for_each f l) as [r e]. cbn [fst] in *. now constructor.
Qed.
Lemma pad_rewired u e : same_but_net e (fst (update_pad_net u e)).
Proof.
  destruct e; try apply sbn_same. unfold update_pad_net. match goal with |- context [pa_net ?q] => destruct (pa_net q) as [n|] end; [|apply sbn_same].
  destruct (u (fn_name n)) as [s k]. apply sbn_pad.
Qed.
Lemma update_rewired u l : rewired_board l (fst (update_net_names u l)).
Proof.
  unfold rewired_board, update_net_names. pose proof (each_rewired board_but_net (update_element_nets u) bbn_same) as H.
  assert (G : forall e, board_but_net e (fst (update_element_nets u e))).
  { intros e. destruct e; try apply bbn_same; unfold update_element_nets.
    - match goal with |- context [m_elements ?m] => pose proof (each_rewired same_but_net (update_pad_net u) sbn_same (pad_rewired u) (m_elements m)) as F end.
      destruct (for_each _ _) as [es k]. cbn [fst] in *. apply bbn_module. now split.
    - destruct (u _) as [s k]. apply bbn_net.
    - destruct (for_each u _) as [s k]. apply bbn_class.
    - destruct (u _) as [s k]. apply bbn_zone. }
  specialize (H G (ly_elements l)). destruct (for_each (update_element_nets u) (ly_elements l)) as [es k]. exact H.
Qed.
Lemma change_rewired old new l q : change_net_name old new l = Ok q -> rewired_board l q.
Proof.
  unfold change_net_name. pose proof (update_rewired (fun n => (rename old new n, None)) l) as R. destruct (update_net_names _ l) as [q' [k|]]; [discriminate|]. intros E.
  assert (J : forall x y : layout, Ok x = Ok y -> x = y) by (intros x y H; now injection H). apply J in E. subst q'. exact R.
Qed.
Lemma module_rewired old new m : rewired m (module_rename_net old new m).
Proof.
  split; [reflexivity|]. unfold module_rename_net. cbn [m_elements]. induction (m_elements m) as [|e l IH]; [constructor|]. cbn [map]. constructor; [|exact IH].
  destruct e; try apply sbn_same. apply sbn_pad.
Qed.
Lemma add_boxes l n name k : layout_bound (add_net n name l) = layout_bound l /\ layout_bound (add_netclass k l) = layout_bound l.
Proof. unfold layout_bound, add_net, add_netclass, bound_all. cbn [ly_elements with_elements]. rewrite !map_app, !fold_left_app. now split. Qed.
Lemma modify_box l r f : (forall m, module_bound (f m) = module_bound m) -> layout_bound (fst (modify_module l r f)) = layout_bound l.
Proof.
  intros H. unfold layout_bound, modify_module. assert (E : map ly_element_bound (fst (modify_first r f (ly_elements l))) = map ly_element_bound (ly_elements l)).
  { induction (ly_elements l) as [|e t IH]; [reflexivity|]. destruct e; cbn [modify_first]; try (destruct (modify_first r f t) as [t' k]; cbn [fst map] in *; now rewrite IH).
    destruct (is_reference_with_name _ r); [cbn [fst map ly_element_bound]; now rewrite H|]. destruct (modify_first r f t) as [t' k]; cbn [fst map] in *; now rewrite IH. }
  destruct (modify_first r f (ly_elements l)) as [es k]. cbn [fst with_elements ly_elements] in *. now rewrite E.
Qed.

(** ** References *)
Definition revalued (old new : str) (t : fp_text) : fp_text :=
  if str_eqb (tx_value t) old then mk_text (tx_name t) new (tx_at t) (tx_layer t) (tx_effects t) (tx_hide t) else t.
Lemma ref1_text old new t : set_ref1 old new (EFpText t) = if str_eqb (tx_name t) (lit "reference") then EFpText (revalued old new t) else EFpText t.
Proof. unfold set_ref1, revalued. destruct (str_eqb (tx_name t) (lit "reference")), (str_eqb (tx_value t) old); reflexivity. Qed.
Lemma ref1_other old new e : (forall t, e <> EFpText t) -> set_ref1 old new e = e.
Proof. intros H. destruct e; try reflexivity. exfalso. eapply H. reflexivity. Qed.
Lemma revalued_name old new t : tx_name (revalued old new t) = tx_name t.
Proof. unfold revalued. destruct (str_eqb (tx_value t) old); reflexivity. Qed.
Lemma find_ref old new l : find_text (lit "reference") (map (set_ref1 old new) l) = option_map (revalued old new) (find_text (lit "reference") l).
Proof.
  induction l as [|e l IH]; [reflexivity|]. cbn [map]. destruct e; try (rewrite ref1_other by (intros; discriminate); exact IH).
  rewrite ref1_text. cbn [find_text]. destruct (str_eqb (tx_name _) (lit "reference")) eqn:E; cbn [find_text]; rewrite ?revalued_name, E; [reflexivity|exact IH].
Qed.
Lemma find_other old new w l : str_eqb (lit "reference") w = false -> find_text w (map (set_ref1 old new) l) = find_text w l.
Proof.
  intros N. induction l as [|e l IH]; [reflexivity|]. cbn [map]. destruct e; try (rewrite ref1_other by (intros; discriminate); exact IH).
  rewrite ref1_text. destruct (str_eqb_spec (tx_name t) (lit "reference")) as [E|E]; cbn [find_text].
  - rewrite revalued_name, E, N. exact IH.
  - destruct (str_eqb (tx_name t) w); [reflexivity|exact IH].
Qed.
Lemma ref_name old new m : set_reference old new m = mk_module (m_name m) (map (set_ref1 old new) (m_elements m)).
Proof. apply set_reference_map. Qed.
Lemma other_lists old new m : fp_lines (set_reference old new m) = fp_lines m /\ pads (set_reference old new m) = pads m /\ has_smd_attr (set_reference old new m) = has_smd_attr m.
Proof.
  rewrite ref_name. unfold fp_lines, pads, has_smd_attr. cbn [m_elements]. induction (m_elements m) as [|e l (A & B & C)]; [repeat split|].
  assert (X : (exists t, e = EFpText t) \/ forall t, e <> EFpText t) by (destruct e; try (right; intros; discriminate); left; eexists; reflexivity).
  cbn [map flat_map existsb]. destruct X as [[t ->]|X].
  - rewrite ref1_text. destruct (str_eqb (tx_name t) (lit "reference")); cbn [app orb]; split; try assumption; now split.
  - rewrite (ref1_other _ _ _ X). rewrite A, B, C. split; [reflexivity|]. now split.
Qed.
Lemma star_when n b : star_finding n (when b (cf_new 7 3 n (lit "reference should be REF**"))).
Proof. destruct b; [now right|now left]. Qed.
Lemma check_reference_blind c old new m : exists a b r, fp_check c m = a ++ r /\ fp_check c (set_reference old new m) = b ++ r /\ star_finding (m_name m) a /\ star_finding (m_name m) b.
Proof.
  destruct (other_lists old new m) as (L & P & S). unfold fp_check.
  assert (V : check_value c (set_reference old new m) = check_value c m).
  { rewrite ref_name. unfold check_value, get_text. cbn [m_name m_elements]. rewrite find_other by (vm_compute; reflexivity). reflexivity. }
  assert (U : check_reference2 c (set_reference old new m) = check_reference2 c m).
  { rewrite ref_name. unfold check_reference2, get_text. cbn [m_name m_elements]. rewrite find_other by (vm_compute; reflexivity). reflexivity. }
  assert (Y : courtyard_lines (set_reference old new m) = courtyard_lines m) by (unfold courtyard_lines; now rewrite L).
  assert (O : smd_only (set_reference old new m) = smd_only m /\ pth_only (set_reference old new m) = pth_only m) by (unfold smd_only, pth_only, smd_pads, pth_pads; rewrite P; now split).
  destruct O as [O1 O2]. rewrite V, U, Y, O1, O2, S. change (m_name (set_reference old new m)) with (m_name m).
  assert (R : exists a b r, check_reference c m = a ++ r /\ check_reference c (set_reference old new m) = b ++ r /\ star_finding (m_name m) a /\ star_finding (m_name m) b).
  { rewrite ref_name. unfold check_reference, get_text. cbn [m_name m_elements]. rewrite find_ref. destruct (find_text (lit "reference") (m_elements m)) as [t|]; cbn [option_map].
    - assert (K : tx_layer (revalued old new t) = tx_layer t /\ tx_hide (revalued old new t) = tx_hide t /\ tx_effects (revalued old new t) = tx_effects t)
        by (unfold revalued; destruct (str_eqb (tx_value t) old); now split).
      destruct K as (K1 & K2 & K3). unfold tx_size, tx_thick. rewrite K1, K2, K3. eexists _, _, _. split; [reflexivity|]. split; [reflexivity|]. split; apply star_when.
    - exists [], [], [cf_new 7 3 (m_name m) (lit "reference missing")]. split; [reflexivity|]. split; [reflexivity|]. split; now left. }
  destruct R as (a & b & r & -> & -> & A & B). exists a, b. eexists. split; [rewrite <- app_assoc; reflexivity|]. split; [rewrite <- app_assoc; reflexivity|]. now split.
Qed.
Lemma at_ref old new m : module_at (set_reference old new m) = module_at m.
Proof.
  rewrite ref_name. unfold module_at. cbn [m_elements].
  assert (E : forall l, find_map (fun e => match e with EAt a => Some (at_x a, at_y a) | _ => None end) (map (set_ref1 old new) l) =
    find_map (fun e => match e with EAt a => Some (at_x a, at_y a) | _ => None end) l).
  { induction l as [|e l IH]; [reflexivity|]. cbn [map]. destruct e; try (rewrite ref1_other by (intros; discriminate); cbn [find_map]; try exact IH; reflexivity).
    rewrite ref1_text. destruct (str_eqb (tx_name _) _); exact IH. }
  now rewrite E.
Qed.
Lemma box_ref old new m : module_bound (set_reference old new m) = module_bound m.
Proof.
  unfold module_bound. rewrite at_ref. destruct (module_at m) as [x y]. f_equal. f_equal. f_equal. f_equal. rewrite ref_name. cbn [m_elements].
  induction (m_elements m) as [|e l IH]; [reflexivity|]. cbn [map]. destruct e; try (rewrite ref1_other by (intros; discriminate); cbn [filter is_graphics]; rewrite IH; reflexivity).
  rewrite ref1_text. destruct (str_eqb (tx_name _) _); exact IH.
Qed.
Lemma ref1_none old new l : (forall e, In e l -> ~ a_text (lit "reference") e) -> map (set_ref1 old new) l = l.
Proof.
  induction l as [|e l IH]; intros N; [reflexivity|]. cbn [map]. rewrite IH by (intros x X; apply N; now right). f_equal. specialize (N e (or_introl eq_refl)).
  destruct e; try reflexivity. rewrite ref1_text. destruct (str_eqb_spec (tx_name t) (lit "reference")) as [E|]; [|reflexivity]. exfalso. apply N. now exists t.
Qed.
Lemma fix_revalued c v lt old new t : fix_text c v lt (revalued old new t) = fix_text c v lt t.
Proof. unfold revalued. destruct (str_eqb (tx_value t) old); reflexivity. Qed.
Lemma upd_ref c v lt old new l : at_most_one (a_text (lit "reference")) l ->
  upd_text (lit "reference") (fix_text c v lt) (map (set_ref1 old new) l) = upd_text (lit "reference") (fix_text c v lt) l.
Proof.
  induction l as [|e l IH]; intros O; [reflexivity|]. specialize (IH (one_tail _ _ _ O)). cbn [map].
  destruct e; try (rewrite ref1_other by (intros; discriminate); cbn [upd_text]; rewrite IH; reflexivity).
  rewrite ref1_text. destruct (str_eqb_spec (tx_name t) (lit "reference")) as [E|E]; cbn [upd_text].
  - rewrite revalued_name, E. rewrite fix_revalued, ref1_none; [reflexivity|]. apply (one_rest _ _ _ O). now exists t.
  - rewrite IH. destruct (str_eqb_spec (tx_name t) (lit "reference")) as [X|]; [now elim E|reflexivity].
Qed.
Lemma upd_none w F l : upd_text w F l = None -> forall e, In e l -> ~ a_text w e.
Proof.
  induction l as [|x l IH]; intros H e I; [destruct I|]. assert (T : upd_text w F l = None).
  { destruct x; cbn [upd_text] in H; try (destruct (upd_text w F l); [discriminate H|reflexivity]). destruct (str_eqb (tx_name t) w); [discriminate H|]. destruct (upd_text w F l); [discriminate H|reflexivity]. }
  destruct I as [<-|I]; [|now apply IH]. intros (t & -> & E). cbn [upd_text] in H. rewrite E in H. destruct (str_eqb_spec w w) as [|N]; [discriminate H|now elim N].
Qed.
Lemma fix_ref c old new m : at_most_one (a_text (lit "reference")) (m_elements m) -> fp_fix c (set_reference old new m) = fp_fix c m.
Proof.
  intros O. unfold fp_fix. change (m_name (set_reference old new m)) with (m_name m). assert (E : fix_reference c (set_reference old new m) = fix_reference c m); [|now rewrite E].
  rewrite ref_name. unfold fix_reference, modify_text. cbn [m_name m_elements]. rewrite (upd_ref _ _ _ _ _ _ O).
  destruct (upd_text (lit "reference") (fix_text c (lit "REF**") LSilkS) (m_elements m)) as [l|] eqn:X; [reflexivity|]. cbn [option_map or_same].
  rewrite (ref1_none _ _ _ (upd_none _ _ _ X)). destruct m; reflexivity.
Qed.

(** ** Schematics *)
Import SchData SchOps.
Lemma elements_put s es : map selement_bound es = map selement_bound (sc_elements s) -> sch_bound (with_elements s es) = sch_bound s.
Proof. intros H. unfold sch_bound. cbn [with_elements sc_elements sc_sheets]. now rewrite H. Qed.
Lemma put_bound f c : stays_put f -> component_bound (f c) = component_bound c.
Proof. intros H. unfold component_bound. destruct (H c) as [-> ->]. reflexivity. Qed.
Lemma modify_put s r f : stays_put f -> sch_bound (modify_component s r f) = sch_bound s /\ sch_bound (modify_components s f) = sch_bound s.
Proof.
  intros H. split; apply elements_put.
  - induction (sc_elements s) as [|e l IH]; [reflexivity|]. destruct e; cbn [modify_first map]; try (now rewrite IH).
    destruct (str_eqb (co_reference _) r); cbn [map selement_bound]; [now rewrite put_bound|now rewrite IH].
  - induction (sc_elements s) as [|e l IH]; [reflexivity|]. cbn [map]. rewrite IH. destruct e; try reflexivity. cbn [selement_bound]. now rewrite put_bound.
Qed.
Lemma updates_put n v : stays_put (fun c => update_field c n v) /\ stays_put (fun c => update_reference c v) /\ stays_put (fun c => update_name c v).
Proof. split; [|split]; intros c; now split. Qed.
Lemma add_put c t n v c' u : add_or_update_field c t n v = Ok (c', u) -> co_x c' = co_x c /\ co_y c' = co_y c.
Proof.
  unfold add_or_update_field, add_new_field. assert (J : forall (x y : component * field_update), Ok x = Ok y -> fst x = fst y) by (intros x y H; now injection H as ->).
  destruct (get_field_value c n) as [o|].
  - destruct (str_eqb o v); intros H; apply J in H; cbn [fst] in H; subst c'; now split.
  - destruct (get_available_field_num c) as [i| |]; cbn [bind]; try discriminate. intros H; apply J in H; cbn [fst] in H; subst c'; now split.
Qed.
Lemma count_put s q : increment_sheet_count s = Ok q -> sch_bound q = sch_bound s.
Proof.
  unfold increment_sheet_count. destruct (chk _) as [n| |]; cbn [bind]; try discriminate. intros H.
  assert (J : forall x y : schematic, Ok x = Ok y -> x = y) by (intros x y E; now injection E). apply J in H. subst q. reflexivity.
Qed.
