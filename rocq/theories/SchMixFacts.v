(** Lemmas for C120: parts of schematics and symbols in another order. *)
From Coq Require Import String Permutation Lia ZArith.
From Verif Require Import Base Str StrFacts SexpFacts F64 Bound BoundSpec BoundFacts SchData SchParse SchOps SchBoundFacts SymData SymOps CheckFix SymCheck
  AnyOrderSpec AnyOrderFacts SymOrderSpec SchMixSpec.
From Verif Require JoinFacts FpOps.
Open Scope string_scope. Open Scope list_scope.

(** ** Symbols *)
Lemma pins_mixed y y' : same_unordered y y' -> length (pins y') = length (pins y) /\ is_empty (pins y') = is_empty (pins y).
Proof.
  intros (fs & ds & _ & P & ->). assert (L : length (pins (mk_symbol (sy_name y) (sy_reference y) (sy_text_offset y) (sy_pinnumber y) (sy_pinname y) (sy_unit_count y) (sy_unit_locked y) (sy_is_power y) fs (sy_aliases y) ds)) = length (pins y)).
  { unfold pins. cbn [sy_draw]. symmetry. apply Permutation_length. now apply Permutation_flat_map. }
  split; [exact L|]. destruct (pins _), (pins y); try discriminate L; reflexivity.
Qed.
Lemma class_mixed y y' : same_unordered y y' -> sym_is_power y' = sym_is_power y /\ sym_is_graphics y' = sym_is_graphics y.
Proof.
  intros M. destruct (pins_mixed y y' M) as [L E]. unfold sym_is_power, sym_is_graphics. rewrite L, E. destruct M as (fs & ds & _ & _ & ->). now split.
Qed.
Lemma check_symbol_mixed y y' : same_unordered y y' -> Permutation (symbol_check y) (symbol_check y').
Proof.
  intros M. destruct (class_mixed y y' M) as [P G]. unfold symbol_check. rewrite P, G.
  assert (F : forall f, sfield_check y' f = sfield_check y f).
  { intros f. unfold sfield_check. rewrite P, G. destruct M as (fs & ds & _ & _ & ->). reflexivity. }
  destruct M as (fs & ds & Pf & Pd & E). assert (N : sy_name y' = sy_name y) by now rewrite E. rewrite N. apply Permutation_app_head.
  apply Permutation_app.
  - assert (Ef : sy_fields y' = fs) by now rewrite E. rewrite Ef. rewrite (flat_map_ext (fun f => more (sfield_check y' f)) (fun f => more (sfield_check y f))); [|intros f; now rewrite F].
    now apply Permutation_flat_map.
  - destruct (sym_is_power y || sym_is_graphics y)%bool; [reflexivity|]. assert (Ed : sy_draw y' = ds) by now rewrite E. rewrite Ed. now apply Permutation_flat_map.
Qed.

Lemma lib_find_map f l : lib_find f l = FpOps.find_map (fun y => if f y then Some y else None) l.
Proof. induction l as [|y l IH]; [reflexivity|]. cbn [lib_find FpOps.find_map]. destruct (f y); [reflexivity|exact IH]. Qed.
Lemma lib_find_mixed f l l' : at_most_one (fun y => f y = true) l -> Permutation l l' -> lib_find f l' = lib_find f l.
Proof.
  intros O P. rewrite !lib_find_map. apply (find_map_perm (fun y => f y = true) (fun y => if f y then Some y else None) _ _); [|exact O|exact P].
  intros y z. destruct (f y); [reflexivity|discriminate].
Qed.

(** ** Components *)
Lemma chk_two z : chk z = Ok z \/ chk z = Panic.
Proof. unfold chk. match goal with |- context [if ?b then _ else _] => destruct b end; [now left|now right]. Qed.
Definition val_of (n : str) (f : cfield) : option str := if str_eqb (cf_name f) n then Some (cf_value f) else None.
Definition fld_of (n : str) (f : cfield) : option cfield := if str_eqb (cf_name f) n then Some f else None.
Lemma val_of_some n f v : val_of n f = Some v -> field_called n f.
Proof. unfold val_of. destruct (str_eqb_spec (cf_name f) n) as [E|]; [intros _; exact E|discriminate]. Qed.
Lemma fld_of_some n f v : fld_of n f = Some v -> field_called n f.
Proof. unfold fld_of. destruct (str_eqb_spec (cf_name f) n) as [E|]; [intros _; exact E|discriminate]. Qed.
Lemma value_find n l : field_value n l = FpOps.find_map (val_of n) l.
Proof. induction l as [|f l IH]; [reflexivity|]. cbn [field_value FpOps.find_map]. unfold val_of at 1. destruct (str_eqb (cf_name f) n); [reflexivity|exact IH]. Qed.
Lemma field_find n l : find_field n l = FpOps.find_map (fld_of n) l.
Proof. induction l as [|f l IH]; [reflexivity|]. cbn [find_field FpOps.find_map]. unfold fld_of at 1. destruct (str_eqb (cf_name f) n); [reflexivity|exact IH]. Qed.
Lemma hash_hd n l : forall h, fold_left (fun h f => if str_eqb (cf_name f) n then Some (cf_value f) else h) l h =
  match hd_error (rev (flat_map (fun f => opt_list (val_of n f)) l)) with Some v => Some v | None => h end.
Proof.
  induction l as [|f l IH]; intros h; [reflexivity|]. cbn [fold_left flat_map]. rewrite rev_app_distr, IH. change (val_of n f) with (if str_eqb (cf_name f) n then Some (cf_value f) else None). destruct (str_eqb (cf_name f) n); cbn [opt_list rev app].
  - destruct (rev (flat_map _ l)); reflexivity.
  - now rewrite app_nil_r.
Qed.
Lemma lookup_mixed n c c' : at_most_one (field_called n) (co_fields c) -> mixed_comp c c' ->
  get_field_value c' n = get_field_value c n /\ get_field c' n = get_field c n /\ fields_hash c' n = fields_hash c n.
Proof.
  intros O (fs & P & ->). unfold get_field_value, get_field, fields_hash. cbn [co_fields]. split; [|split].
  - rewrite !value_find. exact (find_map_perm (field_called n) (val_of n) _ _ (val_of_some n) O P).
  - rewrite !field_find. exact (find_map_perm (field_called n) (fld_of n) _ _ (fld_of_some n) O P).
  - rewrite !hash_hd. rewrite (perm_hd (rev (flat_map (fun f => opt_list (val_of n f)) (co_fields c))) (rev (flat_map (fun f => opt_list (val_of n f)) fs))); [reflexivity| |].
    + rewrite <- !Permutation_rev. now apply Permutation_flat_map.
    + rewrite rev_length. exact (one_length (field_called n) (val_of n) _ (val_of_some n) O).
Qed.
Lemma max_fold l : forall i, fold_left (fun i f => if (i <? cf_i f)%Z then cf_i f else i) l i = fold_right Z.max i (map cf_i l).
Proof.
  induction l as [|f l IH]; intros i; [reflexivity|]. cbn [fold_left map fold_right]. rewrite IH.
  assert (E : (if (i <? cf_i f)%Z then cf_i f else i) = Z.max (cf_i f) i) by (destruct (Z.ltb_spec i (cf_i f)); lia). rewrite E. clear.
  induction (map cf_i l) as [|a r IH]; [reflexivity|]. cbn [fold_right]. rewrite IH. lia.
Qed.
Lemma max_perm l l' i : Permutation l l' -> fold_right Z.max i l' = fold_right Z.max i l.
Proof. induction 1 as [| |x y l|]; cbn [fold_right]; lia. Qed.
Lemma num_mixed c c' : mixed_comp c c' -> get_available_field_num c' = get_available_field_num c.
Proof.
  intros (fs & P & ->). unfold get_available_field_num. cbn [co_fields]. rewrite !max_fold. now rewrite (max_perm (map cf_i (co_fields c)) (map cf_i fs)) by now apply Permutation_map.
Qed.
Lemma update_mixed c c' n v : mixed_comp c c' -> mixed_comp (update_field c n v) (update_field c' n v) /\
  mixed_comp (update_reference c v) (update_reference c' v) /\ mixed_comp (update_name c v) (update_name c' v).
Proof.
  intros (fs & P & ->). split; [|split]; (eexists; split; [cbn [update_field update_reference update_name set_fields co_fields]; apply Permutation_map; exact P|reflexivity]).
Qed.
Lemma add_mixed c c' t n v : at_most_one (field_called n) (co_fields c) -> mixed_comp c c' ->
  alike (fun x y => mixed_comp (fst x) (fst y) /\ snd x = snd y) (add_or_update_field c t n v) (add_or_update_field c' t n v).
Proof.
  intros O M. unfold add_or_update_field. destruct (lookup_mixed n c c' O M) as (E & _). rewrite E. destruct (get_field_value c n) as [old|].
  - destruct (str_eqb old v); [now split|]. split; [|reflexivity]. now apply update_mixed.
  - unfold add_new_field. rewrite (num_mixed c c' M). unfold get_available_field_num. match goal with |- context [chk ?z] => destruct (chk_two z) as [X|X]; rewrite X end; cbn [bind alike fst snd]; [|exact I]. split; [|reflexivity].
    destruct M as (fs & P & ->). eexists. split; [cbn [set_fields co_fields]; apply Permutation_app_tail; exact P|reflexivity].
Qed.

(** ** Schematics *)
Lemma comps_flat l : comps l = flat_map (fun e => match e with SComponent c => [c] | _ => [] end) l.
Proof. induction l as [|e l IH]; [reflexivity|]. destruct e; cbn [comps flat_map app]; now rewrite IH. Qed.
Lemma components_mixed s s' : mixed_sch s s' -> Permutation (components s) (components s').
Proof. intros (es & hs & P & _ & ->). unfold components. cbn [sc_elements]. rewrite !comps_flat. now apply Permutation_flat_map. Qed.
Lemma modify_all_mixed s s' f : mixed_sch s s' -> mixed_sch (modify_components s f) (modify_components s' f).
Proof. intros (es & hs & P & Q & ->). eexists _, _. split; [cbn [modify_components with_elements sc_elements]; apply Permutation_map; exact P|]. split; [exact Q|reflexivity]. Qed.
Definition cm1 (r : str) (f : component -> component) (e : selement) : selement :=
  match e with SComponent c => if str_eqb (co_reference c) r then SComponent (f c) else e | _ => e end.
Lemma cm1_other r f l : (forall e, In e l -> ~ comp_called r e) -> map (cm1 r f) l = l.
Proof.
  induction l as [|e l IH]; intros N; [reflexivity|]. cbn [map]. rewrite IH by (intros x X; apply N; now right). f_equal.
  specialize (N e (or_introl eq_refl)). destruct e; try reflexivity. cbn [cm1]. destruct (str_eqb_spec (co_reference c) r) as [E|]; [|reflexivity]. exfalso. apply N. now exists c.
Qed.
Lemma cm_map r f l : at_most_one (comp_called r) l -> modify_first r f l = map (cm1 r f) l.
Proof.
  induction l as [|e l IH]; intros O; [reflexivity|]. specialize (IH (one_tail _ _ _ O)). destruct e; cbn [modify_first map cm1]; try (now rewrite IH).
  destruct (str_eqb_spec (co_reference c) r) as [E|]; [|now rewrite IH]. rewrite cm1_other; [reflexivity|]. apply (one_rest _ _ _ O). now exists c.
Qed.
Lemma modify_one_mixed s s' r f : at_most_one (comp_called r) (sc_elements s) -> mixed_sch s s' -> mixed_sch (modify_component s r f) (modify_component s' r f).
Proof.
  intros O (es & hs & P & Q & ->). pose proof (one_perm _ _ _ P O) as O'. unfold modify_component. cbn [sc_elements]. rewrite (cm_map r f _ O), (cm_map r f _ O').
  eexists _, _. split; [cbn [with_elements sc_elements]; apply Permutation_map; exact P|]. split; [exact Q|reflexivity].
Qed.
Definition found_comp (r : str) (e : selement) : option component := match e with SComponent c => if str_eqb (co_reference c) r then Some c else None | _ => None end.
Lemma found_some r e c : found_comp r e = Some c -> comp_called r e.
Proof. destruct e; cbn [found_comp]; try discriminate. match goal with |- context [str_eqb (co_reference ?k) r] => destruct (str_eqb_spec (co_reference k) r) as [E|]; [intros _; now exists k|discriminate] end. Qed.
Lemma comp_find r l : find_comp r l = FpOps.find_map (found_comp r) l.
Proof. induction l as [|e l IH]; [reflexivity|]. destruct e; cbn [find_comp FpOps.find_map found_comp]; try exact IH. match goal with |- context [str_eqb ?a ?b] => destruct (str_eqb a b) end; [reflexivity|exact IH]. Qed.
Lemma comp_there r l : Exists (comp_called r) l -> find_comp r l <> None.
Proof.
  induction 1 as [e l (c & -> & E)|e l _ IH]; cbn [find_comp].
  - rewrite E. destruct (str_eqb_spec r r) as [|N]; [discriminate|now elim N].
  - destruct e; try exact IH. match goal with |- context [str_eqb ?a ?b] => destruct (str_eqb a b) end; [discriminate|exact IH].
Qed.
Lemma search_mixed fs n r s s' : at_most_one (comp_called r) (sc_elements s) -> mixed_sch s s' ->
  sc_sheets s' = sc_sheets s \/ Exists (comp_called r) (sc_elements s) -> component_by_reference fs n r s' = component_by_reference fs n r s.
Proof.
  intros O (es & hs & P & Q & ->) H. destruct n as [|n]; [reflexivity|]. cbn [component_by_reference sc_elements sc_sheets].
  assert (E : find_comp r es = find_comp r (sc_elements s)) by (rewrite !comp_find; exact (find_map_perm (comp_called r) (found_comp r) _ _ (found_some r) O P)).
  rewrite E. destruct H as [H|H]; [cbn [sc_sheets] in H; rewrite H; reflexivity|]. apply comp_there in H. destruct (find_comp r (sc_elements s)); [reflexivity|now elim H].
Qed.
Lemma sheet_two h : (exists b, sheet_bound h = Ok b /\ bnum b = true) \/ sheet_bound h = Panic.
Proof.
  unfold sheet_bound. repeat (match goal with |- context [chk ?z] => destruct (chk_two z) as [X|X]; rewrite X; clear X end; cbn [bind]; [|now right]).
  left. eexists. split; [reflexivity|apply of_Z_bnum].
Qed.
Lemma sheets_two l : (exists v, mapM sheet_bound l = Ok v /\ Forall (fun b => bnum b = true) v) \/ mapM sheet_bound l = Panic.
Proof.
  induction l as [|h l IH]; [left; exists []; now split|]. cbn [mapM]. destruct (sheet_two h) as [(b & -> & N)| ->]; [|now right]. cbn [bind].
  destruct IH as [(v & -> & F)| ->]; [|now right]. left. exists (b :: v). split; [reflexivity|now constructor].
Qed.
Lemma box_sch_mixed s s' : mixed_sch s s' -> alike (fun b b' => same_bound b b' = true) (sch_bound s) (sch_bound s').
Proof.
  intros (es & hs & P & Q & ->). unfold sch_bound. cbn [sc_elements sc_sheets].
  assert (Ne : forall l, Forall (fun b => bnum b = true) (map selement_bound l)).
  { intros l. apply Forall_forall. intros b I. apply in_map_iff in I as (e & <- & _). destruct e; try reflexivity. apply of_Z_bnum. }
  destruct (sheets_two (sc_sheets s)) as [(v & E & F)|E]; rewrite E; cbn [bind alike].
  - destruct (JoinFacts.mapM_perm _ _ _ Q v E) as (v' & E' & Pv). rewrite E'. cbn [bind alike].
    assert (F' : Forall (fun b => bnum b = true) v') by (rewrite Forall_forall in *; intros b I; apply F; exact (Permutation_in b (Permutation_sym Pv) I)).
    assert (A : same_bound (bound_all bound_default (map selement_bound (sc_elements s) ++ v)) (bound_all bound_default (map selement_bound es ++ v')) = true).
    { apply all_permutation; [apply Permutation_app; [now apply Permutation_map|exact Pv]|reflexivity|apply Forall_app; now split]. }
    unfold bound_all in *. rewrite !fold_left_app in A. apply swap_same; [| |exact A]; apply all_num; try assumption; apply all_num; try reflexivity; apply Ne.
  - destruct (sheets_two hs) as [(v' & E' & _)|E']; rewrite E'; cbn [bind alike]; [|exact I].
    destruct (JoinFacts.mapM_perm _ _ _ (Permutation_sym Q) v' E') as (v & X & _). rewrite X in E. discriminate E.
Qed.
Definition under (fs : fsys) (n : nat) (s : schematic) (h : sheet) : res (list component) := do s2 <- parse_file_for_sheet fs s h; all_components fs n s2.
Lemma go_mapM fs n s l : forall v, (fix go (l : list sheet) (v : list component) : res (list component) :=
         match l with
         | [] => Ok v
         | h :: t => do s2 <- parse_file_for_sheet fs s h; do v2 <- all_components fs n s2; go t (v ++ v2)
         end) l v = do vs <- mapM (under fs n s) l; Ok (v ++ concat vs).
Proof.
  induction l as [|h l IH]; intros v; [cbn [mapM bind concat]; now rewrite app_nil_r|]. cbn [mapM]. unfold under at 1. destruct (parse_file_for_sheet fs s h) as [s2| |]; [|reflexivity|reflexivity]. cbn [bind].
  destruct (all_components fs n s2) as [v2| |]; [|reflexivity|reflexivity]. cbn [bind]. rewrite IH. destruct (mapM (under fs n s) l) as [vs| |]; [|reflexivity|reflexivity]. cbn [bind concat]. now rewrite app_assoc.
Qed.
Lemma perm_concat {A} (a b : list (list A)) : Permutation a b -> Permutation (concat a) (concat b).
Proof.
  induction 1 as [|x a b P IH|x y a|a b c P1 IH1 P2 IH2]; cbn [concat]; [constructor|now apply Permutation_app_head| |now transitivity (concat b)].
  rewrite !app_assoc. apply Permutation_app_tail, Permutation_app_comm.
Qed.
Lemma all_mixed fs n s s' v : mixed_sch s s' -> all_components fs n s = Ok v -> exists v', all_components fs n s' = Ok v' /\ Permutation v v'.
Proof.
  intros M. destruct n as [|n]; [discriminate|]. cbn [all_components]. rewrite !go_mapM.
  assert (U : forall h, under fs n s' h = under fs n s h) by (intros h; destruct M as (es & hs & _ & _ & ->); reflexivity).
  pose proof (components_mixed s s' M) as C. destruct M as (es & hs & P & Q & E). assert (Eh : sc_sheets s' = hs) by now rewrite E. rewrite Eh.
  destruct (mapM (under fs n s) (sc_sheets s)) as [vs| |] eqn:X; cbn [bind]; try discriminate. intros H. assert (V : v = components s ++ concat vs) by now injection H as <-. subst v.
  destruct (JoinFacts.mapM_perm _ _ _ Q vs X) as (vs' & X' & Pv). exists (components s' ++ concat vs'). split.
  - assert (Y : mapM (under fs n s') hs = mapM (under fs n s) hs) by (clear -U; induction hs as [|h l IH]; [reflexivity|]; cbn [mapM]; now rewrite U, IH). rewrite Y, X'. reflexivity.
  - apply Permutation_app; [exact C|now apply perm_concat].
Qed.
