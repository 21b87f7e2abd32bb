(** Property theorems: the order of what a schematic or symbol is made of (C120). *)
From Coq Require Import String Permutation.
From Verif Require Import Base Str F64 Bound BoundSpec SchData SchOps SymData SymOps CheckFix SymCheck AnyOrderSpec AnyOrderFacts SymOrderSpec SchMixSpec SchMixFacts.
From Verif Require P_SchOps P_Schematic P_Symbol.
Import ListNotations.
Open Scope string_scope. Open Scope list_scope.

(** ** C120 *)
(** The same findings, up to their order, for a symbol with its fields and drawings in
    another order; it is a power symbol or a drawing if it was one. *)
Theorem C120_symbol (y y' : symbol) : same_unordered y y' ->
  Permutation (symbol_check y) (symbol_check y') /\ sym_is_power y' = sym_is_power y /\ sym_is_graphics y' = sym_is_graphics y.
Proof. exact (fun M => conj (check_symbol_mixed y y' M) (class_mixed y y' M)). Qed.
Print Assumptions C120_symbol.
(** A library in another order gives the same symbol when only one is looked for. *)
Theorem C120_library (f : symbol -> bool) (l l' : list symbol) : at_most_one (fun y => f y = true) l -> Permutation l l' -> lib_find f l' = lib_find f l.
Proof. exact (lib_find_mixed f l l'). Qed.
Print Assumptions C120_library.
(** The fields of a component in another order: the same answers for a name that occurs
    once, and the same number for a new field. *)
Theorem C120_field (n : str) (c c' : component) : at_most_one (field_called n) (co_fields c) -> mixed_comp c c' ->
  get_field_value c' n = get_field_value c n /\ get_field c' n = get_field c n /\ fields_hash c' n = fields_hash c n.
Proof. exact (lookup_mixed n c c'). Qed.
Print Assumptions C120_field.
Theorem C120_number (c c' : component) : mixed_comp c c' -> get_available_field_num c' = get_available_field_num c.
Proof. exact (num_mixed c c'). Qed.
Print Assumptions C120_number.
(** Changing them gives the same component, up to the order of the fields. *)
Theorem C120_update (c c' : component) (n v : str) : mixed_comp c c' -> mixed_comp (update_field c n v) (update_field c' n v) /\
  mixed_comp (update_reference c v) (update_reference c' v) /\ mixed_comp (update_name c v) (update_name c' v).
Proof. exact (update_mixed c c' n v). Qed.
Print Assumptions C120_update.
Theorem C120_add (c c' : component) (t : cfield) (n v : str) : at_most_one (field_called n) (co_fields c) -> mixed_comp c c' ->
  alike (fun x y => mixed_comp (fst x) (fst y) /\ snd x = snd y) (add_or_update_field c t n v) (add_or_update_field c' t n v).
Proof. exact (add_mixed c c' t n v). Qed.
Print Assumptions C120_add.
(** The elements and sheets of a schematic in another order: the same components, found
    in the same files, and the same box. *)
Theorem C120_components (fs : fsys) (n : nat) (s s' : schematic) (v : list component) : mixed_sch s s' ->
  Permutation (components s) (components s') /\
  (all_components fs n s = Ok v -> exists v', all_components fs n s' = Ok v' /\ Permutation v v').
Proof. exact (fun M => conj (components_mixed s s' M) (all_mixed fs n s s' v M)). Qed.
Print Assumptions C120_components.
Theorem C120_search (fs : fsys) (n : nat) (r : str) (s s' : schematic) : at_most_one (comp_called r) (sc_elements s) -> mixed_sch s s' ->
  sc_sheets s' = sc_sheets s \/ Exists (comp_called r) (sc_elements s) -> component_by_reference fs n r s' = component_by_reference fs n r s.
Proof. exact (search_mixed fs n r s s'). Qed.
Print Assumptions C120_search.
Theorem C120_modify (s s' : schematic) (r : str) (f : component -> component) : mixed_sch s s' ->
  mixed_sch (modify_components s f) (modify_components s' f) /\
  (at_most_one (comp_called r) (sc_elements s) -> mixed_sch (modify_component s r f) (modify_component s' r f)).
Proof. exact (fun M => conj (modify_all_mixed s s' f M) (fun O => modify_one_mixed s s' r f O M)). Qed.
Print Assumptions C120_modify.
Theorem C120_box (s s' : schematic) : mixed_sch s s' -> alike (fun b b' => same_bound b b' = true) (sch_bound s) (sch_bound s').
Proof. exact (box_sch_mixed s s'). Qed.
Print Assumptions C120_box.

(** *** Examples *)
Definition symbol_back (y : symbol) : symbol :=
  mk_symbol (sy_name y) (sy_reference y) (sy_text_offset y) (sy_pinnumber y) (sy_pinname y) (sy_unit_count y) (sy_unit_locked y) (sy_is_power y) (rev (sy_fields y)) (sy_aliases y) (rev (sy_draw y)).
Definition comp_back (c : component) : component :=
  mk_comp (co_name c) (co_reference c) (co_u c) (co_x c) (co_y c) (co_ar c) (rev (co_fields c)) (co_rotation c).
Definition sch_back (s : schematic) : schematic :=
  mk_sch (sc_filename s) (sc_libraries s) (sc_description s) (rev (sc_elements s)) (rev (sc_sheets s)) (sc_eelayer s).
Lemma back_symbol y : same_unordered y (symbol_back y).
Proof. eexists _, _. split; [apply Permutation_rev|]. split; [apply Permutation_rev|reflexivity]. Qed.
Lemma back_comp c : mixed_comp c (comp_back c). Proof. eexists. split; [apply Permutation_rev|reflexivity]. Qed.
Lemma back_sch s : mixed_sch s (sch_back s).
Proof. eexists _, _. split; [apply Permutation_rev|]. split; [apply Permutation_rev|reflexivity]. Qed.
Definition mixed_ref (r : str) (x y : Z) : selement := SComponent (mk_comp (lit "R") r [] x y [] [P_SchOps.ex_field 0 "R" "Reference"] (mk_rotation 1 0 0 (-1))).
Definition c120_sch : schematic := mk_sch (Some (lit "d/top.sch")) [] descr_default
  [mixed_ref (lit "R1") 5 7; SConnection (mk_spoint 5 6); mixed_ref (lit "R2") (-3) 9] [P_Schematic.ex_sheet; sheet_default] [].
Definition c120_symbol : symbol := mk_symbol (lit "LM358") (lit "U") (f64_of_Z 40) true false 2 true false
  [P_Symbol.sy_field 0 "U" "Reference"; P_Symbol.sy_field 1 "LM358" "Value"] []
  [DPin (P_Symbol.sy_pin "NC" "8" true PSLine); DPin (P_Symbol.sy_pin "CS" "A1" false PSLine); DRect (mk_rect (-10) 20 30 40 1 1 0 FillBg)].
Example C120_ex : same_unordered c120_symbol (symbol_back c120_symbol) /\ length (symbol_check c120_symbol) = 3%nat
  /\ mixed_comp P_SchOps.ex_c (comp_back P_SchOps.ex_c) /\ at_most_one (field_called (lit "MPN")) (co_fields P_SchOps.ex_c)
  /\ get_field_value (comp_back P_SchOps.ex_c) (lit "MPN") = Some (lit "xx") /\ get_available_field_num (comp_back P_SchOps.ex_c) = Ok 6%Z.
Proof.
  split; [apply back_symbol|]. split; [vm_compute; reflexivity|]. split; [apply back_comp|].
  split; [apply (once_ok _ (fun f => str_eqb (cf_name f) (lit "MPN"))); [intros f ->; vm_compute; reflexivity|vm_compute; reflexivity]|]. split; vm_compute; reflexivity.
Qed.
Definition ok_box (r : res bound) : bool := match r with Ok b => negb (same_bound b bound_default) | _ => false end.
Example C120_sch_ex : mixed_sch c120_sch (sch_back c120_sch) /\ at_most_one (comp_called (lit "R2")) (sc_elements c120_sch)
  /\ Exists (comp_called (lit "R2")) (sc_elements c120_sch) /\ ok_box (sch_bound c120_sch) = true /\ length (components c120_sch) = 2%nat.
Proof.
  split; [apply back_sch|].
  split; [apply (once_ok _ (fun e => match e with SComponent c => str_eqb (co_reference c) (lit "R2") | _ => false end)); [intros e (c & -> & ->); vm_compute; reflexivity|vm_compute; reflexivity]|].
  split; [apply Exists_cons_tl, Exists_cons_tl, Exists_cons_hd; eexists; now split|]. split; vm_compute; reflexivity.
Qed.

(** ** Where the order does matter *)
(** Naming a symbol writes its second field, whichever that is. *)
Definition named_power : symbol := sy_set (lit "VCC") [P_Symbol.sy_field 0 "#PWR" "Reference"; sf_set_value (lit "VCC") (P_Symbol.sy_field 1 "GND" "Value")] P_Symbol.ex_power.
Definition named_back : symbol := sy_set (lit "VCC") [P_Symbol.sy_field 1 "GND" "Value"; sf_set_value (lit "VCC") (P_Symbol.sy_field 0 "#PWR" "Reference")] (symbol_back P_Symbol.ex_power).
Theorem C120_set_name_refuted : exists y y' n z z', same_unordered y y' /\ set_name n y = Ok z /\ set_name n y' = Ok z' /\ ~ same_unordered z z'.
Proof.
  exists P_Symbol.ex_power, (symbol_back P_Symbol.ex_power), (lit "VCC"), named_power, named_back. split; [apply back_symbol|]. split; [reflexivity|]. split; [reflexivity|].
  intros (fs & ds & P & _ & E). apply (f_equal sy_fields) in E. cbn [sy_fields named_back sy_set] in E. subst fs. apply (Permutation_map sf_value) in P.
  pose proof (Permutation_in (lit "#PWR") P (or_introl eq_refl)) as [X|[X|[]]]; discriminate X.
Qed.
Print Assumptions C120_set_name_refuted.
(** With a name or a reference used twice the first one is found; the map of the fields
    has the last one. *)
Definition twice_comp : component := P_SchOps.ex_comp [P_SchOps.ex_field 4 "a" "MPN"; P_SchOps.ex_field 5 "b" "MPN"].
Definition twice_sch : schematic := mk_sch None [] descr_default [mixed_ref (lit "R1") 5 7; mixed_ref (lit "R1") 6 7] [] [].
Theorem C120_twice_refuted : (exists c c' n, mixed_comp c c' /\ get_field_value c' n <> get_field_value c n /\ get_field_value c n <> fields_hash c n) /\
  (exists s s' r, mixed_sch s s' /\ forall fs n, component_by_reference fs (Datatypes.S n) r s' <> component_by_reference fs (Datatypes.S n) r s).
Proof.
  split.
  - exists twice_comp, (comp_back twice_comp), (lit "MPN"). split; [apply back_comp|]. split; discriminate.
  - exists twice_sch, (sch_back twice_sch), (lit "R1"). split; [apply back_sch|]. intros fs n H.
    apply (f_equal (fun r => match r with Ok c => co_x c | _ => 0%Z end)) in H. discriminate H.
Qed.
Print Assumptions C120_twice_refuted.
