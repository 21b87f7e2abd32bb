(** Property theorems: edited documents can be saved (C60) and so can documents built
    from nothing (C61). *)
From Coq Require Import String Relations.
From Verif Require Import Base Str StrFacts Num F64 Sexp FpData FpWf FpOps FpNew FpExamples FpCheck FixFacts CheckFix LyData LyWf LyOps LyExamples FormatterSpec DocSpec DocText
  SchData SchPrint SchParse SchWf SchFacts SchEnds SchReread SchOps SymData SymPrint SymParse SymWf SymFacts SymOps KeepSpec KeepFacts KeepEdits P_Formatter P_Schematic P_Symbol.
Open Scope string_scope. Open Scope list_scope.

(** ** C60 *)
(** Open a file, edit it any number of times, save it: the saved file opens and holds
    the edited document.  [fp_edit], [ly_edit], [sch_edit] (KeepSpec.v) list the edits. *)
Theorem C60_module : forall nq s m m' n, quote_contract nq -> parse_module s = Ok m -> module_clean m = true ->
  clos_refl_trans _ fp_edit m m' -> parse_module (module_to_string nq m' n) = Ok m'.
Proof. exact (fun nq s m m' n Q P C E => saves_read nq m' n Q (fp_edits_keep m m' E (opened_saves s m P C))). Qed.
Print Assumptions C60_module.
Theorem C60_layout : forall nq s l l' n, quote_contract nq -> parse_layout s = Ok l -> layout_clean l = true ->
  clos_refl_trans _ ly_edit l l' -> parse_layout (layout_to_string nq l' n) = Ok l'.
Proof. exact (fun nq s l l' n Q P C E => lsaves_read nq l' n Q (ly_edits_keep l l' E (lopened_saves s l P C))). Qed.
Print Assumptions C60_layout.
Theorem C60_schematic : forall fn t s s', parse_schematic fn t = Ok s -> sch_clean s = true -> clos_refl_trans _ sch_edit s s' ->
  parse_schematic (sc_filename s') (print_schematic s') = Ok s'.
Proof. exact (fun fn t s s' P C E => rt_schematic s' (sch_edits_keep s s' E (opened_sch fn t s P C))). Qed.
Print Assumptions C60_schematic.
(** Renaming a symbol of a library *)
Theorem C60_symbol : forall a s b name s', symbol_lib_ok (a ++ s :: b) = true -> mid_word name = true -> set_name name s = Ok s' ->
  exists t, print_symbol_lib (a ++ s' :: b) = Ok t /\ parse_symbol_lib t = Ok (a ++ s' :: b).
Proof. exact renamed_saves. Qed.
Print Assumptions C60_symbol.


Definition ref_u7 (m : module) : module := set_reference (lit "U1") (lit "U 7") m.
Definition turned (m : module) : module := rotate_module (fl "90") (flip_module (ref_u7 m)).
Definition fixed_up : module := match fp_fix klc (turned ex_module) with Ok m => m | _ => ex_module end.
Example C60_ex_module : module_saves ex_module = true /\ clos_refl_trans _ fp_edit ex_module fixed_up
  /\ length (m_elements ex_module) <> length (m_elements fixed_up) /\ get_reference (ref_u7 ex_module) = Some (lit "U 7").
Proof.
  split; [vm_compute; reflexivity|]. split; [|split; [vm_compute; discriminate|vm_compute; reflexivity]].
  apply rt_trans with (ref_u7 ex_module); [apply rt_step; apply fe_reference; reflexivity|].
  apply rt_trans with (flip_module (ref_u7 ex_module)); [apply rt_step; apply fe_flip|].
  apply rt_trans with (turned ex_module); [apply rt_step; apply fe_rotate|].
  apply rt_step. apply fe_fix with klc; [vm_compute; reflexivity|]. unfold fixed_up.
  destruct (fix_total klc (turned ex_module)) as (m' & E). rewrite E. reflexivity.
Qed.
Definition renamed_layout : layout := match change_net_name (lit "GND") (lit "0V") (adjust_layout (fl "100") (fl "0") ex_layout) with Ok l => l | _ => ex_layout end.
Definition edited_layout : layout := fst (modify_module renamed_layout (lit "U1") turned).
Example C60_ex_layout : layout_saves ex_layout = true /\ clos_refl_trans _ ly_edit ex_layout edited_layout
  /\ map ne_name (nets edited_layout) <> map ne_name (nets ex_layout).
Proof.
  split; [vm_compute; reflexivity|]. split; [|vm_compute; discriminate].
  apply rt_trans with (adjust_layout (fl "100") (fl "0") ex_layout); [apply rt_step; apply le_move|].
  apply rt_trans with renamed_layout; [apply rt_step; apply le_rename with (lit "GND") (lit "0V"); [reflexivity|]|].
  - unfold renamed_layout. set (l := adjust_layout (fl "100") (fl "0") ex_layout).
    assert (K : is_ok (change_net_name (lit "GND") (lit "0V") l) = true) by (vm_compute; reflexivity). revert K. generalize l. clear l. intros l K.
    destruct (change_net_name _ _ l) as [x|k|]; [reflexivity| |]; discriminate K.
  - apply rt_step. apply le_module with (snd (modify_module renamed_layout (lit "U1") turned)) (lit "U1") turned.
    + intros m _. apply rt_trans with (ref_u7 m); [apply rt_step; apply fe_reference; reflexivity|].
      apply rt_trans with (flip_module (ref_u7 m)); [apply rt_step; apply fe_flip|]. apply rt_step; apply fe_rotate.
    + unfold edited_layout. destruct (modify_module _ _ _). reflexivity.
Qed.
Definition edit_comp (c : component) : component := update_field (update_reference c (lit "R99")) (lit "MPN") (lit "two words").
Example C60_ex_schematic : sch_ok ex_sch = true /\ clos_refl_trans _ sch_edit ex_sch (SchOps.modify_components ex_sch edit_comp)
  /\ map co_reference (components (SchOps.modify_components ex_sch edit_comp)) = [lit "R99"].
Proof.
  split; [vm_compute; reflexivity|]. split; [|vm_compute; reflexivity]. apply rt_step. apply he_all. intros c _.
  apply rt_trans with (update_reference c (lit "R99")); apply rt_step; [apply ce_reference|apply ce_field]; vm_compute; reflexivity.
Qed.
Example C60_ex_symbol : symbol_lib_ok ([ex_power] ++ ex_symbol :: []) = true /\ mid_word (lit "LM2904") = true
  /\ match set_name (lit "LM2904") ex_symbol with Ok s' => str_eqb (sy_name s') (lit "~LM2904") | _ => false end = true.
Proof. split; [|split]; vm_compute; reflexivity. Qed.

(** Without the conditions on new texts, a saveable document becomes one that is lost:
    a quote in a footprint's reference, a blank in a component's reference. *)
Definition said (r : res module) : option str := match r with Ok m => get_reference m | _ => None end.
Theorem C60_quote_refuted : exists m old new, module_saves m = true /\
  said (parse_module (module_to_string quote_special (set_reference old new m) 0)) <> get_reference (set_reference old new m).
Proof.
  exists ex_module, (lit "U1"), (lit "3" ++ [34%N] ++ lit " x"). split; [vm_compute; reflexivity|vm_compute; discriminate].
Qed.
Print Assumptions C60_quote_refuted.
Definition refs (r : res schematic) : list str := match r with Ok s => map co_reference (components s) | _ => [] end.
Theorem C60_blank_refuted : exists s f r, sch_ok s = true /\ (forall c, f c = update_reference c r) /\
  let s' := SchOps.modify_components s f in refs (parse_schematic None (print_schematic s')) <> refs (Ok s').
Proof.
  exists (wit_sch [SComponent ex_comp] []), (fun c => update_reference c (lit "R 1")), (lit "R 1").
  split; [vm_compute; reflexivity|]. split; [reflexivity|vm_compute; discriminate].
Qed.
Print Assumptions C60_blank_refuted.

(** ** C61 *)
(** A footprint built by appending to a new one, and a layout edited from the default
    one, are saved as they are. *)
Theorem C61_new_module : forall nq name m n, quote_contract nq -> no_quote name = true -> clos_refl_trans _ fp_edit (module_new name) m ->
  parse_module (module_to_string nq m n) = Ok m.
Proof. exact (fun nq name m n Q N E => saves_read nq m n Q (fp_edits_keep _ m E (module_new_saves name N))). Qed.
Print Assumptions C61_new_module.
Theorem C61_default_layout : forall nq l n, quote_contract nq -> clos_refl_trans _ ly_edit layout_default l ->
  parse_layout (layout_to_string nq l n) = Ok l.
Proof. exact (fun nq l n Q E => lsaves_read nq l n Q (ly_edits_keep _ l E layout_default_saves)). Qed.
Print Assumptions C61_default_layout.
(** New texts and pads can be appended, and the setters keep that. *)
Theorem C61_text : forall name v, no_quote name = true -> no_quote v = true -> text_saves (text_new name v) = true.
Proof. exact text_new_saves. Qed.
Print Assumptions C61_text.
Theorem C61_text_setters : forall e l t, effects_ok e = true -> layer_ok l = true -> forallb no_quote (layer_strs l) = true -> text_saves t = true ->
  text_saves (text_set_effects e t) = true /\ text_saves (text_set_layer l t) = true.
Proof. exact (fun e l t E L Q S => conj (set_effects_saves e t E S) (set_layer_saves l t L Q S)). Qed.
Print Assumptions C61_text_setters.
Theorem C61_pad : forall name t sh, no_quote name = true -> pad_saves (pad_new name t sh) = true.
Proof. exact pad_new_saves. Qed.
Print Assumptions C61_pad.
Theorem C61_pad_setters : forall n d p, i64_ok (fn_num n) = true -> no_quote (fn_name n) = true -> drill_ok d = true -> pad_saves p = true ->
  pad_saves (pad_set_net n p) = true /\ pad_saves (pad_set_drill d p) = true.
Proof. exact (fun n d p N Q D S => conj (pad_net_saves n p N Q S) (pad_drill_saves d p D S)). Qed.
Print Assumptions C61_pad_setters.
(** What the setters set, and nothing else *)
Theorem C61_set : forall e l n d t p,
  tx_effects (text_set_effects e t) = e /\ tx_layer (text_set_effects e t) = tx_layer t /\
  tx_layer (text_set_layer l t) = l /\ tx_effects (text_set_layer l t) = tx_effects t /\
  (forall u, u = text_set_effects e t \/ u = text_set_layer l t -> tx_name u = tx_name t /\ tx_value u = tx_value t /\ tx_at u = tx_at t /\ tx_hide u = tx_hide t) /\
  pa_net (pad_set_net n p) = Some n /\ pa_drill (pad_set_net n p) = pa_drill p /\
  pa_drill (pad_set_drill d p) = Some d /\ pa_net (pad_set_drill d p) = pa_net p /\
  (forall u, u = pad_set_net n p \/ u = pad_set_drill d p -> pa_name u = pa_name p /\ pa_t u = pa_t p /\ pa_shape u = pa_shape p /\ pa_size u = pa_size p
     /\ pa_at u = pa_at p /\ pa_layers u = pa_layers p /\ pa_rect_delta u = pa_rect_delta p).
Proof. exact setters. Qed.
Print Assumptions C61_set.
Definition new_drill : drill := mk_drill None (fl "0.8") (fl "0.8") fzero fzero.
Definition built : module := module_append (EPad (pad_set_drill new_drill (pad_set_net (mk_fnet 3 (lit "VCC")) (pad_new (lit "1") Pth Circle))))
  (module_append (EFpText (text_set_effects ex_effects (text_new (lit "reference") (lit "J 1")))) (module_new (lit "Conn"))).
Example C61_ex : clos_refl_trans _ fp_edit (module_new (lit "Conn")) built /\ length (m_elements built) = 2%nat.
Proof.
  split; [|reflexivity]. unfold built. eapply rt_trans; apply rt_step; apply fe_append.
  - change (text_saves (text_set_effects ex_effects (text_new (lit "reference") (lit "J 1"))) = true). apply set_effects_saves; [vm_compute; reflexivity|]. now apply text_new_saves.
  - apply pad_drill_saves; [vm_compute; reflexivity|]. apply pad_net_saves; [reflexivity|reflexivity|]. now apply pad_new_saves.
Qed.
