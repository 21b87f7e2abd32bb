(** Property theorems: edits of names change no box and no other finding (C121). *)
From Coq Require Import String.
From Verif Require Import Base Str F64 Bound BoundSpec FpData FpOps FpExamples LyExamples LyData LyOps CheckFix SymCheck FpCheck AnyOrderSpec AnyOrderFacts BlindSpec BlindFacts.
From Verif Require SchData SchOps P_SchOps P_SchMix.
Import ListNotations.
Open Scope string_scope. Open Scope list_scope.

(** ** C121 *)
(** A footprint with other nets gets the same findings, has the same box, and is fixed to
    the same footprint up to the nets. *)
Theorem C121_nets (c : config) (m m' : module) : rewired m m' -> fp_check c m' = fp_check c m /\ module_bound m' = module_bound m /\
  forall q, fp_fix c m = Ok q -> exists q', fp_fix c m' = Ok q' /\ rewired q q'.
Proof. exact (fun R => conj (check_rewired c m m' R) (conj (box_rewired m m' R) (fun q => fix_rewired c m m' q R))). Qed.
Print Assumptions C121_nets.
(** Updating the names of nets, even with an update that fails midway, renaming a net on a
    board, and renaming it in one footprint, change nets only. *)
Theorem C121_update (u : name_update) (l : layout) : rewired_board l (fst (update_net_names u l)).
Proof. exact (update_rewired u l). Qed.
Print Assumptions C121_update.
Theorem C121_rename (old new : str) (l q : layout) (m : module) : (change_net_name old new l = Ok q -> rewired_board l q) /\ rewired m (module_rename_net old new m).
Proof. exact (conj (change_rewired old new l q) (module_rewired old new m)). Qed.
Print Assumptions C121_rename.
(** A board that differs in nets only has the same box, and footprints that differ in nets
    only; adding nets and classes, and changing footprints whose box stays, keep the box. *)
Theorem C121_board (l l' : layout) : rewired_board l l' -> layout_bound l' = layout_bound l /\ Forall2 rewired (get_modules l) (get_modules l').
Proof. exact (fun R => conj (board_rewired l l' R) (modules_rewired l l' R)). Qed.
Print Assumptions C121_board.
Theorem C121_add (l : layout) (n : Z) (name : str) (k : net_class) : layout_bound (add_net n name l) = layout_bound l /\ layout_bound (add_netclass k l) = layout_bound l.
Proof. exact (add_boxes l n name k). Qed.
Print Assumptions C121_add.
Theorem C121_modify (l : layout) (r : str) (f : module -> module) : (forall m, module_bound (f m) = module_bound m) -> layout_bound (fst (modify_module l r f)) = layout_bound l.
Proof. exact (modify_box l r f). Qed.
Print Assumptions C121_modify.
(** Another reference changes no box and no finding but the first, which says that the
    reference is not the placeholder; a fix gives the same as before. *)
Theorem C121_reference (c : config) (old new : str) (m : module) : module_bound (set_reference old new m) = module_bound m /\
  (exists a b r, fp_check c m = a ++ r /\ fp_check c (set_reference old new m) = b ++ r /\ star_finding (m_name m) a /\ star_finding (m_name m) b) /\
  (at_most_one (a_text (lit "reference")) (m_elements m) -> fp_fix c (set_reference old new m) = fp_fix c m).
Proof. exact (conj (box_ref old new m) (conj (check_reference_blind c old new m) (fix_ref c old new m))). Qed.
Print Assumptions C121_reference.
(** Editing fields, references and names of components, and counting sheets, keep the box
    of a schematic. *)
Theorem C121_schematic (s : SchData.schematic) (r : str) (f : SchData.component -> SchData.component) : stays_put f ->
  SchOps.sch_bound (SchOps.modify_component s r f) = SchOps.sch_bound s /\ SchOps.sch_bound (SchOps.modify_components s f) = SchOps.sch_bound s.
Proof. exact (modify_put s r f). Qed.
Print Assumptions C121_schematic.
Theorem C121_fields (n v : str) : stays_put (fun c => SchOps.update_field c n v) /\ stays_put (fun c => SchOps.update_reference c v) /\ stays_put (fun c => SchOps.update_name c v) /\
  (forall c t c' u, SchOps.add_or_update_field c t n v = Ok (c', u) -> SchData.co_x c' = SchData.co_x c /\ SchData.co_y c' = SchData.co_y c).
Proof. exact (conj (proj1 (updates_put n v)) (conj (proj1 (proj2 (updates_put n v))) (conj (proj2 (proj2 (updates_put n v))) (fun c t c' u => add_put c t n v c' u)))). Qed.
Print Assumptions C121_fields.
Theorem C121_count (s q : SchData.schematic) : SchOps.increment_sheet_count s = Ok q -> SchOps.sch_bound q = SchOps.sch_bound s.
Proof. exact (count_put s q). Qed.
Print Assumptions C121_count.

(** *** Examples *)
Definition net_count (m : module) : nat := length (filter (fun p => match pa_net p with Some n => str_eqb (fn_name n) (lit "VDD") | None => false end) (pads m)).
Example C121_ex : net_count (module_rename_net (lit "Net-(R1-Pad1)") (lit "VDD") ex_module) = 1%nat /\ net_count ex_module = 0%nat /\
  length (fp_check klc ex_module) = 8%nat /\ length (fp_check klc (set_reference (lit "U1") (lit "REF**") ex_module)) = 7%nat /\
  at_most_one (a_text (lit "reference")) (m_elements ex_module).
Proof.
  split; [vm_compute; reflexivity|]. split; [vm_compute; reflexivity|]. split; [vm_compute; reflexivity|]. split; [vm_compute; reflexivity|].
  eapply once_ok; [apply a_textb_ok|vm_compute; reflexivity].
Qed.
Example C121_board_ex : exists q, change_net_name (lit "GND") (lit "VDD") ex_layout = Ok q /\ map ne_name (nets q) <> map ne_name (nets ex_layout).
Proof. eexists. split; [reflexivity|]. intros H. vm_compute in H. discriminate H. Qed.
Example C121_schematic_ex : SchOps.components (SchOps.modify_component P_SchMix.c120_sch (lit "R2") (fun c => SchOps.update_reference c (lit "R9"))) <> SchOps.components P_SchMix.c120_sch
  /\ P_SchMix.ok_box (SchOps.sch_bound P_SchMix.c120_sch) = true.
Proof. split; [|vm_compute; reflexivity]. intros H. apply (f_equal (map SchData.co_reference)) in H. vm_compute in H. discriminate H. Qed.
(** With two texts for the reference a fix changes the first one only, and the other
    reference stays. *)
Definition ref_text (v : string) : element := EFpText (mk_text (lit "reference") (lit v) at_default (mk_layer SFront LSilkS) (tx_effects (new_ref2 klc)) false).
Definition two_refs : module := mk_module (lit "X") [ref_text "U1"; ref_text "U1"].
Definition ref_values (r : res module) : list str :=
  match r with Ok m => flat_map (fun e => match e with EFpText t => if str_eqb (tx_name t) (lit "reference") then [tx_value t] else [] | _ => [] end) (m_elements m) | _ => [] end.
Theorem C121_fix_refuted : exists c old new m, fp_fix c (set_reference old new m) <> fp_fix c m.
Proof. exists klc, (lit "U1"), (lit "U2"), two_refs. intros H. apply (f_equal ref_values) in H. revert H. vm_compute. discriminate. Qed.
Print Assumptions C121_fix_refuted.
