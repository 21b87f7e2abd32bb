(** Property theorems: the order of the elements does not matter (C118). *)
From Coq Require Import String Permutation.
From Flocq Require Import IEEE754.BinarySingleNaN.
From Verif Require Import Base Str F64 F64Text FpData FpOps FpOpsSpec FpExamples LyExamples Bound BoundSpec LyData LyOps LySpec CheckFix SymCheck FpCheck CheckSpec
  CheckWit AnyOrderSpec AnyOrderFacts AnyCourt DeepSpec DeepFacts.
Open Scope string_scope. Open Scope list_scope.

(** The findings for a footprint with at most one text of each kind are the same, in the
    same order, however its elements are ordered. *)
Theorem C118_check (c : config) (m m' : module) : one_of_each m -> mixed m m' -> fp_check c m' = fp_check c m.
Proof. exact (check_mixed c m m'). Qed.
Print Assumptions C118_check.
(** Fixing it, when it has a courtyard, gives the same footprint up to the order. *)
Theorem C118_fix (c : config) (m m' q : module) : one_of_each m -> (4 <= length (courtyard_list m))%nat -> mixed m m' ->
  fp_fix c m = Ok q -> exists q', fp_fix c m' = Ok q' /\ mixed q q'.
Proof. exact (fix_mixed c m m' q). Qed.
Print Assumptions C118_fix.
(** Fixing one without a courtyard too, if it has one place and finite coordinates: the box
    can differ in the sign of a zero, but the courtyard drawn around it cannot. *)
Theorem C118_fix_courtyard (c : config) (m m' q : module) : one_of_each m -> at_most_one a_place (m_elements m) ->
  is_finite (fst (module_at m)) = true -> is_finite (snd (module_at m)) = true -> forallb geo_ok (m_elements m) = true -> mixed m m' ->
  fp_fix c m = Ok q -> exists q', fp_fix c m' = Ok q' /\ mixed q q'.
Proof. exact (fix_mixed_court c m m' q). Qed.
Print Assumptions C118_fix_courtyard.
Theorem C118_courtyard (m m' : module) : at_most_one a_place (m_elements m) ->
  is_finite (fst (module_at m)) = true -> is_finite (snd (module_at m)) = true -> forallb geo_ok (m_elements m) = true -> mixed m m' -> courtyard m' = courtyard m.
Proof. exact (court_mixed m m'). Qed.
Print Assumptions C118_courtyard.
(** The box of a footprint with one place, and that of a board, are the same in every order. *)
Theorem C118_box (m m' : module) : at_most_one a_place (m_elements m) ->
  is_finite (fst (module_at m)) = true -> is_finite (snd (module_at m)) = true -> forallb geo_ok (m_elements m) = true ->
  mixed m m' -> same_bound (module_bound m) (module_bound m') = true.
Proof. exact (box_mixed m m'). Qed.
Print Assumptions C118_box.
Theorem C118_board_box (l l' : layout) : forallb ly_geo_ok (ly_elements l) = true -> mixed_board l l' ->
  same_bound (layout_bound l) (layout_bound l') = true.
Proof. exact (board_box_mixed l l'). Qed.
Print Assumptions C118_board_box.
(** Renaming a net, looking for a footprint and changing it do the same. *)
Theorem C118_rename (old new : str) (l l' q : layout) : mixed_board l l' -> change_net_name old new l = Ok q ->
  exists q', change_net_name old new l' = Ok q' /\ mixed_board q q'.
Proof. exact (change_mixed old new l l' q). Qed.
Print Assumptions C118_rename.
Theorem C118_lookup (l l' : layout) (r : str) (f : module -> module) : at_most_one (called r) (ly_elements l) -> mixed_board l l' ->
  get_module l' r = get_module l r /\
  mixed_board (fst (modify_module l r f)) (fst (modify_module l' r f)) /\ snd (modify_module l' r f) = snd (modify_module l r f).
Proof. exact (fun O M => conj (get_mixed l l' r O M) (modify_mixed l l' r f O M)). Qed.
Print Assumptions C118_lookup.

Definition c118_module : module := mk_module (lit "QFN-32") (m_elements ex_module ++ map EFpLine (courtyard ex_module) ++ [EFpText note]).
Definition turned_round (m : module) : module := mk_module (m_name m) (rev (m_elements m)).
Definition turned_board (l : layout) : layout := with_elements l (rev (ly_elements l)).
Lemma mixed_round m : mixed m (turned_round m). Proof. split; [reflexivity|apply Permutation_rev]. Qed.
Lemma mixed_turned l : mixed_board l (turned_board l). Proof. split; [reflexivity|apply Permutation_rev]. Qed.
Example C118_ex : mixed c118_module (turned_round c118_module) /\ one_of_each c118_module /\ length (courtyard_list c118_module) = 4%nat
  /\ at_most_one a_place (m_elements c118_module) /\ forallb geo_ok (m_elements c118_module) = true
  /\ length (fp_check klc c118_module) = 10%nat.
Proof.
  split; [apply mixed_round|].
  split; [split; [|split]; (eapply once_ok; [apply a_textb_ok|vm_compute; reflexivity])|].
  split; [vm_compute; reflexivity|]. split; [eapply once_ok; [apply a_placeb_ok|vm_compute; reflexivity]|]. split; vm_compute; reflexivity.
Qed.
Example C118_courtyard_ex : one_of_each ex_module /\ at_most_one a_place (m_elements ex_module) /\ is_finite (fst (module_at ex_module)) = true
  /\ is_finite (snd (module_at ex_module)) = true /\ forallb geo_ok (m_elements ex_module) = true /\ length (courtyard_list ex_module) = 0%nat.
Proof.
  split; [split; [|split]; (eapply once_ok; [apply a_textb_ok|vm_compute; reflexivity])|]. split; [eapply once_ok; [apply a_placeb_ok|vm_compute; reflexivity]|].
  split; [vm_compute; reflexivity|]. split; [vm_compute; reflexivity|]. split; vm_compute; reflexivity.
Qed.
Definition two_places : module := mk_module (lit "X") [EAt (mkat "0" "0" "0"); EAt (mkat "5" "5" "0")].
Definition c118_board : layout := with_elements ex_layout [YNet (mk_net 12 (lit "GND")); YModule ex_module; YGrText ex_gtext; YModule two_places].
Example C118_board_ex : mixed_board ex_layout (turned_board ex_layout) /\ forallb ly_geo_ok (ly_elements ex_layout) = true
  /\ at_most_one (called (lit "U1")) (ly_elements c118_board) /\ existsb (calledb (lit "U1")) (ly_elements c118_board) = true.
Proof.
  split; [apply mixed_turned|]. split; [vm_compute; reflexivity|].
  split; [eapply once_ok; [apply calledb_ok|vm_compute; reflexivity]|vm_compute; reflexivity].
Qed.

(** The same holds when the elements of the footprints on a board are in another order too. *)
Theorem C118_deep_box (l l' : layout) : Forall placed_once (ly_elements l) -> forallb ly_geo_ok (ly_elements l) = true -> deep_mixed l l' ->
  same_bound (layout_bound l) (layout_bound l') = true.
Proof. exact (deep_box l l'). Qed.
Print Assumptions C118_deep_box.
Theorem C118_deep_edits (l l' : layout) (old new : str) (x y : f64) : deep_mixed l l' ->
  (forall q, change_net_name old new l = Ok q -> exists q', change_net_name old new l' = Ok q' /\ deep_mixed q q')
  /\ deep_mixed (adjust_layout x y l) (adjust_layout x y l').
Proof. exact (fun D => conj (fun q => deep_rename old new l l' q D) (deep_adjust x y l l' D)). Qed.
Print Assumptions C118_deep_edits.
Definition c118_deep (m : module) : layout := with_elements ex_layout [YNet (mk_net 12 (lit "GND")); YModule m; YGrText ex_gtext].
Definition c118_deep' (m : module) : layout := with_elements ex_layout [YGrText ex_gtext; YNet (mk_net 12 (lit "GND")); YModule (turned_round m)].
Example C118_deep_ex : deep_mixed (c118_deep ex_module) (c118_deep' ex_module) /\ Forall placed_once (ly_elements (c118_deep ex_module))
  /\ forallb ly_geo_ok (ly_elements (c118_deep ex_module)) = true /\ match m_elements ex_module, m_elements (turned_round ex_module) with ELayer _ :: _, ELayer _ :: _ => False | _, _ => True end.
Proof.
  split; [split; [reflexivity|]|].
  - exists [YGrText ex_gtext; YNet (mk_net 12 (lit "GND")); YModule ex_module]. split.
    + eapply perm_trans; [apply (Permutation_app_comm [YNet (mk_net 12 (lit "GND")); YModule ex_module] [YGrText ex_gtext])|apply Permutation_refl].
    + constructor; [reflexivity|]. constructor; [reflexivity|]. constructor; [|constructor]. exists (turned_round ex_module). split; [reflexivity|apply mixed_round].
  - split; [constructor; [exact I|]; constructor; [|constructor; [exact I|constructor]]; cbn [placed_once]; eapply once_ok; [apply a_placeb_ok|vm_compute; reflexivity]|].
    split; vm_compute; [reflexivity|exact I].
Qed.
(** With two texts of one kind, or two places, the first one counts. *)
Definition two_refs : module := mk_module (lit "X") [EFpText ex_ref; EFpText (mk_text (lit "reference") (lit "R1") (tx_at ex_ref) f_fab ex_effects true)].
Theorem C118_check_refuted : exists c m m', mixed m m' /\ fp_check c m' <> fp_check c m.
Proof.
  exists klc, two_refs, (turned_round two_refs). split; [apply mixed_round|]. intros H. apply (f_equal (@length cf_data)) in H. vm_compute in H. discriminate H.
Qed.
Print Assumptions C118_check_refuted.
Theorem C118_box_refuted : exists m m', mixed m m' /\ is_finite (fst (module_at m)) = true /\ is_finite (snd (module_at m)) = true /\
  forallb geo_ok (m_elements m) = true /\ same_bound (module_bound m) (module_bound m') = false.
Proof. exists two_places, (turned_round two_places). split; [apply mixed_round|]. split; [|split; [|split]]; vm_compute; reflexivity. Qed.
Print Assumptions C118_box_refuted.
