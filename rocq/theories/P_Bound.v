(** Property theorems: bounding boxes (C14) and footprint boxes (C16). *)
From Coq Require Import String Permutation.
From Flocq Require Import IEEE754.BinarySingleNaN.
From Verif Require Import Base Str F64 F64Text Bound BoundSpec BoundFacts FpData FpOps FpOpsSpec FpOpsFacts
  FpExamples FpOpsWit BoxFacts.
Open Scope string_scope. Open Scope list_scope.

(** C14: the merge of two boxes covers both, and every box covering both
    covers the merge. *)
Theorem C14_update_lub (a b : bound) :
  bounded a = true -> bounded b = true -> bnum a = true -> bnum b = true ->
  covers (bound_update a b) a = true /\ covers (bound_update a b) b = true
  /\ forall c, covers c a = true -> covers c b = true -> covers c (bound_update a b) = true.
Proof. exact (update_lub a b). Qed.
Print Assumptions C14_update_lub.

(** A box without extent is neutral on both sides. *)
Theorem C14_update_neutral (a b : bound) :
  (bounded b = false -> bound_update a b = a)
  /\ (bounded b = true -> bound_update bound_default b = b).
Proof. exact (conj (update_unbounded_r a b) (update_unbounded_l bound_default b eq_refl)). Qed.
Print Assumptions C14_update_neutral.

Theorem C14_update_comm (a b : bound) : bnum a = true -> bnum b = true ->
  same_bound (bound_update a b) (bound_update b a) = true.
Proof. exact (update_comm a b). Qed.
Print Assumptions C14_update_comm.

Theorem C14_update_assoc (a b c : bound) : bnum a = true -> bnum b = true -> bnum c = true ->
  same_bound (bound_update (bound_update a b) c) (bound_update a (bound_update b c)) = true.
Proof. exact (update_assoc a b c). Qed.
Print Assumptions C14_update_assoc.

(** Merging a list in any order gives the same box. *)
Theorem C14_merge_order (a : bound) (l l' : list bound) :
  Permutation l l' -> bnum a = true -> Forall (fun b => bnum b = true) l ->
  same_bound (fold_left bound_update l a) (fold_left bound_update l' a) = true.
Proof. exact (fun P Ha Hl => all_permutation l l' P a Ha Hl). Qed.
Print Assumptions C14_merge_order.

(** Every merged box is covered by the result. *)
Theorem C14_merge_covers (a b : bound) (l : list bound) :
  bnum a = true -> Forall (fun b => bnum b = true) l -> In b l -> bounded b = true ->
  covers (fold_left bound_update l a) b = true.
Proof. exact (fun Ha Hl Hi Hb => all_covers l a b Ha Hl Hi Hb). Qed.
Print Assumptions C14_merge_covers.

(** Normalising orders the coordinates and changes nothing that is ordered. *)
Theorem C14_swap (b : bound) : bnum b = true ->
  ordered (bound_swap b) = true /\ (ordered b = true -> bound_swap b = b).
Proof. exact (fun H => conj (swap_ordered b H) (swap_id b)). Qed.
Print Assumptions C14_swap.

Definition b1 := bound_new (fl "-1") (fl "0") (fl "2.5") (fl "3").
Definition b2 := bound_new (fl "0") (fl "-7") (fl "1") (fl "4").
Example C14_ex : bounded b1 = true /\ bnum b1 = true /\ bnum b2 = true
  /\ same_bound (bound_update b1 b2) (bound_new (fl "-1") (fl "-7") (fl "2.5") (fl "4")) = true.
Proof. split; [|split; [|split]]; vm_compute; reflexivity. Qed.
Example C14_ex_swap : ordered (bound_new (fl "5") (fl "0") (fl "-5") (fl "0")) = false
  /\ bnum (bound_new (fl "5") (fl "0") (fl "-5") (fl "0")) = true.
Proof. split; vm_compute; reflexivity. Qed.

(** C16 is false: a fabrication line drawn from the larger to the smaller
    coordinate lies outside the footprint's box. *)
Theorem C16_module_box_refuted :
  exists m l p, In (EFpLine l) (m_elements m) /\ forallb geo_ok (m_elements m) = true
    /\ In p (fab_points (EFpLine l)) /\ module_at m = (fzero, fzero)
    /\ inside (fst p) (snd p) (module_bound m) = false.
Proof.
  exact (ex_intro _ w_module (ex_intro _ w_line (ex_intro _ (fl "5", fl "0")
    (conj (or_introl eq_refl) (conj (proj1 module_bound_misses)
      (conj (proj1 (proj2 module_bound_misses)) (conj eq_refl (proj1 (proj2 (proj2 module_bound_misses)))))))))).
Qed.
Print Assumptions C16_module_box_refuted.

(** What holds: with finite coordinates and lines and arcs drawn in ascending
    direction, every point of a fabrication element and every pad centre,
    moved to the footprint's position, is in the box. *)
Theorem C16_module_box_ascending (m : module) (x y : f64) :
  module_at m = (x, y) -> is_finite x = true -> is_finite y = true ->
  forallb geo_ok (m_elements m) = true -> forallb ascending (m_elements m) = true ->
  forall e p, In e (m_elements m) -> In p (fab_points e) ->
  inside (fadd (fst p) x) (fadd (snd p) y) (module_bound m) = true.
Proof. exact (module_bound_points m x y). Qed.
Print Assumptions C16_module_box_ascending.
Example C16_ex : forallb geo_ok (m_elements ex_asc) = true /\ forallb ascending (m_elements ex_asc) = true.
Proof. exact ex_asc_ok. Qed.
(** The condition is exact for the box of one element. *)
Theorem C16_element_box_exact (e : element) : geo_ok e = true ->
  ((forall p, In p (fab_points e) -> inside (fst p) (snd p) (element_bound e) = true)
   <-> (fab_points e <> [] -> ascending e = true)).
Proof. exact (element_exact e). Qed.
Print Assumptions C16_element_box_exact.
Example C16_element_ex : geo_ok (EFpLine w_line) = true /\ ascending (EFpLine w_line) = false /\ length (fab_points (EFpLine w_line)) = 2%nat.
Proof. vm_compute. auto. Qed.
