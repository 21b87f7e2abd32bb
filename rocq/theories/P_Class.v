(** Property theorems: comparing net classes (C52), width and height of boxes (C54),
    looking things up in a footprint (C55). *)
From Coq Require Import String Reals.
From Flocq Require Import IEEE754.BinarySingleNaN.
From Verif Require Import Base Str F64 F64Text F64Order FpData FpOps FpOpsSpec FpExamples LyExamples FpCheck Bound BoundSpec LyData LyOps
  ClassSpec ClassFacts.
Open Scope string_scope. Open Scope list_scope.

(** ** C52 *)
Theorem C52_equal (a b : net_class) : equal_no_net a b = true <-> same_class a b.
Proof. exact (class_iff a b). Qed.
Print Assumptions C52_equal.
Theorem C52_nets_ignored (a b : net_class) (l k : list str) : equal_no_net (with_nc_nets a l) (with_nc_nets b k) = equal_no_net a b.
Proof. exact (class_nets a b l k). Qed.
Print Assumptions C52_nets_ignored.
Theorem C52_symmetric (a b : net_class) : equal_no_net a b = equal_no_net b a.
Proof. exact (class_sym a b). Qed.
Print Assumptions C52_symmetric.
Theorem C52_transitive (a b c : net_class) : equal_no_net a b = true -> equal_no_net b c = true -> equal_no_net a c = true.
Proof. exact (class_trans a b c). Qed.
Print Assumptions C52_transitive.
(** A class equals itself exactly if none of its numbers is NaN. *)
Theorem C52_reflexive (a : net_class) : equal_no_net a a = true <-> class_numbers a = true.
Proof. exact (class_refl a). Qed.
Print Assumptions C52_reflexive.
Definition c52_a := with_nc_nets ex_class [].
Definition c52_b := mk_nc (lit "Default") (lit "the default class") (fl "0.2") (fl "0.25") (fl "0.6") (fl "0.4")
    (fl "0.3") (fl "0.1") (Some (fl "0.25")) (Some (fl "0.2")) [].
Example C52_ex : class_numbers ex_class = true /\ equal_no_net ex_class c52_a = true /\ equal_no_net ex_class c52_b = false
  /\ nc_nets ex_class <> nc_nets c52_a.
Proof. split; [vm_compute; reflexivity|]. split; [vm_compute; reflexivity|]. split; [vm_compute; reflexivity|]. cbn. discriminate. Qed.
Theorem C52_reflexive_refuted : exists a, equal_no_net a a = false.
Proof.
  exists (mk_nc [] [] (fl "NaN") (fl "0") (fl "0") (fl "0") (fl "0") (fl "0") None None []). vm_compute. reflexivity.
Qed.
Print Assumptions C52_reflexive_refuted.

(** ** C54 *)
(** Width and height are the correctly rounded distances of the sides; only a distance
    beyond the largest number gives infinity. *)
Theorem C54_exact (b : bound) : finite_box b = true ->
  (is_nan (bound_width b) = false /\ rx (bound_width b) = Rmin fmaxR (rnd (Rabs (B2R (bx1 b) - B2R (bx2 b))))) /\
  (is_nan (bound_height b) = false /\ rx (bound_height b) = Rmin fmaxR (rnd (Rabs (B2R (by1 b) - B2R (by2 b))))).
Proof. exact (fun H => conj (width_exact b H) (height_exact b H)). Qed.
Print Assumptions C54_exact.
Theorem C54_nonneg (b : bound) : finite_box b = true -> fleb fzero (bound_width b) = true /\ fleb fzero (bound_height b) = true.
Proof. exact (extent_nonneg b). Qed.
Print Assumptions C54_nonneg.
(** Ordering the corners does not change them. *)
Theorem C54_swap (b : bound) : finite_box b = true ->
  feqb (bound_width (bound_swap b)) (bound_width b) = true /\ feqb (bound_height (bound_swap b)) (bound_height b) = true.
Proof. exact (extent_swap b). Qed.
Print Assumptions C54_swap.
(** A covering box is at least as wide and high; so is a merged box. *)
Theorem C54_covers (c b : bound) : finite_box c = true -> finite_box b = true -> ordered b = true -> covers c b = true ->
  fleb (bound_width b) (bound_width c) = true /\ fleb (bound_height b) (bound_height c) = true.
Proof. exact (extent_mono c b). Qed.
Print Assumptions C54_covers.
Theorem C54_merge (a b : bound) : finite_box a = true -> finite_box b = true -> bounded a = true -> bounded b = true ->
  ordered a = true -> ordered b = true -> let u := bound_update a b in
  fleb (bound_width a) (bound_width u) = true /\ fleb (bound_width b) (bound_width u) = true /\
  fleb (bound_height a) (bound_height u) = true /\ fleb (bound_height b) (bound_height u) = true.
Proof. exact (extent_update a b). Qed.
Print Assumptions C54_merge.
Definition c54_b := bound_new (fl "5") (fl "-2") (fl "-1") (fl "4.5").
Definition c54_c := bound_new (fl "-3") (fl "-2") (fl "7") (fl "4.5").
Example C54_ex : finite_box c54_b = true /\ finite_box c54_c = true /\ ordered c54_c = true /\ covers c54_c (bound_swap c54_b) = true
  /\ feqb (bound_width c54_b) (fl "6") = true /\ feqb (bound_height c54_b) (fl "6.5") = true /\ feqb (bound_width c54_c) (fl "10") = true.
Proof. split; [|split; [|split; [|split; [|split; [|split]]]]]; vm_compute; reflexivity. Qed.

(** ** C55 *)
(** Time stamps, position, rotation and side come from the first element of their kind,
    with fixed values if there is none; the first match is unique. *)
Theorem C55_unique {A B} (want : A -> B -> Prop) (l : list A) (o o' : option B) :
  (forall x b c, want x b -> want x c -> b = c) -> first_match want l o -> first_match want l o' -> o = o'.
Proof. exact (first_fun want l o o'). Qed.
Print Assumptions C55_unique.
Theorem C55_tstamp (m : module) : first_match (fun e z => e = ETStamp z) (m_elements m) (get_tstamp m).
Proof. exact (tstamp_first m). Qed.
Print Assumptions C55_tstamp.
Theorem C55_tedit (m : module) : first_match (fun e z => e = ETEdit z) (m_elements m) (get_tedit m).
Proof. exact (tedit_first m). Qed.
Print Assumptions C55_tedit.
Theorem C55_place (m : module) : exists o, first_match placed (m_elements m) o /\
  module_at m = match o with Some a => (at_x a, at_y a) | None => (fzero, fzero) end /\
  get_rotation m = match o with Some a => at_rot a | None => fzero end.
Proof. exact (placed_first m). Qed.
Print Assumptions C55_place.
Theorem C55_side (m : module) : exists o, first_match (fun e l => e = ELayer l) (m_elements m) o /\
  (is_front m = true <-> o = None \/ exists l, o = Some l /\ la_side l = SFront).
Proof. exact (layer_first m). Qed.
Print Assumptions C55_side.
Theorem C55_smd (m : module) : has_smd_attr m = true <-> In (EAttr (lit "smd")) (m_elements m).
Proof. exact (smd_iff m). Qed.
Print Assumptions C55_smd.
Example C55_ex : get_tstamp ex_module = Some 0%Z /\ get_tedit ex_module = Some 1485440569%Z
  /\ feqb (fst (module_at ex_module)) (fl "10") = true /\ feqb (get_rotation ex_module) (fl "180") = true
  /\ is_front ex_module = true /\ has_smd_attr ex_module = true
  /\ is_front (mk_module (lit "m") [ELayer (mk_layer SBack LCu); ELayer f_cu]) = false
  /\ get_tedit ex_module2 = None.
Proof.
  split; [reflexivity|]. split; [reflexivity|]. split; [vm_compute; reflexivity|]. split; [vm_compute; reflexivity|].
  split; [vm_compute; reflexivity|]. split; [vm_compute; reflexivity|]. split; reflexivity.
Qed.
