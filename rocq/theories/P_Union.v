(** Property theorems: the box of a board put together from parts (C122). *)
From Coq Require Import String.
From Flocq Require Import IEEE754.BinarySingleNaN.
From Verif Require Import Base Str F64 FpOpsSpec Bound BoundSpec FpData FpLayer FpOps FpExamples LyExamples LyData LyOps LySpec CheckFix SymCheck FpCheck UnionSpec UnionFacts.
From Verif Require SchData SchOps.
Import ListNotations.
Open Scope string_scope. Open Scope list_scope.

(** ** C122 *)
(** The box of two parts of a board together is the union of their boxes, up to the sign
    of zero. *)
Theorem C122_board (l : layout) (a b : list ly_element) : forallb ly_geo_ok (a ++ b) = true ->
  same_bound (layout_bound (holding l (a ++ b))) (bound_update (layout_bound (holding l a)) (layout_bound (holding l b))) = true.
Proof. exact (union_board l a b). Qed.
Print Assumptions C122_board.
(** The box of a board covers the box of every part of it. *)
Theorem C122_part (l : layout) (a b : list ly_element) : forallb ly_geo_ok b = true -> incl a b -> bounded (layout_bound (holding l a)) = true ->
  covers (layout_bound (holding l b)) (layout_bound (holding l a)) = true.
Proof. exact (part_board l a b). Qed.
Print Assumptions C122_part.
(** Fixing a footprint keeps its box, whatever courtyard it draws. *)
Theorem C122_fix (c : config) (m q : module) : fp_fix c m = Ok q -> module_bound q = module_bound m.
Proof. exact (fix_box c m q). Qed.
Print Assumptions C122_fix.
(** So does any element that is no pad, no place and not on a fabrication layer. *)
Theorem C122_unboxed (m : module) (l r : list element) (e : element) : unboxed e -> module_bound (fp_holding m (l ++ e :: r)) = module_bound (fp_holding m (l ++ r)).
Proof. exact (extra_box m l e r). Qed.
Print Assumptions C122_unboxed.

(** The same holds for the parts of a footprint that lie at one place. *)
Theorem C122_footprint (m : module) (a b : list element) (x y : f64) :
  module_at (fp_holding m a) = (x, y) -> module_at (fp_holding m b) = (x, y) -> module_at (fp_holding m (a ++ b)) = (x, y) -> is_finite x = true -> is_finite y = true -> forallb geo_ok (a ++ b) = true ->
  same_bound (module_bound (fp_holding m (a ++ b))) (bound_update (module_bound (fp_holding m a)) (module_bound (fp_holding m b))) = true.
Proof. exact (union_fp m a b x y). Qed.
Print Assumptions C122_footprint.
Theorem C122_footprint_part (m : module) (a b : list element) (x y : f64) :
  module_at (fp_holding m a) = (x, y) -> module_at (fp_holding m b) = (x, y) -> is_finite x = true -> is_finite y = true -> forallb geo_ok b = true -> incl a b ->
  covers (module_bound (fp_holding m b)) (module_bound (fp_holding m a)) = true.
Proof. exact (part_fp m a b x y). Qed.
Print Assumptions C122_footprint_part.

Definition c122_fab (x1 y1 x2 y2 : string) : element := EFpLine (line_make (fl x1) (fl y1) (fl x2) (fl y2) LFab (fl "0.1")).
Definition c122_fp_a : list element := [c122_fab "1" "1" "-3" "4"; EAttr (lit "smd")].
Definition c122_fp_b : list element := [c122_fab "-5" "1" "-3" "2"].
Example C122_footprint_ex : forallb geo_ok (c122_fp_a ++ c122_fp_b) = true /\ module_at (fp_holding ex_module c122_fp_a) = (fzero, fzero)
  /\ module_at (fp_holding ex_module c122_fp_b) = (fzero, fzero) /\ module_at (fp_holding ex_module (c122_fp_a ++ c122_fp_b)) = (fzero, fzero)
  /\ covers (module_bound (fp_holding ex_module c122_fp_a)) (module_bound (fp_holding ex_module c122_fp_b)) = false
  /\ covers (module_bound (fp_holding ex_module c122_fp_b)) (module_bound (fp_holding ex_module c122_fp_a)) = false.
Proof. split; [vm_compute; reflexivity|]. split; [reflexivity|]. split; [reflexivity|]. split; [reflexivity|]. split; vm_compute; reflexivity. Qed.
Definition c122_line (x1 y1 x2 y2 : string) : ly_element := YSegment (mk_seg (mkxy x1 y1 XStart) (mkxy x2 y2 XEnd) (fl "0.25") f_cu 1 None None).
Definition c122_via (x y s : string) : ly_element := YVia (mk_via false false (mkat x y "0") (fl s) (fl "0.3") [f_cu] 1).
Definition c122_a : list ly_element := [c122_line "3" "4" "1" "2"; YOther (Sexp.SStr (lit "x"))].
Definition c122_b : list ly_element := [c122_via "10" "-5" "0.5"; YModule ex_module].
Example C122_board_ex : forallb ly_geo_ok (c122_a ++ c122_b) = true /\ bounded (layout_bound (holding ex_layout c122_a)) = true
  /\ covers (layout_bound (holding ex_layout c122_a)) (layout_bound (holding ex_layout c122_b)) = false
  /\ covers (layout_bound (holding ex_layout c122_b)) (layout_bound (holding ex_layout c122_a)) = false.
Proof. split; [vm_compute; reflexivity|]. split; [vm_compute; reflexivity|]. split; vm_compute; reflexivity. Qed.
Example C122_part_ex : incl c122_a (c122_b ++ c122_a).
Proof. exact (incl_appr c122_b (incl_refl c122_a)). Qed.
Example C122_fix_ex : (match fp_fix klc ex_module with Ok q => Nat.ltb (length (m_elements ex_module)) (length (m_elements q)) && same_bound (module_bound q) (module_bound ex_module) && bounded (module_bound q) | _ => false end)%bool = true.
Proof. vm_compute. reflexivity. Qed.
Example C122_unboxed_ex : unboxed (EFpLine (line_make (fl "-90") (fl "-90") (fl "90") (fl "90") LCrtYd (fl "0.05"))) /\ unboxed (EAttr (lit "smd")).
Proof. split; [|exact I]. change (LCrtYd <> LFab). discriminate. Qed.

(** Vias whose size is negative break both: the board with the second via does not cover
    the board without it. *)
Theorem C122_negative_refuted : exists (l : layout) (a b : list ly_element),
  bounded (layout_bound (holding l a)) = true /\ covers (layout_bound (holding l (a ++ b))) (layout_bound (holding l a)) = false.
Proof. exists ex_layout, [c122_via "0" "0" "-5"], [c122_via "0" "0" "-1"]. split; vm_compute; reflexivity. Qed.
Print Assumptions C122_negative_refuted.
(** And for schematics it is false: the box of a component starts at its y in both
    directions, so a further component can make the box of the schematic smaller. *)
Definition c122_at (x y : Z) : SchData.selement := SchData.SComponent (SchData.mk_comp (lit "R") (lit "R1") [] x y [] [] (SchData.mk_rotation 1 0 0 (-1))).
Definition c122_box (s : SchData.schematic) : bound := match SchOps.sch_bound s with Ok b => b | _ => bound_default end.
Theorem C122_schematic_refuted : exists (s : SchData.schematic) (a b : list SchData.selement),
  bounded (c122_box (sch_holding s a)) = true /\ bounded (c122_box (sch_holding s (a ++ b))) = true
  /\ covers (c122_box (sch_holding s (a ++ b))) (c122_box (sch_holding s a)) = false.
Proof. exists (SchData.mk_sch None [] SchData.descr_default [] [] []), [c122_at 0 1000], [c122_at 500 500]. split; [vm_compute; reflexivity|]. split; vm_compute; reflexivity. Qed.
Print Assumptions C122_schematic_refuted.
