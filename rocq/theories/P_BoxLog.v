(** Property theorems: what the logger is told about bounding boxes (C119). *)
From Coq Require Import String.
From Verif Require Import Base Str F64 F64Text Bound FpData FpOps FpExamples LyData LyOps LyExamples SchData SchOps CheckFix SymCheck FpCheck CheckSpec CheckWit ClassSpec
  LyLog LogSpec BoxLog BoxLogSpec BoxLogFacts.
From Verif Require P_Schematic.
Open Scope string_scope. Open Scope list_scope.

(** The box of a footprint is computed in silence: its texts, whose box would be called
    poor, are not asked. *)
Theorem C119_footprint (m : module) : module_box_log m = [].
Proof. exact (module_silent m). Qed.
Print Assumptions C119_footprint.
(** The box of a board gives one record for each text and each dimension ... *)
Theorem C119_board (l : layout) : layout_box_log l = repeat (lit "poor bounding box for GrText") (length (filter lettered (ly_elements l))).
Proof. exact (board_log l). Qed.
Print Assumptions C119_board.
(** ... so none if and only if the board has neither. *)
Theorem C119_silent (l : layout) : layout_box_log l = [] <-> forall e, In e (ly_elements l) -> lettered e = false.
Proof. exact (board_silent l). Qed.
Print Assumptions C119_silent.
(** The box of a schematic gives one record for each element, in their order, and none for
    the sheets. *)
Theorem C119_schematic (s : schematic) (k : nat) : nth_error (sch_box_log s) k =
  match nth_error (sc_elements s) k with
  | Some (SComponent _) => Some (lit "Component bound calculation is poor")
  | Some _ => Some (lit "unhandled schematic element for bounding box")
  | None => None
  end.
Proof. exact (sheet_log s k). Qed.
Print Assumptions C119_schematic.
(** A fix that adds a courtyard tells the box and the place of the footprint as it was, the
    corners seen from the place, and the corners drawn, which lie outside those by one of
    the three distances; a fix that adds none tells nothing. *)
Theorem C119_fix (dbg : f64 -> str) (c : config) (m m' : module) : fp_fix c m = Ok m' ->
  ((4 <= length (courtyard_list m))%nat /\ fix_records dbg c m = []) \/
  ((length (courtyard_list m) < 4)%nat /\ exists l1 l2 l3 l4 o, lines_of m' = lines_of m ++ [l1; l2; l3; l4] /\ In o [flit "0.15"; flit "0.1"; flit "0.25"] /\
   let b := module_bound m in let x := fst (module_at m) in let y := snd (module_at m) in
   let u1 := fsub (bx1 b) x in let v1 := fsub (by1 b) y in let u2 := fsub (bx2 b) x in let v2 := fsub (by2 b) y in
   fix_records dbg c m = told_steps dbg (bx1 b) (by1 b) (bx2 b) (by2 b) x y u1 v1 u2 v2 (says_courtyard l1 l2) /\
   xy_x (li_start l1) = fsub (fmin u1 u2) o /\ xy_y (li_start l1) = fsub (fmin v1 v2) o /\
   xy_x (li_end l2) = fadd (fmax u1 u2) o /\ xy_y (li_end l2) = fadd (fmax v1 v2) o).
Proof. exact (fix_told dbg c m m'). Qed.
Print Assumptions C119_fix.
(** Above level debug these are the records of C114. *)
Theorem C119_info (dbg : f64 -> str) (c : config) (m : module) :
  filter (fun r : record => match fst r with Info => true | _ => false end) (fix_records dbg c m) = fix_log c m.
Proof. exact (fix_info dbg c m). Qed.
Print Assumptions C119_info.

Definition c119_text : str := lit "a: ((-1.75, -0.5), (3.5, 4.5))".
Example C119_ex : length (filter lettered (ly_elements ex_layout)) = 2%nat /\ length (layout_box_log ex_layout) = 2%nat
  /\ length (sch_box_log P_Schematic.ex_sch) = length (sc_elements P_Schematic.ex_sch) /\ (1 < length (sc_elements P_Schematic.ex_sch))%nat
  /\ length (fix_records f64_to_str klc ex_module) = 4%nat /\ length (courtyard_list ex_module) = 0%nat.
Proof.
  split; [vm_compute; reflexivity|]. split; [vm_compute; reflexivity|]. split; [vm_compute; reflexivity|]. split; [vm_compute; repeat constructor|].
  split; vm_compute; reflexivity.
Qed.
Example C119_text_ex : nth_error (fix_records f64_to_str klc ex_module) 1 = Some (Debug, lit "at: (10, 20)")
  /\ nth_error (fix_records f64_to_str klc ex_module) 2 = Some (Debug, c119_text).
Proof. split; vm_compute; reflexivity. Qed.
