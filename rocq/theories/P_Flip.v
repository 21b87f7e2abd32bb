(** Property theorems: what flipping and rotating a footprint change (C59). *)
From Coq Require Import String Reals.
From Flocq Require Import IEEE754.BinarySingleNaN.
From Verif Require Import Base Str F64 F64Text F64Order FpData FpOps FpOpsSpec FpExamples TightFacts FlipSpec FlipFacts.
Open Scope string_scope. Open Scope list_scope.

(** Flipping mirrors every place at the x axis, turns every angle a into 360 - a, puts
    every layer on the other side, toggles the mirroring of every text and changes
    nothing else; elements keep their number and order. *)
Theorem C59_flip (m : module) : m_name (flip_module m) = m_name m /\ Forall2 (fun e f =>
  Forall2 mirror_point (e_points e) (e_points f) /\ Forall2 mirror_angle (e_angles e) (e_angles f) /\
  Forall2 other_side (e_layers e) (e_layers f) /\ Forall2 toggled (e_justify e) (e_justify f) /\ e_rest f = e_rest e)
  (m_elements m) (m_elements (flip_module m)).
Proof. exact (flip_all m). Qed.
Print Assumptions C59_flip.
(** Rotating turns every angle and changes nothing else. *)
Theorem C59_rotate (d : f64) (m : module) : m_name (rotate_module d m) = m_name m /\ Forall2 (fun e f =>
  e_points f = e_points e /\ Forall2 (turned_by d) (e_angles e) (e_angles f) /\
  e_layers f = e_layers e /\ e_justify f = e_justify e /\ e_rest f = e_rest e)
  (m_elements m) (m_elements (rotate_module d m)).
Proof. exact (rotate_all d m). Qed.
Print Assumptions C59_rotate.
(** The parts compared above make up the whole element. *)
Theorem C59_parts (e f : element) : e_points e = e_points f -> e_angles e = e_angles f -> e_layers e = e_layers f ->
  e_justify e = e_justify f -> e_rest e = e_rest f -> e = f.
Proof. exact (views e f). Qed.
Print Assumptions C59_parts.
Example C59_ex : length (flat_map e_points (m_elements ex_module)) = 13%nat /\ length (flat_map e_angles (m_elements ex_module)) = 5%nat
  /\ length (flat_map e_layers (m_elements ex_module)) = 11%nat
  /\ feqb (at_rot (flip_at (mkat "1" "2" "90"))) (fl "270") = true /\ feqb (at_y (flip_at (mkat "1" "2" "90"))) (fl "-2") = true
  /\ flip_layers [f_cu; mk_layer SBoth LCu; mk_layer SBack LMask] = [mk_layer SBack LCu; mk_layer SBoth LCu; mk_layer SFront LMask].
Proof. split; [|split; [|split; [|split; [|split]]]]; vm_compute; reflexivity. Qed.
(** Mirroring an arc must reverse its direction.  The code keeps the angle, so the
    flipped arc is another one. *)
Theorem C59_arc_refuted : exists (a : fp_arc) (x y : R), on_arc a x y /\ ~ on_arc (flip_arc a) x (- y).
Proof. exists q_arc, 0%R, 90%R. exact arc_lost. Qed.
Print Assumptions C59_arc_refuted.
