(** Property theorems: exactly when layers, pads and texts are equal (C44). *)
From Coq Require Import String.
From Verif Require Import Base Str F64 F64Text FpData FpOps FpExamples EqSpec EqFacts.
Open Scope string_scope. Open Scope list_scope.

(** Equality ignores the net of a pad, the side of layers and the sign of zeros, and
    nothing else; nothing with a NaN is equal to anything. *)
Theorem C44_layer_exact : forall a b, layer_eqb a b = true <-> forget_layer a = forget_layer b.
Proof. exact layer_eq_iff. Qed.
Print Assumptions C44_layer_exact.
Theorem C44_pad_exact : forall a b,
  pad_eqb a b = true <-> all_numbers (nums_pad a) /\ all_numbers (nums_pad b) /\ forget_pad a = forget_pad b.
Proof. exact pad_exact. Qed.
Print Assumptions C44_pad_exact.
(** Any two reference texts are equal, and any two value texts. *)
Theorem C44_text_exact : forall a b, text_eqb a b = true <->
  (tx_name a = tx_name b /\ (tx_name a = lit "reference" \/ tx_name a = lit "value"))
  \/ (all_numbers (nums_text a) /\ all_numbers (nums_text b) /\ forget_text a = forget_text b).
Proof. exact text_exact. Qed.
Print Assumptions C44_text_exact.
Example C44_ex_exact : pad_eqb ex_pad1 ex_pad1 = true /\ pad_eqb ex_pad1 ex_pad2 = false /\ text_eqb ex_ref ex_val = false
  /\ layer_eqb (mk_layer SBack LFab) f_fab = true.
Proof. split; [|split; [|split]]; vm_compute; reflexivity. Qed.
