(** Property theorems: numbers of at most 15 digits are written as they were read (C81). *)
From Coq Require Import String Reals Lra Lia.
From Flocq Require Import Core.Core IEEE754.BinarySingleNaN.
From Verif Require Import Base Str Num F64 F64Text Sexp DecSpec ShortSpec KeptSpec StaySpec ShortFacts ShortKeep.
Open Scope string_scope. Open Scope list_scope. Open Scope R_scope.

(** ** C81 *)
(** At most 15 digits, with or without a point, without zeros that could be left out *)
Theorem C81_kept : forall t neg, plain t -> (digit_count t <= 15)%nat ->
  exists x, f64_of_str (signed neg t) = Some x /\ is_finite x = true /\ f64_to_str x = signed neg t.
Proof. exact kept_short. Qed.
Print Assumptions C81_kept.
(** Also with any number of zeros before or after them, between 10^-300 and 10^300 *)
Theorem C81_significant : forall t neg v, plain t -> number_text t false v -> powerRZ 10 (-300) <= v <= powerRZ 10 300 -> decimal 15 v ->
  exists x, f64_of_str (signed neg t) = Some x /\ is_finite x = true /\ f64_to_str x = signed neg t.
Proof. exact kept_text. Qed.
Print Assumptions C81_significant.
(** Different decimals of 15 digits are read as different numbers. *)
Theorem C81_distinct : forall v w, powerRZ 10 (-300) <= v -> decimal 15 v -> decimal 15 w -> nearest v = nearest w -> v = w.
Proof. exact near_inj. Qed.
Print Assumptions C81_distinct.
(** No number has two plain texts. *)
Theorem C81_unique : forall t u neg v, plain t -> plain u -> number_text t neg v -> number_text u neg v -> t = u.
Proof. exact plain_unique. Qed.
Print Assumptions C81_unique.
(** Such numbers may stand in the files of C80. *)
Theorem C81_num : forall t neg, plain t -> (digit_count t <= 15)%nat -> num (SStr (signed neg t)).
Proof. exact short_num. Qed.
Print Assumptions C81_num.
(** With 16 digits this is false. *)
Theorem C81_sixteen_refuted : exists t x, plain t /\ digit_count t = 16%nat /\ f64_of_str t = Some x /\ f64_to_str x <> t.
Proof. exact sixteen. Qed.
Print Assumptions C81_sixteen_refuted.

Lemma plain_12 : plain (lit "12.7").
Proof.
  apply (plain_frac (lit "12") (lit "7")); [repeat constructor; vm_compute; discriminate|exists 49%N, (lit "2"); split; [reflexivity|discriminate]| |discriminate].
  repeat constructor; vm_compute; discriminate.
Qed.
Example C81_ex : plain (lit "12.7") /\ digit_count (lit "12.7") = 3%nat /\ option_map f64_to_str (f64_of_str (signed true (lit "12.7"))) = Some (lit "-12.7").
Proof. split; [exact plain_12|]. split; vm_compute; reflexivity. Qed.
Example C81_significant_ex : decimal 15 (IZR 123 * powerRZ 10 200) /\ powerRZ 10 (-300) <= IZR 123 * powerRZ 10 200 <= powerRZ 10 300.
Proof.
  split; [exists 123%Z, 200%Z; split; [split; reflexivity|reflexivity]|]. split.
  - apply Rle_trans with (1 * powerRZ 10 200); [rewrite Rmult_1_l; apply DecFacts.pow10_le; lia|]. apply Rmult_le_compat_r; [left; apply DecFacts.pow10_pos|lra].
  - apply Rle_trans with (powerRZ 10 3 * powerRZ 10 200); [|rewrite <- pow10_add; apply DecFacts.pow10_le; lia]. apply Rmult_le_compat_r; [left; apply DecFacts.pow10_pos|].
    rewrite DecFacts.pow10 by lia. apply IZR_le. discriminate.
Qed.
