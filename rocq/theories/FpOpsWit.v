(** Witnesses for refuted footprint properties and examples. *)
From Coq Require Import String Reals Lra.
From Flocq Require Import Core.Core IEEE754.BinarySingleNaN.
From Verif Require Import Base Str Num F64 F64Text F64Facts F64Order FpData FpOps FpOpsSpec F64Grid
  Bound BoundSpec FpExamples.
Open Scope string_scope. Open Scope list_scope.

(** A fabrication line drawn from right to left is missing from the box. *)
Definition w_line := mk_line (mkxy "5" "0" XStart) (mkxy "-5" "0" XEnd) f_fab (fl "0.1").
Definition w_module := mk_module (lit "m") [EFpLine w_line].
Lemma module_bound_misses :
  forallb geo_ok (m_elements w_module) = true
  /\ In (fl "5", fl "0") (fab_points (EFpLine w_line))
  /\ inside (fl "5") (fl "0") (module_bound w_module) = false
  /\ inside (fl "-5") (fl "0") (module_bound w_module) = false.
Proof.
  split; [vm_compute; reflexivity|]. split; [left; reflexivity|].
  split; vm_compute; reflexivity.
Qed.

(** Flipping a text justified left twice gives a mirrored text. *)
Lemma flip_effects_left : exists e, flip_effects (flip_effects e) <> e.
Proof. exists (mk_effects font_default (Some JLeft)). cbn. discriminate. Qed.
Lemma flip_at_tenth : exists a, flip_at (flip_at a) <> a.
Proof.
  exists (mkat "0" "0" "0.1"). intros H.
  assert (E : fsame (at_rot (flip_at (flip_at (mkat "0" "0" "0.1")))) (at_rot (mkat "0" "0" "0.1")) = true).
  { rewrite H. vm_compute. reflexivity. }
  vm_compute in E. discriminate.
Qed.

(** Rotating by a tiny negative angle gives 360. *)
Lemma rotate_360 : exists a d, fleb fzero (at_rot a) = true /\ fltb (at_rot a) f360 = true
  /\ fleb (fneg f360) d = true /\ fleb d f360 = true /\ feqb (at_rot (rotate_at d a)) f360 = true.
Proof.
  exists (mkat "0" "0" "0"), (fl "-1e-20").
  split; [vm_compute; reflexivity|]. split; [vm_compute; reflexivity|]. split; [vm_compute; reflexivity|].
  split; [vm_compute; reflexivity|]. vm_compute; reflexivity.
Qed.

Lemma turn_ok_b r : gridb r = true -> fleb (fneg f360) r = true -> fleb r f360 = true -> Bsign r = false -> turn_ok r.
Proof.
  intros G L U S. apply gridb_grid in G. destruct f360_value as [F V]. split; [exact G|].
  apply fleb_rx in L; [|now rewrite fneg_nan; vm_compute|destruct G as [Fr _]; destruct r; auto; discriminate].
  apply fleb_rx in U; [|destruct G as [Fr _]; destruct r; auto; discriminate|now vm_compute].
  rewrite fneg_rx in L. rewrite (rx_finite f360) in L, U by assumption.
  rewrite (rx_finite r) in L, U by apply G. rewrite V in L, U. split; [lra|auto].
Qed.
Lemma ex_module_flips : Forall flips (m_elements ex_module).
Proof.
  unfold ex_module; cbn [m_elements].
  repeat (apply Forall_cons; [cbn [flips tx_at tx_effects pa_at at_rot ex_ref ex_val ex_pad1 ex_pad2]; try exact I|]);
    try apply Forall_nil;
    try (apply turn_ok_b; vm_compute; reflexivity);
    try (split; [apply turn_ok_b; vm_compute; reflexivity|right; reflexivity]).
Qed.
Lemma ex_module_front : exists l1 la l2, m_elements ex_module = l1 ++ ELayer la :: l2
     /\ (forall e, In e l1 -> forall x, e <> ELayer x)
     /\ (la_side la = SFront \/ la_side la = SBack).
Proof.
  exists [], f_cu. eexists. split; [reflexivity|]. split; [intros e []|now left].
Qed.

Definition ex_asc := mk_module (lit "m")
  [EAt (mkat "10" "20" "0"); EFpLine (mk_line (mkxy "-5" "0" XStart) (mkxy "5" "0" XEnd) f_fab (fl "0.1"));
   EPad ex_pad1; EPad ex_pad2;
   EFpCircle (mk_circle (mkxy "1" "2" XCenter) (mkxy "3" "0.5" XEnd) f_fab (fl "0.1"))].
Lemma ex_asc_ok : forallb geo_ok (m_elements ex_asc) = true /\ forallb ascending (m_elements ex_asc) = true.
Proof. split; vm_compute; reflexivity. Qed.
