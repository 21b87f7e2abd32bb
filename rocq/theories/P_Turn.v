(** Property theorems: what flipping and rotating by any angles lose (C78). *)
From Coq Require Import String Reals Lra.
From Flocq Require Import Core.Core IEEE754.BinarySingleNaN.
From Verif Require Import Base Str F64 F64Text F64Order FpData FpOps FpExamples FlipSpec F64Grid TurnSpec TurnFacts.
Open Scope string_scope. Open Scope list_scope.

(** Flipping twice restores everything but the last bits of the angles and the
    justification of texts. *)
Theorem C78_flip_twice (m : module) : Forall (fun e => Forall in_turn (e_angles e)) (m_elements m) ->
  m_name (flip_module (flip_module m)) = m_name m /\ Forall2 near_element (m_elements m) (m_elements (flip_module (flip_module m))).
Proof. exact (flip_near_all m). Qed.
Print Assumptions C78_flip_twice.
(** Rotating by any angle within a turn gives the sum of the angles but for 2^-43 and
    whole turns, and an angle within a turn. *)
Theorem C78_rotate (d : f64) (m : module) : within_turn d -> Forall (fun e => Forall in_turn (e_angles e)) (m_elements m) ->
  Forall2 (fun e f => e_points f = e_points e /\ e_layers f = e_layers e /\ e_justify f = e_justify e /\ e_rest f = e_rest e /\
    Forall2 (fun a b => in_turn b /\ near_angle (eps 43) (B2R b) (B2R a + B2R d)) (e_angles e) (e_angles f))
    (m_elements m) (m_elements (rotate_module d m)).
Proof. exact (rotate_near d m). Qed.
Print Assumptions C78_rotate.
(** Any number of rotations: errors add up, no more. *)
Theorem C78_rotations (l : list f64) (p : at_t) : Forall within_turn l -> in_turn (at_rot p) ->
  let q := fold_left (fun p d => rotate_at d p) l p in
  at_x q = at_x p /\ at_y q = at_y p /\ in_turn (at_rot q) /\
  near_angle (INR (length l) * eps 43) (B2R (at_rot q)) (B2R (at_rot p) + total l).
Proof. exact (fun H => turns_close l H p). Qed.
Print Assumptions C78_rotations.
Theorem C78_there_and_back (d : f64) (p : at_t) : in_turn (at_rot p) -> within_turn d ->
  let q := rotate_at (fneg d) (rotate_at d p) in
  at_x q = at_x p /\ at_y q = at_y p /\ in_turn (at_rot q) /\ near_angle (eps 42) (B2R (at_rot q)) (B2R (at_rot p)).
Proof. exact (there_and_back d p). Qed.
Print Assumptions C78_there_and_back.

(** Angles that are no multiples of 2^-43 (see C19, C20), and one beyond a turn after the first rotation *)
Lemma turn_by (a : f64) : fleb fzero a && fleb a f360 = true -> in_turn a.
Proof.
  intros H. apply andb_prop in H as [A B]. destruct (fleb_not_nan _ _ A) as [_ N]. destruct f360_value as [F V].
  apply fleb_rx in A; [|reflexivity|exact N]. apply fleb_rx in B; [|exact N|vm_compute; reflexivity]. rewrite (rx_finite f360 F), V in B. cbn [rx fzero B2R] in A.
  pose proof fmaxR_big as M. destruct a as [s|s| |s q e E]; cbn [rx] in A, B.
  - split; [reflexivity|]. cbn [B2R]. lra.
  - destruct s; cbn in A, B; lra.
  - discriminate.
  - split; [reflexivity|]. split; [exact A|exact B].
Qed.
Lemma within_by (a : f64) : fleb (fneg f360) a && fleb a f360 = true -> within_turn a.
Proof.
  intros H. apply andb_prop in H as [A B]. destruct (fleb_not_nan _ _ A) as [N3 N]. destruct f360_value as [F V].
  apply fleb_rx in A; [|exact N3|exact N]. apply fleb_rx in B; [|exact N|vm_compute; reflexivity]. rewrite fneg_rx, (rx_finite f360 F), V in A. rewrite (rx_finite f360 F), V in B.
  pose proof fmaxR_big as M. destruct a as [s|s| |s q e E]; cbn [rx] in A, B.
  - split; [reflexivity|]. cbn [B2R]. lra.
  - destruct s; cbn in A, B; lra.
  - discriminate.
  - split; [reflexivity|]. split; [exact A|exact B].
Qed.
Example C78_ex : in_turn (fl "0.1") /\ in_turn (fl "359.99999999999994") /\ within_turn (fl "-33.3") /\ within_turn (fl "360") /\
  feqb (at_rot (flip_at (flip_at (mkat "0" "0" "0.1")))) (fl "0.1") = false /\
  feqb (at_rot (rotate_at (fl "0.3") (mkat "0" "0" "359.9"))) (fl "0.19999999999998863") = true.
Proof.
  split; [apply turn_by; vm_compute; reflexivity|]. split; [apply turn_by; vm_compute; reflexivity|].
  split; [apply within_by; vm_compute; reflexivity|]. split; [apply within_by; vm_compute; reflexivity|]. split; vm_compute; reflexivity.
Qed.
Example C78_module_ex : Forall (fun e => Forall in_turn (e_angles e)) (m_elements ex_module).
Proof.
  assert (K : forall l, forallb (fun e => forallb (fun a => fleb fzero a && fleb a f360) (e_angles e)) l = true -> Forall (fun e => Forall in_turn (e_angles e)) l).
  { intros l H. apply Forall_forall. intros e I. rewrite forallb_forall in H. specialize (H e I). apply Forall_forall. intros a J.
    rewrite forallb_forall in H. apply turn_by. exact (H a J). }
  apply K. vm_compute. reflexivity.
Qed.
