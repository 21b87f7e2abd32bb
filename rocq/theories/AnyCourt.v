(** Lemmas for C118: the courtyard that a fix draws does not depend on the order. *)
From Coq Require Import String Permutation.
From Flocq Require Import IEEE754.BinarySingleNaN.
From Verif Require Import Base Str F64 F64Order FpData FpOps FpOpsSpec Bound BoundSpec BoundFacts CheckFix CheckFacts SymCheck FpCheck LogFacts LyBoundFacts FixFacts AnyOrderSpec AnyOrderFacts.
Open Scope string_scope. Open Scope list_scope.

(** Equal up to the sign of zero *)
Definition zeq (a b : f64) : Prop := a = b \/ exists s t, a = B754_zero s /\ b = B754_zero t.
Lemma feqb_zeq a b : feqb a b = true -> zeq a b.
Proof.
  intros H. destruct (feqb_not_nan _ _ H) as [A B].
  destruct a as [sx|sx| |sx mx ex Hx], b as [sy|sy| |sy my ey Hy]; try discriminate A; try discriminate B;
    try (destruct sx; discriminate H); try (destruct sy; discriminate H); try (destruct sx, sy; discriminate H).
  - right. now exists sx, sy.
  - left. destruct sx, sy; try discriminate H; reflexivity.
  - left. apply feqb_rx in H; [|exact A|exact B]. apply B2R_inj; [reflexivity|reflexivity|]. now rewrite !rx_finite in H by reflexivity.
Qed.
Lemma zeq_sub a b x : zeq a b -> zeq (fsub a x) (fsub b x).
Proof.
  intros [->|(s & t & -> & ->)]; [now left|]. destruct x as [u|u| |u m e H]; [|now left..].
  right. destruct s, t, u; cbn; eauto.
Qed.
Lemma zeq_sub2 a b c d : zeq a b -> zeq c d -> zeq (fsub a c) (fsub b d).
Proof.
  intros [->|(s & t & -> & ->)] [->|(u & v & -> & ->)]; [now left| | |right; destruct s, t, u, v; cbn; eauto].
  - destruct b as [s|s| |s m e H]; [|now left..]. right. destruct s, u, v; cbn; eauto.
  - apply zeq_sub. right. now exists s, t.
Qed.
Lemma zeq_abs a b : zeq a b -> fabs a = fabs b.
Proof. intros [->|(s & t & -> & ->)]; reflexivity. Qed.
Lemma zeq_lt a b c d : zeq a b -> zeq c d -> fltb a c = fltb b d.
Proof.
  intros [->|(s & t & -> & ->)] [->|(u & v & -> & ->)]; try reflexivity; first [destruct d as [?|[]| |[] ? ? ?]; reflexivity|destruct b as [?|[]| |[] ? ? ?]; reflexivity].
Qed.
Lemma zeq_nan a b : zeq a b -> is_nan a = is_nan b.
Proof. intros [->|(s & t & -> & ->)]; reflexivity. Qed.
Lemma zeq_min a b c d : zeq a b -> zeq c d -> zeq (fmin a c) (fmin b d).
Proof. intros H K. unfold fmin. rewrite (zeq_nan a b H), (zeq_nan c d K), (zeq_lt c d a b K H). destruct (is_nan b); [exact K|]. destruct (is_nan d); [exact H|]. destruct (fltb d b); assumption. Qed.
Lemma zeq_max a b c d : zeq a b -> zeq c d -> zeq (fmax a c) (fmax b d).
Proof. intros H K. unfold fmax. rewrite (zeq_nan a b H), (zeq_nan c d K), (zeq_lt a b c d H K). destruct (is_nan b); [exact K|]. destruct (is_nan d); [exact H|]. destruct (fltb b d); assumption. Qed.
(** Adding a number that is not zero takes the difference away. *)
Definition nonzero (o : f64) : bool := match o with B754_zero _ => false | _ => true end.
Lemma zeq_sub_eq a b o : nonzero o = true -> zeq a b -> fsub a o = fsub b o.
Proof. intros N [->|(s & t & -> & ->)]; [reflexivity|]. destruct o; try discriminate N; reflexivity. Qed.
Lemma zeq_add_eq a b o : nonzero o = true -> zeq a b -> fadd a o = fadd b o.
Proof. intros N [->|(s & t & -> & ->)]; [reflexivity|]. destruct o; try discriminate N; reflexivity. Qed.
Lemma offset_nonzero m b : nonzero (courtyard_offset m b) = true.
Proof. unfold courtyard_offset. destruct (_ && _)%bool; [vm_compute; reflexivity|]. destruct (starts_with _ _); vm_compute; reflexivity. Qed.
Lemma same_zeq a b : same_bound a b = true -> bounded a = true -> zeq (bx1 a) (bx1 b) /\ zeq (by1 a) (by1 b) /\ zeq (bx2 a) (bx2 b) /\ zeq (by2 a) (by2 b).
Proof.
  unfold same_bound. intros S B. rewrite B in S. destruct (bounded b); [|discriminate S]. rewrite !andb_true_iff in S. repeat apply conj; apply feqb_zeq; tauto.
Qed.
Lemma court_same m m' : m_name m' = m_name m -> module_at m' = module_at m -> bounded (module_bound m) = true -> same_bound (module_bound m) (module_bound m') = true ->
  courtyard m' = courtyard m.
Proof.
  intros N A B S. destruct (same_zeq _ _ S B) as (X1 & Y1 & X2 & Y2). unfold courtyard. rewrite A. destruct (module_at m) as [x y].
  assert (O : courtyard_offset m' (module_bound m') = courtyard_offset m (module_bound m)).
  { unfold courtyard_offset, bound_width, bound_height. rewrite N. rewrite (zeq_abs _ _ (zeq_sub2 _ _ _ _ X1 X2)), (zeq_abs _ _ (zeq_sub2 _ _ _ _ Y1 Y2)). reflexivity. }
  rewrite O. pose proof (offset_nonzero m (module_bound m)) as Z. generalize dependent (courtyard_offset m (module_bound m)). intros o _ Z.
  pose proof (zeq_sub _ _ x X1) as U1. pose proof (zeq_sub _ _ x X2) as U2. pose proof (zeq_sub _ _ y Y1) as V1. pose proof (zeq_sub _ _ y Y2) as V2.
  rewrite (zeq_sub_eq _ _ o Z (zeq_min _ _ _ _ U1 U2)), (zeq_sub_eq _ _ o Z (zeq_min _ _ _ _ V1 V2)), (zeq_add_eq _ _ o Z (zeq_max _ _ _ _ U1 U2)), (zeq_add_eq _ _ o Z (zeq_max _ _ _ _ V1 V2)). reflexivity.
Qed.
Lemma court_mixed m m' : at_most_one a_place (m_elements m) -> is_finite (fst (module_at m)) = true -> is_finite (snd (module_at m)) = true ->
  forallb geo_ok (m_elements m) = true -> mixed m m' -> courtyard m' = courtyard m.
Proof.
  intros O Fx Fy G M. pose proof M as [N _]. apply court_same; [exact N|now apply at_perm|now apply module_bound_ok|now apply box_mixed].
Qed.
Lemma attr_name m : m_name (fix_attr m) = m_name m.
Proof. unfold fix_attr. now destruct (smd_only m && negb (has_smd_attr m))%bool. Qed.
Lemma stage_court c m : one_of_each m -> let m4 := fix_attr (mk_module (m_name m) (stage c (m_name m) (m_elements m))) in
  courtyard m4 = courtyard m /\ courtyard_lines m4 = courtyard_lines m.
Proof.
  intros O m4. pose proof (stage_spec c m O) as R.
  assert (C : core (m_elements m4) = core (m_elements m)).
  { unfold m4. rewrite attr_core, (ref2_core _ _ _ R). unfold fix_value. rewrite same_core by reflexivity. unfold fix_reference. now rewrite same_core by reflexivity. }
  split; [apply core_same_courtyard; [exact C|exact (attr_name _)]|]. now destruct (core_same_counts m m4 C) as (E & _ & _).
Qed.
Lemma fix_mixed_court c m m' q : one_of_each m -> at_most_one a_place (m_elements m) -> is_finite (fst (module_at m)) = true -> is_finite (snd (module_at m)) = true ->
  forallb geo_ok (m_elements m) = true -> mixed m m' -> fp_fix c m = Ok q -> exists q', fp_fix c m' = Ok q' /\ mixed q q'.
Proof.
  intros O A Fx Fy G M F. destruct (fix_total c m') as [q' F']. exists q'. split; [exact F'|]. pose proof O as (O1 & O2 & O3). pose proof M as [N P].
  assert (O' : one_of_each m') by (split; [|split]; eapply one_perm; eauto).
  unfold fp_fix in F, F'. rewrite (stage_spec c m O) in F. rewrite (stage_spec c m' O') in F'. cbn [bind] in F, F'. assert (F1 : forall x y : module, Ok x = Ok y -> x = y) by (intros x y E; now injection E). apply F1 in F. apply F1 in F'. clear F1. subst q q'.
  assert (S : mixed (fix_attr (mk_module (m_name m) (stage c (m_name m) (m_elements m)))) (fix_attr (mk_module (m_name m') (stage c (m_name m') (m_elements m'))))).
  { apply mixed_attr. split; [exact N|]. cbn [m_elements]. rewrite N. now apply stage_perm. }
  destruct (stage_court c m O) as [C1 C2], (stage_court c m' O') as [D1 D2]. destruct (counts_mixed _ _ S) as (K & _).
  unfold fix_courtyard. rewrite K, C2, C1, D1, (court_mixed m m' A Fx Fy G M). destruct (Nat.ltb (courtyard_lines m) 4); [now apply mixed_push|exact S].
Qed.
