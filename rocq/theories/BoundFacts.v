(** Lemmas about bounding boxes. *)
From Coq Require Import Reals Lra Permutation.
From Verif Require Import Base F64 Bound BoundSpec F64Order.
From Flocq Require Import IEEE754.BinarySingleNaN.

Lemma bnum_iff b : bnum b = true <->
  is_nan (bx1 b) = false /\ is_nan (by1 b) = false /\ is_nan (bx2 b) = false /\ is_nan (by2 b) = false.
Proof. unfold bnum. rewrite !andb_true_iff, !negb_true_iff. tauto. Qed.

Lemma covers_iff c b : bnum c = true -> bnum b = true ->
  covers c b = true <->
  (rx (bx1 c) <= rx (bx1 b) /\ rx (by1 c) <= rx (by1 b)
   /\ rx (bx2 b) <= rx (bx2 c) /\ rx (by2 b) <= rx (by2 c))%R.
Proof.
  intros Hc Hb. apply bnum_iff in Hc. apply bnum_iff in Hb.
  destruct Hc as (?&?&?&?), Hb as (?&?&?&?).
  unfold covers. rewrite !andb_true_iff, !fleb_rx by assumption. tauto.
Qed.

Lemma update_num a b : bnum a = true -> bnum b = true -> bnum (bound_update a b) = true.
Proof.
  intros Ha Hb. unfold bound_update. destruct (bounded b); [|exact Ha].
  destruct (negb (bounded a)); [exact Hb|].
  apply bnum_iff in Ha. apply bnum_iff in Hb. apply bnum_iff.
  destruct Ha as (?&?&?&?), Hb as (?&?&?&?). cbn [bx1 by1 bx2 by2].
  repeat split; first [apply fmin_nan|apply fmax_nan]; assumption.
Qed.

Lemma update_coords a b : bounded a = true -> bounded b = true ->
  bound_update a b = mk_bound (fmin (bx1 a) (bx1 b)) (fmin (by1 a) (by1 b))
                  (fmax (bx2 a) (bx2 b)) (fmax (by2 a) (by2 b)) true.
Proof. unfold bound_update; intros -> ->. reflexivity. Qed.

Lemma update_lub a b : bounded a = true -> bounded b = true -> bnum a = true -> bnum b = true ->
  covers (bound_update a b) a = true /\ covers (bound_update a b) b = true
  /\ forall c, covers c a = true -> covers c b = true -> covers c (bound_update a b) = true.
Proof.
  intros Ba Bb Ha Hb. pose proof (update_num a b Ha Hb) as Hu.
  split; [|split].
  - apply covers_iff; auto. rewrite update_coords by assumption. cbn [bx1 by1 bx2 by2].
    apply bnum_iff in Ha. apply bnum_iff in Hb. destruct Ha as (?&?&?&?), Hb as (?&?&?&?).
    rewrite !rx_fmin, !rx_fmax by assumption.
    repeat split; first [apply Rmin_l|apply Rmax_l].
  - apply covers_iff; auto. rewrite update_coords by assumption. cbn [bx1 by1 bx2 by2].
    apply bnum_iff in Ha. apply bnum_iff in Hb. destruct Ha as (?&?&?&?), Hb as (?&?&?&?).
    rewrite !rx_fmin, !rx_fmax by assumption.
    repeat split; first [apply Rmin_r|apply Rmax_r].
  - intros c Hca Hcb.
    assert (Hc : bnum c = true).
    { unfold covers in Hca. rewrite !andb_true_iff in Hca. destruct Hca as (((A&B)&C)&D).
      apply bnum_iff. apply fleb_not_nan in A, B, C, D. tauto. }
    apply covers_iff in Hca; auto. apply covers_iff in Hcb; auto. apply covers_iff; auto.
    rewrite update_coords by assumption. cbn [bx1 by1 bx2 by2].
    apply bnum_iff in Ha. apply bnum_iff in Hb. destruct Ha as (?&?&?&?), Hb as (?&?&?&?).
    rewrite !rx_fmin, !rx_fmax by assumption.
    destruct Hca as (?&?&?&?), Hcb as (?&?&?&?).
    repeat split; first [apply Rmin_glb; assumption|apply Rmax_lub; assumption].
Qed.

Lemma same_bound_iff a b : bnum a = true -> bnum b = true -> bounded a = true -> bounded b = true ->
  same_bound a b = true <->
  (rx (bx1 a) = rx (bx1 b) /\ rx (by1 a) = rx (by1 b) /\ rx (bx2 a) = rx (bx2 b) /\ rx (by2 a) = rx (by2 b)).
Proof.
  intros Ha Hb Ba Bb. apply bnum_iff in Ha. apply bnum_iff in Hb.
  destruct Ha as (?&?&?&?), Hb as (?&?&?&?). unfold same_bound. rewrite Ba, Bb.
  cbn [andb]. rewrite !andb_true_iff, !feqb_rx by assumption. tauto.
Qed.

Lemma update_bounded a b : bounded (bound_update a b) = (bounded a || bounded b)%bool.
Proof. unfold bound_update. destruct (bounded b) eqn:Eb, (bounded a) eqn:Ea; cbn; auto. Qed.

Lemma same_bound_refl a : bnum a = true -> same_bound a a = true.
Proof.
  intros Ha. destruct (bounded a) eqn:B; [|unfold same_bound; rewrite B; reflexivity].
  apply same_bound_iff; auto.
Qed.

Lemma same_bound_sym a b : bnum a = true -> bnum b = true -> same_bound a b = true -> same_bound b a = true.
Proof.
  intros Ha Hb H. destruct (bounded a) eqn:Ba; destruct (bounded b) eqn:Bb.
  - apply same_bound_iff in H; auto. apply same_bound_iff; auto. intuition congruence.
  - unfold same_bound in H; rewrite Ba, Bb in H. discriminate.
  - unfold same_bound in H; rewrite Ba, Bb in H. discriminate.
  - unfold same_bound; now rewrite Bb, Ba.
Qed.

Lemma same_bound_trans a b c : bnum a = true -> bnum b = true -> bnum c = true ->
  same_bound a b = true -> same_bound b c = true -> same_bound a c = true.
Proof.
  intros Ha Hb Hc H1 H2.
  destruct (bounded a) eqn:Ba; destruct (bounded b) eqn:Bb; destruct (bounded c) eqn:Bc;
    try (unfold same_bound in H1; rewrite Ba, Bb in H1; discriminate);
    try (unfold same_bound in H2; rewrite Bb, Bc in H2; discriminate).
  - apply same_bound_iff in H1; auto. apply same_bound_iff in H2; auto. apply same_bound_iff; auto.
    intuition congruence.
  - unfold same_bound; now rewrite Ba, Bc.
Qed.

Ltac bcoords :=
  repeat match goal with H : bnum _ = true |- _ => apply bnum_iff in H; destruct H as (?&?&?&?) end;
  cbn [bx1 by1 bx2 by2];
  repeat first [rewrite rx_fmin by auto using fmin_nan, fmax_nan
               |rewrite rx_fmax by auto using fmin_nan, fmax_nan].

Lemma update_comm a b : bnum a = true -> bnum b = true ->
  same_bound (bound_update a b) (bound_update b a) = true.
Proof.
  intros Ha Hb. destruct (bounded a) eqn:Ba; destruct (bounded b) eqn:Bb.
  - apply same_bound_iff; auto using update_num; try (rewrite update_bounded, Ba, Bb; reflexivity).
    rewrite !update_coords by assumption. bcoords.
    repeat split; first [apply Rmin_comm|apply Rmax_comm].
  - unfold bound_update; rewrite Ba, Bb. cbn [negb].
    destruct a as [x1 y1 x2 y2 k]; cbn [bounded] in Ba; subst k. apply same_bound_refl, Ha.
  - unfold bound_update; rewrite Ba, Bb. cbn [negb].
    destruct b as [x1 y1 x2 y2 k]; cbn [bounded] in Bb; subst k. apply same_bound_refl, Hb.
  - unfold bound_update, same_bound; rewrite Ba, Bb, Ba. reflexivity.
Qed.

Lemma update_unbounded_r a b : bounded b = false -> bound_update a b = a.
Proof. unfold bound_update; now intros ->. Qed.
Lemma update_unbounded_l a b : bounded a = false -> bounded b = true -> bound_update a b = b.
Proof. unfold bound_update; intros -> Hb; rewrite Hb. destruct b; cbn in *; now subst. Qed.

Lemma update_assoc a b c : bnum a = true -> bnum b = true -> bnum c = true ->
  same_bound (bound_update (bound_update a b) c) (bound_update a (bound_update b c)) = true.
Proof.
  intros Ha Hb Hc. destruct (bounded b) eqn:Bb; [destruct (bounded c) eqn:Bc; [destruct (bounded a) eqn:Ba|]|].
  - apply same_bound_iff; auto using update_num;
      try (rewrite !update_bounded, ?Ba, ?Bb, ?Bc; reflexivity).
    rewrite (update_coords a b), (update_coords b c) by assumption.
    rewrite !update_coords by (assumption || reflexivity). bcoords.
    repeat split; first [symmetry; apply Rmin_assoc|symmetry; apply Rmax_assoc|apply Rmin_assoc|apply Rmax_assoc].
  - rewrite (update_unbounded_l a b) by assumption.
    rewrite (update_unbounded_l a) by (auto; rewrite update_bounded, Bb; reflexivity).
    apply same_bound_refl. auto using update_num.
  - rewrite !(update_unbounded_r _ c) by assumption. apply same_bound_refl; auto using update_num.
  - rewrite (update_unbounded_r a b) by assumption.
    destruct (bounded c) eqn:Bc.
    + rewrite (update_unbounded_l b c) by assumption. apply same_bound_refl; auto using update_num.
    + rewrite (update_unbounded_r b c), (update_unbounded_r a b), (update_unbounded_r a c) by assumption.
      apply same_bound_refl, Ha.
Qed.

Lemma update_compat a a' b : bnum a = true -> bnum a' = true -> bnum b = true ->
  same_bound a a' = true -> same_bound (bound_update a b) (bound_update a' b) = true.
Proof.
  intros Ha Ha' Hb H.
  assert (E : bounded a = bounded a').
  { unfold same_bound in H. destruct (bounded a).
    - destruct (bounded a'); [reflexivity|discriminate].
    - destruct (bounded a'); [discriminate|reflexivity]. }
  destruct (bounded b) eqn:Bb; [|now rewrite !update_unbounded_r].
  destruct (bounded a) eqn:Ba.
  - symmetry in E. apply same_bound_iff in H; auto.
    apply same_bound_iff; auto using update_num; try (rewrite update_bounded, ?Ba, ?E; reflexivity).
    rewrite !update_coords by assumption. bcoords. destruct H as (-> & -> & -> & ->). auto.
  - rewrite !update_unbounded_l by congruence. apply same_bound_refl, Hb.
Qed.

Lemma all_num l : forall a, bnum a = true -> Forall (fun b => bnum b = true) l -> bnum (bound_all a l) = true.
Proof.
  induction l as [|b l IH]; intros a Ha Hl; cbn [bound_all fold_left]; [exact Ha|].
  inversion Hl; subst. apply IH; auto using update_num.
Qed.

Lemma all_compat l : forall a a', bnum a = true -> bnum a' = true -> Forall (fun b => bnum b = true) l ->
  same_bound a a' = true -> same_bound (bound_all a l) (bound_all a' l) = true.
Proof.
  induction l as [|b l IH]; intros a a' Ha Ha' Hl H; cbn [bound_all fold_left]; [exact H|].
  inversion Hl; subst. apply IH; auto using update_num, update_compat.
Qed.

Lemma update_swap a b c : bnum a = true -> bnum b = true -> bnum c = true ->
  same_bound (bound_update (bound_update a b) c) (bound_update (bound_update a c) b) = true.
Proof.
  intros Ha Hb Hc.
  eapply same_bound_trans; [| | |apply update_assoc; assumption|]; auto using update_num.
  eapply same_bound_trans; [| | | |apply same_bound_sym; [| |apply update_assoc]]; auto 6 using update_num.
  (* a u (b u c) = a u (c u b) *)
  destruct (bounded b) eqn:Bb; destruct (bounded c) eqn:Bc.
  - destruct (bounded a) eqn:Ba.
    + apply same_bound_iff; auto using update_num;
        try (rewrite !update_bounded, ?Ba, ?Bb, ?Bc; reflexivity).
      rewrite (update_coords b c), (update_coords c b) by assumption.
      rewrite !update_coords by (assumption || reflexivity). bcoords.
      rewrite (Rmin_comm (rx (bx1 b))), (Rmin_comm (rx (by1 b))), (Rmax_comm (rx (bx2 b))), (Rmax_comm (rx (by2 b))).
      auto.
    + rewrite !(update_unbounded_l a) by (auto; rewrite update_bounded, ?Bb, ?Bc; reflexivity).
      apply update_comm; assumption.
  - rewrite (update_unbounded_r b c), (update_unbounded_l c b) by assumption. apply same_bound_refl; auto using update_num.
  - rewrite (update_unbounded_r c b), (update_unbounded_l b c) by assumption. apply same_bound_refl; auto using update_num.
  - rewrite !(update_unbounded_r _ c), !(update_unbounded_r _ b) by assumption.
    rewrite (update_unbounded_r a c) by assumption. apply same_bound_refl; auto.
Qed.

Lemma all_permutation l l' : Permutation l l' -> forall a, bnum a = true ->
  Forall (fun b => bnum b = true) l -> same_bound (bound_all a l) (bound_all a l') = true.
Proof.
  induction 1 as [|x l l' P IH|x y l|l1 l2 l3 P1 IH1 P2 IH2]; intros a Ha Hl.
  - now apply same_bound_refl.
  - inversion Hl; subst. cbn [bound_all fold_left]. apply IH; auto using update_num.
  - inversion Hl as [|? ? Hy Hl2]; subst. inversion Hl2; subst. cbn [bound_all fold_left].
    apply all_compat; auto using update_num, update_swap.
  - assert (Hl2 : Forall (fun b => bnum b = true) l2) by (eapply Permutation_Forall; eassumption).
    assert (Hl3 : Forall (fun b => bnum b = true) l3) by (eapply Permutation_Forall; eassumption).
    eapply same_bound_trans; [| | |apply IH1|apply IH2]; auto using all_num.
Qed.

(** Everything merged is covered. *)
Lemma covers_trans a b c : covers a b = true -> covers b c = true -> covers a c = true.
Proof.
  unfold covers. rewrite !andb_true_iff. intros (((A&B)&C)&D) (((E&F)&G)&H).
  repeat split; eauto using fleb_trans.
Qed.
Lemma covers_refl a : bnum a = true -> covers a a = true.
Proof.
  intros H; apply bnum_iff in H as (?&?&?&?). unfold covers. rewrite !fleb_refl by assumption. reflexivity.
Qed.

Lemma update_covers_l a b : bounded a = true -> bnum a = true -> bnum b = true ->
  covers (bound_update a b) a = true.
Proof.
  intros Ba Ha Hb. destruct (bounded b) eqn:Bb; [now apply update_lub|].
  rewrite update_unbounded_r by assumption. now apply covers_refl.
Qed.
Lemma update_covers_r a b : bounded b = true -> bnum a = true -> bnum b = true ->
  covers (bound_update a b) b = true.
Proof.
  intros Bb Ha Hb. destruct (bounded a) eqn:Ba; [now apply update_lub|].
  rewrite update_unbounded_l by assumption. now apply covers_refl.
Qed.

Lemma all_covers_init l : forall a, bounded a = true -> bnum a = true ->
  Forall (fun b => bnum b = true) l -> covers (bound_all a l) a = true.
Proof.
  induction l as [|b l IH]; intros a Ba Ha Hl; cbn [bound_all fold_left]; [now apply covers_refl|].
  inversion Hl; subst. eapply covers_trans; [apply IH|apply update_covers_l]; auto using update_num.
  rewrite update_bounded, Ba. reflexivity.
Qed.
Lemma all_covers l : forall a b, bnum a = true -> Forall (fun b => bnum b = true) l ->
  In b l -> bounded b = true -> covers (bound_all a l) b = true.
Proof.
  induction l as [|c l IH]; intros a b Ha Hl Hin Bb; [contradiction|].
  inversion Hl; subst. cbn [bound_all fold_left]. destruct Hin as [->|Hin].
  - eapply covers_trans; [apply all_covers_init|apply update_covers_r]; auto using update_num.
    rewrite update_bounded, Bb. apply orb_true_r.
  - apply IH; auto using update_num.
Qed.

Lemma inside_covers x y b c : inside x y b = true -> covers c b = true -> inside x y c = true.
Proof.
  unfold inside, covers. rewrite !andb_true_iff. intros (((A&B)&C)&D) (((E&F)&G)&H).
  repeat split; eauto using fleb_trans.
Qed.

(** Normalisation. *)
Lemma fgtb_false_fleb x y : is_nan x = false -> is_nan y = false -> fgtb x y = false -> fleb x y = true.
Proof.
  intros Hx Hy H. apply fleb_rx; auto. apply Rnot_lt_le. intros L.
  apply fgtb_rx in L; auto. congruence.
Qed.
Lemma fgtb_fleb x y : fgtb x y = true -> fleb y x = true.
Proof.
  intros H. destruct (fltb_not_nan _ _ H). apply fgtb_rx in H; auto. apply fleb_rx; auto. lra.
Qed.

Lemma swap_ordered b : bnum b = true -> ordered (bound_swap b) = true.
Proof.
  intros H; apply bnum_iff in H as (?&?&?&?). unfold bound_swap.
  destruct (fgtb (bx1 b) (bx2 b)) eqn:E; destruct (fgtb (by1 b) (by2 b)) eqn:F;
    unfold ordered; cbn [bx1 by1 bx2 by2]; apply andb_true_iff;
    auto using fgtb_fleb, fgtb_false_fleb.
Qed.
Lemma swap_num b : bnum (bound_swap b) = bnum b.
Proof.
  unfold bound_swap. destruct (fgtb (bx1 b) (bx2 b)); destruct (fgtb (by1 b) (by2 b));
    unfold bnum; cbn [bx1 by1 bx2 by2];
    destruct (is_nan (bx1 b)), (is_nan (bx2 b)), (is_nan (by1 b)), (is_nan (by2 b)); reflexivity.
Qed.
Lemma swap_bounded b : bounded (bound_swap b) = bounded b.
Proof. unfold bound_swap. destruct (fgtb (bx1 b) (bx2 b)); destruct (fgtb (by1 b) (by2 b)); reflexivity. Qed.

Lemma fleb_fgtb x y : fleb x y = true -> fgtb x y = false.
Proof.
  intros H. destruct (fleb_not_nan _ _ H). apply fleb_rx in H; auto.
  destruct (fgtb x y) eqn:E; [|reflexivity]. apply fgtb_rx in E; auto. lra.
Qed.

Lemma swap_id b : ordered b = true -> bound_swap b = b.
Proof.
  unfold ordered, bound_swap. intros H. apply andb_prop in H as [H1 H2].
  rewrite (fleb_fgtb _ _ H1), (fleb_fgtb _ _ H2). destruct b; reflexivity.
Qed.
(** Normalising only enlarges the set of covered points. *)
Lemma swap_inside b x y : inside x y b = true -> inside x y (bound_swap b) = true.
Proof.
  intros H. rewrite swap_id; [exact H|]. unfold inside in H. unfold ordered.
  rewrite !andb_true_iff in *. destruct H as (((A&B)&C)&D). split; eapply fleb_trans; eassumption.
Qed.
Lemma ordered_covers b c : ordered b = true -> covers c b = true -> ordered c = true.
Proof.
  unfold ordered, covers. rewrite !andb_true_iff. intros [A B] (((C&D)&E)&F).
  split; eauto using fleb_trans.
Qed.
