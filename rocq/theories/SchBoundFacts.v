(** Bounding boxes of schematics. *)
From Coq Require Import Reals Lra Lia.
From Flocq Require Import Core.Core IEEE754.BinarySingleNaN.
From Verif Require Import Base Num F64 F64Order Bound BoundSpec BoundFacts SchData SchOps SchSpec.
Open Scope R_scope.

(** The value of an integer converted to f64. *)
Lemma f64_of_Z_rx z : rx (f64_of_Z z) = clip (rnd (IZR z)) /\ is_nan (f64_of_Z z) = false.
Proof.
  unfold f64_of_Z. pose proof (binary_normalize_correct 53 1024 F64.prec_gt_0 F64.prec_lt_emax mode_NE z 0 false) as H. cbv zeta in H.
  assert (E : F2R (Float radix2 z 0) = IZR z) by (unfold F2R; cbn; lra). rewrite E in H.
  change (bpow radix2 1024) with fmaxR in H.
  change (round radix2 (SpecFloat.fexp 53 1024) (round_mode mode_NE) (IZR z)) with (rnd (IZR z)) in H.
  destruct (Rlt_bool_spec (Rabs (rnd (IZR z))) fmaxR) as [L|L].
  - destruct H as (H1 & H2 & _).
    rewrite rx_finite by exact H2. eapply conj; [etransitivity; [exact H1|symmetry; now apply clip_id]|].
    revert H2. generalize (binary_normalize 53 1024 F64.prec_gt_0 F64.prec_lt_emax mode_NE z 0 false). intros b. destruct b; try discriminate; reflexivity.
  - change (binary_overflow 53 1024 mode_NE (Rlt_bool (IZR z) 0)) with (SpecFloat.S754_infinity (Rlt_bool (IZR z) 0)) in H.
    split; [|eapply nan_of_SF, H]. rewrite (rx_of_SF _ _ H). pose proof fmaxR_pos as P.
    destruct (Rlt_bool_spec (IZR z) 0) as [N|N].
    + assert (K : rnd (IZR z) <= rnd 0) by (apply rnd_le; lra). rewrite rnd_0 in K.
      rewrite Rabs_left1 in L by assumption. rewrite clip_lo; lra.
    + assert (K : rnd 0 <= rnd (IZR z)) by (apply rnd_le; lra). rewrite rnd_0 in K.
      rewrite Rabs_right in L by lra. rewrite clip_hi; lra.
Qed.
Lemma f64_of_Z_le a b : (a <= b)%Z -> fleb (f64_of_Z a) (f64_of_Z b) = true.
Proof.
  intros H. destruct (f64_of_Z_rx a) as [A NA], (f64_of_Z_rx b) as [B NB].
  apply fleb_rx; auto. rewrite A, B. apply clip_le, rnd_le, IZR_le, H.
Qed.
Lemma f64_of_Z_exact z : (Z.abs z <= 2 ^ 53)%Z -> rx (f64_of_Z z) = IZR z.
Proof.
  intros H. destruct (f64_of_Z_rx z) as [-> _].
  assert (E : rnd (IZR z) = IZR z).
  { apply round_generic; [apply valid_rnd_round_mode|]. 
    destruct (Z.eq_dec (Z.abs z) (2 ^ 53)) as [E|E].
    - assert (X : IZR z = bpow radix2 53 \/ IZR z = - bpow radix2 53).
      { change (bpow radix2 53) with (IZR (2 ^ 53)). rewrite <- opp_IZR.
        destruct (Z.abs_eq_cases z (2 ^ 53)) as [Y|Y]; [rewrite E; reflexivity|left; now f_equal|right; now f_equal]. }
      destruct X as [->| ->]; [|apply generic_format_opp]; apply generic_format_bpow; vm_compute; discriminate.
    - apply generic_format_FLT. exists (Float radix2 z 0); [unfold F2R; cbn; lra|cbn; lia|cbn; lia]. }
  rewrite E. apply clip_id. rewrite <- abs_IZR. eapply Rle_lt_trans; [apply IZR_le, H|].
  unfold fmaxR. change (IZR (2 ^ 53)) with (bpow radix2 53). apply bpow_lt. lia.
Qed.
Lemma f64_of_Z_leb a b : (Z.abs a <= 2 ^ 53)%Z -> (Z.abs b <= 2 ^ 53)%Z -> fleb (f64_of_Z a) (f64_of_Z b) = Z.leb a b.
Proof.
  intros A B. destruct (Z.leb_spec a b) as [L|L]; [now apply f64_of_Z_le|].
  destruct (fleb (f64_of_Z a) (f64_of_Z b)) eqn:E; [|reflexivity].
  apply fleb_rx in E; try apply f64_of_Z_rx. rewrite !f64_of_Z_exact in E by assumption. apply le_IZR in E. lia.
Qed.

(** ** Components *)
Lemma component_inside c : inside (f64_of_Z (co_x c)) (f64_of_Z (co_y c)) (component_bound c)
  = fleb (f64_of_Z (co_y c)) (f64_of_Z (co_x c)).
Proof.
  unfold inside, component_bound, bound_new_i64. cbn [bx1 by1 bx2 by2].
  rewrite !(f64_of_Z_le _ _ (Z.le_refl _)), !andb_true_r. reflexivity.
Qed.
Lemma of_Z_bnum a b c d : bnum (bound_new_i64 a b c d) = true.
Proof. unfold bnum, bound_new_i64. cbn [bx1 by1 bx2 by2]. now rewrite !(fun z => proj2 (f64_of_Z_rx z)). Qed.
Lemma of_Z_ordered a b c d : (a <= c)%Z -> (b <= d)%Z -> ordered (bound_new_i64 a b c d) = true.
Proof. intros H K. unfold ordered, bound_new_i64. cbn [bx1 by1 bx2 by2]. now rewrite !f64_of_Z_le. Qed.

Lemma sheet_bound_inv h b : sheet_bound h = Ok b ->
  b = bound_new_i64 (sh_x h) (sh_y h - 100) (sh_x h + sh_dimx h) (sh_y h + sh_dimy h + 100).
Proof.
  unfold sheet_bound, chk. destruct (i64_ok (sh_y h - 100)); [|discriminate]. cbn [bind].
  destruct (i64_ok (sh_x h + sh_dimx h)); [|discriminate]. cbn [bind].
  destruct (i64_ok (sh_y h + sh_dimy h)); [|discriminate]. cbn [bind].
  destruct (i64_ok (sh_y h + sh_dimy h + 100)); [|discriminate]. cbn [bind]. congruence.
Qed.
Lemma sheet_inside h b x y : sheet_bound h = Ok b ->
  (sh_x h <= x <= sh_x h + sh_dimx h)%Z -> (sh_y h - 100 <= y <= sh_y h + sh_dimy h + 100)%Z ->
  inside (f64_of_Z x) (f64_of_Z y) b = true.
Proof.
  intros H X Y. rewrite (sheet_bound_inv _ _ H). unfold inside, bound_new_i64. cbn [bx1 by1 bx2 by2].
  rewrite !f64_of_Z_le by lia. reflexivity.
Qed.

Lemma mapM_in {A B} (f : A -> res B) l m x : mapM f l = Ok m -> In x l -> exists y, In y m /\ f x = Ok y.
Proof.
  revert m. induction l as [|a l IH]; cbn; intros m H I; [contradiction|].
  destruct (f a) as [b| |] eqn:E; cbn in H; try discriminate.
  destruct (mapM f l) as [bs| |]; cbn in H; try discriminate. injection H as <-.
  destruct I as [->|I]; [exists b; split; [left|]; auto|]. destruct (IH bs eq_refl I) as (y & J & Y). exists y. split; [right|]; auto.
Qed.
Lemma mapM_all {A B} (f : A -> res B) (P : B -> Prop) l m : mapM f l = Ok m ->
  (forall x y, In x l -> f x = Ok y -> P y) -> Forall P m.
Proof.
  revert m. induction l as [|a l IH]; cbn; intros m H K; [injection H as <-; constructor|].
  destruct (f a) as [b| |] eqn:E; cbn in H; try discriminate.
  destruct (mapM f l) as [bs| |]; cbn in H; try discriminate. injection H as <-. constructor; [eapply K; eauto|]. apply IH; eauto.
Qed.

(** All boxes drawn the right way round: the schematic's box covers them. *)
Definition upright (s : schematic) : Prop :=
  Forall (fun c => (co_y c <= co_x c)%Z) (own (sc_elements s)) /\
  Forall (fun h => (0 <= sh_dimx h)%Z /\ (0 <= sh_dimy h)%Z) (sc_sheets s).

Lemma all_app a l m : bound_all a (l ++ m) = bound_all (bound_all a l) m.
Proof. apply fold_left_app. Qed.
Lemma default_num : bnum bound_default = true. Proof. reflexivity. Qed.
Lemma selement_num e : bnum (selement_bound e) = true.
Proof. destruct e; try reflexivity. apply of_Z_bnum. Qed.

Lemma all_ordered l : forall a, (bounded a = true -> ordered a = true) -> bnum a = true ->
  Forall (fun b => bnum b = true /\ (bounded b = true -> ordered b = true)) l ->
  bounded (bound_all a l) = true -> ordered (bound_all a l) = true.
Proof.
  induction l as [|b l IH]; intros a A N F; [exact A|]. inversion F as [|? ? [Nb Ob] F']; subst.
  cbn [bound_all fold_left]. apply IH; auto using update_num.
  destruct (bounded b) eqn:Bb.
  - intros _. apply (ordered_covers b); [now apply Ob|]. now apply update_covers_r.
  - rewrite update_unbounded_r by assumption. exact A.
Qed.

Lemma sch_bound_covers s b : sch_bound s = Ok b -> upright s ->
  (forall c, In (SComponent c) (sc_elements s) -> inside (f64_of_Z (co_x c)) (f64_of_Z (co_y c)) b = true) /\
  (forall h, In h (sc_sheets s) -> exists bh, sheet_bound h = Ok bh /\ covers b bh = true) /\
  ordered b = true.
Proof.
  unfold sch_bound. destruct (mapM sheet_bound (sc_sheets s)) as [hs| |] eqn:M; cbn [bind]; try discriminate.
  intros [= <-] [UC UH]. rewrite <- all_app. set (l := (map selement_bound (sc_elements s) ++ hs)%list).
  assert (HN : Forall (fun b => bnum b = true) l).
  { apply Forall_app. split.
    - apply Forall_forall. intros x I. apply in_map_iff in I as (e & <- & _). apply selement_num.
    - eapply mapM_all; [exact M|]. intros h y _ E. rewrite (sheet_bound_inv _ _ E). apply of_Z_bnum. }
  assert (HO : Forall (fun b => bnum b = true /\ (bounded b = true -> ordered b = true)) l).
  { apply Forall_app. split.
    - apply Forall_forall. intros x I. apply in_map_iff in I as (e & <- & I). split; [apply selement_num|].
      destruct e as [c| | | | |]; try discriminate. intros _. rewrite Forall_forall in UC.
      assert (J : In c (own (sc_elements s))) by (apply in_flat_map; exists (SComponent c); split; [exact I|left; reflexivity]).
      specialize (UC c J). apply of_Z_ordered; lia.
    - eapply mapM_all; [exact M|]. intros h y I E. rewrite (sheet_bound_inv _ _ E). split; [apply of_Z_bnum|]. intros _.
      rewrite Forall_forall in UH. destruct (UH h I). apply of_Z_ordered; lia. }
  assert (O : ordered (bound_swap (bound_all bound_default l)) = true) by (apply swap_ordered, all_num; auto using default_num).
  destruct (bounded (bound_all bound_default l)) eqn:BB.
  - assert (Q := all_ordered l bound_default ltac:(discriminate) default_num HO BB).
    rewrite (swap_id _ Q) in *. split; [|split; auto].
    + intros c I. eapply inside_covers; [|apply all_covers; [apply default_num|exact HN| |]].
      * rewrite (component_inside c). apply f64_of_Z_le. rewrite Forall_forall in UC. apply UC.
        apply in_flat_map. exists (SComponent c). split; [exact I|left; reflexivity].
      * apply in_or_app. left. apply in_map_iff. exists (SComponent c). auto.
      * reflexivity.
    + intros h I. destruct (mapM_in _ _ _ _ M I) as (bh & J & E). exists bh. split; [exact E|].
      apply all_covers; auto using default_num; [apply in_or_app; right; exact J|]. rewrite (sheet_bound_inv _ _ E). reflexivity.
  - assert (NB : forall x, In x l -> bounded x = true -> False).
    { clear - BB. revert BB. generalize bound_default. induction l as [|a l IH]; intros d BB x I B; [contradiction|].
      cbn [bound_all fold_left] in BB. destruct I as [->|I]; [|exact (IH _ BB x I B)].
      assert (Q : forall m e, bounded e = true -> bounded (bound_all e m) = true).
      { induction m as [|y m IHm]; intros e E; [exact E|]. cbn. apply IHm. rewrite update_bounded, E. reflexivity. }
      unfold bound_all in Q. rewrite Q in BB; [discriminate|]. rewrite update_bounded, B. apply orb_true_r. }
    split; [|split; [|exact O]].
    + intros c I. exfalso. apply (NB (selement_bound (SComponent c))); [|reflexivity].
      apply in_or_app. left. now apply in_map.
    + intros h I. destruct (mapM_in _ _ _ _ M I) as (bh & J & E). exfalso. apply (NB bh); [apply in_or_app; right; exact J|].
      rewrite (sheet_bound_inv _ _ E). reflexivity.
Qed.
