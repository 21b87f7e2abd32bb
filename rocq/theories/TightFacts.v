(** Lemmas for C58: boxes are not larger than needed. *)
From Coq Require Import String Lia Reals Lra.
From Flocq Require Import IEEE754.BinarySingleNaN Core.
From Verif Require Import Base Str Num F64 F64Text F64Order Sexp StrFacts FpData FpOps FpOpsSpec FpOpsFacts
  Bound BoundSpec BoundFacts LyData LyOps LySpec LyOpsFacts LyBoundFacts CheckSpec FixFacts CourtFacts ClassSpec ClassFacts TightSpec FpEqFacts.
Open Scope string_scope. Open Scope list_scope.

Lemma update_least c a b : bnum a = true -> bnum b = true ->
  (bounded a = true -> covers c a = true) -> (bounded b = true -> covers c b = true) ->
  bounded (bound_update a b) = true -> covers c (bound_update a b) = true.
Proof.
  intros Na Nb Ca Cb B. destruct (bounded b) eqn:Eb.
  - destruct (bounded a) eqn:Ea.
    + destruct (update_lub a b Ea Eb Na Nb) as (_ & _ & L). apply L; auto.
    + rewrite update_unbounded_l by assumption. auto.
  - rewrite update_unbounded_r in * by assumption. auto.
Qed.
Lemma all_least c l : forall a, bnum a = true -> Forall (fun b => bnum b = true) l -> (bounded a = true -> covers c a = true) ->
  Forall (fun b => bounded b = true -> covers c b = true) l -> bounded (bound_all a l) = true -> covers c (bound_all a l) = true.
Proof.
  induction l as [|b l IH]; intros a Na Nl Ca Cl B; [cbn in *; auto|]. inversion_clear Nl as [|? ? N1 N2]. inversion_clear Cl as [|? ? C1 C2].
  cbn [bound_all fold_left] in *. apply IH; [now apply update_num|exact N2| |exact C2|exact B].
  intros B'. now apply update_least.
Qed.
Lemma all_unbounded l : forall a, bounded (bound_all a l) = bounded a || existsb bounded l.
Proof.
  induction l as [|b l IH]; intros a; cbn [bound_all fold_left existsb]; [now rewrite orb_false_r|].
  change (fold_left bound_update l (bound_update a b)) with (bound_all (bound_update a b) l). rewrite IH, update_bounded. now rewrite orb_assoc.
Qed.
Lemma update_ordered a b : bnum a = true -> bnum b = true -> (bounded a = true -> ordered a = true) -> (bounded b = true -> ordered b = true) ->
  bounded (bound_update a b) = true -> ordered (bound_update a b) = true.
Proof.
  intros Na Nb Oa Ob B. destruct (bounded b) eqn:Eb.
  - eapply ordered_covers; [apply Ob; reflexivity|]. now apply update_covers_r.
  - rewrite update_unbounded_r in * by assumption. auto.
Qed.
Lemma all_ordered l : forall a, bnum a = true -> Forall (fun b => bnum b = true) l -> (bounded a = true -> ordered a = true) ->
  Forall (fun b => bounded b = true -> ordered b = true) l -> bounded (bound_all a l) = true -> ordered (bound_all a l) = true.
Proof.
  induction l as [|b l IH]; intros a Na Nl Oa Ol B; [cbn in *; auto|]. inversion_clear Nl as [|? ? N1 N2]. inversion_clear Ol as [|? ? O1 O2].
  cbn [bound_all fold_left] in *. apply IH; [now apply update_num|exact N2| |exact O2|exact B].
  intros B'. now apply update_ordered.
Qed.
Lemma inside_ordered x y b : inside x y b = true -> ordered b = true.
Proof.
  unfold inside, ordered. rewrite !andb_true_iff. intros (((A & B) & C) & D). split; eapply fleb_trans; eassumption.
Qed.
Lemma default_ordered : ordered bound_default = true. Proof. reflexivity. Qed.
Lemma pts_ordered ps : forallb fin2 ps = true -> ordered (pts_bound ps) = true.
Proof.
  intros G. destruct ps as [|q l]; [reflexivity|].
  eapply inside_ordered. eapply (pts_bound_inside (q :: l) q); [exact G|now left].
Qed.
Lemma swap_covers c b : bnum b = true -> ordered b = true -> covers c b = true -> covers c (bound_swap b) = true.
Proof. intros N O C. now rewrite swap_id. Qed.

Lemma ly_ordered e : ly_geo_ok e = true -> bounded (ly_element_bound e) = true -> ordered (ly_element_bound e) = true.
Proof.
  destruct e as [m|n|n|t|l|a|c|d|s|v|z|s]; cbn [ly_geo_ok ly_element_bound]; intros G B; try reflexivity; rewrite ?andb_true_iff in G.
  - destruct G as [[G1 G2] G3]. now apply module_bound_ok.
  - apply andb_prop in G as [G1 G2]. eapply inside_ordered, point_inside; assumption.
  - destruct G. eapply inside_ordered. eapply minmax_inside; [assumption|assumption|now left].
  - destruct G. eapply inside_ordered. eapply minmax_inside; [assumption|assumption|now left].
  - destruct G. eapply inside_ordered, circle_inside; assumption.
  - destruct G as [G1 G2]. apply andb_prop in G1 as [G1 G1']. rewrite dim_bound_eq in *. apply all_ordered; [reflexivity| |discriminate| |exact B].
    + constructor; [now apply point_num|now apply all_pts_num].
    + constructor; [intros _; eapply inside_ordered, point_inside; assumption|].
      apply Forall_forall. intros b Hb _. apply in_map_iff in Hb as (p & <- & Hp). apply pts_ordered. rewrite forallb_forall in G2. auto.
  - destruct G. eapply inside_ordered. eapply minmax_inside; [assumption|assumption|now left].
  - destruct G as [[G1 G2] G3]. eapply inside_ordered, via_inside; assumption.
  - rewrite zone_bound_eq. apply swap_ordered. apply all_num; [reflexivity|now apply all_pts_num].
Qed.
Lemma layout_bounds_num l : forallb ly_geo_ok (ly_elements l) = true ->
  Forall (fun b => bnum b = true) (map ly_element_bound (ly_elements l)).
Proof.
  intros G. rewrite forallb_forall in G. apply Forall_forall. intros b Hb. apply in_map_iff in Hb as (f & <- & Hf). now apply ly_bound_num; auto.
Qed.
Lemma layout_bounded l : bounded (layout_bound l) = existsb (fun e => bounded (ly_element_bound e)) (ly_elements l).
Proof.
  unfold layout_bound. rewrite swap_bounded, all_unbounded. cbn [bounded bound_default orb].
  induction (ly_elements l) as [|e r IH]; [reflexivity|]. cbn [map existsb]. now rewrite IH.
Qed.
Lemma layout_least l c : forallb ly_geo_ok (ly_elements l) = true -> bounded (layout_bound l) = true ->
  (forall e, In e (ly_elements l) -> bounded (ly_element_bound e) = true -> covers c (ly_element_bound e) = true) ->
  covers c (layout_bound l) = true.
Proof.
  intros G B C. pose proof (layout_bounds_num l G) as N. unfold layout_bound in *. rewrite swap_bounded in B.
  apply swap_covers.
  - now apply all_num.
  - apply all_ordered; [reflexivity|exact N|discriminate| |exact B]. rewrite forallb_forall in G.
    apply Forall_forall. intros b Hb Bb. apply in_map_iff in Hb as (f & <- & Hf). now apply ly_ordered; auto.
  - apply all_least; [reflexivity|exact N|discriminate| |exact B].
    apply Forall_forall. intros b Hb Bb. apply in_map_iff in Hb as (f & <- & Hf). auto.
Qed.

(** From points *)
Lemma covers_point x y c : inside x y c = true -> covers c (bound_point x y) = true.
Proof. unfold inside, covers, bound_point, bound_new; cbn [bx1 by1 bx2 by2]. rewrite !andb_true_iff. tauto. Qed.
Lemma pts_least c ps : forallb fin2 ps = true -> (forall q, In q ps -> inside (xy_x q) (xy_y q) c = true) ->
  bounded (pts_bound ps) = true -> covers c (pts_bound ps) = true.
Proof.
  intros G I B. pose proof (pts_ordered ps G) as O. unfold pts_bound in *. rewrite swap_bounded in B.
  assert (N : Forall (fun b => bnum b = true) (map (fun e => bound_point (xy_x e) (xy_y e)) ps)).
  { apply Forall_forall. intros b Hb. apply in_map_iff in Hb as (q & <- & Hq). rewrite forallb_forall in G.
    specialize (G q Hq). apply andb_prop in G as [G1 G2]. now apply point_num. }
  apply swap_covers.
  - now apply all_num.
  - apply all_ordered; [reflexivity|exact N|discriminate| |exact B].
    apply Forall_forall. intros b Hb _. apply in_map_iff in Hb as (q & <- & Hq). rewrite forallb_forall in G.
    specialize (G q Hq). apply andb_prop in G as [G1 G2]. eapply inside_ordered, point_inside; assumption.
  - apply all_least; [reflexivity|exact N|discriminate| |exact B].
    apply Forall_forall. intros b Hb _. apply in_map_iff in Hb as (q & <- & Hq). apply covers_point. auto.
Qed.
Lemma minmax_least c a b : fin2 a = true -> fin2 b = true -> inside (xy_x a) (xy_y a) c = true -> inside (xy_x b) (xy_y b) c = true ->
  covers c (minmax_bound a b) = true.
Proof.
  intros A B Ia Ib. apply andb_prop in A as [A1 A2]. apply andb_prop in B as [B1 B2].
  unfold inside in *. rewrite !andb_true_iff in *. destruct Ia as [[[a1 a2] a3] a4], Ib as [[[b1 b2] b3] b4].
  unfold covers, minmax_bound, bound_new; cbn [bx1 by1 bx2 by2]. rewrite !andb_true_iff.
  assert (Nc : forall u v, fleb u v = true -> is_nan u = false /\ is_nan v = false) by apply fleb_not_nan.
  assert (Mn : forall u x y : f64, fleb u x = true -> fleb u y = true -> fleb u (fmin x y) = true).
  { intros u x y H K. unfold fmin. destruct (Nc _ _ H) as [_ ->], (Nc _ _ K) as [_ ->]. destruct (fltb y x); assumption. }
  assert (Mx : forall u x y : f64, fleb x u = true -> fleb y u = true -> fleb (fmax x y) u = true).
  { intros u x y H K. unfold fmax. destruct (Nc _ _ H) as [-> _], (Nc _ _ K) as [-> _]. destruct (fltb x y); assumption. }
  auto 10.
Qed.
Lemma inside_list c ps : (forall p, In p (flat_map pts_points ps) -> inside (fst p) (snd p) c = true) ->
  forall q r, In q ps -> In r q -> inside (xy_x r) (xy_y r) c = true.
Proof.
  intros H q r Hq Hr. apply (H (xy_point r)). apply in_flat_map. exists q. split; [exact Hq|]. now apply in_map.
Qed.
Lemma pts_list_least c ps : forallb (forallb fin2) ps = true ->
  (forall p, In p (flat_map pts_points ps) -> inside (fst p) (snd p) c = true) ->
  Forall (fun b => bounded b = true -> covers c b = true) (map pts_bound ps).
Proof.
  intros G H. pose proof (inside_list c ps H) as K. rewrite forallb_forall in G.
  apply Forall_forall. intros b Hb Bb. apply in_map_iff in Hb as (q & <- & Hq). apply pts_least; [auto| |exact Bb].
  intros r Hr. eauto.
Qed.
Lemma points_least c e : ly_geo_ok e = true -> pointlike e = true -> bounded (ly_element_bound e) = true ->
  (forall p, In p (drawn_points e) -> inside (fst p) (snd p) c = true) -> covers c (ly_element_bound e) = true.
Proof.
  destruct e as [m|n|n|t|l|a|ci|d|s|v|z|s]; cbn [ly_geo_ok ly_element_bound drawn_points positions pointlike];
    intros G K B H; try discriminate K; try discriminate B; rewrite ?andb_true_iff in G.
  - apply covers_point. apply (H (_, _)). now left.
  - destruct G. apply minmax_least; auto; [apply (H (xy_point (gl_start l)))|apply (H (xy_point (gl_end l)))]; cbn; auto.
  - destruct G. apply minmax_least; auto; [apply (H (xy_point (ga_start a)))|apply (H (xy_point (ga_end a)))]; cbn; auto.
  - destruct G as [G1 G2]. apply andb_prop in G1 as [G1 G1']. rewrite dim_bound_eq in *.
    apply all_least; [reflexivity| |discriminate| |exact B].
    + constructor; [now apply point_num|now apply all_pts_num].
    + constructor; [intros _; apply covers_point; apply (H (_, _)); now left|].
      apply pts_list_least; [exact G2|]. intros p Hp. apply H. now right.
  - destruct G. apply minmax_least; auto; [apply (H (xy_point (sg_start s)))|apply (H (xy_point (sg_end s)))]; cbn; auto.
  - rewrite zone_bound_eq in *. rewrite swap_bounded in B.
    assert (N := all_pts_num _ G).
    apply swap_covers.
    + now apply all_num.
    + apply all_ordered; [reflexivity|exact N|discriminate| |exact B].
      apply Forall_forall. intros b Hb _. apply in_map_iff in Hb as (p & <- & Hp). apply pts_ordered. rewrite forallb_forall in G. auto.
    + apply all_least; [reflexivity|exact N|discriminate| |exact B]. now apply pts_list_least.
Qed.
Lemma layout_points_least l c : forallb ly_geo_ok (ly_elements l) = true -> forallb pointlike (ly_elements l) = true ->
  bounded (layout_bound l) = true ->
  (forall e p, In e (ly_elements l) -> In p (drawn_points e) -> inside (fst p) (snd p) c = true) -> covers c (layout_bound l) = true.
Proof.
  intros G P B H. apply layout_least; [exact G|exact B|]. intros e He Be. rewrite forallb_forall in G, P.
  apply points_least; auto. intros p Hp. eauto.
Qed.
Lemma pts_some ps : bounded (pts_bound ps) = negb (match ps with [] => true | _ => false end).
Proof.
  unfold pts_bound. rewrite swap_bounded, all_unbounded. destruct ps; reflexivity.
Qed.
Lemma existsb_pts l : existsb bounded (map pts_bound l) = negb (match flat_map pts_points l with [] => true | _ => false end).
Proof.
  induction l as [|p l IH]; [reflexivity|]. cbn [map existsb flat_map]. rewrite pts_some, IH. destruct p; reflexivity.
Qed.
Lemma element_some e : bounded (ly_element_bound e) = has_extent e.
Proof.
  destruct e as [m|n|n|t|l|a|ci|d|s|v|z|s]; try reflexivity; cbn [ly_element_bound has_extent].
  - unfold module_bound. destruct (module_at m). rewrite swap_bounded. now apply all_bounded.
  - rewrite dim_bound_eq, all_unbounded. reflexivity.
  - rewrite zone_bound_eq, swap_bounded, all_unbounded. cbn [bounded bound_default orb]. rewrite existsb_pts. now destruct (flat_map pts_points (zone_pts z)).
Qed.
Lemma layout_some l : bounded (layout_bound l) = existsb has_extent (ly_elements l).
Proof.
  rewrite layout_bounded. induction (ly_elements l) as [|e r IH]; [reflexivity|]. cbn [existsb]. now rewrite element_some, IH.
Qed.

(** Footprints *)
Lemma module_least m x y c : module_at m = (x, y) -> is_finite x = true -> is_finite y = true ->
  forallb geo_ok (m_elements m) = true -> inside x y c = true ->
  (forall e, In e (m_elements m) -> is_graphics e = true -> is_fab e || is_pad e = true -> bounded (element_bound e) = true ->
     covers c (bound_shift x y (element_bound e)) = true) ->
  covers c (module_bound m) = true.
Proof.
  intros A Fx Fy G I H. unfold module_bound. rewrite A.
  match goal with |- context [bound_all ?a ?l] => set (b0 := a); set (bl := l) end.
  assert (N0 : bnum b0 = true) by now apply point_num.
  assert (Hl : Forall (fun b => bnum b = true) bl).
  { apply Forall_forall. intros b Hb. apply in_map_iff in Hb as (e & <- & He).
    apply filter_In in He as [He _]. apply filter_In in He as [He Hg].
    rewrite forallb_forall in G. apply shift_num; auto. now apply geo_bnum; auto. }
  assert (O0 : ordered b0 = true) by (eapply inside_ordered, point_inside; assumption).
  assert (B : bounded (bound_all b0 bl) = true) by now apply all_bounded.
  apply swap_covers.
  - now apply all_num.
  - eapply ordered_covers; [exact O0|]. now apply all_covers_init.
  - apply all_least; [exact N0|exact Hl|intros _; now apply covers_point| |exact B].
    apply Forall_forall. intros b Hb Bb. apply in_map_iff in Hb as (e & <- & He).
    apply filter_In in He as [He F1]. apply filter_In in He as [He F2]. now apply H.
Qed.

Open Scope R_scope.
Lemma lit_val (x : f64) m e r : B2SF x = SpecFloat.S754_finite false m e -> F2R (Float radix2 (Zpos m) e) = r -> is_finite x = true /\ B2R x = r.
Proof.
  intros E V. split; [rewrite <- is_finite_SF_B2SF, E; reflexivity|]. rewrite <- SF2R_B2SF, E. exact V.
Qed.
Lemma val2 : is_finite f2 = true /\ B2R f2 = 2.
Proof.
  apply (lit_val f2 4503599627370496 (-51)); [vm_compute; reflexivity|]. unfold F2R; cbn [Fnum Fexp].
  change (bpow radix2 (-51)) with (/ 2251799813685248). lra.
Qed.
Lemma val90 : is_finite f90 = true /\ B2R f90 = 90.
Proof.
  apply (lit_val f90 6333186975989760 (-46)); [vm_compute; reflexivity|]. unfold F2R; cbn [Fnum Fexp].
  change (bpow radix2 (-46)) with (/ 70368744177664). lra.
Qed.
Lemma val270 : is_finite f270 = true /\ B2R f270 = 270.
Proof.
  apply (lit_val f270 4749890231992320 (-44)); [vm_compute; reflexivity|]. unfold F2R; cbn [Fnum Fexp].
  change (bpow radix2 (-44)) with (/ 17592186044416). lra.
Qed.
Lemma val01 : is_finite f01 = true /\ / 16 <= B2R f01 <= / 8.
Proof.
  assert (E : B2SF f01 = SpecFloat.S754_finite false 7205759403792794 (-56)) by (vm_compute; reflexivity).
  split; [rewrite <- is_finite_SF_B2SF, E; reflexivity|]. rewrite <- SF2R_B2SF, E. unfold SF2R, F2R; cbn [cond_Zopp Fnum Fexp].
  change (bpow radix2 (-56)) with (/ 72057594037927936). lra.
Qed.
Lemma half_val s : moderate s -> is_finite (fdiv s f2) = true /\ Rabs (B2R (fdiv s f2) - B2R s / 2) <= / 2048 /\ Rabs (B2R (fdiv s f2)) <= big.
Proof.
  intros [F M]. destruct val2 as [F2 V2]. unfold fdiv. pose proof (Bdiv_correct 53 1024 _ _ mode_NE s f2) as D. rewrite V2 in D.
  specialize (D ltac:(lra)). change (round radix2 _ _) with rnd in D. apply Rabs_le_inv in M. pose proof big_pos. pose proof big_max.
  assert (E : Rabs (rnd (B2R s / 2) - B2R s / 2) <= / 2048) by (rewrite <- tiny; apply rnd_error, Rabs_le; lra).
  pose proof (Rabs_le_inv _ _ E). rewrite Rlt_bool_true in D; [|change (bpow radix2 1024) with fmaxR; apply Rabs_lt; lra].
  destruct D as (D1 & D2 & _). rewrite D2, D1. split; [exact F|]. split; [exact E|apply Rabs_le; lra].
Qed.
Lemma sum_val x d : moderate x -> is_finite d = true -> Rabs (B2R d) <= big -> is_finite (fadd x d) = true /\ Rabs (B2R (fadd x d) - (B2R x + B2R d)) <= / 2048.
Proof.
  intros [F M] Fd Md. destruct (fadd_finite x d F Fd) as [V N]. apply Rabs_le_inv in M, Md. pose proof big_max. pose proof big_pos.
  assert (E : Rabs (rnd (B2R x + B2R d) - (B2R x + B2R d)) <= / 2048) by (rewrite <- tiny; apply rnd_error, Rabs_le; lra).
  pose proof (Rabs_le_inv _ _ E). destruct (clip_finite _ _ V N) as [Fq Q]; [apply Rabs_lt; lra|]. rewrite Q. auto.
Qed.
Lemma diff_val x d : moderate x -> is_finite d = true -> Rabs (B2R d) <= big -> is_finite (fsub x d) = true /\ Rabs (B2R (fsub x d) - (B2R x - B2R d)) <= / 2048.
Proof.
  intros [F M] Fd Md. destruct (fsub_finite x d F Fd) as [V N]. apply Rabs_le_inv in M, Md. pose proof big_max. pose proof big_pos.
  assert (E : Rabs (rnd (B2R x - B2R d) - (B2R x - B2R d)) <= / 2048) by (rewrite <- tiny; apply rnd_error, Rabs_le; lra).
  pose proof (Rabs_le_inv _ _ E). destruct (clip_finite _ _ V N) as [Fq Q]; [apply Rabs_lt; lra|]. rewrite Q. auto.
Qed.
Lemma pad_sides x s : moderate x -> moderate s ->
  is_finite (fsub x (fdiv s f2)) = true /\ is_finite (fadd x (fdiv s f2)) = true /\
  Rabs (B2R (fsub x (fdiv s f2)) - (B2R x - B2R s / 2)) <= / 1000 /\ Rabs (B2R (fadd x (fdiv s f2)) - (B2R x + B2R s / 2)) <= / 1000.
Proof.
  intros Mx Ms. destruct (half_val s Ms) as (F & E & B). destruct (sum_val x _ Mx F B) as [F1 E1]. destruct (diff_val x _ Mx F B) as [F2 E2].
  split; [exact F2|]. split; [exact F1|]. apply Rabs_le_inv in E, E1, E2. split; apply Rabs_le; lra.
Qed.
Lemma pad_box_straight x y sx sy : moderate x -> moderate y -> moderate sx -> moderate sy ->
  near_box (bound_new (fsub x (fdiv sx f2)) (fsub y (fdiv sy f2)) (fadd x (fdiv sx f2)) (fadd y (fdiv sy f2)))
    (B2R x - B2R sx / 2) (B2R y - B2R sy / 2) (B2R x + B2R sx / 2) (B2R y + B2R sy / 2).
Proof.
  intros Mx My Msx Msy. destruct (pad_sides x sx Mx Msx) as (A & B & C & D), (pad_sides y sy My Msy) as (E & F & G & H).
  unfold near_box. cbn [bound_new bx1 by1 bx2 by2 bounded]. split; [reflexivity|]. split; [apply finite_box_iff; auto|]. auto.
Qed.
Lemma close_true r k : rx r = clip (rnd k) -> is_nan r = false -> Rabs k <= / 20 -> fltb (fabs r) f01 = true.
Proof.
  intros V N K. destruct val01 as [F [L U]]. apply fltb_rx; [now rewrite fabs_nan|now apply finite_nan|].
  rewrite rx_fabs, V, (rx_finite f01) by exact F. pose proof big_pos. pose proof big_max. apply Rabs_le_inv in K.
  assert (E : Rabs (rnd k - k) <= / 2048) by (rewrite <- tiny; apply rnd_error, Rabs_le; lra). apply Rabs_le_inv in E.
  rewrite clip_id by (apply Rabs_lt; lra). apply Rle_lt_trans with (/ 18); [apply Rabs_le|]; lra.
Qed.
Lemma close_false r k : rx r = clip (rnd k) -> is_nan r = false -> / 5 <= Rabs k -> fltb (fabs r) f01 = false.
Proof.
  intros V N K. destruct val01 as [F [L U]]. destruct (fltb (fabs r) f01) eqn:E; [|reflexivity].
  apply fltb_rx in E; [|now rewrite fabs_nan|now apply finite_nan]. rewrite rx_fabs, V, (rx_finite f01) in E by exact F.
  rewrite clip_abs, rnd_abs in E. pose proof big_pos. pose proof big_max.
  assert (R : rnd (/ 5) <= rnd (Rabs k)) by now apply rnd_le.
  assert (Q : Rabs (rnd (/ 5) - / 5) <= / 2048) by (rewrite <- tiny; apply rnd_error, Rabs_le; lra). apply Rabs_le_inv in Q.
  exfalso. revert E. apply Rle_not_lt, Rmin_glb; lra.
Qed.
Lemma turned_true rot : is_finite rot = true -> turned (B2R rot) ->
  (fltb (fabs (fsub rot f90)) f01 || fltb (fabs (fadd rot f90)) f01 || fltb (fabs (fsub rot f270)) f01 || fltb (fabs (fadd rot f270)) f01)%bool = true.
Proof.
  intros F (k & K & T). destruct val90 as [A1 A2], val270 as [B1 B2].
  destruct (fsub_finite rot f90 F A1) as [V1 N1], (fadd_finite rot f90 F A1) as [V2 N2], (fsub_finite rot f270 F B1) as [V3 N3], (fadd_finite rot f270 F B1) as [V4 N4].
  rewrite A2 in V1, V2. rewrite B2 in V3, V4. rewrite !orb_true_iff.
  destruct K as [<-|[<-|[<-|[<-|[]]]]].
  - left; left; left. now apply (close_true _ _ V1 N1).
  - left; left; right. apply (close_true _ _ V2 N2). now replace (B2R rot + 90) with (B2R rot - -90) by ring.
  - left; right. now apply (close_true _ _ V3 N3).
  - right. apply (close_true _ _ V4 N4). now replace (B2R rot + 270) with (B2R rot - -270) by ring.
Qed.
Lemma upright_false rot : is_finite rot = true -> upright (B2R rot) ->
  (fltb (fabs (fsub rot f90)) f01 || fltb (fabs (fadd rot f90)) f01 || fltb (fabs (fsub rot f270)) f01 || fltb (fabs (fadd rot f270)) f01)%bool = false.
Proof.
  intros F T. destruct val90 as [A1 A2], val270 as [B1 B2].
  destruct (fsub_finite rot f90 F A1) as [V1 N1], (fadd_finite rot f90 F A1) as [V2 N2], (fsub_finite rot f270 F B1) as [V3 N3], (fadd_finite rot f270 F B1) as [V4 N4].
  rewrite A2 in V1, V2. rewrite B2 in V3, V4. rewrite !orb_false_iff.
  split; [split; [split|]|].
  - apply (close_false _ _ V1 N1), T. unfold quarters. cbn [In]. auto.
  - apply (close_false _ _ V2 N2). replace (B2R rot + 90) with (B2R rot - -90) by ring. apply T. unfold quarters. cbn [In]. auto.
  - apply (close_false _ _ V3 N3), T. unfold quarters. cbn [In]. auto.
  - apply (close_false _ _ V4 N4). replace (B2R rot + 270) with (B2R rot - -270) by ring. apply T. unfold quarters. cbn [In]. auto.
Qed.
Lemma pad_box p : moderate (at_x (pa_at p)) -> moderate (at_y (pa_at p)) -> moderate (xy_x (pa_size p)) -> moderate (xy_y (pa_size p)) ->
  is_finite (at_rot (pa_at p)) = true ->
  let x := B2R (at_x (pa_at p)) in let y := B2R (at_y (pa_at p)) in
  let w := B2R (xy_x (pa_size p)) in let h := B2R (xy_y (pa_size p)) in
  (upright (B2R (at_rot (pa_at p))) -> near_box (pad_bound p) (x - w / 2) (y - h / 2) (x + w / 2) (y + h / 2)) /\
  (turned (B2R (at_rot (pa_at p))) -> near_box (pad_bound p) (x - h / 2) (y - w / 2) (x + h / 2) (y + w / 2)).
Proof.
  intros Mx My Mw Mh F. cbv zeta. unfold pad_bound. split; intros T.
  - rewrite (upright_false _ F T). now apply pad_box_straight.
  - rewrite (turned_true _ F T). now apply pad_box_straight.
Qed.
Close Scope R_scope.
Lemma via_box v : moderate (at_x (vi_at v)) -> moderate (at_y (vi_at v)) -> moderate (vi_size v) ->
  (near_box (via_bound v) (B2R (at_x (vi_at v)) - B2R (vi_size v)) (B2R (at_y (vi_at v)) - B2R (vi_size v))
     (B2R (at_x (vi_at v)) + B2R (vi_size v)) (B2R (at_y (vi_at v)) + B2R (vi_size v)))%R.
Proof.
  intros Mx My [Fs Ms]. destruct (sum_val _ _ Mx Fs Ms) as [A1 A2], (sum_val _ _ My Fs Ms) as [B1 B2], (diff_val _ _ Mx Fs Ms) as [C1 C2], (diff_val _ _ My Fs Ms) as [D1 D2].
  unfold near_box, via_bound. cbn [bound_new bx1 by1 bx2 by2 bounded]. split; [reflexivity|]. split; [apply finite_box_iff; auto|].
  split; [|split; [|split]]; eapply Rle_trans; try eassumption; lra.
Qed.
Lemma counts_iff e : counts e <-> is_graphics e = true /\ is_fab e || is_pad e = true.
Proof.
  split.
  - intros [p|e' l H F]; [split; reflexivity|]. destruct e'; cbn in *; try discriminate; injection H as <-; rewrite F; split; reflexivity.
  - intros [G F]. destruct e; cbn in G, F; try discriminate; [apply c_pad|..];
    (eapply c_fab; [reflexivity|]; rewrite orb_false_r in F; now apply FpEqFacts.ltype_eqb_eq in F).
Qed.
Lemma module_least_counts (m : module) (x y : f64) (c : bound) :
  module_at m = (x, y) -> is_finite x = true -> is_finite y = true ->
  forallb geo_ok (m_elements m) = true -> inside x y c = true ->
  (forall e, In e (m_elements m) -> counts e -> bounded (element_bound e) = true ->
     covers c (bound_shift x y (element_bound e)) = true) ->
  covers c (module_bound m) = true.
Proof. intros A B C D E F. apply (module_least m x y c A B C D E). intros e I G H. apply F; [exact I|now apply counts_iff]. Qed.
