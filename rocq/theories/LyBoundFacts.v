(** Lemmas about the bounding box of a layout. *)
From Coq Require Import String Lia Reals.
From Flocq Require Import IEEE754.BinarySingleNaN.
From Verif Require Import Base Str Num F64 F64Text F64Order Sexp StrFacts FpData FpOps FpOpsSpec FpOpsFacts
  Bound BoundSpec BoundFacts LyData LyOps LySpec LyOpsFacts.
Open Scope string_scope. Open Scope list_scope.

Lemma inside_all x y b l : Forall (fun b => bnum b = true) l -> In b l -> bounded b = true ->
  inside x y b = true -> inside x y (bound_all bound_default l) = true.
Proof.
  intros Hl Hin Hb Hi. eapply inside_covers; [exact Hi|]. apply all_covers; auto.
Qed.
Lemma all_bounded l : forall a, bounded a = true -> bounded (bound_all a l) = true.
Proof.
  induction l as [|b l IH]; intros a Ha; cbn; [exact Ha|]. apply IH. rewrite update_bounded, Ha. reflexivity.
Qed.
Lemma all_bounded_in l b : In b l -> bounded b = true -> forall a, bounded (bound_all a l) = true.
Proof.
  induction l as [|c l IH]; intros Hin Hb a; [contradiction|]. cbn [bound_all fold_left].
  destruct Hin as [->|Hin]; [|now apply IH]. apply all_bounded. rewrite update_bounded, Hb. apply orb_true_r.
Qed.

Lemma pts_bound_num ps : forallb fin2 ps = true -> bnum (pts_bound ps) = true.
Proof.
  intros G. destruct ps as [|q l]; [reflexivity|].
  eapply inside_num. eapply (pts_bound_inside (q :: l) q); [exact G|now left].
Qed.
Lemma point_num x y : is_finite x = true -> is_finite y = true -> bnum (bound_point x y) = true.
Proof. intros. apply bnum_iff. cbn [bound_point bound_new bx1 by1 bx2 by2]. auto using finite_nan. Qed.
Lemma point_inside x y : is_finite x = true -> is_finite y = true -> inside x y (bound_point x y) = true.
Proof.
  intros. unfold inside, bound_point, bound_new; cbn [bx1 by1 bx2 by2].
  rewrite !fleb_refl by auto using finite_nan. reflexivity.
Qed.

Lemma rmin_fleb_l (x y : f64) : is_finite x = true -> is_finite y = true -> fleb (fmin x y) x = true.
Proof.
  intros. apply fleb_rx; auto using fmin_nan, finite_nan. rewrite rx_fmin by auto using finite_nan. apply Rmin_l.
Qed.
Lemma rmin_fleb_r (x y : f64) : is_finite x = true -> is_finite y = true -> fleb (fmin x y) y = true.
Proof.
  intros. apply fleb_rx; auto using fmin_nan, finite_nan. rewrite rx_fmin by auto using finite_nan. apply Rmin_r.
Qed.
Lemma rmax_fleb_l (x y : f64) : is_finite x = true -> is_finite y = true -> fleb x (fmax x y) = true.
Proof.
  intros. apply fleb_rx; auto using fmax_nan, finite_nan. rewrite rx_fmax by auto using finite_nan. apply Rmax_l.
Qed.
Lemma rmax_fleb_r (x y : f64) : is_finite x = true -> is_finite y = true -> fleb y (fmax x y) = true.
Proof.
  intros. apply fleb_rx; auto using fmax_nan, finite_nan. rewrite rx_fmax by auto using finite_nan. apply Rmax_r.
Qed.

Lemma minmax_inside a b p : fin2 a = true -> fin2 b = true -> In p [xy_point a; xy_point b] ->
  inside (fst p) (snd p) (minmax_bound a b) = true.
Proof.
  intros A B H. apply andb_prop in A as [A1 A2]. apply andb_prop in B as [B1 B2].
  destruct H as [<-|[<-|[]]]; unfold inside, minmax_bound, bound_new, xy_point; cbn [fst snd bx1 by1 bx2 by2];
    rewrite ?rmin_fleb_l, ?rmin_fleb_r, ?rmax_fleb_l, ?rmax_fleb_r by assumption; reflexivity.
Qed.

Lemma dim_bound_eq d :
  dimension_bound d = bound_all bound_default (gr_text_bound (di_text d) :: map pts_bound (dim_pts d)).
Proof. reflexivity. Qed.
Lemma zone_bound_eq z : zone_bound z = bound_swap (bound_all bound_default (map pts_bound (zone_pts z))).
Proof.
  unfold zone_bound, zone_pts. rewrite !map_app. destruct (zo_segments z); reflexivity.
Qed.
Lemma all_pts_num l : forallb (forallb fin2) l = true -> Forall (fun b => bnum b = true) (map pts_bound l).
Proof.
  intros H. apply Forall_forall. intros b Hb. apply in_map_iff in Hb as (p & <- & Hp).
  rewrite forallb_forall in H. auto using pts_bound_num.
Qed.

Lemma circle_inside c : fin2 (gc_center c) = true -> fin2 (gc_end c) = true ->
  inside (xy_x (gc_center c)) (xy_y (gc_center c)) (gr_circle_bound c) = true.
Proof.
  intros G1 G2. apply andb_prop in G1 as [G1 G1']. apply andb_prop in G2 as [G2 G2'].
  destruct (fsquare (fsub (xy_x (gc_center c)) (xy_x (gc_end c)))) as [N1 P1]; [now apply fsub_not_nan_finite|].
  destruct (fsquare (fsub (xy_y (gc_center c)) (xy_y (gc_end c)))) as [N2 P2]; [now apply fsub_not_nan_finite|].
  destruct (fadd_nonneg _ _ N1 N2 P1 P2) as [N3 P3].
  destruct (fsqrt_nonneg _ N3 P3) as [N4 P4].
  unfold gr_circle_bound. apply inside_pm; auto.
Qed.

Lemma via_inside v : fin_at (vi_at v) = true -> is_finite (vi_size v) = true -> fleb fzero (vi_size v) = true ->
  inside (at_x (vi_at v)) (at_y (vi_at v)) (via_bound v) = true.
Proof.
  intros G F L. apply andb_prop in G as [G1 G2]. unfold via_bound.
  apply fleb_rx in L; auto using finite_nan. cbn [rx B2R fzero] in L.
  apply inside_pm; auto using finite_nan.
Qed.

Lemma module_bound_ok m : is_finite (fst (module_at m)) = true -> is_finite (snd (module_at m)) = true ->
  forallb geo_ok (m_elements m) = true ->
  bnum (module_bound m) = true /\ bounded (module_bound m) = true /\ ordered (module_bound m) = true.
Proof.
  unfold module_bound. destruct (module_at m) as [x y]. cbn [fst snd]. intros Fx Fy G.
  match goal with |- context [bound_all ?a ?l] => set (b0 := a); set (bl := l) end.
  assert (N0 : bnum b0 = true) by now apply point_num.
  assert (Hl : Forall (fun b => bnum b = true) bl).
  { apply Forall_forall. intros b Hb. apply in_map_iff in Hb as (e & <- & He).
    apply filter_In in He as [He _]. apply filter_In in He as [He Hg].
    rewrite forallb_forall in G. apply shift_num; auto. now apply geo_bnum; auto. }
  assert (N1 : bnum (bound_all b0 bl) = true) by now apply all_num.
  split; [now rewrite swap_num|]. split; [rewrite swap_bounded; now apply all_bounded|now apply swap_ordered].
Qed.

Lemma ly_bound_num e : ly_geo_ok e = true -> bnum (ly_element_bound e) = true.
Proof.
  destruct e as [m|n|n|t|l|a|c|d|s|v|z|s]; cbn [ly_geo_ok ly_element_bound]; intros G; try reflexivity;
    rewrite ?andb_true_iff in G.
  - destruct G as [[G1 G2] G3]. now apply module_bound_ok.
  - apply andb_prop in G as [G1 G2]. now apply point_num.
  - destruct G. eapply inside_num. eapply minmax_inside; [assumption|assumption|now left].
  - destruct G. eapply inside_num. eapply minmax_inside; [assumption|assumption|now left].
  - destruct G. eapply inside_num, circle_inside; assumption.
  - destruct G as [G1 G2]. apply andb_prop in G1 as [G1 G1'].
    rewrite dim_bound_eq. apply all_num; [reflexivity|]. constructor; [now apply point_num|now apply all_pts_num].
  - destruct G. eapply inside_num. eapply minmax_inside; [assumption|assumption|now left].
  - destruct G as [[G1 G2] G3]. eapply inside_num, via_inside; assumption.
  - rewrite zone_bound_eq, swap_num. apply all_num; [reflexivity|now apply all_pts_num].
Qed.

Lemma pts_all_inside l p : forallb (forallb fin2) l = true -> In p (flat_map pts_points l) ->
  exists b, In b (map pts_bound l) /\ bounded b = true /\ inside (fst p) (snd p) b = true.
Proof.
  intros G Hin. apply in_flat_map in Hin as (q & Hq & Hp). apply in_map_iff in Hp as (r & <- & Hr).
  rewrite forallb_forall in G. destruct (pts_bound_inside q r (G q Hq) Hr) as [I B].
  exists (pts_bound q). split; [now apply in_map|]. split; [exact B|exact I].
Qed.

Lemma ly_points_inside e p : ly_geo_ok e = true -> In p (drawn_points e) ->
  inside (fst p) (snd p) (ly_element_bound e) = true /\ bounded (ly_element_bound e) = true.
Proof.
  destruct e as [m|n|n|t|l|a|c|d|s|v|z|s]; cbn [ly_geo_ok ly_element_bound drawn_points positions];
    intros G Hin; try contradiction; rewrite ?andb_true_iff in G.
  - destruct Hin as [<-|[]]. apply andb_prop in G as [G1 G2]. split; [now apply point_inside|reflexivity].
  - destruct G. split; [now apply minmax_inside|reflexivity].
  - destruct G. split; [now apply minmax_inside|reflexivity].
  - destruct G. destruct Hin as [<-|[]]. split; [now apply circle_inside|reflexivity].
  - destruct G as [G1 G2]. apply andb_prop in G1 as [G1 G1'].
    assert (Hl : Forall (fun b => bnum b = true) (gr_text_bound (di_text d) :: map pts_bound (dim_pts d))).
    { constructor; [now apply point_num|now apply all_pts_num]. }
    rewrite dim_bound_eq. destruct Hin as [<-|Hin].
    + split; [|eapply all_bounded_in; [now left|reflexivity]].
      eapply inside_all; [exact Hl|now left|reflexivity|now apply point_inside].
    + destruct (pts_all_inside _ p G2 Hin) as (b & Hb & B & I).
      split; [|eapply all_bounded_in; [right; exact Hb|exact B]].
      eapply inside_all; [exact Hl|right; exact Hb|exact B|exact I].
  - destruct G. split; [now apply minmax_inside|reflexivity].
  - destruct G as [[G1 G2] G3]. destruct Hin as [<-|[]]. split; [now apply via_inside|reflexivity].
  - rewrite zone_bound_eq. destruct (pts_all_inside _ p G Hin) as (b & Hb & B & I).
    split; [|rewrite swap_bounded; eapply all_bounded_in; [exact Hb|exact B]].
    apply swap_inside. eapply inside_all; [now apply all_pts_num|exact Hb|exact B|exact I].
Qed.

Lemma layout_bound_points l : forallb ly_geo_ok (ly_elements l) = true ->
  forall e p, In e (ly_elements l) -> In p (drawn_points e) ->
  inside (fst p) (snd p) (layout_bound l) = true.
Proof.
  intros G e p He Hp. rewrite forallb_forall in G.
  destruct (ly_points_inside e p (G e He) Hp) as [I B].
  unfold layout_bound. apply swap_inside. eapply inside_all; [|apply in_map; exact He|exact B|exact I].
  apply Forall_forall. intros b Hb. apply in_map_iff in Hb as (f & <- & Hf). now apply ly_bound_num; auto.
Qed.

Lemma layout_bound_modules l : forallb ly_geo_ok (ly_elements l) = true ->
  forall m, In (YModule m) (ly_elements l) -> covers (layout_bound l) (module_bound m) = true.
Proof.
  intros G m Hm. rewrite forallb_forall in G. pose proof (G _ Hm) as Gm. cbn [ly_geo_ok] in Gm.
  rewrite !andb_true_iff in Gm. destruct Gm as [[G1 G2] G3].
  destruct (module_bound_ok m G1 G2 G3) as (N & B & O).
  assert (C : covers (bound_all bound_default (map ly_element_bound (ly_elements l))) (module_bound m) = true).
  { apply all_covers; [reflexivity| |apply (in_map ly_element_bound _ _ Hm)|exact B].
    apply Forall_forall. intros b Hb. apply in_map_iff in Hb as (f & <- & Hf). now apply ly_bound_num; auto. }
  unfold layout_bound. rewrite swap_id; [exact C|]. eapply ordered_covers; [exact O|exact C].
Qed.
