(** Lemmas for C122: the box of a board put together from parts. *)
From Coq Require Import String.
From Coq Require Import Reals.
From Flocq Require Import IEEE754.BinarySingleNaN.
From Verif Require Import Base Str F64 F64Order FpData FpLayer FpOps FpOpsSpec Bound BoundSpec BoundFacts LyData LyOps LySpec LyBoundFacts FpOpsFacts CheckFix SymCheck FpCheck CheckFacts LogFacts FpEqFacts UnionSpec.
Open Scope string_scope. Open Scope list_scope.

Definition good (b : bound) : Prop := bnum b = true /\ ordered b = true.
Lemma inside_good x y b : inside x y b = true -> good b.
Proof.
  intros I. unfold inside in I. rewrite !andb_true_iff in I. destruct I as (((A & B) & C) & D). split.
  - apply bnum_iff. pose proof (fleb_not_nan _ _ A). pose proof (fleb_not_nan _ _ B). pose proof (fleb_not_nan _ _ C). pose proof (fleb_not_nan _ _ D). tauto.
  - unfold ordered. apply andb_true_iff. split; eapply fleb_trans; eassumption.
Qed.
Lemma update_good a b : good a -> good b -> good (bound_update a b).
Proof.
  intros [Na Oa] [Nb Ob]. split; [now apply update_num|]. destruct (bounded b) eqn:B; [|now rewrite update_unbounded_r].
  apply (ordered_covers b); [exact Ob|]. now apply update_covers_r.
Qed.
Lemma all_good l : forall a, good a -> Forall good l -> good (bound_all a l).
Proof. induction l as [|b l IH]; intros a Ga F; [exact Ga|]. inversion F; subst. cbn [bound_all fold_left]. apply IH; [now apply update_good|assumption]. Qed.
Lemma default_good : good bound_default. Proof. split; reflexivity. Qed.
Lemma swap_good b : bnum b = true -> good (bound_swap b). Proof. intros N. split; [now rewrite swap_num|now apply swap_ordered]. Qed.
Lemma pts_good l : forallb (forallb fin2) l = true -> Forall good (map pts_bound l).
Proof.
  intros G. apply Forall_forall. intros b I. apply in_map_iff in I as (p & <- & I). rewrite forallb_forall in G. specialize (G p I).
  pose proof (pts_bound_num p G) as N. unfold pts_bound in *. rewrite swap_num in N. now apply swap_good.
Qed.
Lemma ly_good e : ly_geo_ok e = true -> good (ly_element_bound e).
Proof.
  intros G. split; [now apply ly_bound_num|]. revert G.
  destruct e as [m|n|n|t|l|a|c|d|s|v|z|s]; cbn [ly_geo_ok ly_element_bound]; intros G; try reflexivity; rewrite ?andb_true_iff in G.
  - destruct G as [[G1 G2] G3]. now apply module_bound_ok.
  - apply andb_prop in G as [G1 G2]. eapply inside_good, point_inside; assumption.
  - destruct G. eapply inside_good. eapply minmax_inside; [assumption|assumption|now left].
  - destruct G. eapply inside_good. eapply minmax_inside; [assumption|assumption|now left].
  - destruct G. eapply inside_good, circle_inside; assumption.
  - destruct G as [G1 G2]. apply andb_prop in G1 as [G1 G1']. rewrite dim_bound_eq. apply all_good; [exact default_good|]. constructor; [eapply inside_good, point_inside; assumption|now apply pts_good].
  - destruct G. eapply inside_good. eapply minmax_inside; [assumption|assumption|now left].
  - destruct G as [[G1 G2] G3]. eapply inside_good, via_inside; assumption.
  - rewrite zone_bound_eq. apply swap_ordered. apply all_num; [reflexivity|now apply all_pts_num].
Qed.
Lemma all_ly_good es : forallb ly_geo_ok es = true -> Forall good (map ly_element_bound es).
Proof. intros G. apply Forall_forall. intros b I. apply in_map_iff in I as (e & <- & I). rewrite forallb_forall in G. apply ly_good, G, I. Qed.
Lemma good_num l : Forall good l -> Forall (fun b => bnum b = true) l.
Proof. apply Forall_impl. intros b [N _]. exact N. Qed.
(** Boards *)
Lemma layout_all l : forallb ly_geo_ok (ly_elements l) = true -> layout_bound l = bound_all bound_default (map ly_element_bound (ly_elements l)).
Proof. intros G. unfold layout_bound. apply swap_id. apply all_good; [exact default_good|now apply all_ly_good]. Qed.
Lemma all_start l : forall a, bnum a = true -> Forall (fun b => bnum b = true) l -> same_bound (bound_all a l) (bound_update a (bound_all bound_default l)) = true.
Proof.
  induction l as [|b l IH] using rev_ind; intros a Na F.
  - cbn [bound_all fold_left]. rewrite update_unbounded_r by reflexivity. now apply same_bound_refl.
  - apply Forall_app in F as [F Fb]. inversion Fb as [|? ? Nb _]; subst. unfold bound_all in *. rewrite !fold_left_app. cbn [fold_left].
    change (fold_left bound_update l a) with (bound_all a l) in *. change (fold_left bound_update l bound_default) with (bound_all bound_default l) in *.
    assert (Nl : bnum (bound_all bound_default l) = true) by now apply all_num. assert (Nal : bnum (bound_all a l) = true) by now apply all_num.
    eapply same_bound_trans; [| | |apply update_compat; [| | |apply IH]|apply update_assoc]; auto using update_num.
Qed.
Lemma union_board l a b : forallb ly_geo_ok (a ++ b) = true ->
  same_bound (layout_bound (holding l (a ++ b))) (bound_update (layout_bound (holding l a)) (layout_bound (holding l b))) = true.
Proof.
  intros G. rewrite forallb_app in G. pose proof (andb_prop _ _ G) as [Ga Gb].
  rewrite !layout_all by (cbn [holding ly_elements]; rewrite ?forallb_app, ?Ga, ?Gb; reflexivity). cbn [holding ly_elements]. rewrite map_app. unfold bound_all at 1. rewrite fold_left_app.
  change (fold_left bound_update (map ly_element_bound a) bound_default) with (bound_all bound_default (map ly_element_bound a)).
  change (fold_left bound_update (map ly_element_bound b) ?x) with (bound_all x (map ly_element_bound b)).
  apply all_start; [apply all_num; [reflexivity|]|]; apply good_num, all_ly_good; assumption.
Qed.
Lemma all_lub c l : forall a, bounded a = true -> covers c a = true -> bnum a = true -> Forall (fun b => bnum b = true) l -> (forall b, In b l -> bounded b = true -> covers c b = true) ->
  covers c (bound_all a l) = true.
Proof.
  induction l as [|b l IH]; intros a B C N F H; [exact C|]. inversion F; subst. cbn [bound_all fold_left]. apply IH; auto using update_num.
  - rewrite update_bounded, B. reflexivity.
  - destruct (bounded b) eqn:Bb; [|now rewrite update_unbounded_r]. apply update_lub; auto. apply H; [now left|exact Bb].
  - intros b' I. apply H. now right.
Qed.
Lemma all_lub_default c l : Forall (fun b => bnum b = true) l -> (forall b, In b l -> bounded b = true -> covers c b = true) -> bounded (bound_all bound_default l) = true ->
  covers c (bound_all bound_default l) = true.
Proof.
  induction l as [|b l IH]; intros F H B; [discriminate B|]. inversion F; subst. unfold bound_all in *. cbn [fold_left] in *. destruct (bounded b) eqn:Bb.
  - rewrite update_unbounded_l in * by auto. apply all_lub; auto; [apply H; [now left|exact Bb]|]. intros b' I. apply H. now right.
  - rewrite update_unbounded_r in * by auto. apply IH; auto. intros b' I. apply H. now right.
Qed.
Lemma part_board l a b : forallb ly_geo_ok b = true -> incl a b -> bounded (layout_bound (holding l a)) = true ->
  covers (layout_bound (holding l b)) (layout_bound (holding l a)) = true.
Proof.
  intros G I. assert (Ga : forallb ly_geo_ok a = true) by (rewrite forallb_forall in *; intros e X; apply G, I, X).
  rewrite !layout_all by (cbn [holding ly_elements]; assumption). cbn [holding ly_elements]. apply all_lub_default; [apply good_num, all_ly_good, Ga|].
  intros x X B. apply in_map_iff in X as (e & <- & X). apply all_covers; [reflexivity|apply good_num, all_ly_good, G|apply in_map, I, X|exact B].
Qed.
(** Fixing *)
Lemma find_map_app {A B} (f : A -> option B) l m : find_map f (l ++ m) = match find_map f l with Some x => Some x | None => find_map f m end.
Proof. induction l as [|a l IH]; [reflexivity|]. cbn [app find_map]. destruct (f a); [reflexivity|exact IH]. Qed.
Definition counted (e : element) : bool := is_graphics e && (is_fab e || is_pad e).
Lemma filter_counted l : filter (fun e => is_fab e || is_pad e) (filter is_graphics l) = filter counted l.
Proof.
  induction l as [|e l IH]; [reflexivity|]. cbn [filter]. unfold counted at 1. destruct (is_graphics e); cbn [andb filter]; [|exact IH]. destruct (is_fab e || is_pad e)%bool; now rewrite IH.
Qed.
Lemma box_counted m m' : module_at m' = module_at m -> filter counted (m_elements m') = filter counted (m_elements m) -> module_bound m' = module_bound m.
Proof. intros A F. unfold module_bound. rewrite !filter_counted, A, F. reflexivity. Qed.
Lemma court_layer m : Forall (fun x => ltype_eqb (la_t (li_layer x)) LFab = false) (courtyard m).
Proof. unfold courtyard. destruct (module_at m) as [x y]. repeat (constructor; [reflexivity|]). constructor. Qed.
Lemma push_court m : module_bound (push (map EFpLine (courtyard m)) m) = module_bound m.
Proof.
  apply box_counted.
  - unfold module_at, push. cbn [m_elements]. rewrite find_map_app. destruct (find_map _ (m_elements m)); [reflexivity|].
    induction (courtyard m) as [|x k IH]; [reflexivity|exact IH].
  - unfold push. cbn [m_elements]. rewrite filter_app. rewrite <- (app_nil_r (filter counted (m_elements m))) at 2. f_equal.
    pose proof (court_layer m) as L. induction L as [|x k Lx L IH]; [reflexivity|]. cbn [map filter]. unfold counted at 1. cbn [is_graphics is_fab is_pad]. rewrite Lx. exact IH.
Qed.
Lemma fix_box c m q : fp_fix c m = Ok q -> module_bound q = module_bound m.
Proof.
  unfold fp_fix. destruct (fix_reference2 c (fix_value c (m_name m) (fix_reference c m))) as [m3| |] eqn:R; cbn [bind]; try discriminate. intros E.
  assert (J : forall x y : module, Ok x = Ok y -> x = y) by (intros x y H; now injection H). apply J in E. subst q.
  assert (C : core (m_elements (fix_attr m3)) = core (m_elements m)).
  { rewrite attr_core, (ref2_core _ _ _ R). unfold fix_value. rewrite same_core by reflexivity. unfold fix_reference. now rewrite same_core by reflexivity. }
  rewrite <- (core_same_bound m (fix_attr m3) C). unfold fix_courtyard. destruct (Nat.ltb _ 4); [apply push_court|reflexivity].
Qed.
Lemma unboxed_counted e : unboxed e -> counted e = false /\ forall a, e <> EAt a.
Proof.
  intros U. split; [|intros a ->; exact U].
  destruct e; cbn [unboxed] in U; try reflexivity; try contradiction; unfold counted; cbn [is_graphics is_fab is_pad andb orb]; rewrite orb_false_r;
    match goal with |- ?b = false => destruct b eqn:K; [|reflexivity] end; apply ltype_eqb_eq in K; exfalso; exact (U K).
Qed.
Lemma extra_box m l e r : unboxed e -> module_bound (fp_holding m (l ++ e :: r)) = module_bound (fp_holding m (l ++ r)).
Proof.
  intros U. apply unboxed_counted in U as [C N]. apply box_counted.
  - unfold module_at. cbn [fp_holding m_elements]. rewrite !find_map_app. destruct (find_map _ l); [reflexivity|]. cbn [find_map]. destruct e; try reflexivity. exfalso. eapply N. reflexivity.
  - cbn [fp_holding m_elements]. rewrite !filter_app. cbn [filter]. now rewrite C.
Qed.
(** Footprints *)
Definition fp_boxes (x y : f64) (es : list element) : list bound := map (fun e => bound_shift x y (element_bound e)) (filter counted es).
Lemma boxes_num x y es : is_finite x = true -> is_finite y = true -> forallb geo_ok es = true -> Forall (fun b => bnum b = true) (fp_boxes x y es).
Proof.
  intros Fx Fy G. apply Forall_forall. intros b I. apply in_map_iff in I as (e & <- & I). apply filter_In in I as [I C]. rewrite forallb_forall in G.
  unfold counted in C. apply andb_prop in C as [C _]. apply shift_num; auto. now apply geo_bnum; auto.
Qed.
Lemma fp_all m es x y : module_at (fp_holding m es) = (x, y) -> is_finite x = true -> is_finite y = true -> forallb geo_ok es = true ->
  module_bound (fp_holding m es) = bound_all (bound_new x y x y) (fp_boxes x y es).
Proof.
  intros A Fx Fy G. unfold module_bound. rewrite A, filter_counted. cbn [fp_holding m_elements].
  assert (N : bnum (bound_new x y x y) = true) by now apply point_num. apply swap_id.
  apply (ordered_covers (bound_new x y x y)); [|apply all_covers_init; auto; now apply boxes_num].
  unfold ordered, bound_new. cbn [bx1 by1 bx2 by2]. assert (R : forall z, is_finite z = true -> fleb z z = true) by (intros z Z; apply fleb_refl; now destruct z). now rewrite !R.
Qed.
Lemma fp_box_ok m es x y : module_at (fp_holding m es) = (x, y) -> is_finite x = true -> is_finite y = true -> forallb geo_ok es = true ->
  bnum (module_bound (fp_holding m es)) = true /\ bounded (module_bound (fp_holding m es)) = true.
Proof.
  intros A Fx Fy G. destruct (module_bound_ok (fp_holding m es)) as (N & B & _); [now rewrite A|now rewrite A|exact G|]. auto.
Qed.
Lemma fp_covers m es x y c : module_at (fp_holding m es) = (x, y) -> is_finite x = true -> is_finite y = true -> forallb geo_ok es = true ->
  covers c (bound_new x y x y) = true -> (forall e, In e es -> counted e = true -> bounded (element_bound e) = true -> covers c (bound_shift x y (element_bound e)) = true) ->
  covers c (module_bound (fp_holding m es)) = true.
Proof.
  intros A Fx Fy G P H. rewrite (fp_all m es x y A Fx Fy G). apply all_lub; auto; [now apply point_num|now apply boxes_num|].
  intros b I B. apply in_map_iff in I as (e & <- & I). apply filter_In in I as [I C]. now apply H.
Qed.
Lemma fp_has m es x y : module_at (fp_holding m es) = (x, y) -> is_finite x = true -> is_finite y = true -> forallb geo_ok es = true ->
  covers (module_bound (fp_holding m es)) (bound_new x y x y) = true /\
  forall e, In e es -> counted e = true -> bounded (element_bound e) = true -> covers (module_bound (fp_holding m es)) (bound_shift x y (element_bound e)) = true.
Proof.
  intros A Fx Fy G. rewrite (fp_all m es x y A Fx Fy G). assert (N : bnum (bound_new x y x y) = true) by now apply point_num. split.
  - apply all_covers_init; auto. now apply boxes_num.
  - intros e I C B. apply all_covers; auto; [now apply boxes_num|]. apply (in_map (fun e => bound_shift x y (element_bound e))), filter_In. auto.
Qed.
Lemma part_fp m a b x y : module_at (fp_holding m a) = (x, y) -> module_at (fp_holding m b) = (x, y) -> is_finite x = true -> is_finite y = true -> forallb geo_ok b = true -> incl a b ->
  covers (module_bound (fp_holding m b)) (module_bound (fp_holding m a)) = true.
Proof.
  intros Aa Ab Fx Fy G I. destruct (fp_has m b x y Ab Fx Fy G) as [P H]. apply (fp_covers m a x y); auto. rewrite forallb_forall in *. auto.
Qed.
Lemma covers_same a b : bnum a = true -> bnum b = true -> bounded a = true -> bounded b = true -> covers a b = true -> covers b a = true -> same_bound a b = true.
Proof.
  intros Na Nb Ba Bb C D. apply same_bound_iff; auto. apply covers_iff in C as (? & ? & ? & ?); auto. apply covers_iff in D as (? & ? & ? & ?); auto.
  repeat split; apply Rle_antisym; assumption.
Qed.
Lemma union_fp m a b x y : module_at (fp_holding m a) = (x, y) -> module_at (fp_holding m b) = (x, y) -> module_at (fp_holding m (a ++ b)) = (x, y) ->
  is_finite x = true -> is_finite y = true -> forallb geo_ok (a ++ b) = true ->
  same_bound (module_bound (fp_holding m (a ++ b))) (bound_update (module_bound (fp_holding m a)) (module_bound (fp_holding m b))) = true.
Proof.
  intros Aa Ab Aab Fx Fy G. assert (G' := G). rewrite forallb_app in G'. apply andb_prop in G' as [Ga Gb].
  destruct (fp_box_ok m a x y Aa Fx Fy Ga) as [Na Ba], (fp_box_ok m b x y Ab Fx Fy Gb) as [Nb Bb], (fp_box_ok m _ x y Aab Fx Fy G) as [Nc Bc].
  destruct (update_lub _ _ Ba Bb Na Nb) as (Ua & Ub & L). apply covers_same; auto using update_num.
  - now rewrite update_bounded, Ba.
  - apply L; apply (part_fp m _ _ x y); auto; [apply incl_appl, incl_refl|apply incl_appr, incl_refl].
  - destruct (fp_has m a x y Aa Fx Fy Ga) as [Pa Ha], (fp_has m b x y Ab Fx Fy Gb) as [Pb Hb].
    apply (fp_covers m (a ++ b) x y); auto; [eapply covers_trans; eassumption|].
    intros e I C B. apply in_app_or in I as [I|I]; [eapply covers_trans; [exact Ua|now apply Ha]|eapply covers_trans; [exact Ub|now apply Hb]].
Qed.
