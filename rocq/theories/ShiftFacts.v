(** Lemmas for C116: the box of a moved board. *)
From Coq Require Import String Lia Reals Lra.
From Flocq Require Import IEEE754.BinarySingleNaN Core.
From Verif Require Import Base Str Num F64 F64Text F64Order Sexp StrFacts FpData FpOps FpOpsSpec FpOpsFacts
  Bound BoundSpec BoundFacts LyData LyOps LySpec LyOpsFacts LyBoundFacts CheckSpec FixFacts ClassSpec TightSpec TightFacts CircleFacts ShiftSpec.
Open Scope list_scope. Open Scope R_scope.

(** ** Choosing the smaller and the larger of two numbers *)
Definition is_min (op : f64 -> f64 -> f64) : Prop := forall a b, is_nan a = false -> is_nan b = false ->
  (op a b = a \/ op a b = b) /\ rx (op a b) = Rmin (rx a) (rx b).
Definition is_max (op : f64 -> f64 -> f64) : Prop := forall a b, is_nan a = false -> is_nan b = false ->
  (op a b = a \/ op a b = b) /\ rx (op a b) = Rmax (rx a) (rx b).
Definition lo (a b : f64) := if fgtb a b then b else a.
Definition hi (a b : f64) := if fgtb a b then a else b.
Lemma fmin_is : is_min fmin.
Proof.
  intros a b Na Nb. split; [|now apply rx_fmin]. unfold fmin. rewrite Na, Nb. destruct (fltb b a); [right|left]; reflexivity.
Qed.
Lemma fmax_is : is_max fmax.
Proof.
  intros a b Na Nb. split; [|now apply rx_fmax]. unfold fmax. rewrite Na, Nb. destruct (fltb a b); [right|left]; reflexivity.
Qed.
Lemma lo_is : is_min lo.
Proof.
  intros a b Na Nb. unfold lo. destruct (fgtb a b) eqn:E.
  - apply fgtb_rx in E; [|exact Na|exact Nb]. split; [right; reflexivity|]. rewrite Rmin_right; lra.
  - split; [left; reflexivity|]. destruct (Rle_dec (rx a) (rx b)) as [L|L]; [rewrite Rmin_left; lra|].
    assert (T : fgtb a b = true) by (apply fgtb_rx; [exact Na|exact Nb|lra]). rewrite T in E. discriminate.
Qed.
Lemma hi_is : is_max hi.
Proof.
  intros a b Na Nb. unfold hi. destruct (fgtb a b) eqn:E.
  - apply fgtb_rx in E; [|exact Na|exact Nb]. split; [left; reflexivity|]. rewrite Rmax_left; lra.
  - split; [right; reflexivity|]. destruct (Rle_dec (rx a) (rx b)) as [L|L]; [rewrite Rmax_right; lra|].
    assert (T : fgtb a b = true) by (apply fgtb_rx; [exact Na|exact Nb|lra]). rewrite T in E. discriminate.
Qed.

(** ** Relations between coordinates that survive choosing *)
Definition closed (Q : f64 -> f64 -> Prop) : Prop :=
  forall op, is_min op \/ is_max op -> forall a a' b b', Q a a' -> Q b b' -> Q (op a b) (op a' b').

Section Moved.
Variables (Q1 Q2 : f64 -> f64 -> Prop) (C1 : closed Q1) (C2 : closed Q2).
Definition BR (b b' : bound) : Prop :=
  bounded b' = bounded b /\
  (bounded b = true -> Q1 (bx1 b) (bx1 b') /\ Q2 (by1 b) (by1 b') /\ Q1 (bx2 b) (bx2 b') /\ Q2 (by2 b) (by2 b')).

Lemma br_default : BR bound_default bound_default.
Proof. split; [reflexivity|]. discriminate. Qed.
Lemma br_update a a' b b' : BR a a' -> BR b b' -> BR (bound_update a b) (bound_update a' b').
Proof.
  intros [Ea A] [Eb B]. unfold bound_update. rewrite Ea, Eb. destruct (bounded b) eqn:Bb; [|split; [now rewrite Ea|exact A]].
  specialize (B eq_refl). destruct B as (B1 & B2 & B3 & B4). destruct (bounded a) eqn:Ba; cbn [negb].
  - specialize (A eq_refl). destruct A as (A1 & A2 & A3 & A4). split; [reflexivity|]. intros _. cbn [bx1 by1 bx2 by2].
    split; [|split; [|split]].
    + exact (C1 fmin (or_introl fmin_is) _ _ _ _ A1 B1).
    + exact (C2 fmin (or_introl fmin_is) _ _ _ _ A2 B2).
    + exact (C1 fmax (or_intror fmax_is) _ _ _ _ A3 B3).
    + exact (C2 fmax (or_intror fmax_is) _ _ _ _ A4 B4).
  - split; [reflexivity|]. intros _. cbn [bx1 by1 bx2 by2]. split; [exact B1|]. split; [exact B2|]. split; [exact B3|exact B4].
Qed.
Lemma br_all l l' : Forall2 BR l l' -> forall a a', BR a a' -> BR (bound_all a l) (bound_all a' l').
Proof.
  induction 1 as [|b b' l l' B _ IH]; intros a a' A; [exact A|].
  exact (IH _ _ (br_update _ _ _ _ A B)).
Qed.
Lemma swap_lohi b : bound_swap b = mk_bound (lo (bx1 b) (bx2 b)) (lo (by1 b) (by2 b)) (hi (bx1 b) (bx2 b)) (hi (by1 b) (by2 b)) (bounded b).
Proof. unfold bound_swap, lo, hi. destruct (fgtb (bx1 b) (bx2 b)), (fgtb (by1 b) (by2 b)); reflexivity. Qed.
Lemma br_swap a a' : BR a a' -> BR (bound_swap a) (bound_swap a').
Proof.
  intros [E A]. rewrite !swap_lohi. split; cbn [bounded bx1 by1 bx2 by2]; [exact E|]. intros B.
  destruct (A B) as (A1 & A2 & A3 & A4). split; [|split; [|split]].
  - exact (C1 lo (or_introl lo_is) _ _ _ _ A1 A3).
  - exact (C2 lo (or_introl lo_is) _ _ _ _ A2 A4).
  - exact (C1 hi (or_intror hi_is) _ _ _ _ A1 A3).
  - exact (C2 hi (or_intror hi_is) _ _ _ _ A2 A4).
Qed.
Lemma br_new a b c d a' b' c' d' : Q1 a a' -> Q2 b b' -> Q1 c c' -> Q2 d d' -> BR (bound_new a b c d) (bound_new a' b' c' d').
Proof. intros A B C D. split; [reflexivity|]. intros _. split; [exact A|]. split; [exact B|]. split; [exact C|exact D]. Qed.
Lemma forall2_map {A} (f g : A -> bound) l : (forall a, In a l -> BR (f a) (g a)) -> Forall2 BR (map f l) (map g l).
Proof.
  induction l as [|a l IH]; intros H; cbn [map]; constructor; [apply H; now left|]. apply IH. intros b Hb. apply H. now right.
Qed.

(** Elements given by points: [x], [y] is the offset. *)
Variables (x y : f64) (P : f64 * f64 -> Prop) (K : forall p, P p -> Q1 (fst p) (fadd (fst p) x) /\ Q2 (snd p) (fadd (snd p) y)).
Lemma br_pts ps : (forall p, In p (pts_points ps) -> P p) -> BR (pts_bound ps) (pts_bound (adjust_pts x y ps)).
Proof.
  intros H. unfold pts_bound, adjust_pts. rewrite map_map. apply br_swap, br_all; [|exact br_default].
  apply forall2_map. intros q Hq. destruct (K _ (H _ (in_map _ _ _ Hq))) as [A B]. now apply br_new.
Qed.
Lemma br_minmax p q : P (xy_point p) -> P (xy_point q) -> BR (minmax_bound p q) (minmax_bound (adjust_xy x y p) (adjust_xy x y q)).
Proof.
  intros A B. apply K in A as [A1 A2]. apply K in B as [B1 B2]. unfold minmax_bound. apply br_new.
  - exact (C1 fmin (or_introl fmin_is) _ _ _ _ A1 B1).
  - exact (C2 fmin (or_introl fmin_is) _ _ _ _ A2 B2).
  - exact (C1 fmax (or_intror fmax_is) _ _ _ _ A1 B1).
  - exact (C2 fmax (or_intror fmax_is) _ _ _ _ A2 B2).
Qed.
Lemma br_text t : P (at_point (gt_at t)) -> BR (gr_text_bound t) (gr_text_bound (adjust_gr_text x y t)).
Proof. intros A. apply K in A as [A B]. now apply br_new. Qed.
Lemma br_dim d : (forall p, In p (positions (YDimension d)) -> P p) -> BR (dimension_bound d) (dimension_bound (adjust_dimension x y d)).
Proof.
  intros H. cbn [positions] in H.
  assert (G : forall ps, In ps (dim_pts d) -> BR (pts_bound ps) (pts_bound (adjust_pts x y ps))).
  { intros ps Hp. apply br_pts. intros p Hq. apply H. right. apply in_flat_map. exists ps. now split. }
  unfold dimension_bound. apply br_all; [|exact br_default]. unfold adjust_dimension.
  cbn [di_text di_feature1 di_feature2 di_crossbar di_arrow1a di_arrow1b di_arrow2a di_arrow2b].
  constructor; [apply br_text, H; now left|].
  do 7 (constructor; [apply G; unfold dim_pts; cbn [In]; tauto|]). constructor.
Qed.
Lemma br_zone z : (forall p, In p (positions (YZone z)) -> P p) -> BR (zone_bound z) (zone_bound (adjust_zone x y z)).
Proof.
  intros H. cbn [positions] in H.
  assert (G : forall ps, In ps (zone_pts z) -> BR (pts_bound ps) (pts_bound (adjust_pts x y ps))).
  { intros ps Hp. apply br_pts. intros p Hq. apply H. apply in_flat_map. exists ps. now split. }
  unfold zone_bound. apply br_swap, br_all; [|exact br_default]. unfold adjust_zone. cbn [zo_polygons zo_filled zo_segments].
  assert (E : map pts_bound (opt_to_list (option_map (adjust_pts x y) (zo_segments z)))
              = map pts_bound (map (adjust_pts x y) (opt_to_list (zo_segments z)))) by (destruct (zo_segments z); reflexivity).
  rewrite E, !map_map. clear E. unfold zone_pts in G.
  apply Forall2_app; [|apply Forall2_app]; apply forall2_map; intros ps Hp; apply G; apply in_or_app; [now left|right|right]; apply in_or_app; [now left|].
  right. destruct (zo_segments z); exact Hp.
Qed.
Lemma br_points e : pointlike e = true -> (forall p, In p (positions e) -> P p) ->
  BR (ly_element_bound e) (ly_element_bound (adjust_ly_element x y e)).
Proof.
  destruct e as [m|n|n|t|l|a|c|d|s|v|z|s]; cbn [pointlike]; intros L H; try discriminate L; cbn [adjust_ly_element ly_element_bound].
  - exact br_default.
  - exact br_default.
  - apply br_text, H. now left.
  - apply br_minmax; apply H; [now left|right; now left].
  - apply br_minmax; apply H; [now left|right; now left].
  - now apply br_dim.
  - apply br_minmax; apply H; [now left|right; now left].
  - now apply br_zone.
  - exact br_default.
Qed.
Lemma br_layout l : (forall e, In e (ly_elements l) -> BR (ly_element_bound e) (ly_element_bound (adjust_ly_element x y e))) ->
  BR (layout_bound l) (layout_bound (adjust_layout x y l)).
Proof.
  intros H. unfold layout_bound, adjust_layout, with_elements. cbn [ly_elements]. rewrite map_map.
  apply br_swap, br_all; [|exact br_default]. now apply forall2_map.
Qed.
End Moved.

(** ** Exactly: sums with the same finite offset keep the order *)
Definition shifted (x a a' : f64) : Prop := is_nan a = false /\ is_nan a' = false /\ rx a' = rx (fadd a x).
Lemma fadd_le x a b : is_finite x = true -> is_nan a = false -> is_nan b = false -> rx a <= rx b -> rx (fadd a x) <= rx (fadd b x).
Proof.
  intros F Na Nb L. apply fleb_rx; [now apply fadd_not_nan|now apply fadd_not_nan|]. apply fadd_mono; [exact F|]. now apply fleb_rx.
Qed.
Lemma op_nan op a b : (op a b = a \/ op a b = b) -> is_nan a = false -> is_nan b = false -> is_nan (op a b : f64) = false.
Proof. intros [E|E] A B; rewrite E; assumption. Qed.
Lemma shifted_closed x : is_finite x = true -> closed (shifted x).
Proof.
  intros F op H a a' b b' (Na & Na' & A) (Nb & Nb' & B).
  assert (LE : forall c, is_nan c = false -> rx c = rx a -> rx (fadd c x) = rx (fadd a x)).
  { intros c Nc E. apply Rle_antisym; apply fadd_le; assumption || lra. }
  assert (LE' : forall c, is_nan c = false -> rx c = rx b -> rx (fadd c x) = rx (fadd b x)).
  { intros c Nc E. apply Rle_antisym; apply fadd_le; assumption || lra. }
  destruct H as [H|H]; destruct (H a b Na Nb) as [I V], (H a' b' Na' Nb') as [I' V'];
    pose proof (op_nan op a b I Na Nb) as M; pose proof (op_nan op a' b' I' Na' Nb') as M'; (split; [exact M|split; [exact M'|]]).
  - rewrite V', A, B. destruct (Rle_dec (rx a) (rx b)) as [L|L].
    + rewrite Rmin_left in V by lra. rewrite (LE _ M V). apply Rmin_left. now apply fadd_le.
    + rewrite Rmin_right in V by lra. rewrite (LE' _ M V). apply Rmin_right. apply fadd_le; assumption || lra.
  - rewrite V', A, B. destruct (Rle_dec (rx a) (rx b)) as [L|L].
    + rewrite Rmax_right in V by lra. rewrite (LE' _ M V). apply Rmax_right. now apply fadd_le.
    + rewrite Rmax_left in V by lra. rewrite (LE _ M V). apply Rmax_left. apply fadd_le; assumption || lra.
Qed.
Definition finite_point (p : f64 * f64) : Prop := is_finite (fst p) = true /\ is_finite (snd p) = true.
Lemma shifted_start x v : is_finite x = true -> is_finite v = true -> shifted x v (fadd v x).
Proof. intros F V. pose proof (finite_nan v V) as N. split; [exact N|]. split; [now apply fadd_not_nan|reflexivity]. Qed.
Lemma fin2_point q : fin2 q = true -> finite_point (xy_point q).
Proof. intros H. apply andb_prop in H. exact H. Qed.
Lemma fin_at_point a : fin_at a = true -> finite_point (at_point a).
Proof. intros H. apply andb_prop in H. exact H. Qed.
Lemma fin_pts_points l p : forallb (forallb fin2) l = true -> In p (flat_map pts_points l) -> finite_point p.
Proof.
  intros G H. apply in_flat_map in H as (q & Hq & H). rewrite forallb_forall in G. specialize (G q Hq).
  apply in_map_iff in H as (r & <- & Hr). rewrite forallb_forall in G. apply fin2_point, G, Hr.
Qed.
Lemma geo_points e : pointlike e = true -> ly_geo_ok e = true -> forall p, In p (positions e) -> finite_point p.
Proof.
  destruct e as [m|n|n|t|l|a|c|d|s|v|z|s]; cbn [pointlike ly_geo_ok positions]; intros L G p H; try discriminate L; try contradiction.
  - destruct H as [<-|[]]. now apply fin_at_point.
  - apply andb_prop in G as [G1 G2]. destruct H as [<-|[<-|[]]]; now apply fin2_point.
  - apply andb_prop in G as [G1 G2]. destruct H as [<-|[<-|[]]]; now apply fin2_point.
  - apply andb_prop in G as [G1 G2]. destruct H as [<-|H]; [now apply fin_at_point|]. now apply (fin_pts_points (dim_pts d)).
  - apply andb_prop in G as [G1 G2]. destruct H as [<-|[<-|[]]]; now apply fin2_point.
  - now apply (fin_pts_points (zone_pts z)).
Qed.
Lemma shifted_feqb x a a' : is_finite x = true -> shifted x a a' -> feqb a' (fadd a x) = true.
Proof. intros F (N & N' & E). apply feqb_rx; [exact N'|now apply fadd_not_nan|exact E]. Qed.
Lemma br_exact x y b c : is_finite x = true -> is_finite y = true -> BR (shifted x) (shifted y) b c -> exactly_moved x y b c.
Proof.
  intros Fx Fy [E H]. split; [exact E|]. intros B. destruct (H B) as (A1 & A2 & A3 & A4).
  split; [now apply shifted_feqb|]. split; [now apply shifted_feqb|]. split; now apply shifted_feqb.
Qed.
Lemma exact_start x y : is_finite x = true -> is_finite y = true ->
  forall p, finite_point p -> shifted x (fst p) (fadd (fst p) x) /\ shifted y (snd p) (fadd (snd p) y).
Proof. intros Fx Fy p [A B]. split; now apply shifted_start. Qed.
Lemma exact_element x y e : is_finite x = true -> is_finite y = true -> ly_geo_ok e = true -> pointlike e = true ->
  exactly_moved x y (ly_element_bound e) (ly_element_bound (adjust_ly_element x y e)).
Proof.
  intros Fx Fy G L. apply br_exact; [exact Fx|exact Fy|].
  apply (br_points _ _ (shifted_closed x Fx) (shifted_closed y Fy) x y finite_point (exact_start x y Fx Fy) e L).
  exact (geo_points e L G).
Qed.
Lemma exact_layout x y l : is_finite x = true -> is_finite y = true ->
  forallb ly_geo_ok (ly_elements l) = true -> forallb pointlike (ly_elements l) = true ->
  exactly_moved x y (layout_bound l) (layout_bound (adjust_layout x y l)).
Proof.
  intros Fx Fy G L. rewrite forallb_forall in G, L. apply br_exact; [exact Fx|exact Fy|].
  apply (br_layout _ _ (shifted_closed x Fx) (shifted_closed y Fy) x y). intros e He.
  apply (br_points _ _ (shifted_closed x Fx) (shifted_closed y Fy) x y finite_point (exact_start x y Fx Fy) e (L e He)).
  exact (geo_points e (L e He) (G e He)).
Qed.

(** ** Nearly: circles, vias and footprints round in the middle *)
Definition nearly (t : R) (x a a' : f64) : Prop :=
  is_finite a = true /\ is_finite a' = true /\ Rabs (B2R a' - (B2R a + B2R x)) <= t.
Lemma op_fin op a b : (op a b = a \/ op a b = b) -> is_finite a = true -> is_finite b = true -> is_finite (op a b : f64) = true.
Proof. intros [E|E] A B; rewrite E; assumption. Qed.
Lemma nearly_closed t x : closed (nearly t x).
Proof.
  intros op H a a' b b' (Na & Na' & A) (Nb & Nb' & B). apply Rabs_le_inv in A, B.
  destruct H as [H|H]; destruct (H a b (finite_nan _ Na) (finite_nan _ Nb)) as [I V], (H a' b' (finite_nan _ Na') (finite_nan _ Nb')) as [I' V'];
    pose proof (op_fin op a b I Na Nb) as M; pose proof (op_fin op a' b' I' Na' Nb') as M'; (split; [exact M|split; [exact M'|]]);
    rewrite (rx_finite _ M), (rx_finite _ Na), (rx_finite _ Nb) in V; rewrite (rx_finite _ M'), (rx_finite _ Na'), (rx_finite _ Nb') in V';
    rewrite V, V'; apply Rabs_le.
  - unfold Rmin. destruct (Rle_dec (B2R a) (B2R b)), (Rle_dec (B2R a') (B2R b')); lra.
  - unfold Rmax. destruct (Rle_dec (B2R a) (B2R b)), (Rle_dec (B2R a') (B2R b')); lra.
Qed.
Lemma nearly_weaken s t x a a' : s <= t -> nearly s x a a' -> nearly t x a a'.
Proof. intros L (A & B & C). split; [exact A|]. split; [exact B|]. lra. Qed.
Lemma br_nearly t x y b c : BR (nearly t x) (nearly t y) b c -> nearly_moved t x y b c.
Proof.
  intros [E H]. split; [exact E|]. intros B. destruct (H B) as ((A1 & A2 & A3) & (B1 & B2 & B3) & (D1 & D2 & D3) & (E1 & E2 & E3)).
  unfold finite_box. rewrite A1, B1, D1, E1, A2, B2, D2, E2. do 2 (split; [reflexivity|]). split; [exact A3|]. split; [exact B3|]. split; [exact D3|exact E3].
Qed.
Lemma nearby_modest v : nearby v -> modest v.
Proof. intros [F B]. split; [exact F|lra]. Qed.
Lemma add_near v x : nearby v -> nearby x -> is_finite (fadd v x) = true /\ Rabs (B2R (fadd v x) - (B2R v + B2R x)) <= / 10000000.
Proof.
  intros [F B] [G C]. apply add_val; [exact F|exact G|]. apply Rabs_le_inv in B, C. apply Rabs_le. lra.
Qed.
Lemma add_modest v x : nearby v -> nearby x -> modest (fadd v x).
Proof.
  intros A B. destruct (add_near v x A B) as [F E]. split; [exact F|]. destruct A as [_ A], B as [_ B]. apply Rabs_le_inv in A, B, E. apply Rabs_le. lra.
Qed.
Definition slack : R := / 400.
Lemma near_start x y : nearby x -> nearby y ->
  forall p, nearby (fst p) /\ nearby (snd p) -> nearly slack x (fst p) (fadd (fst p) x) /\ nearly slack y (snd p) (fadd (snd p) y).
Proof.
  intros Nx Ny p [A B]. destruct (add_near _ _ A Nx) as [F1 E1], (add_near _ _ B Ny) as [F2 E2]. unfold slack.
  split; (split; [apply A || apply B|]); (split; [assumption|lra]).
Qed.
(** Boxes near two real boxes that differ by the offset *)
Lemma near_pair b c x y x1 y1 x2 y2 u1 v1 u2 v2 : near_box b x1 y1 x2 y2 -> near_box c u1 v1 u2 v2 ->
  Rabs (u1 - (x1 + B2R x)) <= / 2500 -> Rabs (v1 - (y1 + B2R y)) <= / 2500 ->
  Rabs (u2 - (x2 + B2R x)) <= / 2500 -> Rabs (v2 - (y2 + B2R y)) <= / 2500 -> BR (nearly slack x) (nearly slack y) b c.
Proof.
  intros (B1 & B2 & B3 & B4 & B5 & B6) (D1 & D2 & D3 & D4 & D5 & D6) H1 H2 H3 H4. split; [rewrite B1; exact D1|]. intros _.
  unfold finite_box in B2, D2. rewrite !Bool.andb_true_iff in B2, D2. destruct B2 as (((F1 & F2) & F3) & F4), D2 as (((G1 & G2) & G3) & G4).
  apply Rabs_le_inv in B3, B4, B5, B6, D3, D4, D5, D6, H1, H2, H3, H4. unfold slack, nearly.
  split; [|split; [|split]]; (split; [assumption|]); (split; [assumption|]); apply Rabs_le; lra.
Qed.
Lemma near_via x y v : nearby x -> nearby y -> nearby (at_x (vi_at v)) -> nearby (at_y (vi_at v)) -> nearby (vi_size v) ->
  BR (nearly slack x) (nearly slack y) (via_bound v) (via_bound (adjust_via x y v)).
Proof.
  intros Nx Ny A B S. destruct (add_near _ _ A Nx) as [_ E1], (add_near _ _ B Ny) as [_ E2].
  pose proof (via_box v (modest_moderate _ (nearby_modest _ A)) (modest_moderate _ (nearby_modest _ B)) (modest_moderate _ (nearby_modest _ S))) as V.
  pose proof (via_box (adjust_via x y v) (modest_moderate _ (add_modest _ _ A Nx)) (modest_moderate _ (add_modest _ _ B Ny)) (modest_moderate _ (nearby_modest _ S))) as W.
  cbn [adjust_via vi_at vi_size adjust_at at_x at_y] in W. apply Rabs_le_inv in E1, E2.
  eapply near_pair; [exact V|exact W| | | |]; apply Rabs_le; lra.
Qed.
(** Moving two points changes their distance only by rounding. *)
Lemma hyp_sum a b : 0 <= a -> 0 <= b -> sqrt (a * a + b * b) <= a + b.
Proof.
  intros A B. rewrite <- (sqrt_Rsqr (a + b)) by lra. apply sqrt_le_1_alt. unfold Rsqr. nra.
Qed.
Lemma hyp_triangle p q r s : sqrt (r * r + s * s) <= sqrt (p * p + q * q) + (Rabs (r - p) + Rabs (s - q)).
Proof.
  set (d := Rabs (r - p) + Rabs (s - q)).
  assert (D : 0 <= d) by (unfold d; pose proof (Rabs_pos (r - p)); pose proof (Rabs_pos (s - q)); lra).
  set (h := sqrt (p * p + q * q)). assert (H0 : 0 <= h) by apply sqrt_pos.
  assert (HH : h * h = p * p + q * q) by (apply sqrt_sqrt; nra).
  assert (P : Rabs p <= h) by (rewrite <- (sqrt_Rsqr_abs p); apply sqrt_le_1_alt; unfold Rsqr; nra).
  assert (Q : Rabs q <= h) by (rewrite <- (sqrt_Rsqr_abs q); apply sqrt_le_1_alt; unfold Rsqr; nra).
  rewrite <- (sqrt_Rsqr (h + d)) by lra. apply sqrt_le_1_alt. unfold Rsqr.
  set (u := r - p) in *. set (v := s - q) in *. replace r with (p + u) by (unfold u; ring). replace s with (q + v) by (unfold v; ring).
  assert (PU : p * u <= h * Rabs u).
  { apply Rle_trans with (Rabs (p * u)); [apply Rle_abs|]. rewrite Rabs_mult. apply Rmult_le_compat_r; [apply Rabs_pos|exact P]. }
  assert (QV : q * v <= h * Rabs v).
  { apply Rle_trans with (Rabs (q * v)); [apply Rle_abs|]. rewrite Rabs_mult. apply Rmult_le_compat_r; [apply Rabs_pos|exact Q]. }
  assert (UU : u * u = Rabs u * Rabs u) by (rewrite <- Rabs_mult; symmetry; apply Rabs_pos_eq; nra).
  assert (VV : v * v = Rabs v * Rabs v) by (rewrite <- Rabs_mult; symmetry; apply Rabs_pos_eq; nra).
  pose proof (Rabs_pos u). pose proof (Rabs_pos v). unfold d in *. nra.
Qed.
Lemma distance_moved a b c d t : Rabs ((B2R (xy_x c) - B2R (xy_x d)) - (B2R (xy_x a) - B2R (xy_x b))) <= t ->
  Rabs ((B2R (xy_y c) - B2R (xy_y d)) - (B2R (xy_y a) - B2R (xy_y b))) <= t -> Rabs (distance c d - distance a b) <= 2 * t.
Proof.
  intros X Y. unfold distance. cbv zeta.
  pose proof (hyp_triangle (B2R (xy_x a) - B2R (xy_x b)) (B2R (xy_y a) - B2R (xy_y b)) (B2R (xy_x c) - B2R (xy_x d)) (B2R (xy_y c) - B2R (xy_y d))) as H1.
  pose proof (hyp_triangle (B2R (xy_x c) - B2R (xy_x d)) (B2R (xy_y c) - B2R (xy_y d)) (B2R (xy_x a) - B2R (xy_x b)) (B2R (xy_y a) - B2R (xy_y b))) as H2.
  rewrite (Rabs_minus_sym (B2R (xy_x a) - B2R (xy_x b))) in H2. rewrite (Rabs_minus_sym (B2R (xy_y a) - B2R (xy_y b))) in H2.
  apply Rabs_le. lra.
Qed.
Lemma near_circle x y c : nearby x -> nearby y -> nearby (xy_x (gc_center c)) -> nearby (xy_y (gc_center c)) ->
  nearby (xy_x (gc_end c)) -> nearby (xy_y (gc_end c)) ->
  BR (nearly slack x) (nearly slack y) (gr_circle_bound c) (gr_circle_bound (adjust_gr_circle x y c)).
Proof.
  intros Nx Ny A B C D.
  destruct (add_near _ _ A Nx) as [_ E1], (add_near _ _ B Ny) as [_ E2], (add_near _ _ C Nx) as [_ E3], (add_near _ _ D Ny) as [_ E4].
  pose proof (gr_circle_box c (conj (nearby_modest _ A) (nearby_modest _ B)) (conj (nearby_modest _ C) (nearby_modest _ D))) as V.
  pose proof (gr_circle_box (adjust_gr_circle x y c) (conj (add_modest _ _ A Nx) (add_modest _ _ B Ny)) (conj (add_modest _ _ C Nx) (add_modest _ _ D Ny))) as W.
  assert (T : Rabs (distance (adjust_xy x y (gc_center c)) (adjust_xy x y (gc_end c)) - distance (gc_center c) (gc_end c)) <= 2 * (2 / 10000000)).
  { apply distance_moved; cbn [adjust_xy xy_x xy_y]; apply Rabs_le_inv in E1, E2, E3, E4; apply Rabs_le; lra. }
  unfold around in V, W. cbv zeta in V, W. cbn [adjust_gr_circle gc_center gc_end] in W.
  apply Rabs_le_inv in E1, E2, T. cbn [adjust_xy xy_x xy_y] in T, W.
  eapply near_pair; [exact V|exact W| | | |]; apply Rabs_le; cbn [xy_x xy_y]; lra.
Qed.
(** ** Footprints *)
Lemma find_at x y l : (exists a, In (EAt a) l) -> exists a,
  find_map (fun e => match e with EAt a => Some (at_x a, at_y a) | _ => None end) l = Some (at_x a, at_y a) /\ In (EAt a) l /\
  find_map (fun e => match e with EAt a => Some (at_x a, at_y a) | _ => None end)
    (map (fun e => match e with EAt a => EAt (adjust_at x y a) | _ => e end) l) = Some (fadd (at_x a) x, fadd (at_y a) y).
Proof.
  induction l as [|e l IH]; intros [a H]; [contradiction|].
  assert (G : (exists b, e = EAt b) \/ forall b, e <> EAt b).
  { destruct e; try (right; intros b; discriminate). left. eexists. reflexivity. }
  destruct G as [[b ->]|G].
  - exists b. split; [reflexivity|]. split; [now left|reflexivity].
  - destruct H as [H|H]; [exfalso; exact (G a H)|]. destruct (IH (ex_intro _ a H)) as (b & B1 & B2 & B3). exists b.
    split; [|split; [now right|]]; destruct e; try exact B1; try exact B3; exfalso; eapply G; reflexivity.
Qed.
Lemma drawings_kept x y l :
  map (fun e => element_bound e) (filter (fun e => is_fab e || is_pad e) (filter is_graphics (map (fun e => match e with EAt a => EAt (adjust_at x y a) | _ => e end) l)))
  = map (fun e => element_bound e) (filter (fun e => is_fab e || is_pad e) (filter is_graphics l)).
Proof.
  induction l as [|e l IH]; [reflexivity|].
  assert (G : (exists b, e = EAt b) \/ match e with EAt a => EAt (adjust_at x y a) | _ => e end = e).
  { destruct e; try (right; reflexivity). left. eexists. reflexivity. }
  cbn [map]. destruct G as [[b ->]|G]; [exact IH|]. rewrite G. cbn [filter]. destruct (is_graphics e); [|exact IH].
  cbn [filter]. destruct (is_fab e || is_pad e)%bool; [|exact IH]. cbn [map]. now rewrite IH.
Qed.
Lemma shift_near x e p : nearby x -> nearby p -> nearby e -> nearly slack x (fadd e p) (fadd e (fadd p x)).
Proof.
  intros Nx Np Ne. destruct (add_near _ _ Np Nx) as [F1 E1], (add_near _ _ Ne Np) as [F2 E2].
  destruct Nx as [Fx Bx], Np as [Fp Bp], Ne as [Fe Be]. apply Rabs_le_inv in Bx, Bp, Be, E1, E2.
  destruct (add_val e (fadd p x) Fe F1) as [F3 E3]; [apply Rabs_le; lra|]. apply Rabs_le_inv in E3.
  split; [exact F2|]. split; [exact F3|]. unfold slack. apply Rabs_le. lra.
Qed.
Lemma forall2_maps {A} (Q : bound -> bound -> Prop) (f g : A -> bound) l : (forall a, In a l -> Q (f a) (g a)) -> Forall2 Q (map f l) (map g l).
Proof.
  induction l as [|a l IH]; intros H; cbn [map]; constructor; [apply H; now left|]. apply IH. intros b Hb. apply H. now right.
Qed.
Lemma near_module x y m : nearby x -> nearby y -> tame (YModule m) ->
  BR (nearly slack x) (nearly slack y) (module_bound m) (module_bound (adjust_module x y m)).
Proof.
  intros Nx Ny [P [H D]]. destruct (find_at x y _ H) as (a & A1 & A2 & A3).
  assert (NA : nearby (at_x a) /\ nearby (at_y a)).
  { apply (P (at_point a)). cbn [positions]. apply in_flat_map. exists (EAt a). split; [exact A2|now left]. }
  destruct NA as [NA1 NA2].
  unfold module_bound, module_at. rewrite A1. unfold adjust_module. cbn [m_elements]. rewrite A3.
  apply (br_swap _ _ (nearly_closed _ _) (nearly_closed _ _)), (br_all _ _ (nearly_closed _ _) (nearly_closed _ _)).
  - rewrite <- (map_map element_bound (bound_shift (fadd (at_x a) x) (fadd (at_y a) y))).
    change (map element_bound) with (map (fun e => element_bound e)). rewrite drawings_kept.
    change (map (fun e => element_bound e)) with (map element_bound). rewrite map_map. apply forall2_maps. intros e He.
    apply filter_In in He as [He H1]. apply filter_In in He as [He H2].
    assert (C : counts e) by (apply counts_iff; split; [exact H2|exact H1]).
    split; [reflexivity|]. cbn [bound_shift bounded bx1 by1 bx2 by2]. intros B. destruct (D e He C B) as (D1 & D2 & D3 & D4).
    split; [now apply shift_near|]. split; [now apply shift_near|]. split; now apply shift_near.
  - destruct (near_start x y Nx Ny (at_x a, at_y a) (conj NA1 NA2)) as [S1 S2]. now apply br_new.
Qed.
Lemma br_tame x y e : nearby x -> nearby y -> tame e ->
  BR (nearly slack x) (nearly slack y) (ly_element_bound e) (ly_element_bound (adjust_ly_element x y e)).
Proof.
  intros Nx Ny T. destruct (pointlike e) eqn:L.
  - exact (br_points _ _ (nearly_closed _ _) (nearly_closed _ _) x y _ (near_start x y Nx Ny) e L (proj1 T)).
  - destruct e as [m|n|n|t|l|a|c|d|s|v|z|s]; try discriminate L; cbn [adjust_ly_element ly_element_bound].
    + now apply near_module.
    + destruct T as [P _]. destruct (P _ (or_introl eq_refl)) as [A B]. destruct (P _ (or_intror (or_introl eq_refl))) as [C D]. now apply near_circle.
    + destruct T as [P S]. destruct (P _ (or_introl eq_refl)) as [A B]. now apply near_via.
Qed.
Lemma near_layout x y l : nearby x -> nearby y -> (forall e, In e (ly_elements l) -> tame e) ->
  nearly_moved slack x y (layout_bound l) (layout_bound (adjust_layout x y l)).
Proof.
  intros Nx Ny T. apply br_nearly, (br_layout _ _ (nearly_closed _ _) (nearly_closed _ _)). intros e He. now apply br_tame; [| |apply T].
Qed.
Lemma near_element x y e : nearby x -> nearby y -> tame e ->
  nearly_moved slack x y (ly_element_bound e) (ly_element_bound (adjust_ly_element x y e)).
Proof. intros Nx Ny T. apply br_nearly. now apply br_tame. Qed.

(** ** The size of the box *)
Definition both_modest (a a' : f64) : Prop := modest a /\ modest a'.
Lemma modest_closed : closed both_modest.
Proof.
  intros op H a a' b b' [A A'] [B B'].
  assert (G : forall c d, modest c -> modest d -> modest (op c d)).
  { intros c d C D. assert (I : op c d = c \/ op c d = d) by (destruct H as [H|H]; apply H; apply finite_nan; apply C || apply D).
    destruct I as [E|E]; rewrite E; assumption. }
  split; now apply G.
Qed.
Lemma modest_start x y : nearby x -> nearby y ->
  forall p, nearby (fst p) /\ nearby (snd p) -> both_modest (fst p) (fadd (fst p) x) /\ both_modest (snd p) (fadd (snd p) y).
Proof. intros Nx Ny p [A B]. split; (split; [now apply nearby_modest|now apply add_modest]). Qed.
Lemma near_modest b x1 y1 x2 y2 : near_box b x1 y1 x2 y2 -> Rabs x1 <= 900000 -> Rabs y1 <= 900000 -> Rabs x2 <= 900000 -> Rabs y2 <= 900000 -> modest_box b.
Proof.
  intros (B1 & B2 & B3 & B4 & B5 & B6) H1 H2 H3 H4. unfold finite_box in B2. rewrite !Bool.andb_true_iff in B2. destruct B2 as (((F1 & F2) & F3) & F4).
  apply Rabs_le_inv in B3, B4, B5, B6, H1, H2, H3, H4.
  split; [|split; [|split]]; (split; [assumption|]); apply Rabs_le; lra.
Qed.
Lemma modest_pair b c : bounded c = bounded b -> modest_box b -> modest_box c -> BR both_modest both_modest b c.
Proof.
  intros E (A1 & A2 & A3 & A4) (B1 & B2 & B3 & B4). split; [exact E|]. intros _. split; [now split|]. split; [now split|]. split; now split.
Qed.
Lemma via_modest v : modest (at_x (vi_at v)) -> modest (at_y (vi_at v)) -> nearby (vi_size v) ->
  Rabs (B2R (at_x (vi_at v))) <= 300000 -> Rabs (B2R (at_y (vi_at v))) <= 300000 -> modest_box (via_bound v).
Proof.
  intros A B S LA LB. pose proof (via_box v (modest_moderate _ A) (modest_moderate _ B) (modest_moderate _ (nearby_modest _ S))) as V.
  destruct S as [_ S]. apply Rabs_le_inv in LA, LB, S. eapply near_modest; [exact V| | | |]; apply Rabs_le; lra.
Qed.
Lemma add_size v x : nearby v -> nearby x -> Rabs (B2R (fadd v x)) <= 200001.
Proof. intros A B. destruct (add_near v x A B) as [F E]. destruct A as [_ A], B as [_ B]. apply Rabs_le_inv in A, B, E. apply Rabs_le. lra. Qed.
Lemma nearby_size v : nearby v -> Rabs (B2R v) <= 200001.
Proof. intros [_ A]. lra. Qed.
Lemma dist_size a b : Rabs (B2R (xy_x a) - B2R (xy_x b)) <= 200001 -> Rabs (B2R (xy_y a) - B2R (xy_y b)) <= 200001 -> 0 <= distance a b <= 400002.
Proof.
  intros X Y. unfold distance. cbv zeta. split; [apply sqrt_pos|].
  pose proof (hyp_triangle 0 0 (B2R (xy_x a) - B2R (xy_x b)) (B2R (xy_y a) - B2R (xy_y b))) as H.
  rewrite !Rminus_0_r in H. replace (0 * 0 + 0 * 0) with 0 in H by ring. rewrite sqrt_0 in H. lra.
Qed.
Lemma circle_modest c : modest2 (gc_center c) -> modest2 (gc_end c) ->
  Rabs (B2R (xy_x (gc_center c))) <= 200001 -> Rabs (B2R (xy_y (gc_center c))) <= 200001 ->
  Rabs (B2R (xy_x (gc_center c)) - B2R (xy_x (gc_end c))) <= 200001 -> Rabs (B2R (xy_y (gc_center c)) - B2R (xy_y (gc_end c))) <= 200001 ->
  modest_box (gr_circle_bound c).
Proof.
  intros A B LA LB LC LD. pose proof (gr_circle_box c A B) as V. pose proof (dist_size _ _ LC LD) as D.
  unfold around in V. cbv zeta in V. apply Rabs_le_inv in LA, LB. eapply near_modest; [exact V| | | |]; apply Rabs_le; lra.
Qed.
Lemma two_near u v : nearby u -> nearby v -> Rabs (B2R u - B2R v) <= 200001.
Proof. intros [_ A] [_ B]. apply Rabs_le_inv in A, B. apply Rabs_le. lra. Qed.
Lemma two_moved u v x : nearby u -> nearby v -> nearby x -> Rabs (B2R (fadd u x) - B2R (fadd v x)) <= 200001.
Proof.
  intros A B C. destruct (add_near u x A C) as [_ E1], (add_near v x B C) as [_ E2]. destruct A as [_ A], B as [_ B].
  apply Rabs_le_inv in A, B, E1, E2. apply Rabs_le. lra.
Qed.
Lemma shift_modest x e p : nearby x -> nearby p -> nearby e -> both_modest (fadd e p) (fadd e (fadd p x)).
Proof.
  intros Nx Np Ne. split; [now apply add_modest|]. pose proof (add_size p x Np Nx) as S. destruct (add_near _ _ Np Nx) as [F1 _].
  destruct Ne as [Fe Be]. apply Rabs_le_inv in S, Be. destruct (add_val e (fadd p x) Fe F1) as [F3 E3]; [apply Rabs_le; lra|].
  split; [exact F3|]. apply Rabs_le_inv in E3. apply Rabs_le. lra.
Qed.
Lemma modest_module x y m : nearby x -> nearby y -> tame (YModule m) ->
  BR both_modest both_modest (module_bound m) (module_bound (adjust_module x y m)).
Proof.
  intros Nx Ny [P [H D]]. destruct (find_at x y _ H) as (a & A1 & A2 & A3).
  assert (NA : nearby (at_x a) /\ nearby (at_y a)).
  { apply (P (at_point a)). cbn [positions]. apply in_flat_map. exists (EAt a). split; [exact A2|now left]. }
  destruct NA as [NA1 NA2].
  unfold module_bound, module_at. rewrite A1. unfold adjust_module. cbn [m_elements]. rewrite A3.
  apply (br_swap _ _ modest_closed modest_closed), (br_all _ _ modest_closed modest_closed).
  - rewrite <- (map_map element_bound (bound_shift (fadd (at_x a) x) (fadd (at_y a) y))).
    change (map element_bound) with (map (fun e => element_bound e)). rewrite drawings_kept.
    change (map (fun e => element_bound e)) with (map element_bound). rewrite map_map. apply forall2_maps. intros e He.
    apply filter_In in He as [He H1]. apply filter_In in He as [He H2].
    assert (C : counts e) by (apply counts_iff; split; [exact H2|exact H1]).
    split; [reflexivity|]. cbn [bound_shift bounded bx1 by1 bx2 by2]. intros B. destruct (D e He C B) as (D1 & D2 & D3 & D4).
    split; [now apply shift_modest|]. split; [now apply shift_modest|]. split; now apply shift_modest.
  - destruct (modest_start x y Nx Ny (at_x a, at_y a) (conj NA1 NA2)) as [S1 S2]. now apply br_new.
Qed.
Lemma modest_tame x y e : nearby x -> nearby y -> tame e ->
  BR both_modest both_modest (ly_element_bound e) (ly_element_bound (adjust_ly_element x y e)).
Proof.
  intros Nx Ny T. destruct (pointlike e) eqn:L.
  - exact (br_points _ _ modest_closed modest_closed x y _ (modest_start x y Nx Ny) e L (proj1 T)).
  - destruct e as [m|n|n|t|l|a|c|d|s|v|z|s]; try discriminate L; cbn [adjust_ly_element ly_element_bound].
    + now apply modest_module.
    + destruct T as [P _]. destruct (P _ (or_introl eq_refl)) as [A B]. destruct (P _ (or_intror (or_introl eq_refl))) as [C D].
      cbn [xy_point fst snd] in A, B, C, D. apply modest_pair; [reflexivity| |].
      * apply circle_modest; [split; now apply nearby_modest|split; now apply nearby_modest|now apply nearby_size|now apply nearby_size|now apply two_near|now apply two_near].
      * apply circle_modest; cbn [adjust_gr_circle gc_center gc_end adjust_xy xy_x xy_y];
          [split; now apply add_modest|split; now apply add_modest|now apply add_size|now apply add_size|now apply two_moved|now apply two_moved].
    + destruct T as [P S]. destruct (P _ (or_introl eq_refl)) as [A B]. cbn [at_point fst snd] in A, B. pose proof (nearby_size _ A). pose proof (nearby_size _ B).
      apply modest_pair; [reflexivity| |].
      * apply via_modest; [now apply nearby_modest|now apply nearby_modest|exact S|lra|lra].
      * pose proof (add_size _ _ A Nx). pose proof (add_size _ _ B Ny).
        apply via_modest; cbn [adjust_via vi_at vi_size adjust_at at_x at_y]; [now apply add_modest|now apply add_modest|exact S|lra|lra].
Qed.
Lemma side_size x a b a' b' : nearly slack x a a' -> nearly slack x b b' -> both_modest a a' -> both_modest b b' ->
  Rabs (B2R (fabs (fsub a' b')) - B2R (fabs (fsub a b))) <= / 100.
Proof.
  intros (_ & _ & A) (_ & _ & B) [[Fa Ba] [Fa' Ba']] [[Fb Bb] [Fb' Bb']]. unfold slack in A, B. apply Rabs_le_inv in A, B, Ba, Ba', Bb, Bb'.
  destruct (sub_val a b Fa Fb) as [F E]; [apply Rabs_le; lra|]. destruct (sub_val a' b' Fa' Fb') as [F' E']; [apply Rabs_le; lra|].
  apply Rabs_le_inv in E, E'. unfold fabs. rewrite !B2R_Babs.
  eapply Rle_trans; [apply Rabs_triang_inv2|]. apply Rabs_le. lra.
Qed.
Lemma size_layout x y l : nearby x -> nearby y -> (forall e, In e (ly_elements l) -> tame e) -> bounded (layout_bound l) = true ->
  Rabs (B2R (bound_width (layout_bound (adjust_layout x y l))) - B2R (bound_width (layout_bound l))) <= / 100 /\
  Rabs (B2R (bound_height (layout_bound (adjust_layout x y l))) - B2R (bound_height (layout_bound l))) <= / 100.
Proof.
  intros Nx Ny T B.
  assert (M : BR both_modest both_modest (layout_bound l) (layout_bound (adjust_layout x y l))).
  { apply (br_layout _ _ modest_closed modest_closed). intros e He. now apply modest_tame; [| |apply T]. }
  assert (N : BR (nearly slack x) (nearly slack y) (layout_bound l) (layout_bound (adjust_layout x y l))).
  { apply (br_layout _ _ (nearly_closed _ _) (nearly_closed _ _)). intros e He. now apply br_tame; [| |apply T]. }
  destruct M as [_ M], N as [_ N]. destruct (M B) as (M1 & M2 & M3 & M4), (N B) as (N1 & N2 & N3 & N4).
  unfold bound_width, bound_height. split; eapply side_size; eassumption.
Qed.

(** ** Checks for the examples *)
Definition nearbyb (v : f64) : bool := is_finite v && fleb (f64_of_Z (-100000)) v && fleb v (f64_of_Z 100000).
Lemma nearbyb_ok v : nearbyb v = true -> nearby v.
Proof.
  unfold nearbyb, nearby. intros H. apply andb_prop in H as [H H2]. apply andb_prop in H as [F H1]. split; [exact F|].
  assert (P : is_finite (f64_of_Z 100000) = true /\ B2R (f64_of_Z 100000) = 100000).
  { assert (Y : B2SF (f64_of_Z 100000) = SpecFloat.S754_finite false 6871947673600000 (-36)) by (vm_compute; reflexivity).
    split; [vm_compute; reflexivity|]. rewrite <- SF2R_B2SF, Y. cbn [SF2R cond_Zopp]. unfold F2R. cbn [Fnum Fexp].
    change (bpow radix2 (-36)) with (/ IZR (2^36)). change (2^36)%Z with 68719476736%Z. lra. }
  assert (M : is_finite (f64_of_Z (-100000)) = true /\ B2R (f64_of_Z (-100000)) = -100000).
  { assert (Y : B2SF (f64_of_Z (-100000)) = SpecFloat.S754_finite true 6871947673600000 (-36)) by (vm_compute; reflexivity).
    split; [vm_compute; reflexivity|]. rewrite <- SF2R_B2SF, Y. cbn [SF2R cond_Zopp]. unfold F2R. cbn [Fnum Fexp].
    change (bpow radix2 (-36)) with (/ IZR (2^36)). change (2^36)%Z with 68719476736%Z. cbn [Z.opp]. lra. }
  apply fleb_rx in H1; [|apply finite_nan, M|now apply finite_nan]. apply fleb_rx in H2; [|now apply finite_nan|apply finite_nan, P].
  rewrite (rx_finite _ F) in H1, H2. rewrite (rx_finite _ (proj1 M)), (proj2 M) in H1. rewrite (rx_finite _ (proj1 P)), (proj2 P) in H2. apply Rabs_le. lra.
Qed.
Definition nearby_boxb (b : bound) : bool := nearbyb (bx1 b) && nearbyb (by1 b) && nearbyb (bx2 b) && nearbyb (by2 b).
Definition tameb (e : ly_element) : bool :=
  forallb (fun p => nearbyb (fst p) && nearbyb (snd p)) (positions e) &&
  match e with
  | YVia v => nearbyb (vi_size v)
  | YModule m => existsb (fun e => match e with EAt _ => true | _ => false end) (m_elements m)
      && forallb (fun d => negb (bounded (element_bound d)) || nearby_boxb (element_bound d)) (m_elements m)
  | _ => true
  end.
Lemma tameb_ok e : tameb e = true -> tame e.
Proof.
  unfold tameb. intros H. apply andb_prop in H as [P Q]. split.
  - intros p Hp. rewrite forallb_forall in P. specialize (P p Hp). apply andb_prop in P as [P1 P2]. split; now apply nearbyb_ok.
  - destruct e as [m|n|n|t|l|a|c|d|s|v|z|s]; try exact I; [|now apply nearbyb_ok]. apply andb_prop in Q as [Q1 Q2]. split.
    + apply existsb_exists in Q1 as (e & He & E). destruct e; try discriminate E. eexists. exact He.
    + intros d Hd _ B. rewrite forallb_forall in Q2. specialize (Q2 d Hd). rewrite B in Q2. cbn [negb orb] in Q2.
      unfold nearby_boxb in Q2. rewrite !Bool.andb_true_iff in Q2. destruct Q2 as (((A1 & A2) & A3) & A4).
      split; [now apply nearbyb_ok|]. split; [now apply nearbyb_ok|]. split; now apply nearbyb_ok.
Qed.
