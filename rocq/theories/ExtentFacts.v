(** Lemmas for C123: the box of a schematic in whole numbers. *)
From Coq Require Import Reals Lra Lia.
From Flocq Require Import IEEE754.BinarySingleNaN.
From Verif Require Import Base Num F64 F64Order Bound BoundSpec BoundFacts SchData SchOps SchSpec SchBoundFacts SchTight ExtentSpec.
Open Scope list_scope.

Lemma zltb a b : small53 a -> small53 b -> fltb (f64_of_Z a) (f64_of_Z b) = Z.ltb a b.
Proof.
  intros A B. destruct (f64_of_Z_rx a) as [_ NA], (f64_of_Z_rx b) as [_ NB]. pose proof (fltb_rx _ _ NA NB) as K. rewrite !f64_of_Z_exact in K by assumption.
  destruct (Z.ltb_spec a b) as [L|L]; [apply K; now apply IZR_lt|]. destruct (fltb _ _); [|reflexivity]. exfalso. assert (T : (IZR a < IZR b)%R) by now apply K. apply lt_IZR in T. lia.
Qed.
Lemma zgtb a b : small53 a -> small53 b -> fgtb (f64_of_Z a) (f64_of_Z b) = Z.ltb b a.
Proof.
  intros A B. destruct (f64_of_Z_rx a) as [_ NA], (f64_of_Z_rx b) as [_ NB]. pose proof (fgtb_rx _ _ NA NB) as K. rewrite !f64_of_Z_exact in K by assumption.
  destruct (Z.ltb_spec b a) as [L|L]; [apply K; now apply IZR_lt|]. destruct (fgtb _ _); [|reflexivity]. exfalso. assert (T : (IZR b < IZR a)%R) by now apply K. apply lt_IZR in T. lia.
Qed.
Lemma zmin a b : small53 a -> small53 b -> fmin (f64_of_Z a) (f64_of_Z b) = f64_of_Z (Z.min a b).
Proof.
  intros A B. unfold fmin. rewrite !(fun z => proj2 (f64_of_Z_rx z)), zltb by assumption. destruct (Z.ltb_spec b a); f_equal; lia.
Qed.
Lemma zmax a b : small53 a -> small53 b -> fmax (f64_of_Z a) (f64_of_Z b) = f64_of_Z (Z.max a b).
Proof.
  intros A B. unfold fmax. rewrite !(fun z => proj2 (f64_of_Z_rx z)), zltb by assumption. destruct (Z.ltb_spec a b); f_equal; lia.
Qed.
Definition qbox (q : quad) : bound := bound_new_i64 (q_left q) (q_top q) (q_right q) (q_bottom q).
Definition qjoin (p q : quad) : quad := mk_quad (Z.min (q_left p) (q_left q)) (Z.min (q_top p) (q_top q)) (Z.max (q_right p) (q_right q)) (Z.max (q_bottom p) (q_bottom q)).
Lemma min53 a b : small53 a -> small53 b -> small53 (Z.min a b). Proof. unfold small53. lia. Qed.
Lemma max53 a b : small53 a -> small53 b -> small53 (Z.max a b). Proof. unfold small53. lia. Qed.
Lemma join_small p q : small_quad p -> small_quad q -> small_quad (qjoin p q).
Proof. intros (A & B & C & D) (A' & B' & C' & D'). unfold small_quad, qjoin. cbn [q_left q_top q_right q_bottom]. auto using min53, max53. Qed.
Lemma update_join p q : small_quad p -> small_quad q -> bound_update (qbox p) (qbox q) = qbox (qjoin p q).
Proof.
  intros (A & B & C & D) (A' & B' & C' & D'). unfold bound_update, qbox, bound_new_i64, qjoin. cbn [bounded negb bx1 by1 bx2 by2 q_left q_top q_right q_bottom].
  rewrite zmin, zmin, zmax, zmax by assumption. reflexivity.
Qed.
Lemma swap_join q : small_quad q -> bound_swap (qbox q) =
  bound_new_i64 (Z.min (q_left q) (q_right q)) (Z.min (q_top q) (q_bottom q)) (Z.max (q_left q) (q_right q)) (Z.max (q_top q) (q_bottom q)).
Proof.
  intros (A & B & C & D). unfold bound_swap, qbox, bound_new_i64. cbn [bounded bx1 by1 bx2 by2]. rewrite !zgtb by assumption.
  destruct (Z.ltb_spec (q_right q) (q_left q)), (Z.ltb_spec (q_bottom q) (q_top q)); f_equal; f_equal; lia.
Qed.
Lemma outline_one q : outline [q] q.
Proof. unfold outline, least, greatest. cbn [map In]. repeat apply conj; try (now left); intros y [<-|[]]; lia. Qed.
Lemma least_snoc l a b : least l a -> least (l ++ [b]) (Z.min a b).
Proof.
  intros [I H]. split.
  - apply in_or_app. destruct (Z.min_spec a b) as [[_ ->]|[_ ->]]; [now left|right; now left].
  - intros y Y. apply in_app_or in Y as [Y|[<-|[]]]; [specialize (H y Y)|]; lia.
Qed.
Lemma greatest_snoc l a b : greatest l a -> greatest (l ++ [b]) (Z.max a b).
Proof.
  intros [I H]. split.
  - apply in_or_app. destruct (Z.max_spec a b) as [[_ ->]|[_ ->]]; [right; now left|now left].
  - intros y Y. apply in_app_or in Y as [Y|[<-|[]]]; [specialize (H y Y)|]; lia.
Qed.
Lemma outline_snoc l p q : outline l p -> outline (l ++ [q]) (qjoin p q).
Proof. intros (A & B & C & D). unfold outline, qjoin. rewrite !map_app. cbn [map q_left q_top q_right q_bottom]. auto using least_snoc, greatest_snoc. Qed.
Lemma outline_unique l p q : outline l p -> outline l q -> p = q.
Proof.
  destruct p as [a b c d], q as [a' b' c' d']. unfold outline, least, greatest. cbn [q_left q_top q_right q_bottom].
  intros ((A1 & A2) & (B1 & B2) & (C1 & C2) & D1 & D2) ((A3 & A4) & (B3 & B4) & (C3 & C4) & D3 & D4).
  pose proof (A2 _ A3). pose proof (A4 _ A1). pose proof (B2 _ B3). pose proof (B4 _ B1). pose proof (C2 _ C3). pose proof (C4 _ C1). pose proof (D2 _ D3). pose proof (D4 _ D1). f_equal; lia.
Qed.
Lemma all_outline r : forall l p, outline l p -> small_quad p -> Forall small_quad r -> exists q, outline (l ++ r) q /\ small_quad q /\ bound_all (qbox p) (map qbox r) = qbox q.
Proof.
  induction r as [|x r IH]; intros l p O P F.
  - exists p. rewrite app_nil_r. auto.
  - inversion F; subst. cbn [map bound_all fold_left]. rewrite update_join by assumption.
    destruct (IH (l ++ [x]) (qjoin p x)) as (q & Q1 & Q2 & Q3); [now apply outline_snoc|now apply join_small|assumption|]. rewrite <- app_assoc in Q1. exists q. auto.
Qed.
Lemma skip_default l : forall b, bound_all b (map selement_bound l) = bound_all b (map qbox (map comp_quad (own l))).
Proof.
  induction l as [|e l IH]; intros b; [reflexivity|]. destruct e; cbn [map own flat_map app selement_bound bound_all fold_left]; try apply IH. Qed.
Lemma sheets_q l : forall hs, mapM sheet_bound l = Ok hs -> hs = map qbox (map sheet_quad l).
Proof.
  induction l as [|h l IH]; cbn [mapM map]; intros hs H; [now injection H as <-|]. destruct (sheet_bound h) as [b| |] eqn:E; cbn [bind] in H; try discriminate.
  destruct (mapM sheet_bound l) as [u| |]; cbn [bind] in H; try discriminate. injection H as <-. rewrite (sheet_bound_inv _ _ E), (IH u eq_refl). reflexivity.
Qed.
Lemma sch_quads s b : sch_bound s = Ok b -> b = bound_swap (bound_all bound_default (map qbox (quads s))).
Proof.
  unfold sch_bound. destruct (mapM sheet_bound (sc_sheets s)) as [hs| |] eqn:M; cbn [bind]; try discriminate. intros [= <-].
  rewrite (sheets_q _ _ M), skip_default. unfold quads. rewrite map_app. unfold bound_all. now rewrite fold_left_app.
Qed.
Lemma sch_extent s b q : sch_bound s = Ok b -> Forall small_quad (quads s) -> outline (quads s) q ->
  b = bound_new_i64 (Z.min (q_left q) (q_right q)) (Z.min (q_top q) (q_bottom q)) (Z.max (q_left q) (q_right q)) (Z.max (q_top q) (q_bottom q)).
Proof.
  intros H F O. rewrite (sch_quads s b H). destruct (quads s) as [|x r]; [now destruct O as ((? & _) & _)|]. inversion F; subst.
  unfold bound_all. cbn [map fold_left]. change (bound_update bound_default (qbox x)) with (qbox x).
  destruct (all_outline r [x] x) as (q' & Q1 & Q2 & Q3); [apply outline_one|assumption|assumption|]. change (fold_left bound_update (map qbox r) (qbox x)) with (bound_all (qbox x) (map qbox r)). rewrite Q3.
  rewrite (outline_unique _ _ _ O Q1). now apply swap_join.
Qed.
Lemma sch_none s b : sch_bound s = Ok b -> quads s = [] -> b = bound_default.
Proof. intros H Q. rewrite (sch_quads s b H), Q. reflexivity. Qed.
Lemma has_outline l : l <> [] -> exists q, outline l q.
Proof.
  induction l as [|x l IH] using rev_ind; [contradiction|]. intros _. destruct l as [|y l].
  - exists x. apply outline_one.
  - destruct IH as [q Q]; [discriminate|]. exists (qjoin q x). now apply outline_snoc.
Qed.
Lemma outline_small l q : outline l q -> Forall small_quad l -> small_quad q.
Proof.
  intros ((A & _) & (B & _) & (C & _) & D & _) F. rewrite Forall_forall in F.
  apply in_map_iff in A as (a & EA & A). apply in_map_iff in B as (b & EB & B). apply in_map_iff in C as (c & EC & C). apply in_map_iff in D as (d & ED & D).
  unfold small_quad. rewrite <- EA, <- EB, <- EC, <- ED. destruct (F _ A) as (? & _), (F _ B) as (_ & ? & _), (F _ C) as (_ & _ & ? & _), (F _ D) as (_ & _ & _ & ?). auto.
Qed.
(** Which points are inside *)
Lemma point_extent s b q x y : sch_bound s = Ok b -> Forall small_quad (quads s) -> outline (quads s) q -> small53 x -> small53 y ->
  (inside (f64_of_Z x) (f64_of_Z y) b = true <->
   (Z.min (q_left q) (q_right q) <= x <= Z.max (q_left q) (q_right q) /\ Z.min (q_top q) (q_bottom q) <= y <= Z.max (q_top q) (q_bottom q))%Z).
Proof.
  intros H F O X Y. pose proof (outline_small _ _ O F) as (A & B & C & D). rewrite (sch_extent s b q H F O). unfold inside, bound_new_i64. cbn [bx1 by1 bx2 by2].
  rewrite !f64_of_Z_leb by first [assumption|now apply min53|now apply max53]. rewrite !andb_true_iff, !Z.leb_le. lia.
Qed.
Lemma own_in l c : In c (own l) <-> In (SComponent c) l.
Proof.
  unfold own. rewrite in_flat_map. split.
  - intros (e & I & J). destruct e; try contradiction. destruct J as [->|[]]. exact I.
  - intros I. exists (SComponent c). split; [exact I|now left].
Qed.
Lemma every_extent s b : sch_bound s = Ok b -> sc_sheets s = [] -> Forall small_quad (quads s) ->
  ((forall c, In (SComponent c) (sc_elements s) -> inside (f64_of_Z (co_x c)) (f64_of_Z (co_y c)) b = true) <->
   (exists c0, In (SComponent c0) (sc_elements s) /\ forall c, In (SComponent c) (sc_elements s) -> (co_y c0 <= co_x c)%Z)
   \/ (forall c d, In (SComponent c) (sc_elements s) -> In (SComponent d) (sc_elements s) -> co_x c = co_x d)).
Proof.
  intros H E F. assert (Q : quads s = map comp_quad (own (sc_elements s))) by (unfold quads; rewrite E; apply app_nil_r).
  destruct (own (sc_elements s)) as [|k r] eqn:W.
  { assert (N : forall c, ~ In (SComponent c) (sc_elements s)) by (intros c I; apply own_in in I; now rewrite W in I).
    split; [intros _; right; intros c d I; now destruct (N c)|intros _ c I; now destruct (N c)]. }
  assert (NE : quads s <> []) by (rewrite Q; discriminate). rewrite <- W in Q. destruct (has_outline _ NE) as [q O].
  assert (IN : forall c, In (SComponent c) (sc_elements s) -> In (comp_quad c) (quads s)) by (intros c I; rewrite Q; apply in_map, own_in, I).
  assert (SM : forall c, In (SComponent c) (sc_elements s) -> small53 (co_x c) /\ small53 (co_y c)).
  { intros c I. rewrite Forall_forall in F. destruct (F _ (IN c I)) as (A & B & C & D). cbn in A, C. auto. }
  pose proof O as ((L1 & L2) & (T1 & T2) & (R1 & R2) & B1 & B2).
  assert (P : forall c, In (SComponent c) (sc_elements s) -> (q_left q <= co_y c /\ q_top q <= co_y c <= q_bottom q /\ co_x c <= q_right q)%Z).
  { intros c I. apply IN in I. pose proof (L2 _ (in_map q_left _ _ I)). pose proof (T2 _ (in_map q_top _ _ I)). pose proof (R2 _ (in_map q_right _ _ I)). pose proof (B2 _ (in_map q_bottom _ _ I)). cbn in *. lia. }
  assert (G : forall x, In x (quads s) -> exists c, In (SComponent c) (sc_elements s) /\ x = comp_quad c).
  { intros x I. rewrite Q in I. apply in_map_iff in I as (c & <- & I). exists c. split; [now apply own_in|reflexivity]. }
  apply in_map_iff in L1 as (x & XE & X). apply in_map_iff in R1 as (z & ZE & Z). destruct (G x X) as (cl & CL & ->), (G z Z) as (cr & CR & ->). cbn [comp_quad q_left q_right] in XE, ZE.
  assert (IFF : forall c, In (SComponent c) (sc_elements s) -> (inside (f64_of_Z (co_x c)) (f64_of_Z (co_y c)) b = true <-> (Z.min (q_left q) (q_right q) <= co_x c <= Z.max (q_left q) (q_right q))%Z)).
  { intros c I. destruct (SM c I) as [S1 S2]. rewrite (point_extent s b q _ _ H F O S1 S2). pose proof (P c I). lia. }
  split.
  - intros A. destruct (Z_le_gt_dec (q_left q) (q_right q)) as [LE|GT].
    + left. exists cl. split; [exact CL|]. intros c I. specialize (A c I). apply (IFF c I) in A. lia.
    + right. assert (K : forall c, In (SComponent c) (sc_elements s) -> co_x c = q_right q) by (intros c I; specialize (A c I); apply (IFF c I) in A; pose proof (P c I); lia).
      intros c d I J. now rewrite (K c I), (K d J).
  - intros [(c0 & I0 & A)|A] c I; apply (IFF c I); pose proof (P c I) as Pc.
    + specialize (A c I) as Ac. pose proof (P c0 I0). lia.
    + rewrite <- ZE, (A c cr I CR). lia.
Qed.
