(** Lemmas for C59. *)
From Coq Require Import String Reals Lra.
From Flocq Require Import IEEE754.BinarySingleNaN Core.
From Verif Require Import Base Str F64 F64Text F64Order FpData FpOps FpOpsSpec F64Grid FpOpsFacts FpExamples TightFacts FlipSpec.
Open Scope string_scope. Open Scope list_scope.

Lemma val360 : is_finite f360 = true /\ B2R f360 = 360%R.
Proof.
  apply (lit_val f360 6333186975989760 (-44)); [vm_compute; reflexivity|]. unfold F2R; cbn [Fnum Fexp].
  change (bpow radix2 (-44)) with (/ 17592186044416)%R. lra.
Qed.
Lemma angle_flip a : mirror_angle (at_rot a) (at_rot (flip_at a)).
Proof.
  intros F. destruct val360 as [G V]. destruct (fsub_finite f360 (at_rot a) G F) as [X N]. rewrite V in X. exact (conj N X).
Qed.
Lemma layer_flip l : other_side l (flip_layer l).
Proof. destruct l as [[] t]; unfold flip_layer; cbn [la_side la_t flip_side]; constructor; discriminate. Qed.
Lemma at_flip a : mirror_point (at_point a) (at_point (flip_at a)). Proof. exact (conj eq_refl eq_refl). Qed.
Lemma xy_flip a : mirror_point (xy_point a) (xy_point (flip_xy a)). Proof. exact (conj eq_refl eq_refl). Qed.
Lemma pts_flip p : Forall2 mirror_point (map xy_point p) (map xy_point (flip_pts p)).
Proof. induction p as [|q p IH]; cbn [map flip_pts]; constructor; [apply xy_flip|exact IH]. Qed.
Lemma layers_flip l : Forall2 other_side l (flip_layers l).
Proof. induction l as [|q p IH]; cbn [map flip_layers]; constructor; [apply layer_flip|exact IH]. Qed.
Ltac f2 := repeat match goal with |- Forall2 _ [] [] => constructor | |- Forall2 _ (_ :: _) (_ :: _) => apply Forall2_cons end.
Lemma flip_points e : Forall2 mirror_point (e_points e) (e_points (flip_element e)).
Proof.
  destruct e; cbn [e_points flip_element]; f2; try apply at_flip; try apply xy_flip. apply pts_flip.
Qed.
Lemma flip_angles e : Forall2 mirror_angle (e_angles e) (e_angles (flip_element e)).
Proof. destruct e; cbn [e_angles flip_element]; f2; apply angle_flip. Qed.
Lemma flip_elayers e : Forall2 other_side (e_layers e) (e_layers (flip_element e)).
Proof. destruct e; cbn [e_layers flip_element]; f2; try apply layer_flip. apply layers_flip. Qed.
Lemma flip_justify e : Forall2 toggled (e_justify e) (e_justify (flip_element e)).
Proof.
  destruct e; cbn [e_justify flip_element]; f2. unfold toggled. cbn [flip_text tx_effects flip_effects ef_justify].
  destruct (ef_justify (tx_effects t)); [right|left]; split; try reflexivity; discriminate.
Qed.
Lemma flip_rest e : e_rest (flip_element e) = e_rest e.
Proof.
  destruct e; try reflexivity. cbn [e_rest flip_element flip_poly po_pts po_width]. unfold flip_pts. rewrite map_map. reflexivity.
Qed.
Lemma flip_all m : m_name (flip_module m) = m_name m /\ Forall2 (fun e f =>
  Forall2 mirror_point (e_points e) (e_points f) /\ Forall2 mirror_angle (e_angles e) (e_angles f) /\
  Forall2 other_side (e_layers e) (e_layers f) /\ Forall2 toggled (e_justify e) (e_justify f) /\ e_rest f = e_rest e)
  (m_elements m) (m_elements (flip_module m)).
Proof.
  split; [reflexivity|]. unfold flip_module; cbn [m_elements]. induction (m_elements m) as [|e l IH]; cbn [map]; constructor; [|exact IH].
  exact (conj (flip_points e) (conj (flip_angles e) (conj (flip_elayers e) (conj (flip_justify e) (flip_rest e))))).
Qed.

Lemma rotate_points d e : e_points (rotate_element d e) = e_points e. Proof. destruct e; reflexivity. Qed.
Lemma rotate_layers d e : e_layers (rotate_element d e) = e_layers e. Proof. destruct e; reflexivity. Qed.
Lemma rotate_justify d e : e_justify (rotate_element d e) = e_justify e. Proof. destruct e; reflexivity. Qed.
Lemma rotate_rest d e : e_rest (rotate_element d e) = e_rest e. Proof. destruct e; reflexivity. Qed.
Lemma at_turn d a : turned_by d (at_rot a) (at_rot (rotate_at d a)).
Proof. destruct a as [x y r]. intros Ha Hd Ba Bd. exact (rotate_exact r d Ha Hd Ba Bd x y). Qed.
Lemma rotate_angles d e : Forall2 (turned_by d) (e_angles e) (e_angles (rotate_element d e)).
Proof. destruct e; cbn [e_angles rotate_element]; f2; apply at_turn. Qed.
Lemma rotate_all d m : m_name (rotate_module d m) = m_name m /\ Forall2 (fun e f =>
  e_points f = e_points e /\ Forall2 (turned_by d) (e_angles e) (e_angles f) /\
  e_layers f = e_layers e /\ e_justify f = e_justify e /\ e_rest f = e_rest e)
  (m_elements m) (m_elements (rotate_module d m)).
Proof.
  split; [reflexivity|]. unfold rotate_module; cbn [m_elements]. induction (m_elements m) as [|e l IH]; cbn [map]; constructor; [|exact IH].
  exact (conj (rotate_points d e) (conj (rotate_angles d e) (conj (rotate_layers d e) (conj (rotate_justify d e) (rotate_rest d e))))).
Qed.

(** The views leave nothing out. *)
Lemma xy_view p q : xy_point p = xy_point q -> no_xy p = no_xy q -> p = q.
Proof. destruct p as [x y t], q as [x' y' t']. intros H K. injection H as -> ->. injection K as ->. reflexivity. Qed.
Lemma pts_view p : forall q, map xy_point p = map xy_point q -> map no_xy p = map no_xy q -> p = q.
Proof.
  induction p as [|a p IH]; intros [|b q] H K; try discriminate H; [reflexivity|]. cbn [map] in H, K.
  assert (H1 : xy_point a = xy_point b) by congruence. assert (H2 : map xy_point p = map xy_point q) by congruence.
  assert (K1 : no_xy a = no_xy b) by congruence. assert (K2 : map no_xy p = map no_xy q) by congruence.
  f_equal; [now apply xy_view|now apply IH].
Qed.
Lemma at_view a b : at_point a = at_point b -> at_rot a = at_rot b -> a = b.
Proof. destruct a as [x y t], b as [x' y' t']. cbn. intros H ->. injection H as -> ->. reflexivity. Qed.
Lemma one_inj {A} (a b : A) : [a] = [b] -> a = b. Proof. now intros [= ->]. Qed.
Lemma views e f : e_points e = e_points f -> e_angles e = e_angles f -> e_layers e = e_layers f -> e_justify e = e_justify f ->
  e_rest e = e_rest f -> e = f.
Proof.
  destruct e as [?|la|?|?|?|t|p|p|l|c|a|?|?|?|a|?|?|], f as [?|la'|?|?|?|t'|p'|p'|l'|c'|a'|?|?|?|a'|?|?|];
    cbn [e_points e_angles e_layers e_justify e_rest]; intros P A L J R; try discriminate R; try exact R.
  - injection L as ->. reflexivity.
  - assert (X : tx_at t = tx_at t') by (apply at_view; [apply (one_inj _ _ P)|apply (one_inj _ _ A)]).
    destruct t as [n v ta tl [ft jj] h], t' as [n' v' ta' tl' [ft' jj'] h']. cbn in *. injection R as -> -> -> ->. injection L as ->. injection J as ->. now subst.
  - assert (X : pa_at p = pa_at p') by (apply at_view; [apply (one_inj _ _ P)|apply (one_inj _ _ A)]).
    destruct p, p'. cbn in *. injection R as -> -> -> -> -> -> -> -> -> -> -> ->. now subst.
  - assert (X : po_pts p = po_pts p') by (injection R as R _; now apply pts_view).
    destruct p, p'. cbn in *. injection R as _ ->. injection L as ->. now subst.
  - assert (X : li_start l = li_start l' /\ li_end l = li_end l').
    { split; apply xy_view; try congruence; cbn in R; injection R; intros; congruence. }
    destruct X, l, l'. cbn in *. injection R as _ _ ->. injection L as ->. now subst.
  - assert (X : ci_center c = ci_center c' /\ ci_end c = ci_end c').
    { split; apply xy_view; try congruence; cbn in R; injection R; intros; congruence. }
    destruct X, c, c'. cbn in *. injection R as _ _ ->. injection L as ->. now subst.
  - assert (X : ar_start a = ar_start a' /\ ar_end a = ar_end a').
    { split; apply xy_view; try congruence; cbn in R; injection R; intros; congruence. }
    destruct X, a, a'. cbn in *. injection R as _ _ -> ->. injection L as ->. now subst.
  - assert (X : a = a') by (apply at_view; [apply (one_inj _ _ P)|apply (one_inj _ _ A)]). now subst.
Qed.

(** An arc keeps its direction although it is mirrored. *)
Definition q_arc : fp_arc := mk_arc (mk_xy fzero fzero XStart) (mk_xy f90 fzero XEnd) f90 f_silk f90.
Lemma arc_lost : on_arc q_arc 0 90 /\ ~ on_arc (flip_arc q_arc) 0 (-90).
Proof.
  assert (Z : B2R fzero = 0%R) by reflexivity. assert (Z' : B2R (fneg fzero) = 0%R) by reflexivity. destruct val90 as [_ V].
  split.
  - exists 1%R. split; [lra|]. cbv zeta. cbn [q_arc ar_start ar_end ar_angle xy_x xy_y]. rewrite V, Z.
    replace (1 * 90 * PI / 180)%R with (PI / 2)%R by field. rewrite cos_PI2, sin_PI2. lra.
  - intros (t & T & E). cbv zeta in E. cbn [q_arc flip_arc flip_xy ar_start ar_end ar_angle xy_x xy_y] in E. rewrite V, Z, Z' in E.
    destruct E as [_ E]. assert (S : (0 <= sin (t * 90 * PI / 180))%R).
    { pose proof PI_RGT_0. apply sin_ge_0; nra. }
    nra.
Qed.
