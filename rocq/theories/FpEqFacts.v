(** Laws of the equality on footprint parts. *)
From Coq Require Import String.
From Flocq Require Import IEEE754.BinarySingleNaN.
From Verif Require Import Base Str StrFacts Num F64 F64Text F64Facts F64Order FpData FpLayer FpSer FpOps FpExamples Sexp.
Open Scope string_scope. Open Scope list_scope.

(** Symmetric and transitive. *)
Definition per {A} (eqb : A -> A -> bool) : Prop :=
  (forall a b, eqb a b = eqb b a)
  /\ (forall a b c, eqb a b = true -> eqb b c = true -> eqb a c = true).

Lemma per_iff {A} (eqb : A -> A -> bool) : (forall a b, eqb a b = true <-> a = b) -> per eqb.
Proof.
  intros H. split.
  - intros a b. destruct (eqb a b) eqn:E, (eqb b a) eqn:F; try reflexivity.
    + apply H in E. subst. pose proof (proj2 (H b b) eq_refl). congruence.
    + apply H in F. subst. pose proof (proj2 (H a a) eq_refl). congruence.
  - intros a b c E F. apply H in E. apply H in F. apply H. congruence.
Qed.
Lemma per_feqb : per feqb.
Proof. split; [apply feqb_sym|apply feqb_trans]. Qed.
Lemma per_str : per str_eqb. Proof. apply per_iff, str_eqb_eq. Qed.
Lemma per_Z : per Z.eqb. Proof. apply per_iff, Z.eqb_eq. Qed.
Lemma per_bool : per Bool.eqb. Proof. apply per_iff, Bool.eqb_true_iff. Qed.
Lemma per_xyt : per xy_type_eqb.
Proof. apply per_iff. intros [] []; cbn; split; congruence. Qed.
Lemma per_just : per justify_eqb.
Proof. apply per_iff. intros [] []; cbn; split; congruence. Qed.
Lemma per_padt : per pad_type_eqb.
Proof. apply per_iff. intros [] []; cbn; split; congruence. Qed.
Lemma per_pads : per pad_shape_eqb.
Proof. apply per_iff. intros [] []; cbn; split; congruence. Qed.
Lemma ltype_eqb_eq a b : ltype_eqb a b = true <-> a = b.
Proof.
  destruct a, b; cbn [ltype_eqb]; try (split; congruence).
  rewrite str_eqb_eq. split; [now intros ->|now intros [= ->]].
Qed.
Lemma per_ltype : per ltype_eqb. Proof. apply per_iff, ltype_eqb_eq. Qed.
Lemma per_opt {A} (eqb : A -> A -> bool) : per eqb -> per (opt_eqb eqb).
Proof.
  intros [S T]. split.
  - intros [a|] [b|]; cbn; auto.
  - intros [a|] [b|] [c|]; cbn; try congruence. apply T.
Qed.
Lemma per_list {A} (eqb : A -> A -> bool) : per eqb -> per (list_eqb eqb).
Proof.
  intros [S T]. split.
  - induction a as [|x a IH]; intros [|y b]; cbn; auto. now rewrite S, IH.
  - induction a as [|x a IH]; intros [|y b] [|z c]; cbn; try congruence.
    rewrite !andb_true_iff. intros [H1 H2] [H3 H4]. eauto.
Qed.
(** Equality by components. *)
Lemma per_and {A} (e f : A -> A -> bool) : per e -> per f -> per (fun a b => e a b && f a b).
Proof.
  intros [S T] [S' T']. split.
  - intros a b. now rewrite S, S'.
  - intros a b c. rewrite !andb_true_iff. intros [? ?] [? ?]. eauto.
Qed.
Lemma per_on {A B} (p : A -> B) (e : B -> B -> bool) : per e -> per (fun a b => e (p a) (p b)).
Proof. intros [S T]. split; eauto. Qed.

Lemma per_at : per at_eqb.
Proof. apply per_and; [apply per_and|]; apply (per_on _ feqb per_feqb). Qed.
Lemma per_xy : per xy_eqb.
Proof. apply per_and; [apply per_and|]; [apply (per_on _ feqb per_feqb)..|apply (per_on _ _ per_xyt)]. Qed.
Lemma per_font : per font_eqb.
Proof.
  apply per_and; [apply per_and|]; [apply (per_on _ _ per_xy)|apply (per_on _ _ per_feqb)|apply (per_on _ _ per_bool)].
Qed.
Lemma per_effects : per effects_eqb.
Proof. apply per_and; [apply (per_on _ _ per_font)|apply (per_on _ _ (per_opt _ per_just))]. Qed.
Lemma per_layer : per layer_eqb.
Proof. apply (per_on _ _ per_ltype). Qed.
Lemma per_layers : per layers_eqb.
Proof. apply per_list, per_layer. Qed.
Lemma per_drill : per drill_eqb.
Proof.
  repeat apply per_and; [apply (per_on _ _ (per_opt _ per_str))|apply (per_on _ _ per_feqb)..].
Qed.
Ltac per_leaf := first
  [ apply (per_on _ _ per_at)|apply (per_on _ _ per_str)|apply (per_on _ _ per_padt)
  | apply (per_on _ _ per_pads)|apply (per_on _ _ per_xy)|apply (per_on _ _ (per_opt _ per_xy))
  | apply (per_on _ _ per_layers)|apply (per_on _ _ (per_opt _ per_Z))
  | apply (per_on _ _ (per_opt _ per_drill))|apply (per_on _ _ (per_opt _ per_feqb))
  | apply (per_on _ _ per_layer)|apply (per_on _ _ per_effects)|apply (per_on _ _ per_bool)].
Lemma per_pad : per pad_eqb.
Proof. unfold pad_eqb. repeat (apply per_and; [|per_leaf]). per_leaf. Qed.

Definition text_full (a b : fp_text) : bool :=
  at_eqb (tx_at a) (tx_at b) && str_eqb (tx_name a) (tx_name b)
  && str_eqb (tx_value a) (tx_value b) && layer_eqb (tx_layer a) (tx_layer b)
  && effects_eqb (tx_effects a) (tx_effects b) && Bool.eqb (tx_hide a) (tx_hide b).
Lemma per_text_full : per text_full.
Proof. unfold text_full. repeat (apply per_and; [|per_leaf]). per_leaf. Qed.
Definition special (s : str) : bool := str_eqb s (lit "reference") || str_eqb s (lit "value").
(** The equality of texts in one line. *)
Lemma text_eqb_alt a b :
  text_eqb a b = (str_eqb (tx_name a) (tx_name b) && (special (tx_name a) || text_full a b)).
Proof.
  unfold text_eqb, special. fold (text_full a b).
  destruct (str_eqb (tx_name a) (tx_name b)) eqn:N.
  - apply str_eqb_eq in N. rewrite <- N.
    destruct (str_eqb (tx_name a) (lit "reference")); [reflexivity|].
    destruct (str_eqb (tx_name a) (lit "value")); reflexivity.
  - assert (F : text_full a b = false).
    { unfold text_full. rewrite N, andb_false_r. reflexivity. }
    rewrite F.
    destruct (str_eqb (tx_name a) (lit "reference")) eqn:E1.
    + apply str_eqb_eq in E1.
      destruct (str_eqb (tx_name b) (lit "reference")) eqn:E2.
      * apply str_eqb_eq in E2. rewrite E1, <- E2 in N. rewrite (proj2 (str_eqb_eq _ _) eq_refl) in N. discriminate.
      * cbn [andb]. destruct (str_eqb (tx_name a) (lit "value")) eqn:E3; [|reflexivity].
        apply str_eqb_eq in E3. rewrite E1 in E3. discriminate.
    + cbn [andb]. destruct (str_eqb (tx_name a) (lit "value")) eqn:E3; [|reflexivity].
      apply str_eqb_eq in E3.
      destruct (str_eqb (tx_name b) (lit "value")) eqn:E2; [|reflexivity].
      apply str_eqb_eq in E2. rewrite E3, <- E2 in N. rewrite (proj2 (str_eqb_eq _ _) eq_refl) in N. discriminate.
Qed.
Lemma per_text : per text_eqb.
Proof.
  destruct per_text_full as [S T]. destruct per_str as [Ss Ts]. split.
  - intros a b. rewrite !text_eqb_alt. rewrite (Ss (tx_name b)), (S b a).
    destruct (str_eqb (tx_name a) (tx_name b)) eqn:N; [|reflexivity].
    apply str_eqb_eq in N. now rewrite N.
  - intros a b c. rewrite !text_eqb_alt, !andb_true_iff, !orb_true_iff.
    intros [N1 H1] [N2 H2]. split; [eapply Ts; eassumption|].
    destruct H1 as [H1|H1]; [now left|]. destruct H2 as [H2|H2].
    + left. apply str_eqb_eq in N1. now rewrite N1.
    + right. eapply T; eassumption.
Qed.

(** Reflexivity fails exactly on NaN. *)
Lemma feqb_self x : feqb x x = negb (is_nan x).
Proof. destruct (is_nan x) eqn:E; [now rewrite feqb_nan_l|now rewrite feqb_refl]. Qed.
Lemma str_self s : str_eqb s s = true. Proof. now apply str_eqb_eq. Qed.

Definition num (x : f64) : bool := negb (is_nan x).
Definition at_num (a : at_t) : bool := num (at_x a) && num (at_y a) && num (at_rot a).
Definition xy_num (a : xy) : bool := num (xy_x a) && num (xy_y a).
Definition opt_num {A} (f : A -> bool) (o : option A) : bool := match o with None => true | Some x => f x end.
Definition drill_num (d : drill) : bool :=
  num (dr_width d) && num (dr_height d) && num (dr_ox d) && num (dr_oy d).
Definition pad_num (p : pad) : bool :=
  at_num (pa_at p) && xy_num (pa_size p) && opt_num xy_num (pa_rect_delta p)
  && opt_num drill_num (pa_drill p) && opt_num num (pa_paste_margin p) && opt_num num (pa_mask_margin p)
  && opt_num num (pa_clearance p) && opt_num num (pa_thermal_gap p).
Definition text_num (t : fp_text) : bool :=
  at_num (tx_at t) && xy_num (fo_size (ef_font (tx_effects t))) && num (fo_thickness (ef_font (tx_effects t))).

Lemma at_self a : at_eqb a a = at_num a.
Proof. unfold at_eqb, at_num. now rewrite !feqb_self. Qed.
Lemma xy_self a : xy_eqb a a = xy_num a.
Proof.
  unfold xy_eqb, xy_num. rewrite !feqb_self.
  assert (xy_type_eqb (xy_t a) (xy_t a) = true) as -> by (destruct (xy_t a); reflexivity).
  apply andb_true_r.
Qed.
Lemma opt_self {A} eqb (f : A -> bool) o : (forall x, eqb x x = f x) -> opt_eqb eqb o o = opt_num f o.
Proof. intros H. destruct o; cbn; auto. Qed.
Lemma drill_self d : drill_eqb d d = drill_num d.
Proof.
  unfold drill_eqb, drill_num. rewrite !feqb_self.
  rewrite (opt_self _ (fun _ => true)) by apply str_self. destruct (dr_shape d); reflexivity.
Qed.
Lemma layer_self l : layer_eqb l l = true.
Proof. now apply ltype_eqb_eq. Qed.
Lemma layers_self l : layers_eqb l l = true.
Proof.
  unfold layers_eqb. induction l as [|x l IH]; cbn [list_eqb]; [reflexivity|]. now rewrite layer_self, IH.
Qed.
Lemma pad_self p : pad_eqb p p = pad_num p.
Proof.
  unfold pad_eqb, pad_num. rewrite at_self, xy_self, str_self, layers_self.
  rewrite (opt_self _ xy_num) by apply xy_self.
  rewrite (opt_self Z.eqb (fun _ => true)) by apply Z.eqb_refl.
  rewrite (opt_self _ drill_num) by apply drill_self.
  rewrite !(opt_self feqb num) by apply feqb_self.
  assert (pad_type_eqb (pa_t p) (pa_t p) = true) as -> by (destruct (pa_t p); reflexivity).
  assert (pad_shape_eqb (pa_shape p) (pa_shape p) = true) as -> by (destruct (pa_shape p); reflexivity).
  destruct (pa_zone_connect p); cbn [opt_num]; rewrite !andb_true_r; reflexivity.
Qed.
Lemma text_self t : text_eqb t t = special (tx_name t) || text_num t.
Proof.
  rewrite text_eqb_alt, str_self. cbn [andb]. f_equal.
  unfold text_full, text_num, effects_eqb, font_eqb. rewrite at_self, !str_self, layer_self, xy_self, feqb_self.
  rewrite (opt_self _ (fun _ => true)) by (intros []; reflexivity).
  rewrite !eqb_reflx. destruct (ef_justify (tx_effects t)); cbn [opt_num];
    rewrite !andb_true_r, <- !andb_assoc; reflexivity.
Qed.

(** ** Equal but different *)
Definition w_front := mk_layer SFront LCu.
Definition w_back := mk_layer SBack LCu.
Lemma layer_not_interchangeable : exists a b, layer_eqb a b = true /\ show_layer a <> show_layer b.
Proof. exists w_front, w_back. split; [reflexivity|]. vm_compute. discriminate. Qed.
Definition w_pad (n : option fnet) : pad :=
  mk_pad (lit "1") Smd Rect (mk_xy fzero fzero XSize) None at_default [] n None None None None None None.
Lemma pad_not_interchangeable : exists a b, pad_eqb a b = true /\ ser_pad a <> ser_pad b.
Proof.
  exists (w_pad None), (w_pad (Some (mk_fnet 1 (lit "GND")))). split; [vm_compute; reflexivity|].
  intros H. assert (L : match ser_pad (w_pad None) with SList l => length l | _ => 0%nat end
                   = match ser_pad (w_pad (Some (mk_fnet 1 (lit "GND")))) with SList l => length l | _ => 0%nat end)
    by now rewrite H. vm_compute in L. discriminate.
Qed.
Lemma text_not_interchangeable : exists a b, text_eqb a b = true /\ tx_value a <> tx_value b.
Proof.
  exists (text_new (lit "reference") (lit "R1")), (text_new (lit "reference") (lit "R2")).
  split; [vm_compute; reflexivity|]. vm_compute. discriminate.
Qed.
