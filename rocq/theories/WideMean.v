(** The readers accept whatever follows the wide grammar and give it its meaning (C76). *)
From Coq Require Import String Lia.
From Flocq Require Import IEEE754.BinarySingleNaN.
From Verif Require Import Base Str StrFacts Num F64 F64Text Sexp DecSpec DecFacts FpData FpLayer FpDe LyData LyDe FpLibTable GramSpec GramRead MeanSpec MeanFacts MeanBoard WideSpec WideSound.
Open Scope string_scope. Open Scope list_scope.

(** ** Values *)
Lemma wm_num : means sx_f (num V) number.
Proof.
  intros s H. destruct (word_inv _ _ H) as (t & -> & Q). unfold sx_f, number, txt. cbn [sx_string bind].
  assert (E : exists x, f64_of_str t = Some x).
  { destruct Q as [(neg & v & N)|(sg & neg & w & y & S & G & K)]; [destruct (number_fw _ _ _ N) as (x & E & _); now exists x|]. exists (if neg then fneg y else y). apply f64_accepts. right. now exists sg, neg, w, y. }
  destruct E as [x ->]. reflexivity.
Qed.
Lemma wm_int : means sx_i (int V) integer.
Proof. exact mn_int. Qed.
Lemma wm_layer_text t : (exists l, layer_text t l) -> layer_from_str t = Ok (layer_of (SStr t)).
Proof. intros [l L]. apply layer_iff in L. unfold layer_from_str, layer_of, txt. now rewrite L. Qed.
Lemma rw_named {A} k (p : P A) (q : str -> Prop) b : (forall n, q n -> str_eqb n (lit k) = false) -> refuses (fun s => iter_new s (lit k) p) (Named q b).
Proof. intros E s H. inversion H; subst. unfold iter_new. cbn [sx_list bind]. rewrite E by assumption. now eexists. Qed.
Lemma rw_slice {A} k (f : sexp -> res A) (q : str -> Prop) b : (forall n, q n -> str_eqb n (lit k) = false) -> refuses (fun s => do v <- sx_slice1 (lit k) s; f v) (Named q b).
Proof.
  intros E s H. inversion H as [|? ? n l N F| |]; subst. apply no_bind. unfold sx_slice1. cbn [sx_list bind].
  destruct l as [|x [|y r]]; [now eexists| |now eexists]. rewrite E by assumption. now eexists.
Qed.
Lemma rw_lit k : f64_of_str (lit k) = None -> refuses (from_literal k) (num V).
Proof.
  intros E s H. pose proof (wm_num s H) as X. destruct (word_inv _ _ H) as (t & -> & _). unfold from_literal. cbn [sx_string bind]. destruct (str_eqb_spec t (lit k)) as [->|]; [|now eexists].
  unfold sx_f in X. cbn [sx_string bind] in X. rewrite E in X. discriminate X.
Qed.
Lemma not_name k : existsb (fun j => str_eqb (lit j) (lit k)) point_names = false -> forall n, point_name n -> str_eqb n (lit k) = false.
Proof.
  intros E n (j & I & ->). destruct (str_eqb (lit j) (lit k)) eqn:X; [|reflexivity]. assert (Y : existsb (fun j => str_eqb (lit j) (lit k)) point_names = true).
  { apply existsb_exists. now exists j. } rewrite E in Y. discriminate Y.
Qed.
Lemma point_inv s : follows w_point s -> exists k a b, s = SList [SStr (lit k); a; b] /\ In k point_names.
Proof.
  intros H. inversion H as [|? ? n l N F| |]; subst. destruct N as (k & I & ->). destruct (one_inv _ _ _ F) as (a & r & -> & _ & F1). destruct (one_inv _ _ _ F1) as (b & q & -> & _ & F2). apply nil_inv in F2. subst q.
  now exists k, a, b.
Qed.
Ltac known := fail.
Ltac val := first [apply wm_num; eassumption | apply wm_int; eassumption | apply mn_lit; eassumption | eapply sl_text; eassumption | known].
Ltac deep := first [val | eapply sl_slice; [eassumption|intros ? ?; val] ].
Ltac wref := first [apply rf_form_other; reflexivity | apply rf_form_word | apply rf_slice_other; reflexivity | apply rf_slice_word | apply rf_string | apply rf_f | apply rf_lit_form
  | apply rf_lit_other; reflexivity | apply rf_xy; reflexivity | apply rf_xy_word | apply rw_named; apply not_name; reflexivity | apply rw_slice; apply not_name; reflexivity
  | apply rw_lit; vm_compute; reflexivity].
Ltac wrefd := match goal with H : follows ?g ?x |- no ?t =>
  match t with context [x] => revert x H; match goal with |- forall y, follows g y -> no (@?f y) => change (refuses f g) end; wref end end.
Ltac estep := first
  [ etransitivity; [apply eq_t; deep|cbv beta]
  | etransitivity; [apply eq_yes; deep|cbv beta]
  | etransitivity; [apply eq_no; wrefd|cbv beta]
  | etransitivity; [apply eq_nil|cbv beta] ].
Ltac pnames := repeat match goal with
  | F : follows w_point ?x |- _ => let k := fresh "k" in let a := fresh "a" in let b := fresh "b" in let I := fresh "I" in destruct (point_inv _ F) as (k & a & b & -> & I); clear F;
      cbn [In point_names] in I; repeat destruct I as [<-|I]; [| | | | | |contradiction]
  end.
Ltac unf := cbv beta delta [text g_at g_xyz g_layer g_layers g_stamp g_width g_net g_area w_pts w_font w_effects w_justify start] in *.
Ltac fin := unf; names; pnames; reflexivity.
Ltac go := let s := fresh "s" in let H := fresh "H" in let l := fresh "l" in let F := fresh "F" in
  intros s H; destruct (form_inv _ _ _ H) as (l & -> & F); clear H; change (may V) with Opt in F; apply eq_form with []; parts; repeat estep; fin.

(** ** Footprints *)
Lemma wm_at : means de_at (g_at V) at_of. Proof. go. Qed.
Lemma wm_xyz : means de_xyz (g_xyz V) xyz_of. Proof. go. Qed.
Lemma wm_point : means de_xy w_point any_point_of.
Proof.
  intros s H. inversion H as [|? ? n l N F| |]; subst. destruct N as (k & I & ->). unfold de_xy. cbn [sx_list_name sx_list bind sx_string]. parts.
  assert (T : xy_type_of_str (lit k) = Ok (choose [("xy", XXy); ("start", XStart); ("end", XEnd); ("size", XSize); ("center", XCenter)] XRectDelta (lit k))).
  { cbn [In point_names] in I. repeat destruct I as [<-|I]; try reflexivity. contradiction. }
  rewrite T. cbn [bind]. apply eq_form with []. repeat estep. reflexivity.
Qed.
Lemma wm_fnet : means de_fnet (g_net V) net_of. Proof. go. Qed.
Lemma wm_layer : means de_layer (g_layer V) (value layer_of).
Proof.
  intros s H. destruct (fld_inv _ _ _ H) as (x & -> & F). destruct (word_inv _ _ F) as (t & -> & A). apply eq_form with []. unfold pbind, p_s, p_t, plift. cbn [sx_string bind].
  rewrite (wm_layer_text t A). reflexivity.
Qed.
Lemma wm_layers : means de_layers (g_layers V) layers_of.
Proof.
  intros s H. destruct (form_inv _ _ _ H) as (l & -> & F). apply eq_form with []. apply means_vec with (2 := F). constructor; [|constructor].
  intros x X. destruct (word_inv _ _ X) as (t & -> & A). cbn [sx_string bind]. now apply wm_layer_text.
Qed.
Lemma wm_pts : means de_pts w_pts any_points_of.
Proof. intros s H. destruct (form_inv _ _ _ H) as (l & -> & F). apply eq_form with []. apply means_vec with (2 := F). constructor; [|constructor]. exact wm_point. Qed.
Lemma wm_justify : means de_justify w_justify (value justify_of).
Proof.
  intros s H. destruct (form_inv _ _ _ H) as (l & -> & F). destruct (one_inv _ _ _ F) as (x & r & -> & X & _). destruct (word_inv _ _ X) as (t & -> & k & I & ->). apply eq_form with r.
  cbn [In] in I. repeat destruct I as [<-|I]; try contradiction; reflexivity.
Qed.
Ltac known ::= first [apply wm_point; eassumption | apply wm_at; eassumption | apply wm_xyz; eassumption | apply wm_layer; eassumption | apply wm_layers; eassumption | apply wm_pts; eassumption
  | apply wm_justify; eassumption | apply wm_fnet; eassumption].
Lemma wm_font : means de_font w_font w_font_of. Proof. go. Qed.
Lemma wm_effects : means de_effects w_effects w_effects_of.
Proof.
  intros s H. destruct (form_inv _ _ _ H) as (l & -> & F); clear H. apply eq_form with []. parts.
  - etransitivity; [apply eq_t; apply wm_font; eassumption|cbv beta]. estep. fin.
  - etransitivity; [apply eq_t; apply wm_font; eassumption|cbv beta]. estep. fin.
Qed.
Lemma wm_offset : means de_offset (Form "offset" [One (num V); One (num V)]) (fun o => (number (arg 0 (kids o)), number (arg 1 (kids o)))).
Proof. go. Qed.
Ltac known ::= first [apply wm_point; eassumption | apply wm_at; eassumption | apply wm_xyz; eassumption | apply wm_layer; eassumption | apply wm_layers; eassumption | apply wm_pts; eassumption
  | apply wm_justify; eassumption | apply wm_fnet; eassumption | apply wm_effects; eassumption | apply wm_offset; eassumption].
Lemma wm_text_el : means de_text w_text w_text_of. Proof. go. Qed.
Lemma wm_model : means de_model (g_model V) model_of. Proof. go. Qed.
Lemma wm_poly : means de_poly w_poly w_poly_of. Proof. go. Qed.
Lemma wm_line : means de_line w_line w_line_of. Proof. go. Qed.
Lemma wm_circle : means de_circle w_circle w_circle_of. Proof. go. Qed.
Lemma wm_arc : means de_arc w_arc w_arc_of. Proof. go. Qed.
Lemma w_not_oval s : follows (num V) s -> exists t, s = SStr t /\ str_eqb t (lit "oval") = false.
Proof.
  intros H. pose proof (wm_num s H) as X. destruct (word_inv _ _ H) as (t & -> & _). exists t. split; [reflexivity|]. destruct (str_eqb_spec t (lit "oval")) as [->|]; [|reflexivity]. discriminate X.
Qed.
Lemma wm_drill : means de_drill (GramSpec.drill V) drill_of.
Proof.
  intros s H. destruct (form_inv _ _ _ H) as (l & -> & F); clear H. apply eq_form with [].
  change (Word any_number) with (num V) in F. parts; repeat estep.
  all: repeat match goal with F : follows (num V) ?x |- _ => let t := fresh "t" in let E := fresh "E" in destruct (w_not_oval _ F) as (t & -> & E); clear F end.
  all: names; unfold drill_of, has; cbn [kids filter existsb is_word].
  all: repeat match goal with E : str_eqb ?t (lit "oval") = false |- _ => rewrite E; clear E end; reflexivity.
Qed.
(** One part of a pad *)
Lemma w_start_inv k g s : follows (start k g) s -> exists v r, s = SList (SStr (lit k) :: v :: r) /\ follows g v.
Proof. intros H. destruct (form_inv _ _ _ H) as (l & -> & F). destruct (one_inv _ _ _ F) as (v & r & -> & X & _). now exists v, r. Qed.
Lemma w_part_step x : one_of w_parts x -> exists y, de_part x = Ok y /\ forall p, pad_part p y = Ok (upd p [x]).
Proof.
  intros (g & I & H). cbn [In w_parts] in I. repeat destruct I as [<-|I]; try contradiction.
  - exists (PaNet (net_of x)). pose proof (wm_fnet x H) as E. destruct (form_inv _ _ _ H) as (l & -> & _). split; [|intros []; reflexivity].
    unfold de_part. cbn [sx_list_name sx_list bind sx_string]. change (rmap PaNet (de_fnet (SList (SStr (lit "net") :: l))) = Ok (PaNet (net_of (SList (SStr (lit "net") :: l))))). now rewrite E.
  - destruct (w_start_inv _ _ _ H) as (v & r & -> & F). exists (PaZoneConnect (integer v)). split; [|intros []; reflexivity].
    change (rmap PaZoneConnect (sx_i v) = Ok (PaZoneConnect (integer v))). now rewrite (wm_int v F).
  - destruct (w_start_inv _ _ _ H) as (v & r & -> & F). exists (PaPaste (number v)). split; [|intros []; reflexivity].
    change (rmap PaPaste (sx_f v) = Ok (PaPaste (number v))). now rewrite (wm_num v F).
  - destruct (w_start_inv _ _ _ H) as (v & r & -> & F). exists (PaMask (number v)). split; [|intros []; reflexivity].
    change (rmap PaMask (sx_f v) = Ok (PaMask (number v))). now rewrite (wm_num v F).
  - destruct (w_start_inv _ _ _ H) as (v & r & -> & F). exists (PaClearance (number v)). split; [|intros []; reflexivity].
    change (rmap PaClearance (sx_f v) = Ok (PaClearance (number v))). now rewrite (wm_num v F).
  - destruct (w_start_inv _ _ _ H) as (v & r & -> & F). exists (PaThermalGap (number v)). split; [|intros []; reflexivity].
    change (rmap PaThermalGap (sx_f v) = Ok (PaThermalGap (number v))). now rewrite (wm_num v F).
Qed.
Lemma w_parts_all l : (forall x, In x l -> one_of w_parts x) -> exists ps, mapM de_part l = Ok ps /\ forall p, pad_parts p ps = Ok (upd p l).
Proof.
  induction l as [|x l IH]; intros H.
  - exists []. split; [reflexivity|]. intros []; reflexivity.
  - destruct (w_part_step x (H x (or_introl eq_refl))) as (y & Y & U). destruct IH as (ps & M & K); [intros z Z; apply H; now right|].
    exists (y :: ps). split; [cbn [mapM]; rewrite Y; cbn [bind]; rewrite M; reflexivity|]. intros p. cbn [pad_parts]. rewrite U. cbn [bind]. rewrite K. reflexivity.
Qed.
Lemma filter_rep gs r : Forall (fun g => forall x, follows g x -> is_point x = false) gs -> follow_all [Rep gs] r -> filter is_point r = [].
Proof.
  intros C H. assert (A : forall x, In x r -> is_point x = false).
  { intros x I. destruct (rep_in _ _ _ H I) as (g & G & F). rewrite Forall_forall in C. now apply (C g). }
  clear H. induction r as [|x r IH]; [reflexivity|]. cbn [filter]. rewrite (A x (or_introl eq_refl)). apply IH. intros y Y. apply A. now right.
Qed.
Ltac known ::= first [apply wm_point; eassumption | apply wm_at; eassumption | apply wm_xyz; eassumption | apply wm_layer; eassumption | apply wm_layers; eassumption | apply wm_pts; eassumption
  | apply wm_justify; eassumption | apply wm_fnet; eassumption | apply wm_effects; eassumption | apply wm_offset; eassumption | apply wm_drill; eassumption].
Ltac points := repeat (apply Forall_cons; [intros ? ?; match goal with H : follows _ _ |- _ => destruct (form_inv _ _ _ H) as (? & -> & _) end; reflexivity|]); apply Forall_nil.
Lemma w_pad_split a b c p r : follow_all [Rep w_parts] r ->
  w_pad_of (SList (SStr (lit "pad") :: (SStr a :: SStr b :: SStr c :: p) ++ r)) = upd (w_pad_of (SList (SStr (lit "pad") :: SStr a :: SStr b :: SStr c :: p))) r.
Proof.
  intros R. assert (N : forall k, In k ["at"; "size"; "drill"; "layers"] -> find (called k) r = None).
  { intros k I. cbn [In] in I. repeat destruct I as [<-|I]; try contradiction; (eapply find_rep; [|exact R]); unfold w_parts, start; alls. }
  assert (Q : filter is_point r = []) by (eapply filter_rep; [|exact R]; unfold w_parts, start; points).
  unfold w_pad_of. cbv zeta. assert (E : pad_of (SList (SStr (lit "pad") :: (SStr a :: SStr b :: SStr c :: p) ++ r)) = upd (pad_of (SList (SStr (lit "pad") :: SStr a :: SStr b :: SStr c :: p))) r).
  { unfold pad_of. cbn [kids]. rewrite !field_none by (apply N; cbn [In]; tauto). rewrite !last_app. reflexivity. }
  rewrite E. unfold right_point, nth_point. cbn [kids]. rewrite filter_app, Q, app_nil_r. reflexivity.
Qed.
Ltac wstop := repeat first [apply st_nil | apply st_one | apply st_opt | apply st_rep | apply Forall_cons | apply Forall_nil | wref].
Lemma wm_pad : means de_pad w_pad w_pad_of.
Proof.
  intros s H. destruct (form_inv _ _ _ H) as (l & -> & F); clear H. apply eq_form with [].
  change (follow_all ([One text; One (word ["smd"; "thru_hole"; "np_thru_hole"]); One (word ["rect"; "circle"; "oval"; "trapezoid"]);
    Opt (g_at V); Opt w_point; Opt (GramSpec.drill V); Opt (g_layers V)] ++ [Rep w_parts]) l) in F.
  apply rest_inv in F as (p & r & -> & F & R).
  assert (S1 : match r with [] => True | x :: _ => no (de_at x) end) by (revert r R; change (stops de_at [Rep w_parts]); unfold w_parts; wstop).
  assert (S2 : match r with [] => True | x :: _ => no (de_xy x) end) by (clear S1; revert r R; change (stops de_xy [Rep w_parts]); unfold w_parts; wstop).
  assert (S3 : match r with [] => True | x :: _ => no (de_drill x) end) by (clear S1 S2; revert r R; change (stops de_drill [Rep w_parts]); unfold w_parts; wstop).
  assert (S4 : match r with [] => True | x :: _ => no (de_layers x) end) by (clear S1 S2 S3; revert r R; change (stops de_layers [Rep w_parts]); unfold w_parts; wstop).
  destruct (w_parts_all r) as (ps & M & K); [intros x I; apply (rep_in _ _ _ R I)|].
  destruct (one_inv _ _ _ F) as (n & p1 & -> & F1 & G1). destruct (one_inv _ _ _ G1) as (tp & p2 & -> & F2 & G2). destruct (one_inv _ _ _ G2) as (sh & p3 & -> & F3 & G3). clear F G1 G2.
  destruct (word_inv _ _ F1) as (t1 & -> & _). destruct (word_inv _ _ F2) as (t2 & -> & k2 & I2 & ->). destruct (word_inv _ _ F3) as (t3 & -> & k3 & I3 & ->). clear F1 F2 F3.
  rewrite w_pad_split by exact R.
  cbn [app]. etransitivity; [apply eq_t; reflexivity|cbv beta].
  assert (T2 : pad_type_of_str (lit k2) = Ok (choose [("smd", Smd); ("thru_hole", Pth)] NpPth (lit k2))) by (cbn [In] in I2; repeat destruct I2 as [<-|I2]; try contradiction; reflexivity).
  assert (T3 : pad_shape_of_str (lit k3) = Ok (choose [("rect", Rect); ("circle", Circle); ("oval", Oval)] Trapezoid (lit k3))) by (cbn [In] in I3; repeat destruct I3 as [<-|I3]; try contradiction; reflexivity).
  etransitivity; [apply eq_word; exact T2|cbv beta]. etransitivity; [apply eq_word; exact T3|cbv beta].
  parts; cbn [app]; repeat first [estep | etransitivity; [apply eq_rest; assumption|cbv beta]].
  all: unfold pbind, p_vec; rewrite M; cbn [bind]; unfold plift; rewrite K; cbn [bind].
  all: repeat match goal with F : follows (GramSpec.drill V) ?x |- _ => let l := fresh "l" in destruct (form_inv _ _ _ F) as (l & -> & _); clear F end.
  all: cbv beta delta [g_at g_layers] in *; names; pnames; reflexivity.
Qed.

(** ** Elements of footprints *)
Lemma wm_first {A} (p : P A) k b (v : sexp -> A) : (forall l, follow_all b l -> exists r, p l = Ok (v (SList (SStr (lit k) :: l)), r)) -> means (first_after p) (Form k b) v.
Proof.
  intros R s H. destruct (form_inv _ _ _ H) as (l & -> & F). destruct (R l F) as (r & E). unfold first_after. cbn [sx_list_name sx_list bind sx_string].
  now apply eq_form with r.
Qed.
Lemma wm_string k : means de_string_element (start k text) (value txt).
Proof. apply wm_first. intros l F. destruct (one_inv _ _ _ F) as (x & r & -> & X & _). exists r. destruct (word_inv _ _ X) as (t & -> & _). reflexivity. Qed.
Lemma wm_float k : means de_float_element (start k (num V)) (value number).
Proof. apply wm_first. intros l F. destruct (one_inv _ _ _ F) as (x & r & -> & X & _). exists r. unfold p_f, p_t. rewrite (wm_num _ X). reflexivity. Qed.
Lemma wm_stamp k : means de_stamp_element (start k (hex V)) (value hexa_value).
Proof.
  apply wm_first. intros l F. destruct (one_inv _ _ _ F) as (x & r & -> & X & _). exists r. destruct (word_inv _ _ X) as (t & -> & z & Z). apply hex_iff in Z.
  unfold pbind, p_s, p_t, plift. cbn [sx_string bind]. unfold value, hexa_value, txt. cbn [arg nth kids]. rewrite Z. reflexivity.
Qed.
Lemma w_eq_el {A} k b s (c : A -> element) (f : sexp -> res A) v : means f (Form k b) v -> follows (Form k b) s ->
  (forall l, de_element (SList (SStr (lit k) :: l)) = rmap c (f (SList (SStr (lit k) :: l)))) -> (forall l, w_element_of (SList (SStr (lit k) :: l)) = c (v (SList (SStr (lit k) :: l)))) ->
  de_element s = Ok (w_element_of s).
Proof. intros F H E V. pose proof (F s H) as K. destruct (form_inv _ _ _ H) as (l & -> & _). rewrite E, K, V. reflexivity. Qed.
Ltac el lm := eapply w_eq_el; [apply lm|eassumption|intros; reflexivity|intros; reflexivity].
Lemma wm_element g : In g w_elements -> means de_element g w_element_of.
Proof.
  unfold w_elements. cbn [In]. intros I s H. repeat destruct I as [<-|I]; try contradiction.
  - rewrite (lit_inv _ _ H). reflexivity.
  - el wm_float.
  - el wm_float.
  - el wm_layer.
  - el wm_string.
  - el wm_string.
  - el wm_string.
  - el wm_string.
  - el wm_stamp.
  - el wm_stamp.
  - el wm_at.
  - el wm_text_el.
  - el wm_pad.
  - el wm_model.
  - el wm_poly.
  - el wm_line.
  - el wm_circle.
  - el wm_arc.
Qed.
Lemma wm_module : means de_module w_module w_module_of.
Proof.
  intros s H. destruct (form_inv _ _ _ H) as (l & -> & F); clear H. apply eq_form with [].
  destruct (one_inv _ _ _ F) as (n & r & -> & N & R). etransitivity; [apply eq_t; eapply sl_text; exact N|cbv beta].
  unfold pbind. rewrite (means_vec de_element w_element_of _ _) with (2 := R); [reflexivity|]. apply Forall_forall. intros g. apply wm_element.
Qed.
