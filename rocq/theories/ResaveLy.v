(** Lemmas for P_Resave.v: a board may be saved before it is edited. *)
From Coq Require Import String.
From Flocq Require Import IEEE754.BinarySingleNaN.
From Verif Require Import Base Str StrFacts Num F64 F64Order Sexp SexpFacts FpData FpSer FpDe FpWf FpFacts FpOps Bound CheckFix SymCheck FpCheck LyData LySer LyDe
  LyWf LyFacts LyOps Formatter FormatterSpec FormatterFacts DocSpec DocFacts DocText KeepSpec KeepFacts KeepEdits ExactFacts ExactLy SettleFacts SxText DocTextFacts
  FpNew FixFacts AnyCourt ResaveSpec ResaveLySpec ResaveFacts.
Open Scope string_scope. Open Scope list_scope.

Lemma map_same {A B} (f : A -> B) (g : A -> A) l : map f (map g l) = map f l -> forall x, In x l -> f (g x) = f x.
Proof.
  rewrite map_map. induction l as [|y l IH]; intros J x I; [contradiction|]. cbn [map] in J.
  assert (J1 : f (g y) = f y) by (apply (f_equal (hd (f y))) in J; exact J).
  apply (f_equal (@tl B)) in J. cbn [tl] in J. destruct I as [<-|I]; [exact J1|now apply IH].
Qed.
Lemma ser_module_each m : ser_module (tidy_module m) = ser_module m -> forall e, In e (m_elements m) -> ser_element (tidy_element e) = ser_element e.
Proof.
  intros B. apply map_same. unfold ser_module, tidy_module in B; cbn [m_name m_elements] in B.
  assert (T : forall a b x y : sexp, forall u v, SList (x :: a :: u) = SList (y :: b :: v) -> u = v) by (intros ? ? ? ? ? ? Z; now injection Z).
  exact (T _ _ _ _ _ _ B).
Qed.
Lemma ser_layout_each l : ser_layout (tidy_layout l) = ser_layout l -> forall e, In e (ly_elements l) -> ser_ly_element (tidy_ly_element e) = ser_ly_element e.
Proof.
  intros B. apply map_same. unfold ser_layout, tidy_layout, node in B; cbn [ly_version ly_host ly_general ly_page ly_setup ly_layers ly_elements] in B.
  assert (T : forall x y : list sexp, SList x = SList y -> x = y) by (intros x y K; now injection K).
  apply T in B. apply (f_equal (@tl sexp)) in B. cbn [tl] in B. apply app_inv_head in B. exact B.
Qed.

Inductive grt_alike : gr_text -> gr_text -> Prop :=
| grt_al v a b la e f ts : at_alike a b -> ser_effects f = ser_effects e -> grt_alike (mk_grtext v a la e ts) (mk_grtext v b la f ts).
Inductive ly_alike : ly_element -> ly_element -> Prop :=
| yl_same e : ly_alike e e
| yl_mod m n : mod_alike m n -> ly_alike (YModule m) (YModule n)
| yl_text t u : grt_alike t u -> ly_alike (YGrText t) (YGrText u)
| yl_dim nm w la ts t u p1 p2 p3 p4 p5 p6 p7 : grt_alike t u ->
    ly_alike (YDimension (mk_dim nm w la ts t p1 p2 p3 p4 p5 p6 p7)) (YDimension (mk_dim nm w la ts u p1 p2 p3 p4 p5 p6 p7))
| yl_via bl mi a b sz d e la n : at_alike a b -> zeq e d -> ly_alike (YVia (mk_via bl mi a sz d la n)) (YVia (mk_via bl mi b sz e la n))
| yl_zone n nn la ts ha pr cp mi ko f g ps fs sg ot : ser_fill g = ser_fill f ->
    ly_alike (YZone (mk_zone n nn la ts ha pr cp mi ko f ps fs sg ot)) (YZone (mk_zone n nn la ts ha pr cp mi ko g ps fs sg ot)).
Lemma grt_ser t u : grt_alike t u -> ser_gr_text u = ser_gr_text t.
Proof. intros [v a b la e f ts A E]. unfold ser_gr_text; cbn [gt_value gt_at gt_layer gt_effects gt_tstamp]. now rewrite (at_alike_ser _ _ A), E. Qed.
Lemma ly_alike_ser e f : ly_alike e f -> ser_ly_element f = ser_ly_element e.
Proof.
  intros [x|m n M|t u T|nm w la ts t u p1 p2 p3 p4 p5 p6 p7 T|bl mi a b sz d e1 la n A Z|n nn la ts ha pr cp mi ko f1 g ps fs sg ot F]; cbn [ser_ly_element].
  - reflexivity.
  - now apply mod_alike_ser.
  - now apply grt_ser.
  - unfold ser_dimension; cbn [di_name di_width di_layer di_tstamp di_text di_feature1 di_feature2 di_crossbar di_arrow1a di_arrow1b di_arrow2a di_arrow2b].
    now rewrite (grt_ser _ _ T).
  - unfold ser_via; cbn [vi_blind vi_micro vi_at vi_size vi_drill vi_layers vi_net]. rewrite (at_alike_ser _ _ A).
    destruct (zeq_ne _ _ Z) as [E K]. rewrite <- E. destruct (fneb e1 fzero); [|reflexivity]. now rewrite (K eq_refl).
  - unfold ser_zone; cbn [zo_net zo_net_name zo_layer zo_tstamp zo_hatch zo_priority zo_connect zo_min zo_keepout zo_fill zo_polygons zo_filled zo_segments zo_other].
    now rewrite F.
Qed.
Lemma grt_bound t u : grt_alike t u -> gr_text_bound u = gr_text_bound t.
Proof. intros [v a b la e f ts (X & Y & _) E]. unfold gr_text_bound; cbn [gt_at]. now rewrite X, Y. Qed.
Lemma ly_alike_bound e f : ly_alike e f -> ly_element_bound f = ly_element_bound e.
Proof.
  intros [x|m n M|t u T|nm w la ts t u p1 p2 p3 p4 p5 p6 p7 T|bl mi a b sz d e1 la n (X & Y & _) Z|n nn la ts ha pr cp mi ko f1 g ps fs sg ot F]; cbn [ly_element_bound].
  - reflexivity.
  - now apply alike_box.
  - now apply grt_bound.
  - unfold dimension_bound; cbn [di_text di_feature1 di_feature2 di_crossbar di_arrow1a di_arrow1b di_arrow2a di_arrow2b]. now rewrite (grt_bound _ _ T).
  - unfold via_bound; cbn [vi_at vi_size]. now rewrite X, Y.
  - reflexivity.
Qed.
Lemma tidy_grt_alike t : grt_alike t (tidy_gr_text t).
Proof. destruct t as [v a la e ts]. unfold tidy_gr_text; cbn [gt_value gt_at gt_layer gt_effects gt_tstamp]. constructor; [apply tidy_at_alike|apply tidy_effects_ser]. Qed.
Lemma tidy_ly_alike e : ser_ly_element (tidy_ly_element e) = ser_ly_element e -> ly_alike e (tidy_ly_element e).
Proof.
  intros S. destruct e as [m|n|n|t|g|g|g|d|s|v|z|o]; cbn [tidy_ly_element]; try apply yl_same.
  - apply yl_mod. apply tidy_mod_alike. apply ser_module_each. exact S.
  - apply yl_text, tidy_grt_alike.
  - destruct d as [nm w la ts t p1 p2 p3 p4 p5 p6 p7]. unfold tidy_dimension; cbn [di_name di_width di_layer di_tstamp di_text di_feature1 di_feature2 di_crossbar di_arrow1a di_arrow1b di_arrow2a di_arrow2b].
    apply yl_dim, tidy_grt_alike.
  - destruct v as [bl mi a sz d la n]. unfold tidy_via; cbn [vi_blind vi_micro vi_at vi_size vi_drill vi_layers vi_net]. apply yl_via; [apply tidy_at_alike|apply tidy_zeq].
  - destruct z as [n nn la ts ha pr cp mi ko f ps fs sg ot]. unfold tidy_zone; cbn [zo_net zo_net_name zo_layer zo_tstamp zo_hatch zo_priority zo_connect zo_min zo_keepout zo_fill zo_polygons zo_filled zo_segments zo_other].
    apply yl_zone, tidy_fill_ser.
Qed.

Definition board_alike (l k : layout) : Prop :=
  ly_version k = ly_version l /\ ly_host k = ly_host l /\ ly_general k = ly_general l /\ ly_page k = ly_page l /\ ly_setup k = ly_setup l /\ ly_layers k = ly_layers l
  /\ Forall2 ly_alike (ly_elements l) (ly_elements k).
Lemma board_alike_ser l k : board_alike l k -> ser_layout k = ser_layout l.
Proof.
  intros (V & H & G & P & S & L & F). unfold ser_layout. rewrite V, H, G, P, S, L.
  assert (E : map ser_ly_element (ly_elements k) = map ser_ly_element (ly_elements l)); [|now rewrite E].
  induction F as [|x y a b A _ IH]; [reflexivity|]. cbn [map]. now rewrite (ly_alike_ser _ _ A), IH.
Qed.
Lemma board_alike_bound l k : board_alike l k -> layout_bound k = layout_bound l.
Proof.
  intros (V & H & G & P & S & L & F). unfold layout_bound.
  assert (E : map ly_element_bound (ly_elements k) = map ly_element_bound (ly_elements l)); [|now rewrite E].
  induction F as [|x y a b A _ IH]; [reflexivity|]. cbn [map]. now rewrite (ly_alike_bound _ _ A), IH.
Qed.
Lemma with_alike l k es fs : board_alike l k -> Forall2 ly_alike es fs -> board_alike (with_elements l es) (with_elements k fs).
Proof. intros (V & H & G & P & S & L & _) F. unfold board_alike, with_elements; cbn [ly_version ly_host ly_general ly_page ly_setup ly_layers ly_elements]. tauto. Qed.
Lemma board_elements l k : board_alike l k -> Forall2 ly_alike (ly_elements l) (ly_elements k).
Proof. now intros (_ & _ & _ & _ & _ & _ & F). Qed.

(** ** The edits *)
Lemma adjust_grt_alike x y t u : grt_alike t u -> grt_alike (adjust_gr_text x y t) (adjust_gr_text x y u).
Proof. intros [v a b la e f ts A E]. unfold adjust_gr_text; cbn [gt_value gt_at gt_layer gt_effects gt_tstamp]. constructor; [now apply adjust_at_alike|exact E]. Qed.
Lemma adjust_mod_alike x y m n : mod_alike m n -> mod_alike (adjust_module x y m) (adjust_module x y n).
Proof. intros M. exact (change_alike (Move x y) m n _ _ M eq_refl eq_refl). Qed.
Lemma adjust_ly_alike x y e f : ly_alike e f -> ly_alike (adjust_ly_element x y e) (adjust_ly_element x y f).
Proof.
  intros [z|m n M|t u T|nm w la ts t u p1 p2 p3 p4 p5 p6 p7 T|bl mi a b sz d e1 la n A Z|n nn la ts ha pr cp mi ko f1 g ps fs sg ot F]; cbn [adjust_ly_element].
  - apply yl_same.
  - apply yl_mod. now apply adjust_mod_alike.
  - apply yl_text. now apply adjust_grt_alike.
  - unfold adjust_dimension; cbn [di_name di_width di_layer di_tstamp di_text di_feature1 di_feature2 di_crossbar di_arrow1a di_arrow1b di_arrow2a di_arrow2b].
    apply yl_dim. now apply adjust_grt_alike.
  - unfold adjust_via; cbn [vi_blind vi_micro vi_at vi_size vi_drill vi_layers vi_net]. apply yl_via; [now apply adjust_at_alike|exact Z].
  - unfold adjust_zone; cbn [zo_net zo_net_name zo_layer zo_tstamp zo_hatch zo_priority zo_connect zo_min zo_keepout zo_fill zo_polygons zo_filled zo_segments zo_other].
    now apply yl_zone.
Qed.
Lemma for_each_alike {A} (R : A -> A -> Prop) (f : A -> A * option ekind) :
  (forall x y, R x y -> R (fst (f x)) (fst (f y)) /\ snd (f y) = snd (f x)) -> forall l k, Forall2 R l k ->
  Forall2 R (fst (for_each f l)) (fst (for_each f k)) /\ snd (for_each f k) = snd (for_each f l).
Proof.
  intros H. induction 1 as [|x y l k A0 F [IH1 IH2]]; [split; [constructor|reflexivity]|]. cbn [for_each].
  destruct (H x y A0) as [H1 H2]. destruct (f x) as [x' e], (f y) as [y' e']. cbn [fst snd] in H1, H2. subst e'.
  destruct e; cbn [fst snd]; [split; [now constructor|reflexivity]|].
  destruct (for_each f l) as [l' a], (for_each f k) as [k' b]. cbn [fst snd] in *. split; [now constructor|exact IH2].
Qed.
Lemma pad_net_alike u e f : alike e f -> alike (fst (update_pad_net u e)) (fst (update_pad_net u f)) /\ snd (update_pad_net u f) = snd (update_pad_net u e).
Proof.
  intros [z|t v T|p q P|s t P]; cbn [update_pad_net]; [split; [apply al_same|reflexivity]|split; [now apply al_text|reflexivity]| |split; [now apply al_at|reflexivity]].
  pose proof P as P0. destruct P as [n0 t h z r a b la ne zc d e1 p1 p2 p3 p4 A D]. cbn [pa_net]. destruct ne as [n|]; [|split; [now apply al_pad|reflexivity]].
  destruct (u (fn_name n)) as [s k]. cbn [fst snd]. split; [|reflexivity]. apply al_pad.
  unfold with_net; cbn [pa_name pa_t pa_shape pa_at pa_size pa_drill pa_rect_delta pa_layers pa_zone_connect pa_paste_margin pa_mask_margin pa_clearance pa_thermal_gap].
  constructor; [exact A|exact D].
Qed.
Lemma nets_alike u e f : ly_alike e f -> ly_alike (fst (update_element_nets u e)) (fst (update_element_nets u f)) /\ snd (update_element_nets u f) = snd (update_element_nets u e).
Proof.
  intros L. pose proof L as L0.
  destruct L as [z|m n M|t v T|nm w la ts t v p1 p2 p3 p4 p5 p6 p7 T|bl mi a b sz d e1 la n A Z|n nn la ts ha pr cp mi ko f1 g ps fs sg ot F]; cbn [update_element_nets].
  - split; [apply yl_same|reflexivity].
  - destruct M as [N F]. destruct (for_each_alike alike (update_pad_net u) (pad_net_alike u) _ _ F) as [F1 F2]. rewrite N.
    destruct (for_each (update_pad_net u) (m_elements m)) as [a i], (for_each (update_pad_net u) (m_elements n)) as [b j]. cbn [fst snd] in *.
    split; [|exact F2]. apply yl_mod. split; [reflexivity|exact F1].
  - split; [exact L0|reflexivity].
  - split; [exact L0|reflexivity].
  - split; [exact L0|reflexivity].
  - cbn [zo_net_name]. destruct (u nn) as [s k]. cbn [fst snd]. split; [|reflexivity].
    unfold with_zone_name; cbn [zo_net zo_net_name zo_layer zo_tstamp zo_hatch zo_priority zo_connect zo_min zo_keepout zo_fill zo_polygons zo_filled zo_segments zo_other].
    now apply yl_zone.
Qed.
Lemma named_alike r m n : mod_alike m n -> is_reference_with_name n r = is_reference_with_name m r.
Proof.
  intros [_ F]. unfold is_reference_with_name. induction F as [|x y l k A _ IH]; [reflexivity|]. cbn [existsb]. rewrite IH. f_equal.
  destruct A as [e|t u (N & V & _)|? ? ?|? ? ?]; [reflexivity|now rewrite N, V|reflexivity|reflexivity].
Qed.
Lemma changed_alike cs m n : mod_alike m n -> mod_alike (changed cs m) (changed cs n).
Proof. intros M. unfold changed. destruct (changes_alike cs m n M) as (a & b & A & B & K). now rewrite A, B. Qed.
Lemma mod_alike_refl m : mod_alike m m. Proof. split; [reflexivity|apply alike_refl_list]. Qed.
Lemma modify_first_alike r cs l k : Forall2 ly_alike l k ->
  Forall2 ly_alike (fst (modify_first r (changed cs) l)) (fst (modify_first r (changed cs) k)) /\ snd (modify_first r (changed cs) k) = snd (modify_first r (changed cs) l).
Proof.
  induction 1 as [|x y l k A F [IH1 IH2]]; [split; [constructor|reflexivity]|].
  assert (G : forall a b, ly_alike a b -> Forall2 ly_alike (fst (let '(t', k0) := modify_first r (changed cs) l in (a :: t', k0))) (fst (let '(t', k0) := modify_first r (changed cs) k in (b :: t', k0)))
    /\ snd (let '(t', k0) := modify_first r (changed cs) k in (b :: t', k0)) = snd (let '(t', k0) := modify_first r (changed cs) l in (a :: t', k0))).
  { intros a b AB. destruct (modify_first r (changed cs) l) as [l' i], (modify_first r (changed cs) k) as [k' j]. cbn [fst snd] in *. split; [now constructor|exact IH2]. }
  assert (GM : forall m n, mod_alike m n ->
    Forall2 ly_alike (fst (modify_first r (changed cs) (YModule m :: l))) (fst (modify_first r (changed cs) (YModule n :: k)))
    /\ snd (modify_first r (changed cs) (YModule n :: k)) = snd (modify_first r (changed cs) (YModule m :: l))).
  { intros m n M. cbn [modify_first]. rewrite (named_alike r m n M). destruct (is_reference_with_name m r); [|apply G; now apply yl_mod].
    cbn [fst snd]. split; [|reflexivity]. constructor; [apply yl_mod; now apply changed_alike|exact F]. }
  destruct A as [e|m n M|t u T|nm w la ts t u p1 p2 p3 p4 p5 p6 p7 T|bl mi a b sz d e1 la n A Z|n nn la ts ha pr cp mi ko f1 g ps fs sg ot F1].
  - destruct e as [m|n|n|t|g|g|g|d|s|v|z|o]; [exact (GM m m (mod_alike_refl m))|cbn [modify_first]; apply G, yl_same..].
  - exact (GM m n M).
  - cbn [modify_first]. apply G. now apply yl_text.
  - cbn [modify_first]. apply G. now apply yl_dim.
  - cbn [modify_first]. apply G. now apply yl_via.
  - cbn [modify_first]. apply G. now apply yl_zone.
Qed.
Lemma board_one_alike ch l k : board_alike l k -> board_alike (fst (board_one l ch)) (fst (board_one k ch)) /\ snd (board_one k ch) = snd (board_one l ch).
Proof.
  intros B. pose proof (board_elements _ _ B) as F. destruct ch as [x y|u|r cs|num name|n|n v]; cbn [board_one fst snd].
  - split; [|reflexivity]. unfold adjust_layout. apply with_alike; [exact B|].
    induction F as [|a b es fs A _ IH]; [constructor|]. cbn [map]. constructor; [now apply adjust_ly_alike|exact IH].
  - unfold update_net_names. destruct (for_each_alike ly_alike (update_element_nets u) (nets_alike u) _ _ F) as [F1 F2].
    destruct (for_each (update_element_nets u) (ly_elements l)) as [a i], (for_each (update_element_nets u) (ly_elements k)) as [b j]. cbn [fst snd] in *.
    split; [now apply with_alike|exact F2].
  - unfold modify_module. destruct (modify_first_alike r cs _ _ F) as [F1 F2].
    destruct (modify_first r (changed cs) (ly_elements l)) as [a i], (modify_first r (changed cs) (ly_elements k)) as [b j]. cbn [fst snd] in *.
    split; [now apply with_alike|exact F2].
  - split; [|reflexivity]. unfold add_net. apply with_alike; [exact B|]. apply Forall2_app; [exact F|]. constructor; [apply yl_same|constructor].
  - split; [|reflexivity]. unfold add_netclass. apply with_alike; [exact B|]. apply Forall2_app; [exact F|]. constructor; [apply yl_same|constructor].
  - split; [|reflexivity]. destruct B as (V & H & G & P & S & L & _). rewrite S.
    unfold board_alike; cbn [ly_version ly_host ly_general ly_page ly_setup ly_layers ly_elements]. tauto.
Qed.
Lemma board_all_alike cs : forall l k, board_alike l k -> board_alike (fst (board_all l cs)) (fst (board_all k cs)) /\ snd (board_all k cs) = snd (board_all l cs).
Proof.
  induction cs as [|ch cs IH]; intros l k B; cbn [board_all]; [split; [exact B|reflexivity]|].
  destruct (board_one_alike ch l k B) as [B1 B2]. destruct (board_one l ch) as [a i], (board_one k ch) as [b j]. cbn [fst snd] in B1, B2. subst j.
  destruct (IH a b B1) as [C1 C2]. destruct (board_all a cs) as [a' is], (board_all b cs) as [b' js]. cbn [fst snd] in *. subst js. split; [exact C1|reflexivity].
Qed.

Lemma again_board nq s l n q : quote_contract nq -> parse_layout s = Ok l -> parse_layout (layout_to_string nq l n) = Ok q -> board_alike l q.
Proof.
  intros Q H R. rewrite (again_layout _ _ _ _ _ Q H R). destruct (parse_layout_q _ _ H) as [N D].
  pose proof (parse_layout_of _ _ _ (layout_text_reads nq l n Q N D) R) as R1.
  unfold parse_layout in H. apply bind_inv in H as (t & Ht & H). destruct (tidy_layout_is _ _ _ H R1) as [_ B].
  pose proof (ser_layout_each l B) as E. unfold board_alike, tidy_layout; cbn [ly_version ly_host ly_general ly_page ly_setup ly_layers ly_elements].
  assert (F : Forall2 ly_alike (ly_elements l) (map tidy_ly_element (ly_elements l))).
  { revert E. generalize (ly_elements l). clear. intros es. induction es as [|e es IH]; intros E; [constructor|]. cbn [map].
    constructor; [apply tidy_ly_alike, E; now left|apply IH; intros x I; apply E; now right]. }
  tauto.
Qed.
Lemma resave_board_edits nq s l n q cs : quote_contract nq -> parse_layout s = Ok l -> parse_layout (layout_to_string nq l n) = Ok q ->
  snd (board_all q cs) = snd (board_all l cs) /\ (forall k, layout_to_string nq (fst (board_all q cs)) k = layout_to_string nq (fst (board_all l cs)) k)
  /\ layout_bound (fst (board_all q cs)) = layout_bound (fst (board_all l cs)).
Proof.
  intros Q H R. destruct (board_all_alike cs _ _ (again_board _ _ _ _ _ Q H R)) as [A E].
  split; [exact E|]. split; [intros k; unfold layout_to_string; now rewrite (board_alike_ser _ _ A)|exact (board_alike_bound _ _ A)].
Qed.
