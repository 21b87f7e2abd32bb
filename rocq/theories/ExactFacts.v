(** The conditions of the round trip theorems are necessary (C62): footprints. *)
From Coq Require Import String Lia.
From Verif Require Import Base Str Num F64 F64Text Sexp StrFacts NumFacts F64Facts SexpFacts
  FpData FpLayer FpSer FpDe FpWf FpFacts.
Open Scope string_scope. Open Scope list_scope.

(** The value that is written like [a] and can be read back. *)
Definition tidy_zero (x : f64) : f64 := if fneb x fzero then x else fzero.
Definition tidy_at (a : at_t) : at_t := mk_at (at_x a) (at_y a) (tidy_zero (at_rot a)).
Lemma zero_not_neg : is_negzero fzero = false. Proof. vm_compute. reflexivity. Qed.
Lemma fneb_neg : fneb fnegzero fzero = false. Proof. vm_compute. reflexivity. Qed.
Lemma tidy_zero_ok x : negb (is_negzero (tidy_zero x)) = true.
Proof.
  unfold tidy_zero. destruct (fneb x fzero) eqn:E; [|now rewrite zero_not_neg].
  destruct (is_negzero x) eqn:N; [|reflexivity]. apply fsame_eq in N. subst x. rewrite fneb_neg in E. discriminate E.
Qed.
Lemma tidy_zero_same x : fneb (tidy_zero x) fzero = fneb x fzero.
Proof. unfold tidy_zero. destruct (fneb x fzero) eqn:E; [exact E|vm_compute; reflexivity]. Qed.
Lemma tidy_zero_fix x : tidy_zero x = x -> negb (is_negzero x) = true.
Proof. intros <-. apply tidy_zero_ok. Qed.
Lemma tidy_at_ser a : ser_at (tidy_at a) = ser_at a.
Proof.
  destruct a as [x y r]. unfold ser_at, tidy_at; cbn [at_x at_y at_rot]. rewrite tidy_zero_same.
  unfold tidy_zero. destruct (fneb r fzero); reflexivity.
Qed.
Lemma tidy_at_ok a : at_ok (tidy_at a) = true. Proof. apply tidy_zero_ok. Qed.

Definition tidy_font (f : font) : font :=
  let s := fo_size f in
  if (fgtb (xy_x s) fzero || fgtb (xy_y s) fzero)%bool then f
  else mk_font (mk_xy fzero fzero (xy_t s)) (fo_thickness f) (fo_italic f).
Lemma zero_gt : fgtb fzero fzero = false. Proof. vm_compute. reflexivity. Qed.
Lemma zero_pos : is_poszero fzero = true. Proof. vm_compute. reflexivity. Qed.
Lemma tidy_font_ser f : ser_font (tidy_font f) = ser_font f.
Proof.
  destruct f as [[x y t] th it]. unfold tidy_font, ser_font; cbn [fo_size xy_x xy_y xy_t fo_thickness fo_italic].
  destruct (fgtb x fzero || fgtb y fzero)%bool eqn:E; cbn [fo_size xy_x xy_y xy_t fo_thickness fo_italic]; [now rewrite E|].
  rewrite zero_gt. reflexivity.
Qed.
Lemma tidy_font_clean f : font_clean (tidy_font f) = true.
Proof.
  unfold font_clean, tidy_font. destruct (fgtb (xy_x (fo_size f)) fzero || fgtb (xy_y (fo_size f)) fzero)%bool eqn:E; [rewrite E; reflexivity|].
  cbn [fo_size xy_x xy_y]. rewrite zero_pos. apply orb_true_r.
Qed.
Lemma tidy_font_type f : xy_t (fo_size (tidy_font f)) = xy_t (fo_size f).
Proof. unfold tidy_font. destruct (fgtb _ _ || fgtb _ _)%bool; reflexivity. Qed.
Definition tidy_effects (e : effects) : effects := mk_effects (tidy_font (ef_font e)) (ef_justify e).
Lemma tidy_effects_ser e : ser_effects (tidy_effects e) = ser_effects e.
Proof. unfold ser_effects, tidy_effects; cbn [ef_font ef_justify]. now rewrite tidy_font_ser. Qed.
Lemma tidy_effects_ok e : xy_type_eqb (xy_t (fo_size (ef_font e))) XXy = true -> effects_ok (tidy_effects e) = true.
Proof.
  intros T. unfold effects_ok, font_ok, tidy_effects; cbn [ef_font]. rewrite tidy_font_type, T. apply tidy_font_clean.
Qed.

(** ** Texts *)
Lemma de_text_weak s t : de_text s = Ok t ->
  layer_ok (tx_layer t) = true /\ xy_type_eqb (xy_t (fo_size (ef_font (tx_effects t)))) XXy = true.
Proof.
  unfold de_text. intros H. apply iter_new_inv in H as (l1 & r & _ & H). pinv H.
  apply p_close_inv in H as [-> _]. cbn [tx_layer tx_effects]. split; [eapply maybe_layer_ok; eassumption|].
  apply p_maybe_inv in Hv4. destruct v4 as [e|]; [|reflexivity].
  destruct Hv4 as (x & _ & Hv4). eapply de_effects_type, Hv4.
Qed.
Lemma exact_text t : de_text (ser_text t) = Ok t -> element_clean (EFpText t) = true.
Proof.
  intros H. destruct (de_text_weak _ _ H) as [L T].
  set (u := mk_text (tx_name t) (tx_value t) (tidy_at (tx_at t)) (tx_layer t) (tidy_effects (tx_effects t)) (tx_hide t)).
  assert (S : ser_text u = ser_text t).
  { unfold ser_text, u; cbn [tx_name tx_value tx_at tx_layer tx_effects tx_hide]. now rewrite tidy_at_ser, tidy_effects_ser. }
  assert (K : text_ok u = true).
  { unfold text_ok, u; cbn [tx_at tx_layer tx_effects]. rewrite tidy_at_ok, L. now apply tidy_effects_ok. }
  pose proof (rt_text u K) as R. rewrite S, H in R. injection R as R.
  cbn [element_clean]. rewrite R. unfold u. cbn [tx_at tx_effects]. rewrite tidy_at_ok. apply tidy_font_clean.
Qed.

(** ** Drills and pads *)
Lemma exact_drill d : de_drill (ser_drill d) = Ok d -> drill_clean d = true.
Proof.
  intros H. pose proof (de_drill_shape _ _ H) as Sh. rewrite (drill_exact d Sh) in H.
  destruct d as [sh w h ox oy]. unfold drill_clean, height_written, offset_written in *; cbn [dr_shape dr_width dr_height dr_ox dr_oy] in *.
  set (g := (fgtb h fzero && fgtb (fabs (fsub h w)) f_eps)%bool) in *.
  assert (O : (if (fneb ox fzero || fneb oy fzero)%bool then ox else fzero) = ox ->
    (if (fneb ox fzero || fneb oy fzero)%bool then oy else fzero) = oy ->
    (fneb ox fzero || fneb oy fzero || (is_poszero ox && is_poszero oy))%bool = true).
  { destruct (fneb ox fzero || fneb oy fzero)%bool; [reflexivity|]. intros <- <-. rewrite zero_pos. reflexivity. }
  destruct (fgtb w fzero) eqn:W; [|destruct g eqn:G; [|discriminate H]].
  - injection H as Hh Hx Hy. rewrite (O Hx Hy), andb_true_r. cbn [andb]. destruct g; [apply orb_true_r|].
    rewrite orb_false_r. apply fsame_eq. now symmetry.
  - injection H as Hw Hx Hy. unfold g in G. apply andb_prop in G as [G _]. rewrite Hw in G. congruence.
Qed.
(** The reader of the last parts of a pad fails if some part is neither. *)
Lemma maybe_keeps {A} (f : sexp -> res A) l o r x : p_maybe f l = Ok (o, r) -> In x l -> is_ok (f x) = false -> In x r.
Proof.
  destruct l as [|y l]; cbn [p_maybe]; intros H I N; [contradiction|].
  destruct (f y) eqn:E; [|injection H as <- <-; exact I|discriminate H].
  injection H as <- <-. destruct I as [<-|I]; [|exact I]. rewrite E in N. discriminate N.
Qed.
Lemma vec_all {A} (f : sexp -> res A) l v r x : p_vec f l = Ok (v, r) -> In x l -> is_ok (f x) = true.
Proof.
  intros H I. apply p_vec_inv in H as [H _]. revert v H. induction l as [|y l IH]; intros v H; [contradiction|].
  cbn [mapM] in H. apply bind_inv in H as (b & Hb & H). apply bind_inv in H as (w & Hw & H).
  destruct I as [<-|I]; [now rewrite Hb|]. eapply IH; eassumption.
Qed.
Lemma pad_all p q x : de_pad (ser_pad p) = Ok q ->
  In x (opt_list ser_drill (pa_drill p) ++ opt_list ser_xy (pa_rect_delta p)) ->
  is_ok (de_drill x) = false -> is_ok (de_layers x) = false -> is_ok (de_part x) = false -> False.
Proof.
  unfold de_pad, ser_pad. rewrite <- (tidy_at_ser (pa_at p)). pose proof (tidy_at_ok (pa_at p)) as A. rewrite iter_new_node. intros H I D L Pa.
  rewrite !app_assoc, <- (app_assoc [_; _; _; _; _]), <- !app_assoc, (app_assoc (opt_list ser_drill _)) in H.
  match type of H with context [(opt_list ser_drill _ ++ opt_list ser_xy _) ++ ?t] =>
    assert (J : In x ((opt_list ser_drill (pa_drill p) ++ opt_list ser_xy (pa_rect_delta p)) ++ t)) by (apply in_or_app; now left);
    revert J H; generalize ((opt_list ser_drill (pa_drill p) ++ opt_list ser_xy (pa_rect_delta p)) ++ t) end.
  clear I. intros l J. cbn [app].
  match goal with |- (do ar <- ?r; _) = _ -> _ => destruct r as [[q' r']| |] eqn:H; [intros _|intros K; discriminate K|intros K; discriminate K] end.
  revert H. do 7 nxt. intros H. pinv H.
  apply (maybe_keeps _ _ _ _ x) in Hv; [|exact J|exact D]. apply (maybe_keeps _ _ _ _ x) in Hv0; [|exact Hv|exact L].
  apply (vec_all _ _ _ _ x) in Hv1; [|exact Hv0]. congruence.
Qed.
Lemma pad_rect_none p q : de_pad (ser_pad p) = Ok q -> pa_rect_delta p = None.
Proof.
  intros H. destruct (pa_rect_delta p) as [r|] eqn:E; [exfalso|reflexivity].
  apply (pad_all p q (ser_xy r) H).
  - rewrite E. apply in_or_app. right. now left.
  - destruct r as [x y []]; reflexivity.
  - destruct r as [x y []]; reflexivity.
  - destruct r as [x y []]; reflexivity.
Qed.
Lemma pad_drill_ok p q d : de_pad (ser_pad p) = Ok q -> pa_drill p = Some d -> is_ok (de_drill (ser_drill d)) = true.
Proof.
  intros H E. destruct (is_ok (de_drill (ser_drill d))) eqn:K; [reflexivity|exfalso].
  apply (pad_all p q (ser_drill d) H); [|exact K|reflexivity|reflexivity].
  rewrite E. apply in_or_app. left. now left.
Qed.
Lemma de_pad_weak s p : de_pad s = Ok p ->
  xy_type_eqb (xy_t (pa_size p)) XSize = true /\ forallb layer_ok (pa_layers p) = true /\ opt_ok fnet_ok (pa_net p) = true
  /\ opt_ok i64_ok (pa_zone_connect p) = true /\ opt_ok shape_ok (pa_drill p) = true.
Proof.
  unfold de_pad. intros H. apply iter_new_inv in H as (l1 & r & _ & H). pinv H.
  apply plift_inv in H as [H _]. apply p_vec_inv in Hv8 as [Hv8 _].
  apply pad_parts_ok in H; [|eapply mapM_Forall; [exact Hv8|]; intros; eapply de_part_ok; eassumption|reflexivity|reflexivity].
  cbn [pa_size pa_rect_delta pa_at pa_layers pa_drill] in H. destruct H as ((F1 & F2 & F3 & F4 & F5) & Hn & Hz).
  cbn [pa_size pa_rect_delta pa_at pa_layers pa_drill] in *. split; [|split; [|split; [exact Hn|split; [exact Hz|]]]].
  - rewrite F1. destruct v5 as [q|]; [|reflexivity]. destruct (xy_type_eqb (xy_t q) XSize) eqn:E; [exact E|reflexivity].
  - rewrite F4. apply p_maybe_inv in Hv7. destruct v7; [|reflexivity]. destruct Hv7 as (x & _ & Hv7). eapply de_layers_ok, Hv7.
  - rewrite F5. apply p_maybe_inv in Hv6. destruct v6 as [d|]; [|reflexivity]. destruct Hv6 as (x & _ & Hv6). exact (de_drill_shape _ _ Hv6).
Qed.
(** The drill that is read, and that is written the same. *)
Definition tidy_drill (d : drill) : drill := match de_drill (ser_drill d) with Ok e => e | _ => d end.
Lemma tidy_drill_ok d : shape_ok d = true -> is_ok (de_drill (ser_drill d)) = true ->
  de_drill (ser_drill d) = Ok (tidy_drill d) /\ (tidy_drill d = d -> drill_clean d = true).
Proof.
  intros S K. unfold tidy_drill. destruct (de_drill (ser_drill d)) as [e| |] eqn:E; try discriminate K.
  split; [reflexivity|]. intros ->. now apply exact_drill.
Qed.
Lemma exact_pad p : de_pad (ser_pad p) = Ok p -> element_clean (EPad p) = true.
Proof.
  intros H. destruct (de_pad_weak _ _ H) as (Sz & La & Ne & Zc & Dr). pose proof (pad_rect_none _ _ H) as Rd.
  cbn [element_clean]. rewrite Rd. cbn [andb].
  assert (Q : de_pad (ser_pad p) = Ok (mk_pad (pa_name p) (pa_t p) (pa_shape p) (pa_size p) None (tidy_at (pa_at p)) (pa_layers p) (pa_net p)
     (pa_zone_connect p) (option_map tidy_drill (pa_drill p)) (pa_paste_margin p) (pa_mask_margin p) (pa_clearance p) (pa_thermal_gap p))).
  { unfold ser_pad, de_pad. rewrite Rd. rewrite <- (tidy_at_ser (pa_at p)). pose proof (tidy_at_ok (pa_at p)) as A. fold (ser_parts p).
    pose proof (rt_parts p Ne Zc) as Hp.
    set (q := mk_pad (pa_name p) (pa_t p) (pa_shape p) (pa_size p) None (tidy_at (pa_at p)) (pa_layers p) (pa_net p)
       (pa_zone_connect p) (option_map tidy_drill (pa_drill p)) (pa_paste_margin p) (pa_mask_margin p) (pa_clearance p) (pa_thermal_gap p)).
    pose proof (pad_parts_all q : pad_parts (mk_pad (pa_name p) (pa_t p) (pa_shape p) (pa_size p) None (tidy_at (pa_at p)) (pa_layers p) None None
       (option_map tidy_drill (pa_drill p)) None None None None) (parts_of p) = Ok q) as Hall.
    assert (Dk : forall d, pa_drill p = Some d -> de_drill (ser_drill d) = Ok (tidy_drill d)).
    { intros d E. apply tidy_drill_ok; [rewrite E in Dr; exact Dr|]. exact (pad_drill_ok p p d H E). }
    destruct (pa_drill p) as [d|] eqn:Ed; cbn [opt_ok option_map] in *;
      [pose proof (Dk d eq_refl) as Dd|]; start; do 9 nxt; cbn [default];
      (erewrite pbind_ok; [|first [apply p_maybe_ok, rt_layers; assumption | apply p_vec_ok; eassumption]]); cbv beta; rewrite Sz; try nxt;
      unfold plift; rewrite Hall; reflexivity. }
  rewrite H in Q. injection Q as Q. assert (Qa := f_equal pa_at Q). assert (Qd := f_equal pa_drill Q). cbn [pa_at pa_drill] in Qa, Qd.
  rewrite Qa, tidy_at_ok. cbn [andb]. destruct (pa_drill p) as [d|] eqn:Ed; [|reflexivity]. cbn [opt_ok option_map] in *. injection Qd as Qd.
  destruct (tidy_drill_ok d Dr (pad_drill_ok p p d H Ed)) as [_ K]. apply K. now symmetry.
Qed.

(** ** Elements and modules *)
Lemma exact_stamp k z : de_stamp_element (kv k (SStr (show_hex64 z))) = Ok z -> (0 <=? z)%Z = true.
Proof.
  unfold de_stamp_element, first_after. change (sx_list_name (kv k (SStr (show_hex64 z)))) with (Ok (lit k)). cbn [bind].
  change (kv k ?x) with (node k [x]). start. nxt. intros H.
  destruct (parse_int 16 (show_hex64 z)) as [y|] eqn:E; cbn in H; [|discriminate H]. injection H as ->.
  destruct (0 <=? z)%Z eqn:N; [reflexivity|]. exfalso. apply Z.leb_gt in N. pose proof (parse_int_range _ _ _ E) as R.
  rewrite (hex_negative z R N) in E. discriminate E.
Qed.
Lemma exact_at a : de_at (ser_at a) = Ok a -> at_ok a = true.
Proof.
  intros H. rewrite <- tidy_at_ser, (rt_at _ (tidy_at_ok a)) in H. injection H as H. rewrite <- H. apply tidy_at_ok.
Qed.
Lemma rmap_ok {A B} (f : A -> B) r a : (forall x y, f x = f y -> x = y) -> rmap f r = Ok (f a) -> r = Ok a.
Proof. intros I. destruct r; cbn; try discriminate. intros H. injection H as H. now rewrite (I _ _ H). Qed.
Lemma exact_element e : de_element (ser_element e) = Ok e -> element_clean e = true.
Proof.
  destruct e; cbn [ser_element]; intros H; try reflexivity.
  - change (rmap EFpText (de_text (ser_text t)) = Ok (EFpText t)) in H. apply exact_text. apply (rmap_ok EFpText); [|exact H]. now intros x y [= ->].
  - change (rmap EPad (de_pad (ser_pad p)) = Ok (EPad p)) in H. apply exact_pad. apply (rmap_ok EPad); [|exact H]. now intros x y [= ->].
  - change (rmap ETEdit (de_stamp_element (kv "tedit" (SStr (show_hex64 z)))) = Ok (ETEdit z)) in H.
    apply (exact_stamp "tedit"). apply (rmap_ok ETEdit); [|exact H]. now intros x y [= ->].
  - change (rmap ETStamp (de_stamp_element (kv "tstamp" (SStr (show_hex64 z)))) = Ok (ETStamp z)) in H.
    apply (exact_stamp "tstamp"). apply (rmap_ok ETStamp); [|exact H]. now intros x y [= ->].
  - change (rmap EAt (de_at (ser_at a)) = Ok (EAt a)) in H. apply exact_at. apply (rmap_ok EAt); [|exact H]. now intros x y [= ->].
Qed.
Lemma mapM_self {A B} (g : B -> res A) (f : A -> B) l : mapM g (map f l) = Ok l -> forall x, In x l -> g (f x) = Ok x.
Proof.
  induction l as [|y l IH]; intros H x I; [contradiction|]. cbn [map mapM] in H.
  apply bind_inv in H as (b & Hb & H). apply bind_inv in H as (w & Hw & H). injection H as -> ->.
  destruct I as [<-|I]; [exact Hb|]. now apply IH.
Qed.
Lemma exact_module m : de_module (ser_module m) = Ok m -> module_clean m = true.
Proof.
  destruct m as [n es]. unfold de_module, ser_module; cbn [m_name m_elements]. start. nxt. intros H.
  match type of H with (do ar <- ?r; _) = _ => destruct r as [[q' r']| |] eqn:E; try discriminate H end.
  cbn [bind fst] in H. pinv E. injection E as <- <-. injection H as ->. apply p_vec_inv in Hv as [Hv _].
  unfold module_clean; cbn [m_elements]. apply forallb_forall. intros e I. apply exact_element. exact (mapM_self de_element ser_element es Hv e I).
Qed.
Lemma module_iff m : de_module (ser_module m) = Ok m <-> module_ok m = true.
Proof. split; [|apply rt_module]. intros H. eapply de_module_ok; [exact H|]. now apply exact_module. Qed.
