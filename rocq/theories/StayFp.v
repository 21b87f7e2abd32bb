(** Footprints that stay as they are (C80). *)
From Coq Require Import String Lia.
From Flocq Require Import IEEE754.BinarySingleNaN.
From Verif Require Import Base Str StrFacts Num NumFacts F64 F64Facts F64Text Sexp FpData FpLayer FpSer FpDe FpWf FpFacts ExactFacts SettleFacts StaySpec StayFacts.
Open Scope string_scope. Open Scope list_scope.

Create HintDb img.
Ltac img_step :=
  match goal with
  | |- img _ _ text => apply i_text
  | |- img _ _ num => apply i_num
  | |- img _ _ whole => apply i_whole
  | |- img _ _ (such nonzero) => apply i_nonzero
  | |- img _ _ (such positive) => apply i_positive
  | |- img _ _ stamp => apply i_stamp
  | |- img _ _ layer_name => apply i_layer
  | |- img _ _ (has _ _) => first [solve [eauto 1 with img] | eapply i_has]
  | |- cimg _ _ (one _) => eapply c_one
  | |- cimg _ _ (opt (words [_])) => apply c_flag
  | |- cimg _ _ (opt _) => eapply c_opt
  | |- cimg _ _ (many _) => eapply c_many
  | |- pimg _ _ [] => apply p_nil
  | |- pimg _ _ [_] => eapply p_last
  | |- pimg _ _ (_ :: _) => eapply p_cons
  | |- _ => solve [eauto 1 with img]
  end.
Ltac imgs := repeat img_step.
(** Booleans *)
Ltac gather := repeat match goal with H : (_ && _)%bool = true |- _ => apply andb_true_iff in H as [? ?] end.

Lemma ty_eq a b : xy_type_eqb a b = true -> a = b.
Proof. destruct a, b; intros H; try discriminate; reflexivity. Qed.
Lemma ty_refl a : xy_type_eqb a a = true.
Proof. now destruct a. Qed.
Lemma not_negzero x : fneb x fzero = true -> negb (is_negzero x) = true.
Proof. intros H. apply nonzero_iff in H as [_ H]. unfold is_negzero. destruct (fsame x fnegzero) eqn:E; [|reflexivity]. apply fsame_eq in E. contradiction. Qed.
Lemma zero_or x : negb (is_negzero x) = true -> fneb x fzero = true \/ x = fzero.
Proof.
  intros H. destruct (fneb x fzero) eqn:E; [now left|]. right. unfold is_negzero in H. destruct x as [[]|[]| |s m e B]; cbn in E, H; try discriminate; try reflexivity.
  unfold fneb, fzero, Beqb in E. cbn in E. destruct s; discriminate E.
Qed.
Lemma fneb_zero : fneb fzero fzero = false. Proof. reflexivity. Qed.

Lemma i_at : img ser_at at_ok at_.
Proof.
  apply (i_form "at"). eapply p_map; [imgs| |].
  - intros (x & y & o) H. exists (mk_at x y (default fzero o)). cbn [fst snd] in *. gather. destruct o as [r|]; cbn [default opt_ok at_x at_y at_rot] in *.
    + split; [|now apply not_negzero]. cbn [opt_list app when]. now rewrite H1.
    + split; reflexivity.
  - intros [x y r] H. unfold at_ok in H. cbn [at_rot] in H. apply zero_or in H as [H| ->].
    + exists (x, (y, Some r)). cbn [fst snd opt_list at_x at_y at_rot app]. rewrite H. split; [reflexivity|]. unfold opt_ok. now rewrite H.
    + exists (x, (y, None)). split; reflexivity.
Qed.
#[export] Hint Resolve i_at : img.
Lemma i_point t : img ser_xy (fun p => xy_type_eqb (xy_t p) t) (point (xy_name t)).
Proof.
  eapply i_map; [apply i_form; imgs| |].
  - intros (x & y) _. exists (mk_xy x y t). split; [reflexivity|]. apply ty_refl.
  - intros [x y u] H. cbn [xy_t] in H. apply ty_eq in H as ->. exists (x, y). split; reflexivity.
Qed.
Lemma i_size : img ser_xy (fun p => xy_type_eqb (xy_t p) XSize) (point "size"). Proof. exact (i_point XSize). Qed.
Lemma i_start : img ser_xy (fun p => xy_type_eqb (xy_t p) XStart) (point "start"). Proof. exact (i_point XStart). Qed.
Lemma i_end : img ser_xy (fun p => xy_type_eqb (xy_t p) XEnd) (point "end"). Proof. exact (i_point XEnd). Qed.
Lemma i_center : img ser_xy (fun p => xy_type_eqb (xy_t p) XCenter) (point "center"). Proof. exact (i_point XCenter). Qed.
#[export] Hint Resolve i_size i_start i_end i_center : img.
Lemma i_any_point : img ser_xy yes any_point.
Proof.
  intros s. unfold any_point, either. split.
  - intros (p & I & H). assert (E : exists t, p = point (xy_name t)).
    { cbn [map In] in I. repeat destruct I as [<-|I]; [exists XXy|exists XStart|exists XEnd|exists XSize|exists XCenter|exists XRectDelta|contradiction]; reflexivity. }
    destruct E as (t & ->). apply i_point in H as (v & -> & _). now exists v.
  - intros (v & -> & _). exists (point (xy_name (xy_t v))). split; [destruct (xy_t v); cbn; tauto|]. apply i_point. exists v. split; [reflexivity|apply ty_refl].
Qed.
#[export] Hint Resolve i_any_point : img.
Lemma i_xyz : img ser_xyz yes xyz.
Proof.
  apply (i_form "xyz"). eapply p_map; [imgs| |].
  - intros (x & y & z) _. exists (mk_xyz x y z). split; reflexivity.
  - intros [x y z] _. exists (x, (y, z)). split; reflexivity.
Qed.
#[export] Hint Resolve i_xyz : img.
Lemma i_on_layer : img (fun l => kv "layer" (ser_layer l)) layer_ok on_layer.
Proof. unfold on_layer. imgs. Qed.
Lemma i_on_layers : img ser_layers (forallb layer_ok) on_layers.
Proof. apply (i_form "layers"). imgs. Qed.
#[export] Hint Resolve i_on_layer i_on_layers : img.
Lemma all_yes {A} (l : list A) : forallb yes l = true.
Proof. now induction l. Qed.
Lemma i_pts : img ser_pts yes (form "pts" [many any_point]).
Proof.
  apply (i_form "pts"). eapply p_map; [imgs| |].
  - intros l _. exists l. split; reflexivity.
  - intros l _. exists l. split; [reflexivity|apply all_yes].
Qed.
#[export] Hint Resolve i_pts : img.
Lemma i_outline k : img (fun p => kv k (ser_pts p)) yes (outline k).
Proof. unfold outline. imgs. Qed.
#[export] Hint Resolve i_outline : img.
Lemma i_sized : img (fun t => node "size" [a_f (fst t); a_f (snd t)]) (fun t => fgtb (fst t) fzero || fgtb (snd t) fzero)%bool (pair_with "size" positive).
Proof. apply i_pair. reflexivity. Qed.
#[export] Hint Resolve i_sized : img.
Lemma i_font : img ser_font font_ok font.
Proof.
  apply (i_form "font"). eapply p_map; [imgs| |].
  - intros (o & t & i) H. cbn [fst snd] in H. gather. destruct o as [[x y]|]; cbn [opt_ok fst snd] in *.
    + exists (mk_font (mk_xy x y XXy) t i). unfold font_ok. cbn [fo_size fo_thickness fo_italic xy_x xy_y xy_t opt_list fst snd app]. rewrite H. split; reflexivity.
    + exists (mk_font (mk_xy fzero fzero XXy) t i). split; reflexivity.
  - intros [[x y ty] t i] H. unfold font_ok in H. cbn [fo_size xy_x xy_y xy_t] in H. apply andb_true_iff in H as [H H1]. apply ty_eq in H as ->.
    cbn [fo_size fo_thickness fo_italic xy_x xy_y xy_t]. destruct (fgtb x fzero || fgtb y fzero)%bool eqn:E.
    + exists (Some (x, y), (t, i)). split; [reflexivity|]. cbn [fst snd opt_ok]. now rewrite E.
    + exists (None, (t, i)). split; reflexivity.
Qed.
#[export] Hint Resolve i_font : img.
Lemma i_words {A} (f : A -> string) (l : list string) : (forall a, In (f a) l) -> (forall k, In k l -> exists a, f a = k) -> img (fun a => a_lit (f a)) yes (words l).
Proof.
  intros F G s. unfold words. split.
  - intros (k & K & ->). destruct (G k K) as (a & <-). now exists a.
  - intros (a & -> & _). exists (f a). split; [apply F|reflexivity].
Qed.
Lemma i_justify : img ser_justify yes (has "justify" (words ["left"; "right"; "mirror"])).
Proof.
  apply (i_has "justify"). apply i_words; [intros []; cbn; tauto|]. intros k [<-|[<-|[<-|[]]]]; [now exists JLeft|now exists JRight|now exists JMirror].
Qed.
#[export] Hint Resolve i_justify : img.
Lemma i_effects : img ser_effects effects_ok effects.
Proof.
  apply (i_form "effects"). eapply p_map; [imgs| |].
  - intros (f & j) H. exists (mk_effects f j). cbn [fst snd] in H. gather. split; [reflexivity|assumption].
  - intros [f j] H. exists (f, j). split; [reflexivity|]. cbn [fst snd]. apply andb_true_iff. split; [exact H|]. now destruct j.
Qed.
#[export] Hint Resolve i_effects : img.
Lemma i_width : img (fun f => kv "width" (a_f f)) yes width.
Proof. unfold width. imgs. Qed.
#[export] Hint Resolve i_width : img.

(** ** Footprints *)
Lemma i_net : img ser_fnet fnet_ok net.
Proof.
  apply (i_form "net"). eapply p_map; [imgs| |].
  - intros (n & t) H. exists (mk_fnet n t). cbn [fst snd] in H. gather. split; [reflexivity|assumption].
  - intros [n t] H. exists (n, t). split; [reflexivity|]. cbn [fst snd]. unfold fnet_ok in H. cbn [fn_num] in H. now rewrite H.
Qed.
#[export] Hint Resolve i_net : img.
Lemma i_oval : img (fun _ : unit => a_lit "oval") yes (words ["oval"]).
Proof. apply i_words; [intros _; now left|]. intros k [<-|[]]. now exists tt. Qed.
Lemma i_offset : img (fun t => node "offset" [a_f (fst t); a_f (snd t)]) (fun t => fneb (fst t) fzero || fneb (snd t) fzero)%bool (pair_with "offset" nonzero).
Proof. exact (i_pair "offset" nonzero (fun x => fneb x fzero) nonzero_iff). Qed.
Definition high (w h : f64) : bool := (fgtb h fzero && fgtb (fabs (fsub h w)) f_eps)%bool.
Lemma i_high w : img a_f (high w) (such (fun h => positive h /\ fgtb (fabs (fsub h w)) tiny = true)).
Proof. apply i_such. intros h. unfold high, positive. rewrite andb_true_iff. reflexivity. Qed.
Lemma i_wide w : img a_f (fun x => fsame x w && fgtb x fzero)%bool (such (fun x => x = w /\ positive x)).
Proof. apply i_such. intros x. unfold positive. rewrite andb_true_iff, fsame_eq. reflexivity. Qed.
Definition drill_parts w : list part :=
  [opt (words ["oval"]); one (such (fun x => x = w /\ positive x)); opt (such (fun h => positive h /\ fgtb (fabs (fsub h w)) tiny = true)); opt (pair_with "offset" nonzero)].
Definition drill_list (t : option unit * (f64 * (option f64 * option (f64 * f64)))) : list sexp :=
  let '(s, (x, (h, o))) := t in opt_list (fun _ : unit => a_lit "oval") s ++ [a_f x] ++ opt_list a_f h ++ opt_list (fun t => node "offset" [a_f (fst t); a_f (snd t)]) o.
Lemma p_drill w : pimg drill_list (fun t => let '(s, (x, (h, o))) := t in fsame x w && fgtb x fzero && opt_ok (high w) h && opt_ok (fun t => fneb (fst t) fzero || fneb (snd t) fzero) o)%bool (drill_parts w).
Proof.
  unfold drill_parts. eapply p_map.
  - eapply p_cons; [eapply c_opt, i_oval|]. eapply p_cons; [eapply c_one, i_wide|]. eapply p_cons; [eapply c_opt, i_high|]. eapply p_last. eapply c_opt, i_offset.
  - intros (s & x & h & o) H. cbn [fst snd] in H. gather. exists (s, (x, (h, o))). split; [reflexivity|]. repeat (apply andb_true_iff; split); assumption.
  - intros (s & x & h & o) H. gather. exists (s, (x, (h, o))). split; [reflexivity|]. cbn [fst snd]. repeat (apply andb_true_iff; split); try assumption. now destruct s.
Qed.
Lemma i_drill : img ser_drill drill_ok drill.
Proof.
  intros s. unfold drill. split.
  - intros (w & H). apply (i_form "drill" _ _ _ (p_drill w)) in H as ((sh & x & h & o) & -> & H). gather. apply fsame_eq in H as ->.
    exists (mk_drill (match sh with Some _ => Some (lit "oval") | None => None end) w (default w h) (match o with Some t => fst t | None => fzero end) (match o with Some t => snd t | None => fzero end)).
    assert (S : match match sh with Some _ => Some (lit "oval") | None => None end with None => true | Some s => str_eqb s (lit "oval") end = true) by (destruct sh; reflexivity).
    assert (L : opt_list SStr (match sh with Some _ => Some (lit "oval") | None => None end) = opt_list (fun _ : unit => a_lit "oval") sh) by (destruct sh; reflexivity).
    unfold ser_drill, drill_ok. cbn [dr_shape dr_width dr_height dr_ox dr_oy]. rewrite S, L, H2. cbn [andb when].
    assert (E : when (fgtb (default w h) fzero && fgtb (fabs (fsub (default w h) w)) f_epsilon) [a_f (default w h)] = opt_list a_f h
                /\ (fsame (default w h) w || fgtb (default w h) fzero && fgtb (fabs (fsub (default w h) w)) f_eps)%bool = true).
    { destruct h as [h|]; cbn [default opt_ok opt_list] in *; [unfold high in H1; change f_epsilon with f_eps; rewrite H1; split; [reflexivity|apply orb_true_r]|].
      change f_epsilon with f_eps. rewrite self_diff, andb_false_r, fsame_refl. split; reflexivity. }
    destruct E as [-> ->]. cbn [andb]. destruct o as [[a b]|]; cbn [opt_ok fst snd opt_list] in *; [rewrite H0|]; split; reflexivity.
  - intros ([sh w h a b] & -> & H). unfold drill_ok in H. cbn [dr_shape dr_width dr_height dr_ox dr_oy] in H. gather. exists w. apply (i_form "drill" _ _ _ (p_drill w)).
    exists (match sh with Some _ => Some tt | None => None end, (w, (if (fgtb h fzero && fgtb (fabs (fsub h w)) f_eps)%bool then Some h else None, if (fneb a fzero || fneb b fzero)%bool then Some (a, b) else None))).
    unfold ser_drill. cbn [dr_shape dr_width dr_height dr_ox dr_oy]. rewrite H2. split.
    + unfold drill_list. change f_epsilon with f_eps. f_equal.
      assert (L : opt_list SStr sh = opt_list (fun _ : unit => a_lit "oval") (match sh with Some _ => Some tt | None => None end)).
      { destruct sh as [t|]; [|reflexivity]. apply str_eqb_eq in H as ->. reflexivity. }
      rewrite L. destruct (fgtb h fzero && fgtb (fabs (fsub h w)) f_eps)%bool, (fneb a fzero || fneb b fzero)%bool; reflexivity.
    + rewrite fsame_refl. cbn [andb]. apply andb_true_iff. split; [|destruct (fneb a fzero || fneb b fzero)%bool eqn:E; [cbn [opt_ok fst snd]; exact E|reflexivity]].
      destruct (fgtb h fzero && fgtb (fabs (fsub h w)) f_eps)%bool eqn:E; [exact E|reflexivity].
Qed.
#[export] Hint Resolve i_drill : img.
Lemma i_pad_type : img (fun t => a_lit (show_pad_type t)) yes (words ["smd"; "thru_hole"; "np_thru_hole"]).
Proof. apply i_words; [intros []; cbn; tauto|]. intros k [<-|[<-|[<-|[]]]]; [now exists Smd|now exists Pth|now exists NpPth]. Qed.
Lemma i_pad_shape : img (fun t => a_lit (show_pad_shape t)) yes (words ["rect"; "circle"; "oval"; "trapezoid"]).
Proof. apply i_words; [intros []; cbn; tauto|]. intros k [<-|[<-|[<-|[<-|[]]]]]; [now exists Rect|now exists Circle|now exists Oval|now exists Trapezoid]. Qed.
#[export] Hint Resolve i_pad_type i_pad_shape : img.
Lemma opt_yes {A} (o : option A) : opt_ok yes o = true.
Proof. now destruct o. Qed.
Ltac oky := cbn [fst snd]; repeat first [assumption | apply opt_yes | apply all_yes | match goal with |- (_ && _)%bool = true => apply andb_true_iff; split end | reflexivity].
Lemma i_pad : img ser_pad pad_ok pad.
Proof.
  apply (i_form "pad"). eapply p_map; [imgs| |].
  - intros (n & t & sh & at' & sz & d & la & ne & zc & pm & mm & cl & tg) H. cbn [fst snd] in H. gather. exists (mk_pad n t sh sz None at' la ne zc d pm mm cl tg).
    split; [reflexivity|]. unfold pad_ok. cbn [pa_size pa_rect_delta pa_at pa_layers pa_net pa_zone_connect pa_drill]. oky.
  - intros [n t sh sz rd at' la ne zc d pm mm cl tg] H. unfold pad_ok in H. cbn [pa_size pa_rect_delta pa_at pa_layers pa_net pa_zone_connect pa_drill] in H. gather.
    destruct rd; [discriminate|]. exists (n, (t, (sh, (at', (sz, (d, (la, (ne, (zc, (pm, (mm, (cl, tg)))))))))))). split; [reflexivity|]. oky.
Qed.
Lemma i_fp_text : img ser_text text_ok fp_text.
Proof.
  apply (i_form "fp_text"). eapply p_map; [imgs| |].
  - intros (n & v & at' & la & hi & ef) H. cbn [fst snd] in H. gather. exists (mk_text n v at' la ef hi). split; [reflexivity|]. unfold text_ok. cbn [tx_at tx_layer tx_effects]. oky.
  - intros [n v at' la ef hi] H. unfold text_ok in H. cbn [tx_at tx_layer tx_effects] in H. gather. exists (n, (v, (at', (la, (hi, ef))))). split; [reflexivity|]. oky.
Qed.
Lemma i_model : img ser_model yes model.
Proof.
  apply (i_form "model"). eapply p_map; [imgs| |].
  - intros (n & a & s & r) H. exists (mk_model n a s r). split; reflexivity.
  - intros [n a s r] H. exists (n, (a, (s, r))). split; reflexivity.
Qed.
Lemma i_poly : img ser_poly (fun p => layer_ok (po_layer p)) poly.
Proof.
  apply (i_form "fp_poly"). eapply p_map; [imgs| |].
  - intros (p & l & w) H. cbn [fst snd] in H. gather. exists (mk_poly p w l). split; [reflexivity|]. assumption.
  - intros [p w l] H. cbn [po_layer] in H. exists (p, (l, w)). split; [reflexivity|]. oky.
Qed.
Lemma i_line : img ser_line fpline_ok line.
Proof.
  apply (i_form "fp_line"). eapply p_map; [imgs| |].
  - intros (s & e & l & w) H. cbn [fst snd] in H. gather. exists (mk_line s e l w). split; [reflexivity|]. unfold fpline_ok. cbn [li_start li_end li_layer]. oky.
  - intros [s e l w] H. unfold fpline_ok in H. cbn [li_start li_end li_layer] in H. gather. exists (s, (e, (l, w))). split; [reflexivity|]. oky.
Qed.
Lemma i_circle : img ser_circle circle_ok circle.
Proof.
  apply (i_form "fp_circle"). eapply p_map; [imgs| |].
  - intros (s & e & l & w) H. cbn [fst snd] in H. gather. exists (mk_circle s e l w). split; [reflexivity|]. unfold circle_ok. cbn [ci_center ci_end ci_layer]. oky.
  - intros [s e l w] H. unfold circle_ok in H. cbn [ci_center ci_end ci_layer] in H. gather. exists (s, (e, (l, w))). split; [reflexivity|]. oky.
Qed.
Lemma i_arc : img ser_arc arc_ok arc.
Proof.
  apply (i_form "fp_arc"). eapply p_map; [imgs| |].
  - intros (s & e & a & l & w) H. cbn [fst snd] in H. gather. exists (mk_arc s e a l w). split; [reflexivity|]. unfold arc_ok. cbn [ar_start ar_end ar_layer]. oky.
  - intros [s e a l w] H. unfold arc_ok in H. cbn [ar_start ar_end ar_layer] in H. gather. exists (s, (e, (a, (l, w)))). split; [reflexivity|]. oky.
Qed.
#[export] Hint Resolve i_pad i_fp_text i_model i_poly i_line i_circle i_arc : img.
(** One kind among several *)
Lemma either_iff l s : either l s <-> Exists (fun p : shape => p s) l.
Proof. unfold either. rewrite Exists_exists. reflexivity. Qed.
Lemma i_locked : img (fun _ : unit => a_lit "locked") yes (words ["locked"]).
Proof. apply i_words; [intros _; now left|]. intros k [<-|[]]. now exists tt. Qed.
#[export] Hint Resolve i_locked : img.
Lemma img_in {A} (f : A -> sexp) ok p s : img f ok p -> p s -> exists a, s = f a /\ ok a = true.
Proof. intros I. apply I. Qed.
Lemma img_out {A} (f : A -> sexp) ok p a : img f ok p -> ok a = true -> p (f a).
Proof. intros I H. apply I. now exists a. Qed.
Ltac kind c := let a := fresh "a" in let H := fresh "H" in intros H; eapply img_in in H; [|imgs]; destruct H as (a & -> & H); exists (c a); split; [reflexivity|exact H].
Ltac nthp n := match n with O => apply Exists_cons_hd | S ?m => apply Exists_cons_tl; nthp m end.
Ltac out := refine (img_out _ _ _ _ _ _); [imgs|first [assumption|reflexivity]].
Lemma i_element : img ser_element element_ok element.
Proof.
  intros s. unfold element. rewrite either_iff. split.
  - rewrite !Exists_cons, Exists_nil. intros H. repeat (destruct H as [H|H]; [revert H|]); [| | | | | | | | | | | | | | | | | |contradiction].
    + kind (fun _ : unit => ELocked).
    + kind ESolderMaskMargin.
    + kind EClearance.
    + kind ELayer.
    + kind EDescr.
    + kind ETags.
    + kind EAttr.
    + kind EPath.
    + kind ETEdit.
    + kind ETStamp.
    + kind EAt.
    + kind EFpText.
    + kind EPad.
    + kind EModel.
    + kind EFpPoly.
    + kind EFpLine.
    + kind EFpCircle.
    + kind EFpArc.
  - intros (e & -> & H). destruct e as [f|l|t|t|t|t|p|p|l|c|a|z|z|t|a|m|f|]; cbn [element_ok ser_element] in *.
    + nthp 1%nat. exact (img_out _ _ _ f (i_has _ _ _ _ i_num) eq_refl).
    + nthp 3%nat. exact (img_out _ _ _ l i_on_layer H).
    + nthp 4%nat. exact (img_out _ _ _ t (i_has _ _ _ _ i_text) eq_refl).
    + nthp 5%nat. exact (img_out _ _ _ t (i_has _ _ _ _ i_text) eq_refl).
    + nthp 6%nat. exact (img_out _ _ _ t (i_has _ _ _ _ i_text) eq_refl).
    + nthp 11%nat. exact (img_out _ _ _ t i_fp_text H).
    + nthp 12%nat. exact (img_out _ _ _ p i_pad H).
    + nthp 14%nat. exact (img_out _ _ _ p i_poly H).
    + nthp 15%nat. exact (img_out _ _ _ l i_line H).
    + nthp 16%nat. exact (img_out _ _ _ c i_circle H).
    + nthp 17%nat. exact (img_out _ _ _ a i_arc H).
    + nthp 8%nat. exact (img_out _ _ _ z (i_has _ _ _ _ i_stamp) H).
    + nthp 9%nat. exact (img_out _ _ _ z (i_has _ _ _ _ i_stamp) H).
    + nthp 7%nat. exact (img_out _ _ _ t (i_has _ _ _ _ i_text) eq_refl).
    + nthp 10%nat. exact (img_out _ _ _ a i_at H).
    + nthp 13%nat. exact (img_out _ _ _ m i_model eq_refl).
    + nthp 2%nat. exact (img_out _ _ _ f (i_has _ _ _ _ i_num) eq_refl).
    + nthp 0%nat. exact (img_out _ _ _ tt i_locked eq_refl).
Qed.
#[export] Hint Resolve i_element : img.
Lemma i_footprint : img ser_module module_ok footprint.
Proof.
  apply (i_form "module"). eapply p_map; [imgs| |].
  - intros (n & l) H. cbn [fst snd] in H. gather. exists (mk_module n l). split; [reflexivity|assumption].
  - intros [n l] H. exists (n, l). split; [reflexivity|]. oky.
Qed.
#[export] Hint Resolve i_footprint : img.
