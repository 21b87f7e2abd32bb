(** What is said about boards, exactly (C106). *)
From Coq Require Import String.
From Verif Require Import Base Str StrFacts Num F64 F64Text Sexp NoPanic SxTotal FpData FpLayer FpDe LyData LyDe GramSpec GramRead MeanSpec MeanFacts WideSpec WideSound WideMean WideBoard WideCrash.
From Verif Require Import TreeErr TreeErrSpec TreeErrAgree TreeErrFacts TreeErrTells.
Open Scope string_scope. Open Scope list_scope.

Section Show.
Context (sh : sexp -> str) (dbg : f64 -> str).
Lemma kind_exact s m : t_ly_type sh s = TSays m <-> kind_says sh s m.
Proof.
  unfold t_ly_type, kind_says, word_says. rewrite tbind_says. split.
  - intros (w & E & H). destruct s as [v| |]; try discriminate E. injection E as ->. revert H. through w; try discriminate. intros H.
    exists w. split; [reflexivity|]. split; [unknown|now injection H].
  - intros (w & -> & N & ->). exists w. split; [reflexivity|]. through w; try (exfalso; known_in N). reflexivity.
Qed.
Lemma kind_tells : tells (t_ly_type sh) g_kind (kind_says sh).
Proof. exact (tells_of _ _ _ _ _ (ag_type sh) sn_kind mn_kind kind_exact). Qed.
Lemma row_exact s m : t_ly_layer sh s = TSays m <-> bare_says [Need (int V) nothing; Need (layer_name V) side_says; Need g_kind (kind_says sh)] s m.
Proof.
  apply say_nameless. apply (say_p _ _ integer); [apply sn_int|apply wm_int|intros ?]. apply say_word; [exact layer_fine|exact layer_bad|exact side_word|intros ?].
  apply say_t; [exact kind_tells|intros ?]. apply say_nil. apply silent_bind. intros ?. apply silent_of.
Qed.
Lemma sn_row : sound de_ly_layer w_row.
Proof.
  apply sn_bare. apply sn_t; [apply sn_int|intros ?]. apply sn_word; [apply sn_layer_name|intros ?].
  apply sn_t; [apply sn_kind|intros ?]. apply sn_maybe; [apply sn_text|intros ?]. apply sn_close.
Qed.
Lemma stack_exact s m : t_ly_layers sh s = TSays m <-> stack_says sh s m.
Proof.
  apply say_new. apply say_vec; [|exact row_exact]. apply one_takes. apply (tells_of _ de_ly_layer w_row board_layer_of _ (ag_row sh) sn_row wm_board_layer row_exact).
Qed.
(** Net classes *)
Lemma sn_field n s b : nc_step n s = Ok b -> one_of class_fields s.
Proof.
  intros H. destruct n as [nm de cl tw vd vr ud ur gap wid nets]. unfold nc_step in H. destruct (sx_list_name s) as [k| |] eqn:N; try discriminate H. cbn [bind] in H.
  apply name_inv in N as [l ->].
  destruct (str_eqb_spec k (lit "add_net")) as [->|].
  { destruct (do w <- sx_slice1 (lit "add_net") (SList (SStr (lit "add_net") :: l)); sx_string w) as [v| |] eqn:E; try discriminate H. apply (sn_slice "add_net" sx_string text sn_text) in E.
    eexists. split; [|exact E]. cbn [class_fields class_values map app In]. tauto. }
  repeat match goal with H : context [str_eqb k (lit ?j)] |- _ => destruct (str_eqb_spec k (lit j)) as [->|];
    [match type of H with (do x <- ?X; _) = _ => destruct X as [v| |] eqn:E; try discriminate H end; apply sn_ncf in E; eexists; (split; [|exact E]); cbn [class_fields class_values map app In]; tauto|] end.
  discriminate H.
Qed.
Lemma field_takes n : takes (nc_told n) (one_of class_fields).
Proof.
  intros s. etransitivity; [apply agree_fine, ag_field|]. split; [intros [b H]; now apply (sn_field n s b)|]. intros (g & I & F). exists (class_upd n s). now apply (w_class_step g I).
Qed.
Lemma field_exact n s m : nc_told n s = TSays m <-> name_says ("add_net" :: class_values) "unknown net_class field " s m.
Proof.
  unfold nc_told, name_says. rewrite tbind_says. split.
  - intros (k & K & H). apply list_name_iff in K as [l ->]. exists k, l. split; [reflexivity|]. match type of H with (if ?e then _ else _) = _ => destruct e eqn:E end; [destruct (lift_says _ _ H)|].
    split; [|now injection H]. apply not_known. intros j J ->. cbn [class_values] in J. assert (T : existsb (fun i => str_eqb (lit j) (lit i)) ("add_net" :: class_values) = true).
    { apply existsb_exists. exists j. split; [exact J|apply str_eqb_refl]. }
    unfold class_values in T. rewrite T in E. discriminate E.
  - intros (k & l & -> & N & ->). exists k. split; [reflexivity|]. match goal with |- (if ?e then _ else _) = _ => destruct e eqn:E end; [|reflexivity]. exfalso. apply N.
    apply existsb_exists in E as (j & J & Q). apply str_eqb_eq in Q. exists j. split; [exact J|exact Q].
Qed.
Lemma class_exact s m : t_net_class s = TSays m <-> class_says s m.
Proof.
  apply say_new. do 2 (apply (say_p _ _ txt); [apply sn_text|apply mn_text|intros ?]). apply say_fold; [exact field_takes|exact field_exact].
Qed.
(** Drawings *)
Ltac at_point := apply say_t; [exact point_tells|intros ?].
Ltac at_layer := apply say_t; [exact layer_tells|intros ?].
Ltac at_num k := apply (say_p _ _ (value number)); [apply sn_slice, sn_num|apply mn_slice, wm_num|intros ?].
Ltac at_text := apply (say_p _ _ txt); [apply sn_text|apply mn_text|intros ?].
Ltac quiet := apply say_nil; repeat (apply silent_bind; intros ?); apply silent_of.
Lemma np_in {A} k (f : sexp -> res A) : (forall s, f s <> Panic) -> forall s, (do v <- sx_slice1 (lit k) s; f v) <> Panic.
Proof. intros F s. apply bind_np; [apply np_slice1|exact F]. Qed.
Lemma gr_text_exact s m : t_gr_text s = TSays m <-> gr_text_says s m.
Proof. apply say_new. at_text. apply (say_p _ _ at_of); [apply sn_at|apply wm_at|intros ?]. at_layer. quiet. Qed.
Lemma gr_text_tells : tells t_gr_text w_gr_text gr_text_says.
Proof. exact (tells_of _ _ _ _ _ ag_gr_text sn_gr_text wm_gr_text gr_text_exact). Qed.
Lemma gr_line_exact s m : t_gr_line s = TSays m <-> gr_line_says s m.
Proof.
  apply say_new. at_point. at_point. apply (say_maybe _ _ (value number)); [apply sn_slice, sn_num|apply mn_slice, wm_num|apply np_in, np_f|intros ?]. at_layer. quiet.
Qed.
Lemma gr_arc_exact s m : t_gr_arc s = TSays m <-> gr_arc_says s m.
Proof. apply say_new. at_point. at_point. at_num "angle". at_layer. quiet. Qed.
Lemma gr_circle_exact s m : t_gr_circle s = TSays m <-> gr_circle_says s m.
Proof. apply say_new. at_point. at_point. at_layer. quiet. Qed.
Lemma dimension_exact s m : t_dimension s = TSays m <-> dimension_says s m.
Proof.
  apply say_new. at_text. at_num "width". at_layer. apply (say_maybe _ _ (value txt)); [apply sn_slice, sn_text|apply mn_slice, mn_text|apply np_in, np_string|intros ?].
  apply say_t; [exact gr_text_tells|intros ?]. do 7 (apply say_t; [apply fld_tells, pts_tells|intros ?]). quiet.
Qed.
Lemma zone_exact s m : t_zone s = TSays m <-> zone_says s m.
Proof.
  apply say_new. apply (say_p _ _ (value integer)); [apply sn_slice, sn_int|apply mn_slice, wm_int|intros ?].
  apply (say_p _ _ (value txt)); [apply sn_slice, sn_text|apply mn_slice, mn_text|intros ?]. at_layer. quiet.
Qed.
Lemma segment_exact s m : t_segment s = TSays m <-> segment_says s m.
Proof. apply say_new. at_point. at_point. at_num "width". at_layer. quiet. Qed.
Lemma via_exact s m : t_via s = TSays m <-> via_says s m.
Proof.
  apply say_new. do 2 (apply (say_maybe _ _ txt); [apply sn_lit|apply mn_lit|apply np_lit|intros ?]). apply (say_p _ _ at_of); [apply sn_at|apply wm_at|intros ?].
  at_num "size". apply (say_maybe _ _ (value number)); [apply sn_slice, sn_num|apply mn_slice, wm_num|apply np_in, np_f|intros ?].
  apply say_t; [exact layers_tells|intros ?]. quiet.
Qed.
(** Boards *)
Lemma push_says {A} l (c : A -> ly_element) t m : push_told l c t = TSays m <-> t = TSays m.
Proof. unfold push_told. destruct t; cbn [tbind]; split; try discriminate; now intros [= <-]. Qed.
Lemma step_takes b : takes (layout_told sh dbg b) (one_of w_board_elements).
Proof.
  intros s. etransitivity; [apply agree_fine, ag_step|]. split; [intros [c H]; now apply (sn_board_element b s c)|]. intros (g & I & F). exists (w_board_upd b s). now apply (w_step b g I).
Qed.
Ltac chosen := cbn [In]; tauto.
Lemma step_exact b s m : layout_told sh dbg b s = TSays m <-> board_element_says sh dbg s m.
Proof.
  destruct b as [v h g p su la es]. unfold board_element_says. split.
  - unfold layout_told. intros H. apply tbind_says in H as (k & K & H). apply list_name_iff in K as [l ->].
    Ltac br k j := destruct (str_eqb_spec k (lit j)) as [->|?].
    br k "layers". { exists (stack_says sh). split; [chosen|]. apply stack_exact. destruct (t_ly_layers sh _); try discriminate H. now injection H as ->. }
    br k "module". { exists (module_says sh dbg). split; [chosen|]. apply module_exact. exact (proj1 (push_says _ _ _ _) H). }
    br k "net_class". { exists class_says. split; [chosen|]. apply class_exact. exact (proj1 (push_says _ _ _ _) H). }
    br k "gr_text". { exists gr_text_says. split; [chosen|]. apply gr_text_exact. exact (proj1 (push_says _ _ _ _) H). }
    br k "gr_line". { exists gr_line_says. split; [chosen|]. apply gr_line_exact. exact (proj1 (push_says _ _ _ _) H). }
    br k "gr_arc". { exists gr_arc_says. split; [chosen|]. apply gr_arc_exact. exact (proj1 (push_says _ _ _ _) H). }
    br k "gr_circle". { exists gr_circle_says. split; [chosen|]. apply gr_circle_exact. exact (proj1 (push_says _ _ _ _) H). }
    br k "dimension". { exists dimension_says. split; [chosen|]. apply dimension_exact. exact (proj1 (push_says _ _ _ _) H). }
    br k "zone". { exists zone_says. split; [chosen|]. apply zone_exact. exact (proj1 (push_says _ _ _ _) H). }
    br k "segment". { exists segment_says. split; [chosen|]. apply segment_exact. exact (proj1 (push_says _ _ _ _) H). }
    br k "via". { exists via_says. split; [chosen|]. apply via_exact. exact (proj1 (push_says _ _ _ _) H). }
    destruct (lift_says _ _ H).
  - intros (c & I & H). cbn [In] in I.
    destruct I as [<-|I]. { pose proof H as (l & -> & _). apply module_exact in H. change (push_told (mk_layout v h g p su la es) YModule (t_module sh dbg (SList (SStr (lit "module") :: l))) = TSays m). now apply push_says. }
    destruct I as [<-|I]. { pose proof H as (l & -> & _). apply stack_exact in H. change (tbind (t_ly_layers sh (SList (SStr (lit "layers") :: l))) (fun x => TFine (mk_layout v h g p su x es)) = TSays m). now rewrite H. }
    destruct I as [<-|I]. { pose proof H as (l & -> & _). apply class_exact in H. change (push_told (mk_layout v h g p su la es) YNetClass (t_net_class (SList (SStr (lit "net_class") :: l))) = TSays m). now apply push_says. }
    destruct I as [<-|I]. { pose proof H as (l & -> & _). apply gr_text_exact in H. change (push_told (mk_layout v h g p su la es) YGrText (t_gr_text (SList (SStr (lit "gr_text") :: l))) = TSays m). now apply push_says. }
    destruct I as [<-|I]. { pose proof H as (l & -> & _). apply gr_line_exact in H. change (push_told (mk_layout v h g p su la es) YGrLine (t_gr_line (SList (SStr (lit "gr_line") :: l))) = TSays m). now apply push_says. }
    destruct I as [<-|I]. { pose proof H as (l & -> & _). apply gr_arc_exact in H. change (push_told (mk_layout v h g p su la es) YGrArc (t_gr_arc (SList (SStr (lit "gr_arc") :: l))) = TSays m). now apply push_says. }
    destruct I as [<-|I]. { pose proof H as (l & -> & _). apply gr_circle_exact in H. change (push_told (mk_layout v h g p su la es) YGrCircle (t_gr_circle (SList (SStr (lit "gr_circle") :: l))) = TSays m). now apply push_says. }
    destruct I as [<-|I]. { pose proof H as (l & -> & _). apply dimension_exact in H. change (push_told (mk_layout v h g p su la es) YDimension (t_dimension (SList (SStr (lit "dimension") :: l))) = TSays m). now apply push_says. }
    destruct I as [<-|I]. { pose proof H as (l & -> & _). apply zone_exact in H. change (push_told (mk_layout v h g p su la es) YZone (t_zone (SList (SStr (lit "zone") :: l))) = TSays m). now apply push_says. }
    destruct I as [<-|I]. { pose proof H as (l & -> & _). apply segment_exact in H. change (push_told (mk_layout v h g p su la es) YSegment (t_segment (SList (SStr (lit "segment") :: l))) = TSays m). now apply push_says. }
    destruct I as [<-|[]]. pose proof H as (l & -> & _). apply via_exact in H. change (push_told (mk_layout v h g p su la es) YVia (t_via (SList (SStr (lit "via") :: l))) = TSays m). now apply push_says.
Qed.
Lemma layout_exact s m : t_layout sh dbg s = TSays m <-> board_says sh dbg s m.
Proof. apply say_new. apply say_fold; [exact step_takes|exact step_exact]. Qed.
End Show.
