(** Exactly which trees stop the readers of footprints and boards (C76). *)
From Coq Require Import String.
From Verif Require Import Base Str StrFacts Sexp FpData FpDe LyData LyDe NoPanic SxTotal GramSpec MeanSpec MeanFacts WideSpec WideSound WideMean WideBoard.
Open Scope string_scope. Open Scope list_scope.

Lemma element_crash s : de_element s = Panic <-> s = SEmpty.
Proof.
  split; [|intros ->; reflexivity]. intros H. destruct s as [w|q|]; [| |reflexivity]; exfalso; revert H; cbn [de_element].
  - destruct (str_eqb w (lit "locked")); discriminate.
  - change (de_element (SList q) <> Panic). cbn [de_element]. apply bind_np; [apply np_list_name|]. intros n.
    repeat match goal with |- (if ?b then _ else _) <> _ => destruct b; [apply np_rmap; first [apply np_float_element|apply np_string_element|apply np_stamp_element|apply np_layer|apply np_text|apply np_pad
      |apply np_poly|apply np_line|apply np_circle|apply np_arc|apply np_at|apply np_model]|] end.
    discriminate.
Qed.
Lemma mapM_panic {A} (f : sexp -> res A) l : mapM f l = Panic <-> exists a x r, l = a ++ x :: r /\ f x = Panic /\ forall y, In y a -> exists v, f y = Ok v.
Proof.
  induction l as [|x l IH].
  - split; [discriminate|]. intros (a & x & r & E & _). destruct a; discriminate E.
  - cbn [mapM]. split.
    + destruct (f x) as [v|e|] eqn:E; cbn [bind]; try discriminate.
      * intros H. destruct (mapM f l) as [w| |] eqn:M; try discriminate H. destruct (proj1 IH eq_refl) as (a & y & r & -> & Y & K). exists (x :: a), y, r. split; [reflexivity|].
        split; [exact Y|]. intros z [<-|Z]; [now exists v|now apply K].
      * intros _. exists [], x, l. split; [reflexivity|]. split; [exact E|]. intros y [].
    + intros (a & y & r & E & Y & K). destruct a as [|z a].
      * injection E as -> ->. now rewrite Y.
      * injection E as -> ->. destruct (K z (or_introl eq_refl)) as [v ->]. cbn [bind]. rewrite (proj2 IH); [reflexivity|]. exists a, y, r. split; [reflexivity|]. split; [exact Y|].
        intros w W. apply K. now right.
Qed.
Lemma foldM_panic {A} (f : A -> sexp -> res A) l : forall s, foldM f s l = Panic <-> exists a x r t, l = a ++ x :: r /\ foldM f s a = Ok t /\ f t x = Panic.
Proof.
  induction l as [|x l IH]; intros s.
  - split; [discriminate|]. intros (a & x & r & t & E & _). destruct a; discriminate E.
  - cbn [foldM]. split.
    + destruct (f s x) as [v|e|] eqn:E; cbn [bind]; try discriminate.
      * intros H. apply IH in H as (a & y & r & t & -> & T & Y). exists (x :: a), y, r, t. split; [reflexivity|]. split; [|exact Y]. cbn [foldM]. now rewrite E.
      * intros _. exists [], x, l, s. split; [reflexivity|]. split; [reflexivity|exact E].
    + intros (a & y & r & t & E & T & Y). destruct a as [|z a].
      * injection E as -> ->. injection T as ->. now rewrite Y.
      * injection E as -> ->. cbn [foldM] in T. destruct (f s z) as [v| |]; try discriminate T. cbn [bind] in T |- *. apply IH. now exists a, y, r, t.
Qed.
Lemma element_ok s : one_of w_elements s <-> exists v, de_element s = Ok v.
Proof.
  split; [|intros [v H]; now apply sn_element in H]. intros (g & I & F). exists (w_element_of s). now apply (wm_element g I).
Qed.
Lemma module_panic s : de_module s = Panic <-> module_crash s.
Proof.
  unfold de_module, iter_new. split.
  - destruct s as [|l|]; try discriminate. cbn [sx_list bind]. destruct l as [|[k| |] l]; try discriminate. destruct (str_eqb_spec k (lit "module")) as [->|]; [|discriminate].
    unfold pbind, p_s, p_t. destruct l as [|[n| |] l]; try discriminate. cbn [sx_string bind]. unfold p_vec. intros H.
    assert (M : mapM de_element l = Panic) by (destruct (mapM de_element l); [discriminate H|discriminate H|reflexivity]).
    apply mapM_panic in M as (a & x & r & -> & X & K). apply element_crash in X. subst x. exists n, a, r. split; [reflexivity|]. apply Forall_forall. intros y Y. now apply element_ok, K.
  - intros (n & a & r & -> & K). cbn [sx_list bind]. rewrite str_eqb_refl. unfold pbind, p_s, p_t. cbn [sx_string bind]. unfold p_vec.
    assert (M : mapM de_element (a ++ SEmpty :: r) = Panic).
    { apply mapM_panic. exists a, SEmpty, r. split; [reflexivity|]. split; [reflexivity|]. intros y Y. apply element_ok. rewrite Forall_forall in K. now apply K. }
    now rewrite M.
Qed.
Lemma step_panic b s : layout_step b s = Panic <-> module_crash s.
Proof.
  rewrite <- module_panic. destruct b as [v h g p su la es]. split.
  - unfold layout_step. destruct (sx_list_name s) as [n| |] eqn:N; try discriminate.
    2: { destruct (np_list_name s N). }
    cbn [bind]. intros H.
    repeat match goal with H : context [str_eqb n (lit ?j)] |- _ => destruct (str_eqb n (lit j)) eqn:?;
      [first [match type of H with push_wrap _ _ (de_module _) = _ => unfold push_wrap in H; destruct (de_module s); [discriminate H|discriminate H|reflexivity] end
        |exfalso; revert H; unfold push_wrap; apply bind_np; [first [apply np_version|apply np_host|apply np_general|apply np_page|apply np_ly_layers|apply np_net|apply np_net_class|apply np_gr_text
          |apply np_gr_line|apply np_gr_arc|apply np_gr_circle|apply np_dimension|apply np_zone|apply np_segment|apply np_via|apply np_setup]|intros ?; discriminate]]|] end.
    discriminate H.
  - intros H. destruct (proj1 (module_panic s) H) as (n & a & r & -> & _).
    unfold layout_step. cbn [sx_list_name sx_list bind sx_string]. change (push_wrap (mk_layout v h g p su la es) YModule (de_module (SList (SStr (lit "module") :: SStr n :: a ++ SEmpty :: r))) = Panic).
    unfold push_wrap. now rewrite H.
Qed.
Lemma layout_panic s : de_layout s = Panic <-> board_crash s.
Proof.
  unfold de_layout, iter_new. split.
  - destruct s as [|l|]; try discriminate. cbn [sx_list bind]. destruct l as [|[k| |] l]; try discriminate. destruct (str_eqb_spec k (lit "kicad_pcb")) as [->|]; [|discriminate]. intros H.
    assert (M : foldM layout_step layout_default l = Panic) by (destruct (foldM layout_step layout_default l); [discriminate H|discriminate H|reflexivity]).
    apply foldM_panic in M as (a & x & r & t & -> & T & X). apply step_panic in X. exists a, x, r. split; [reflexivity|]. split; [|exact X].
    exact (foldM_inv layout_step w_board_elements sn_board_element a _ _ T).
  - intros (a & m & r & -> & F & C). cbn [sx_list bind]. rewrite str_eqb_refl.
    assert (M : foldM layout_step layout_default (a ++ m :: r) = Panic).
    { apply foldM_panic. exists a, m, r, (fold_left w_board_upd a layout_default). split; [reflexivity|]. split; [|now apply step_panic].
      apply (foldM_means layout_step w_board_upd w_board_elements); [|now apply all_rep]. intros g I b s H. now apply w_step with g. }
    now rewrite M.
Qed.
Lemma module_refused s : (exists e, de_module s = Err e) <-> ~ follows w_module s /\ ~ module_crash s.
Proof.
  split.
  - intros [e E]. split; [intros F|intros C; apply module_panic in C; rewrite C in E; discriminate E].
    rewrite (wm_module s F) in E. discriminate E.
  - intros [F C]. destruct (de_module s) as [m|e|] eqn:E; [|now exists e|].
    + destruct F. now apply (sn_module s m).
    + destruct C. now apply module_panic.
Qed.
Lemma layout_refused s : (exists e, de_layout s = Err e) <-> ~ follows w_board s /\ ~ board_crash s.
Proof.
  split.
  - intros [e E]. split; [intros F|intros C; apply layout_panic in C; rewrite C in E; discriminate E].
    rewrite (wm_layout s F) in E. discriminate E.
  - intros [F C]. destruct (de_layout s) as [m|e|] eqn:E; [|now exists e|].
    + destruct F. now apply (sn_layout s m).
    + destruct C. now apply layout_panic.
Qed.
