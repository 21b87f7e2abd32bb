(** The S-expression readers never crash on a tree read from text. *)
From Coq Require Import String.
From Verif Require Import Base Str Num F64 F64Text Sexp FpData FpLayer FpDe LyData LyDe FpLibTable NoPanic Formatter DocText LyFacts SxSpec.
Open Scope string_scope. Open Scope list_scope.

Lemma np_ret {A} (a : A) : np (pret a). Proof. intros l; discriminate. Qed.
Lemma np_in_list {A} n (f : sexp -> res A) : (forall x, f x <> Panic) -> np (p_in_list n f).
Proof. intros H. apply np_t. intros x. apply bind_np; [apply np_slice1|apply H]. Qed.
Lemma np_maybe_in {A} n (f : sexp -> res A) : (forall x, f x <> Panic) -> np (p_maybe_in n f).
Proof. intros H. apply np_maybe. intros x. apply bind_np; [apply np_slice1|apply H]. Qed.
Lemma np_lit n x : from_literal n x <> Panic.
Proof. unfold from_literal. apply bind_np; [apply np_string|]. intros a. now destruct (str_eqb _ _). Qed.
Lemma np_rmap {A B} (f : A -> B) r : r <> Panic -> rmap f r <> Panic.
Proof. intros H. unfold rmap. destruct r; cbn; congruence. Qed.
Lemma np_sx_list x : sx_list x <> Panic. Proof. destruct x; discriminate. Qed.
Lemma np_foldM {A B} (f : A -> B -> res A) l : (forall a x, In x l -> f a x <> Panic) -> forall a, foldM f a l <> Panic.
Proof.
  induction l as [|x l IH]; intros H a; cbn [foldM]; [discriminate|].
  apply bind_np; [apply H; now left|]. intros a'. apply IH. intros; apply H; now right.
Qed.
Lemma mapM_np_in {A B} (f : A -> res B) l : (forall x, In x l -> f x <> Panic) -> mapM f l <> Panic.
Proof.
  induction l as [|x l IH]; intros H; cbn [mapM]; [discriminate|].
  apply bind_np; [apply H; now left|]. intros y. apply bind_np; [|discriminate].
  apply IH. intros; apply H; now right.
Qed.

Ltac sx :=
  intros; cbv beta zeta;
  match goal with
  | |- iter_new _ _ _ <> Panic => apply np_iter; sx
  | |- iter_nameless _ _ <> Panic => apply np_nameless; sx
  | |- np (pbind _ _) => apply np_bind; [sx|intros; sx]
  | |- np (pret _) => apply np_ret
  | |- np (p_close _) => apply np_close
  | |- np (plift _) => apply np_lift; sx
  | |- np p_s => apply np_t, np_string
  | |- np p_f => apply np_t, np_f
  | |- np p_i => apply np_t, np_i
  | |- np p_maybe_s => apply np_maybe, np_string
  | |- np p_maybe_f => apply np_maybe, np_f
  | |- np p_tstamp => apply np_maybe_in, np_string
  | |- np (p_maybe_lit _) => apply np_maybe, np_lit
  | |- np (p_s_in _) => apply np_in_list, np_string
  | |- np (p_f_in _) => apply np_in_list, np_f
  | |- np (p_i_in _) => apply np_in_list, np_i
  | |- np (p_in_list _ _) => apply np_in_list; sx
  | |- np (p_maybe_in _ _) => apply np_maybe_in; sx
  | |- np (p_maybe _) => apply np_maybe; sx
  | |- np (p_t _) => apply np_t; sx
  | |- np (p_vec _) => apply np_vec; sx
  | |- bind _ _ <> Panic => apply bind_np; [sx|intros; sx]
  | |- rmap _ _ <> Panic => apply np_rmap; sx
  | |- sx_string _ <> Panic => apply np_string
  | |- sx_f _ <> Panic => apply np_f
  | |- sx_i _ <> Panic => apply np_i
  | |- sx_list _ <> Panic => apply np_sx_list
  | |- sx_list_name _ <> Panic => apply np_list_name
  | |- sx_slice1 _ _ <> Panic => apply np_slice1
  | |- of_option _ _ <> Panic => apply np_of_option
  | |- layer_from_str _ <> Panic => apply np_of_option
  | |- (if ?b then _ else _) <> Panic => destruct b; sx
  | |- Ok _ <> Panic => discriminate
  | |- Err _ <> Panic => discriminate
  | |- np (let '(_, _) := ?x in _) => destruct x; sx
  | |- _ => auto with sx
  end.
Create HintDb sx.
#[export] Hint Resolve np_xy np_pts : sx.

Lemma np_offset x : de_offset x <> Panic. Proof. unfold de_offset; sx. Qed.
Lemma np_at x : de_at x <> Panic. Proof. unfold de_at; sx. Qed.
Lemma np_layer x : de_layer x <> Panic. Proof. unfold de_layer; sx. Qed.
Lemma np_justify x : de_justify x <> Panic. Proof. unfold de_justify; sx. Qed.
Lemma np_font x : de_font x <> Panic. Proof. unfold de_font; sx. Qed.
#[export] Hint Resolve np_offset np_at np_layer np_justify np_font : sx.
Lemma np_effects x : de_effects x <> Panic. Proof. unfold de_effects; sx. Qed.
Lemma np_layers x : de_layers x <> Panic. Proof. unfold de_layers; sx. Qed.
Lemma np_second {A} (f : sexp -> res A) x : (forall y, f y <> Panic) -> second f x <> Panic.
Proof. intros H. unfold second. apply bind_np; [apply np_sx_list|]. intros [|? [|? ?]]; try discriminate. apply H. Qed.
Lemma np_xyz x : de_xyz x <> Panic. Proof. unfold de_xyz; sx. Qed.
Lemma np_fnet x : de_fnet x <> Panic. Proof. unfold de_fnet; sx. Qed.
Lemma np_drill x : de_drill x <> Panic. Proof. unfold de_drill; sx. Qed.
#[export] Hint Resolve np_effects np_layers np_xyz np_fnet np_drill : sx.
Lemma np_part x : de_part x <> Panic.
Proof. unfold de_part; sx; apply np_second; sx. Qed.
#[export] Hint Resolve np_part : sx.
Lemma np_text x : de_text x <> Panic. Proof. unfold de_text; sx. Qed.
Lemma np_pad_type s : pad_type_of_str s <> Panic. Proof. unfold pad_type_of_str; sx. Qed.
Lemma np_pad_shape s : pad_shape_of_str s <> Panic. Proof. unfold pad_shape_of_str; sx. Qed.
Lemma np_pad_parts l : forall p, pad_parts p l <> Panic.
Proof.
  induction l as [|x l IH]; intros p; cbn [pad_parts]; [discriminate|].
  apply bind_np; [|apply IH]. destruct p, x; discriminate.
Qed.
#[export] Hint Resolve np_pad_type np_pad_shape np_pad_parts : sx.
Lemma np_pad x : de_pad x <> Panic. Proof. unfold de_pad; sx. Qed.
Lemma np_poly x : de_poly x <> Panic. Proof. unfold de_poly; sx. Qed.
Lemma np_line x : de_line x <> Panic. Proof. unfold de_line; sx. Qed.
Lemma np_circle x : de_circle x <> Panic. Proof. unfold de_circle; sx. Qed.
Lemma np_arc x : de_arc x <> Panic. Proof. unfold de_arc; sx. Qed.
Lemma np_model x : de_model x <> Panic. Proof. unfold de_model; sx. Qed.
Lemma np_string_element x : de_string_element x <> Panic. Proof. unfold de_string_element, first_after; sx. Qed.
Lemma np_float_element x : de_float_element x <> Panic. Proof. unfold de_float_element, first_after; sx. Qed.
Lemma np_stamp_element x : de_stamp_element x <> Panic. Proof. unfold de_stamp_element, first_after; sx. Qed.
#[export] Hint Resolve np_text np_pad np_poly np_line np_circle np_arc np_model np_string_element np_float_element np_stamp_element : sx.
Lemma np_element x : no_empty x -> de_element x <> Panic.
Proof. intros []; cbn [de_element]; sx. Qed.
Lemma ne_args w l x : no_empty (SList (w :: l)) -> In x l -> no_empty x.
Proof. inversion 1; subst. intros I. apply H1. now right. Qed.
Lemma np_module x : no_empty x -> de_module x <> Panic.
Proof.
  intros H. unfold de_module, iter_new. destruct x as [|[|[w| |] l]|]; cbn; try discriminate.
  destruct (str_eqb _ _); [|discriminate]. destruct l as [|n l]; cbn; [discriminate|].
  unfold pbind, p_vec, pret, p_s, p_t. apply bind_np; [|discriminate].
  destruct n; cbn; try discriminate. 
  apply bind_np; [|intros []; discriminate]. apply bind_np; [|discriminate].
  apply mapM_np_in. intros x I. apply np_element. eapply ne_args; [exact H|]. now right.
Qed.

Lemma np_version x : de_version x <> Panic. Proof. unfold de_version; sx. Qed.
Lemma np_page x : de_page x <> Panic. Proof. unfold de_page; sx. Qed.
Lemma np_net x : de_net x <> Panic. Proof. unfold de_net; sx. Qed.
Lemma np_host x : de_host x <> Panic. Proof. unfold de_host; sx. Qed.
Lemma np_area x : de_area x <> Panic. Proof. unfold de_area; sx. Qed.
#[export] Hint Resolve np_version np_page np_net np_host np_area np_pts_in : sx.
Lemma np_general x : de_general x <> Panic. Proof. unfold de_general; sx. Qed.
Lemma np_ly_type x : de_ly_type x <> Panic. Proof. unfold de_ly_type; sx. Qed.
#[export] Hint Resolve np_general np_ly_type : sx.
Lemma np_ly_layer x : de_ly_layer x <> Panic. Proof. unfold de_ly_layer; sx. Qed.
#[export] Hint Resolve np_ly_layer : sx.
Lemma np_ly_layers x : de_ly_layers x <> Panic. Proof. unfold de_ly_layers; sx. Qed.
Lemma np_setup_element x : de_setup_element x <> Panic. Proof. unfold de_setup_element; sx. Qed.
Lemma np_nc_float n x : de_nc_float n x <> Panic. Proof. unfold de_nc_float; sx. Qed.
#[export] Hint Resolve np_ly_layers np_setup_element np_nc_float : sx.
Lemma np_nc_step n x : nc_step n x <> Panic.
Proof. destruct n. unfold nc_step. sx. Qed.
Lemma np_loop {A} (f : A -> sexp -> res A) a : (forall a x, f a x <> Panic) -> np (fun l => do n <- foldM f a l; Ok (n, [])).
Proof. intros H l. apply bind_np; [apply np_foldM; auto|discriminate]. Qed.
Lemma np_net_class x : de_net_class x <> Panic.
Proof. unfold de_net_class. apply np_iter. do 2 (apply np_bind; [sx|intros ?]). apply np_loop, np_nc_step. Qed.
Lemma np_setup_step u x : setup_step u x <> Panic.
Proof. unfold setup_step; sx. Qed.
Lemma np_setup x : de_setup x <> Panic.
Proof. apply np_iter, np_loop, np_setup_step. Qed.
Lemma np_gr_text x : de_gr_text x <> Panic. Proof. unfold de_gr_text; sx. Qed.
Lemma np_gr_line x : de_gr_line x <> Panic. Proof. unfold de_gr_line; sx. Qed.
Lemma np_gr_arc x : de_gr_arc x <> Panic. Proof. unfold de_gr_arc; sx. Qed.
Lemma np_gr_circle x : de_gr_circle x <> Panic. Proof. unfold de_gr_circle; sx. Qed.
#[export] Hint Resolve np_net_class np_setup np_gr_text np_gr_line np_gr_arc np_gr_circle : sx.
Lemma np_dimension x : de_dimension x <> Panic. Proof. unfold de_dimension; sx. Qed.
Lemma np_hatch x : de_hatch x <> Panic. Proof. unfold de_hatch; sx. Qed.
Lemma np_connect x : de_connect x <> Panic. Proof. unfold de_connect; sx. Qed.
Lemma np_keepout x : de_keepout x <> Panic. Proof. unfold de_keepout; sx. Qed.
Lemma np_fill x : de_fill x <> Panic. Proof. unfold de_fill; sx. Qed.
#[export] Hint Resolve np_dimension np_hatch np_connect np_keepout np_fill : sx.
Lemma np_zone_step z x : zone_step z x <> Panic.
Proof.
  destruct z. unfold zone_step.
  pose proof (np_pts_in "polygon" x). destruct (de_pts_in "polygon" x); [discriminate| |congruence].
  pose proof (np_pts_in "filled_polygon" x). destruct (de_pts_in "filled_polygon" x); [discriminate| |congruence].
  pose proof (np_pts_in "fill_segments" x). destruct (de_pts_in "fill_segments" x); [discriminate|discriminate|congruence].
Qed.
Lemma np_zone x : de_zone x <> Panic.
Proof.
  unfold de_zone. apply np_iter. do 10 (apply np_bind; [sx|intros ?]).
  intros l. apply bind_np; [|discriminate]. apply np_foldM. intros; apply np_zone_step.
Qed.
Lemma np_segment x : de_segment x <> Panic. Proof. unfold de_segment; sx. Qed.
Lemma np_via x : de_via x <> Panic. Proof. unfold de_via; sx. Qed.
#[export] Hint Resolve np_zone np_segment np_via np_module : sx.
Lemma np_layout_step l x : no_empty x -> layout_step l x <> Panic.
Proof. intros H. destruct l. unfold layout_step, push_wrap. sx. Qed.
Lemma np_layout x : no_empty x -> de_layout x <> Panic.
Proof.
  intros H. unfold de_layout, iter_new. destruct x as [|[|[w| |] l]|]; cbn; try discriminate.
  destruct (str_eqb _ _); [|discriminate]. apply bind_np; [|intros []; discriminate]. apply bind_np; [|discriminate].
  apply np_foldM. intros a x I. apply np_layout_step. eapply ne_args; eauto.
Qed.
Lemma np_flib x : de_flib x <> Panic. Proof. unfold de_flib; sx. Qed.
Lemma np_table x : de_fp_lib_table x <> Panic. Proof. apply np_iter, np_vec, np_flib. Qed.

Lemma build_no_empty ts : forall stk v r, (forall l x, In l stk -> In x l -> no_empty x) ->
  build stk ts = Some (v, r) -> no_empty v.
Proof.
  induction ts as [|[| |w] ts IH]; intros stk v r H; cbn [build]; [discriminate| | |].
  - apply IH. intros l x [<-|I] J; [destruct J|eauto].
  - destruct stk as [|l [|l2 k]]; [discriminate| |].
    + intros E. assert (V : SList (rev l) = v) by congruence. subst v. constructor. intros x I. apply in_rev in I. apply (H l); [now left|assumption].
    + apply IH. intros m x [<-|I] J.
      * destruct J as [<-|J]; [|apply (H l2); [right; now left|assumption]].
        constructor. intros y K. apply in_rev in K. apply (H l); [now left|assumption].
      * apply (H m); [right; now right|assumption].
  - destruct stk as [|l k].
    + intros E. assert (V : SStr w = v) by congruence. subst v. constructor.
    + apply IH. intros m x [<-|I] J; [destruct J as [<-|J]; [constructor|]|].
      * apply (H l); [now left|assumption].
      * apply (H m); [now right|assumption].
Qed.
Lemma read_no_empty s t : read_sexp s = Ok t -> no_empty t.
Proof.
  unfold read_sexp. destruct (lex LNone s) as [ts|]; [|discriminate].
  destruct (build [] ts) as [[v [|? ?]]|] eqn:E; try discriminate. intros H.
  assert (V : v = t) by congruence. subst v. eapply build_no_empty; [|exact E]. intros ? ? [].
Qed.
Lemma np_read s : read_sexp s <> Panic.
Proof. unfold read_sexp. destruct (lex LNone s) as [ts|]; [|discriminate]. now destruct (build [] ts) as [[v [|? ?]]|]. Qed.
Lemma parse_module_np s : parse_module s <> Panic.
Proof.
  unfold parse_module. pose proof (np_read s). pose proof (read_no_empty s).
  destruct (read_sexp s) as [t|e|]; cbn [bind]; [apply np_module; auto|discriminate|congruence].
Qed.
Lemma parse_layout_np s : parse_layout s <> Panic.
Proof.
  unfold parse_layout. pose proof (np_read s). pose proof (read_no_empty s).
  destruct (read_sexp s) as [t|e|]; cbn [bind]; [apply np_layout; auto|discriminate|congruence].
Qed.
Lemma parse_table_np s : parse_table s <> Panic.
Proof. unfold parse_table. apply bind_np; [apply np_read|apply np_table]. Qed.
