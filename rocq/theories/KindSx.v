(** Which error the S-expression readers report (lemmas for C83). *)
From Coq Require Import String.
From Verif Require Import Base Str Num F64 F64Text Sexp FpData FpLayer FpDe LyData LyDe FpLibTable Formatter DocText.
Open Scope string_scope. Open Scope list_scope.

Definition se {A} (r : res A) : Prop := forall e, r = Err e -> e = ESexp.
Definition pe {A} (p : P A) : Prop := forall l, se (p l).
Lemma se_ok {A} (a : A) : se (Ok a). Proof. intros e; discriminate. Qed.
Lemma se_err {A} : se (@Err A ESexp). Proof. intros e E. congruence. Qed.
Lemma se_panic {A} : se (@Panic A). Proof. intros e; discriminate. Qed.
Lemma se_bind {A B} (r : res A) (f : A -> res B) : se r -> (forall a, se (f a)) -> se (bind r f).
Proof. intros H K. destruct r as [a|e|]; cbn; [apply K| |apply se_panic]. rewrite (H e eq_refl). apply se_err. Qed.
Lemma se_mapM {A B} (f : A -> res B) l : (forall x, se (f x)) -> se (mapM f l).
Proof.
  intros H; induction l as [|x l IH]; cbn [mapM]; [apply se_ok|].
  apply se_bind; [apply H|]. intros y. apply se_bind; [exact IH|]. intros; apply se_ok.
Qed.
Lemma se_foldM {A B} (f : A -> B -> res A) l : (forall a x, se (f a x)) -> forall a, se (foldM f a l).
Proof. intros H. induction l as [|x l IH]; intros a; cbn [foldM]; [apply se_ok|]. apply se_bind; [apply H|exact IH]. Qed.
Lemma pe_bind {A B} (p : P A) (f : A -> P B) : pe p -> (forall a, pe (f a)) -> pe (pbind p f).
Proof.
  intros Hp Hf l. unfold pbind. specialize (Hp l). destruct (p l) as [[a r]|e|]; [apply Hf| |apply se_panic].
  rewrite (Hp e eq_refl). apply se_err.
Qed.
Lemma pe_t {A} (f : sexp -> res A) : (forall x, se (f x)) -> pe (p_t f).
Proof. intros H l. destruct l as [|x l]; cbn; [apply se_err|]. apply se_bind; [apply H|intros; apply se_ok]. Qed.
Lemma pe_maybe {A} (f : sexp -> res A) : pe (p_maybe f).
Proof. intros l. destruct l as [|x l]; cbn; [apply se_ok|]. destruct (f x); [apply se_ok|apply se_ok|apply se_panic]. Qed.
Lemma pe_close {A} (a : A) : pe (p_close a).
Proof. intros [|]; [apply se_ok|apply se_err]. Qed.
Lemma pe_lift {A} (r : res A) : se r -> pe (plift r).
Proof. intros H l. unfold plift. apply se_bind; [exact H|intros; apply se_ok]. Qed.
Lemma pe_vec {A} (f : sexp -> res A) : (forall x, se (f x)) -> pe (p_vec f).
Proof. intros H l. unfold p_vec. apply se_bind; [now apply se_mapM|intros; apply se_ok]. Qed.
Lemma pe_ret {A} (a : A) : pe (pret a). Proof. intros l; apply se_ok. Qed.
Lemma se_list x : se (sx_list x). Proof. destruct x; [apply se_err|apply se_ok|apply se_err]. Qed.
Lemma se_string x : se (sx_string x). Proof. destruct x; [apply se_ok|apply se_err|apply se_err]. Qed.
Lemma se_option {A} (o : option A) : se (of_option ESexp o). Proof. destruct o; [apply se_ok|apply se_err]. Qed.
Lemma se_f x : se (sx_f x). Proof. unfold sx_f. apply se_bind; [apply se_string|intros; apply se_option]. Qed.
Lemma se_i x : se (sx_i x). Proof. unfold sx_i. apply se_bind; [apply se_string|intros; apply se_option]. Qed.
Lemma se_name x : se (sx_list_name x).
Proof. unfold sx_list_name. apply se_bind; [apply se_list|]. intros [|y k]; [apply se_err|apply se_string]. Qed.
Lemma se_slice n x : se (sx_slice1 n x).
Proof.
  unfold sx_slice1. apply se_bind; [apply se_list|]. intros [|[w| |] [|v [|? ?]]]; try apply se_err.
  destruct (str_eqb w n); [apply se_ok|apply se_err].
Qed.
Lemma se_iter {A} s n (p : P A) : pe p -> se (iter_new s n p).
Proof.
  intros H. unfold iter_new. apply se_bind; [apply se_list|]. intros [|[w| |] k]; try apply se_err.
  destruct (str_eqb w n); [|apply se_err]. apply se_bind; [apply H|intros; apply se_ok].
Qed.
Lemma se_nameless {A} s (p : P A) : pe p -> se (iter_nameless s p).
Proof. intros H. unfold iter_nameless. apply se_bind; [apply se_list|]. intros l. apply se_bind; [apply H|intros; apply se_ok]. Qed.
Lemma pe_in_list {A} n (f : sexp -> res A) : (forall x, se (f x)) -> pe (p_in_list n f).
Proof. intros H. apply pe_t. intros x. apply se_bind; [apply se_slice|apply H]. Qed.
Lemma se_rmap {A B} (f : A -> B) r : se r -> se (rmap f r).
Proof. intros H. unfold rmap. apply se_bind; [exact H|intros; apply se_ok]. Qed.
Lemma pe_loop {A} (f : A -> sexp -> res A) a : (forall a x, se (f a x)) -> pe (fun l => do n <- foldM f a l; Ok (n, [])).
Proof. intros H l. apply se_bind; [now apply se_foldM|intros; apply se_ok]. Qed.

Create HintDb se.
Ltac sxe :=
  intros; cbv beta zeta;
  match goal with
  | |- se (iter_new _ _ _) => apply se_iter; sxe
  | |- se (iter_nameless _ _) => apply se_nameless; sxe
  | |- pe (pbind _ _) => apply pe_bind; [sxe|intros; sxe]
  | |- pe (pret _) => apply pe_ret
  | |- pe (p_close _) => apply pe_close
  | |- pe (plift _) => apply pe_lift; sxe
  | |- pe p_s => apply pe_t, se_string
  | |- pe p_f => apply pe_t, se_f
  | |- pe p_i => apply pe_t, se_i
  | |- pe p_maybe_s => apply pe_maybe
  | |- pe p_maybe_f => apply pe_maybe
  | |- pe p_tstamp => apply pe_maybe
  | |- pe (p_maybe_lit _) => apply pe_maybe
  | |- pe (p_s_in _) => apply pe_in_list, se_string
  | |- pe (p_f_in _) => apply pe_in_list, se_f
  | |- pe (p_i_in _) => apply pe_in_list, se_i
  | |- pe (p_in_list _ _) => apply pe_in_list; sxe
  | |- pe (p_maybe_in _ _) => apply pe_maybe
  | |- pe (p_maybe _) => apply pe_maybe
  | |- pe (p_t _) => apply pe_t; sxe
  | |- pe (p_vec _) => apply pe_vec; sxe
  | |- se (bind _ _) => apply se_bind; [sxe|intros; sxe]
  | |- se (rmap _ _) => apply se_rmap; sxe
  | |- se (sx_string _) => apply se_string
  | |- se (sx_f _) => apply se_f
  | |- se (sx_i _) => apply se_i
  | |- se (sx_list _) => apply se_list
  | |- se (sx_list_name _) => apply se_name
  | |- se (sx_slice1 _ _) => apply se_slice
  | |- se (of_option _ _) => apply se_option
  | |- se (layer_from_str _) => apply se_option
  | |- se (if ?b then _ else _) => destruct b; sxe
  | |- se (Ok _) => apply se_ok
  | |- se (Err ESexp) => apply se_err
  | |- se Panic => apply se_panic
  | |- pe (let '(_, _) := ?x in _) => destruct x; sxe
  | |- _ => auto with se
  end.
Lemma e_xy x : se (de_xy x).
Proof. unfold de_xy, xy_type_of_str; sxe. Qed.
Lemma e_pts x : se (de_pts x). Proof. unfold de_pts. apply se_iter, pe_vec, e_xy. Qed.
#[export] Hint Resolve e_xy e_pts : se.
Lemma e_offset x : se (de_offset x). Proof. unfold de_offset; sxe. Qed.
Lemma e_at x : se (de_at x). Proof. unfold de_at; sxe. Qed.
Lemma e_layer x : se (de_layer x). Proof. unfold de_layer; sxe. Qed.
Lemma e_justify x : se (de_justify x). Proof. unfold de_justify; sxe. Qed.
Lemma e_font x : se (de_font x). Proof. unfold de_font; sxe. Qed.
#[export] Hint Resolve e_offset e_at e_layer e_justify e_font : se.
Lemma e_effects x : se (de_effects x). Proof. unfold de_effects; sxe. Qed.
Lemma e_layers x : se (de_layers x). Proof. unfold de_layers; sxe. Qed.
Lemma e_second {A} (f : sexp -> res A) x : (forall y, se (f y)) -> se (second f x).
Proof. intros H. unfold second. apply se_bind; [apply se_list|]. intros [|? [|? ?]]; try apply se_err. apply H. Qed.
Lemma e_xyz x : se (de_xyz x). Proof. unfold de_xyz; sxe. Qed.
Lemma e_fnet x : se (de_fnet x). Proof. unfold de_fnet; sxe. Qed.
Lemma e_drill x : se (de_drill x). Proof. unfold de_drill; sxe. Qed.
#[export] Hint Resolve e_effects e_layers e_xyz e_fnet e_drill : se.
Lemma e_part x : se (de_part x).
Proof. unfold de_part; sxe; apply e_second; sxe. Qed.
#[export] Hint Resolve e_part : se.
Lemma e_text x : se (de_text x). Proof. unfold de_text; sxe. Qed.
Lemma e_pad_type s : se (pad_type_of_str s). Proof. unfold pad_type_of_str; sxe. Qed.
Lemma e_pad_shape s : se (pad_shape_of_str s). Proof. unfold pad_shape_of_str; sxe. Qed.
Lemma e_pad_parts l : forall p, se (pad_parts p l).
Proof.
  induction l as [|x l IH]; intros p; cbn [pad_parts]; [apply se_ok|].
  apply se_bind; [|apply IH]. destruct p, x; cbn; first [apply se_ok|apply se_err].
Qed.
#[export] Hint Resolve e_pad_type e_pad_shape e_pad_parts : se.
Lemma e_pad x : se (de_pad x). Proof. unfold de_pad; sxe. Qed.
Lemma e_poly x : se (de_poly x). Proof. unfold de_poly; sxe. Qed.
Lemma e_line x : se (de_line x). Proof. unfold de_line; sxe. Qed.
Lemma e_circle x : se (de_circle x). Proof. unfold de_circle; sxe. Qed.
Lemma e_arc x : se (de_arc x). Proof. unfold de_arc; sxe. Qed.
Lemma e_model x : se (de_model x). Proof. unfold de_model; sxe. Qed.
Lemma e_string_element x : se (de_string_element x). Proof. unfold de_string_element, first_after; sxe. Qed.
Lemma e_float_element x : se (de_float_element x). Proof. unfold de_float_element, first_after; sxe. Qed.
Lemma e_stamp_element x : se (de_stamp_element x). Proof. unfold de_stamp_element, first_after; sxe. Qed.
#[export] Hint Resolve e_text e_pad e_poly e_line e_circle e_arc e_model e_string_element e_float_element e_stamp_element : se.
Lemma e_element x : se (de_element x).
Proof. destruct x as [w|l|]; cbn [de_element]; sxe. Qed.
Lemma e_module x : se (de_module x).
Proof. unfold de_module. apply se_iter. apply pe_bind; [sxe|intros n]. apply pe_bind; [apply pe_vec, e_element|intros; apply pe_ret]. Qed.
Lemma e_version x : se (de_version x). Proof. unfold de_version; sxe. Qed.
Lemma e_page x : se (de_page x). Proof. unfold de_page; sxe. Qed.
Lemma e_net x : se (de_net x). Proof. unfold de_net; sxe. Qed.
Lemma e_host x : se (de_host x). Proof. unfold de_host; sxe. Qed.
Lemma e_area x : se (de_area x). Proof. unfold de_area; sxe. Qed.
#[export] Hint Resolve e_version e_page e_net e_host e_area : se.
Lemma e_pts_in n x : se (de_pts_in n x). Proof. unfold de_pts_in. sxe. Qed.
#[export] Hint Resolve e_pts_in : se.
Lemma e_general x : se (de_general x). Proof. unfold de_general; sxe. Qed.
Lemma e_ly_type x : se (de_ly_type x). Proof. unfold de_ly_type; sxe. Qed.
#[export] Hint Resolve e_general e_ly_type : se.
Lemma e_ly_layer x : se (de_ly_layer x). Proof. unfold de_ly_layer; sxe. Qed.
#[export] Hint Resolve e_ly_layer : se.
Lemma e_ly_layers x : se (de_ly_layers x). Proof. unfold de_ly_layers; sxe. Qed.
Lemma e_setup_element x : se (de_setup_element x). Proof. unfold de_setup_element; sxe. Qed.
Lemma e_nc_float n x : se (de_nc_float n x). Proof. unfold de_nc_float; sxe. Qed.
#[export] Hint Resolve e_ly_layers e_setup_element e_nc_float : se.
Lemma e_nc_step n x : se (nc_step n x).
Proof. destruct n. unfold nc_step. sxe. Qed.
Lemma e_net_class x : se (de_net_class x).
Proof. unfold de_net_class. apply se_iter. do 2 (apply pe_bind; [sxe|intros ?]). apply pe_loop, e_nc_step. Qed.
Lemma e_setup_step u x : se (setup_step u x).
Proof. unfold setup_step; sxe. Qed.
Lemma e_setup x : se (de_setup x).
Proof. apply se_iter, pe_loop, e_setup_step. Qed.
Lemma e_gr_text x : se (de_gr_text x). Proof. unfold de_gr_text; sxe. Qed.
Lemma e_gr_line x : se (de_gr_line x). Proof. unfold de_gr_line; sxe. Qed.
Lemma e_gr_arc x : se (de_gr_arc x). Proof. unfold de_gr_arc; sxe. Qed.
Lemma e_gr_circle x : se (de_gr_circle x). Proof. unfold de_gr_circle; sxe. Qed.
#[export] Hint Resolve e_net_class e_setup e_gr_text e_gr_line e_gr_arc e_gr_circle : se.
Lemma e_dimension x : se (de_dimension x). Proof. unfold de_dimension; sxe. Qed.
Lemma e_hatch x : se (de_hatch x). Proof. unfold de_hatch; sxe. Qed.
Lemma e_connect x : se (de_connect x). Proof. unfold de_connect; sxe. Qed.
Lemma e_keepout x : se (de_keepout x). Proof. unfold de_keepout; sxe. Qed.
Lemma e_fill x : se (de_fill x). Proof. unfold de_fill; sxe. Qed.
#[export] Hint Resolve e_dimension e_hatch e_connect e_keepout e_fill : se.
Lemma e_zone_step z x : se (zone_step z x).
Proof.
  destruct z. unfold zone_step.
  destruct (de_pts_in "polygon" x); [apply se_ok| |apply se_panic].
  destruct (de_pts_in "filled_polygon" x); [apply se_ok| |apply se_panic].
  destruct (de_pts_in "fill_segments" x); [apply se_ok|apply se_ok|apply se_panic].
Qed.
Lemma e_zone x : se (de_zone x).
Proof.
  unfold de_zone. apply se_iter. do 10 (apply pe_bind; [sxe|intros ?]).
  intros l. apply se_bind; [|intros; apply se_ok]. apply se_foldM. intros; apply e_zone_step.
Qed.
Lemma e_segment x : se (de_segment x). Proof. unfold de_segment; sxe. Qed.
Lemma e_via x : se (de_via x). Proof. unfold de_via; sxe. Qed.
#[export] Hint Resolve e_zone e_segment e_via e_module : se.
Lemma e_layout_step l x : se (layout_step l x).
Proof. destruct l. unfold layout_step, push_wrap. sxe. Qed.
Lemma e_layout x : se (de_layout x).
Proof. unfold de_layout. apply se_iter. apply pe_loop, e_layout_step. Qed.
Lemma e_flib x : se (de_flib x). Proof. unfold de_flib; sxe. Qed.
Lemma e_table x : se (de_fp_lib_table x). Proof. apply se_iter, pe_vec, e_flib. Qed.
Lemma e_read s : se (read_sexp s).
Proof.
  unfold read_sexp. destruct (lex LNone s) as [ts|]; [|apply se_err].
  destruct (build [] ts) as [[v [|? ?]]|]; first [apply se_ok|apply se_err].
Qed.
Lemma e_parse_module s : se (parse_module s). Proof. unfold parse_module. apply se_bind; [apply e_read|apply e_module]. Qed.
Lemma e_parse_layout s : se (parse_layout s). Proof. unfold parse_layout. apply se_bind; [apply e_read|apply e_layout]. Qed.
Lemma e_parse_table s : se (parse_table s). Proof. unfold parse_table. apply se_bind; [apply e_read|apply e_table]. Qed.
