(** Boards and library tables: the wide grammar and its meaning (C76). *)
From Coq Require Import String Lia.
From Verif Require Import Base Str StrFacts Num F64 F64Text Sexp FpData FpLayer FpDe LyData LyDe FpLibTable GramSpec GramRead MeanSpec MeanFacts MeanBoard WideSpec WideSound WideMean.
Open Scope string_scope. Open Scope list_scope.

Lemma wm_version : means de_version (fld "version" (int V)) (value integer). Proof. go. Qed.
Lemma wm_page : means de_page (fld "page" text) (value txt). Proof. go. Qed.
Lemma wm_net : means de_net (g_net V) board_net_of. Proof. go. Qed.
Lemma wm_host : means de_host g_host host_of. Proof. go. Qed.
Lemma wm_area : means de_area (g_area V) area_of. Proof. go. Qed.
Ltac known ::= first [apply wm_point; eassumption | apply wm_at; eassumption | apply wm_xyz; eassumption | apply wm_layer; eassumption | apply wm_layers; eassumption | apply wm_pts; eassumption
  | apply wm_justify; eassumption | apply wm_fnet; eassumption | apply wm_effects; eassumption | apply wm_offset; eassumption | apply wm_drill; eassumption | apply wm_area; eassumption].
Lemma wm_general : means de_general (g_general V) general_of. Proof. go. Qed.
Lemma wm_board_layer : means de_ly_layer (Bare [One (int V); One (layer_name V); One g_kind; Opt text]) board_layer_of.
Proof.
  intros s H. destruct (bare_inv _ _ H) as (l & -> & F); clear H. apply eq_bare with [].
  destruct (one_inv _ _ _ F) as (n & r & -> & N & F1). clear F. destruct (one_inv _ _ _ F1) as (y & q & -> & Y & F2). clear F1. destruct (one_inv _ _ _ F2) as (k & z & -> & K & F3). clear F2.
  destruct (word_inv _ _ Y) as (t & -> & T).
  etransitivity; [apply eq_t; apply wm_int; exact N|cbv beta]. etransitivity; [apply eq_word; apply wm_layer_text; exact T|cbv beta].
  etransitivity; [apply eq_t; apply mn_kind; exact K|cbv beta]. parts.
  - estep. reflexivity.
  - estep. reflexivity.
Qed.
Lemma wm_stack : means de_ly_layers w_stack (fun s => map board_layer_of (kids s)).
Proof.
  intros s H. destruct (form_inv _ _ _ H) as (l & -> & F); clear H. apply eq_form with []. eapply means_vec; [|exact F].
  constructor; [apply wm_board_layer|constructor].
Qed.
Lemma wm_setup : means de_setup (g_setup V) setup_of.
Proof. exact mn_setup. Qed.
Lemma w_ncf k v : follows (fld k (num V)) v -> de_nc_float (lit k) v = Ok (value number v).
Proof. revert v. go. Qed.
Lemma w_class_step g : In g [fld "clearance" (num V); fld "trace_width" (num V); fld "via_dia" (num V); fld "via_drill" (num V); fld "uvia_dia" (num V); fld "uvia_drill" (num V);
  fld "diff_pair_gap" (num V); fld "diff_pair_width" (num V); fld "add_net" text] -> forall n s, follows g s -> nc_step n s = Ok (class_upd n s).
Proof.
  cbn [In]. intros I n s H. repeat destruct I as [<-|I]; try contradiction.
  1-8: pose proof (w_ncf _ _ H) as V; destruct (form_inv _ _ _ H) as (l & -> & _); destruct n as [nm de cl tw vd vr ud ur gap wid nets];
    unfold nc_step; cbn [sx_list_name sx_list bind sx_string]; keys; rewrite V; cbn [bind]; unfold class_upd;
    cbn [nc_name nc_desc nc_clearance nc_trace_width nc_via_dia nc_via_drill nc_uvia_dia nc_uvia_drill nc_dp_gap nc_dp_width LyData.nc_nets];
    unfold up; rewrite <- (app_nil_r nets) at 1; reflexivity.
  destruct (fld_inv _ _ _ H) as (v & -> & F). destruct (word_inv _ _ F) as (t & -> & _). destruct n as [nm de cl tw vd vr ud ur gap wid nets]. reflexivity.
Qed.
Lemma wm_net_class : means de_net_class (g_net_class V) class_of.
Proof.
  intros s H. destruct (form_inv _ _ _ H) as (l & -> & F); clear H. apply eq_form with [].
  destruct (one_inv _ _ _ F) as (n & r & -> & N & F1). clear F. destruct (one_inv _ _ _ F1) as (d & q & -> & D & F2). clear F1.
  destruct (word_inv _ _ N) as (tn & -> & _). destruct (word_inv _ _ D) as (td & -> & _).
  etransitivity; [apply eq_t; reflexivity|cbv beta]. etransitivity; [apply eq_t; reflexivity|cbv beta].
  rewrite (foldM_means nc_step class_upd _ q) with (2 := F2); [|exact w_class_step].
  cbn [bind]. rewrite class_fold. reflexivity.
Qed.
Lemma wm_gr_text : means de_gr_text w_gr_text w_gr_text_of. Proof. go. Qed.
Lemma wm_gr_line : means de_gr_line w_gr_line w_gr_line_of. Proof. go. Qed.
Lemma wm_gr_arc : means de_gr_arc w_gr_arc w_gr_arc_of. Proof. go. Qed.
Lemma wm_gr_circle : means de_gr_circle w_gr_circle w_gr_circle_of. Proof. go. Qed.
Lemma wm_segment : means de_segment w_segment w_segment_of. Proof. go. Qed.
Lemma wm_via : means de_via (g_via V) via_of. Proof. go. Qed.
Lemma wm_hatch : means de_hatch (g_hatch V) hatch_of. Proof. go. Qed.
Lemma wm_connect : means de_connect (g_connect V) connect_of. Proof. go. Qed.
Lemma not_three t : not_not t = match t with 110%N :: 111%N :: 116%N :: _ => false | _ => true end.
Proof.
  unfold not_not. change (lit "not") with [110; 111; 116]%N. destruct t as [|a t]; [reflexivity|]. cbn [starts_with].
  destruct (N.eqb_spec 110 a) as [<-|A].
  2: { cbn [andb negb]. destruct a as [|a]; [reflexivity|]. repeat (destruct a as [a|a|]; try reflexivity). exfalso. now apply A. }
  destruct t as [|b t]; [reflexivity|]. cbn [starts_with]. destruct (N.eqb_spec 111 b) as [<-|B].
  2: { cbn [andb negb]. destruct b as [|b]; [reflexivity|]. repeat (destruct b as [b|b|]; try reflexivity). exfalso. now apply B. }
  destruct t as [|c t]; [reflexivity|]. cbn [starts_with]. destruct (N.eqb_spec 116 c) as [<-|C].
  2: { cbn [andb negb]. destruct c as [|c]; [reflexivity|]. repeat (destruct c as [c|c|]; try reflexivity). exfalso. now apply C. }
  reflexivity.
Qed.
Lemma wm_keepout : means de_keepout w_keepout w_keepout_of.
Proof.
  intros s H. destruct (form_inv _ _ _ H) as (l & -> & F); clear H. apply eq_form with []. parts. repeat estep.
  unf. names. rewrite !not_three. reflexivity.
Qed.
Lemma wm_fill : means de_fill w_fill fill_of. Proof. go. Qed.
Ltac known ::= first [apply wm_at; eassumption | apply wm_layer; eassumption | apply wm_layers; eassumption | apply wm_pts; eassumption
  | apply wm_effects; eassumption | apply wm_gr_text; eassumption
  | apply wm_hatch; eassumption | apply wm_connect; eassumption | apply wm_keepout; eassumption | apply wm_fill; eassumption].
Lemma wm_dimension : means de_dimension w_dimension w_dimension_of.
Proof.
  intros s H. destruct (form_inv _ _ _ H) as (l & -> & F); clear H. apply eq_form with []. parts; repeat estep; cbv beta delta [w_gr_text] in *; fin.
Qed.
Lemma wm_zone : means de_zone w_zone w_zone_of.
Proof.
  intros s H. destruct (form_inv _ _ _ H) as (l & -> & F); clear H. apply eq_form with []. parts; repeat estep.
  all: match goal with |- context [foldM zone_step ?a ?r] => rewrite (foldM_all zone_step zone_upd r zone_step_upd a) end; cbn [bind]; rewrite zone_fold.
  all: cbv beta delta [g_hatch g_connect w_keepout w_fill g_layer g_stamp] in *; names; reflexivity.
Qed.

(** ** Boards *)
Definition w_board_upd (b : layout) (x : sexp) : layout :=
  mk_layout (up x "version" (value integer) (ly_version b)) (up x "host" host_of (ly_host b)) (up x "general" general_of (ly_general b))
    (up x "page" (value txt) (ly_page b)) (up x "setup" setup_of (ly_setup b)) (up x "layers" (fun x => map board_layer_of (kids x)) (ly_layers b))
    (ly_elements b ++ (if is_head x then [] else [w_board_element_of x])).
Lemma w_board_fold l : forall b, fold_left w_board_upd l b =
  mk_layout (last_field "version" (value integer) (ly_version b) l) (last_field "host" host_of (ly_host b) l) (last_field "general" general_of (ly_general b) l)
    (last_field "page" (value txt) (ly_page b) l) (last_field "setup" setup_of (ly_setup b) l)
    (last_field "layers" (fun x => map board_layer_of (kids x)) (ly_layers b) l) (ly_elements b ++ map w_board_element_of (filter (fun x => negb (is_head x)) l)).
Proof.
  induction l as [|x l IH]; intros b; cbn [fold_left].
  - cbn [filter map]. rewrite app_nil_r. now destruct b.
  - rewrite IH. unfold w_board_upd. cbn [ly_version ly_host ly_general ly_page ly_setup ly_layers ly_elements]. rewrite <- app_assoc.
    unfold last_field, up. cbn [fold_left filter]. destruct (is_head x); reflexivity.
Qed.
Lemma w_push_upd {A} k b s (c : A -> ly_element) (f : sexp -> res A) v a : means f (Form k b) v -> follows (Form k b) s ->
  (forall l, layout_step a (SList (SStr (lit k) :: l)) = push_wrap a c (f (SList (SStr (lit k) :: l)))) -> forallb (fun h => negb (str_eqb (lit k) (lit h))) heads = true ->
  (forall l, w_board_element_of (SList (SStr (lit k) :: l)) = c (v (SList (SStr (lit k) :: l)))) -> layout_step a s = Ok (w_board_upd a s).
Proof.
  intros F H E N V. pose proof (F s H) as K. destruct (form_inv _ _ _ H) as (l & -> & _). rewrite E. unfold push_wrap. rewrite K. cbn [bind].
  unfold w_board_upd. cbn [forallb heads] in N. repeat (apply andb_prop in N as [? N]).
  repeat match goal with H : negb _ = true |- _ => apply Bool.negb_true_iff in H end.
  unfold up, is_head. cbn [called existsb heads]. repeat match goal with H : str_eqb _ _ = false |- _ => rewrite !H; clear H end. cbn [orb].
  rewrite V. destruct a. reflexivity.
Qed.
Ltac wpu lm := eapply w_push_upd; [apply lm|eassumption|intros; match goal with a : layout |- _ => destruct a end; reflexivity|reflexivity|intros; reflexivity].
Lemma w_eq_known a g : In g w_known -> forall s, follows g s -> layout_step a s = Ok (w_board_upd a s).
Proof.
  unfold w_known. cbn [In]. intros I s H. repeat destruct I as [<-|I]; try contradiction.
  - wpu wm_module.
  - wpu wm_net.
  - wpu wm_net_class.
  - wpu wm_gr_text.
  - wpu wm_dimension.
  - wpu wm_zone.
  - wpu wm_gr_line.
  - wpu wm_gr_arc.
  - wpu wm_gr_circle.
  - wpu wm_segment.
  - wpu wm_via.
Qed.
Lemma w_eq_other a g : In g (others V) -> forall s, follows g s -> layout_step a s = Ok (w_board_upd a s).
Proof.
  intros [<-|[]] s H. inversion H as [|? ? n l N F| |]; subst. destruct a.
  assert (D : forall k, In k board_names -> str_eqb n (lit k) = false).
  { intros k I. destruct (str_eqb_spec n (lit k)); [|reflexivity]. destruct N. now exists k. }
  unfold layout_step. cbn [sx_list_name sx_list bind sx_string]. rewrite !D by (cbn [In board_names]; tauto).
  unfold w_board_upd, up, is_head, w_board_element_of, board_element_of. cbn [called existsb heads name_of choose]. rewrite !D by (cbn [In board_names]; tauto). reflexivity.
Qed.
Lemma w_head_upd {A} k b s (c : A -> layout) (f : sexp -> res A) v a : means f (Form k b) v -> follows (Form k b) s ->
  (forall l, layout_step a (SList (SStr (lit k) :: l)) = (do x <- f (SList (SStr (lit k) :: l)); Ok (c x))) ->
  (forall l, w_board_upd a (SList (SStr (lit k) :: l)) = c (v (SList (SStr (lit k) :: l)))) -> layout_step a s = Ok (w_board_upd a s).
Proof.
  intros F H E V. pose proof (F s H) as K. destruct (form_inv _ _ _ H) as (l & -> & _). rewrite E, K, V. reflexivity.
Qed.
Lemma w_hd_eq v h g p su la es x : w_board_upd (mk_layout v h g p su la es) x =
  mk_layout (up x "version" (value integer) v) (up x "host" host_of h) (up x "general" general_of g)
    (up x "page" (value txt) p) (up x "setup" setup_of su) (up x "layers" (fun x => map board_layer_of (kids x)) la)
    (es ++ (if is_head x then [] else [w_board_element_of x])).
Proof. reflexivity. Qed.
Ltac whd lm cc := eapply w_head_upd with (c := cc); [apply lm|eassumption|intros; reflexivity|intros; rewrite w_hd_eq; unfold up; cbn [called is_head existsb heads]; keys; cbn [orb]; rewrite app_nil_r; reflexivity].
Lemma w_eq_head a g : In g w_heads -> forall s, follows g s -> layout_step a s = Ok (w_board_upd a s).
Proof.
  destruct a as [v h g0 p su la es]. cbn [In w_heads]. intros I s H. repeat destruct I as [<-|I]; try contradiction.
  - whd wm_version (fun x => mk_layout x h g0 p su la es).
  - whd wm_host (fun x => mk_layout v x g0 p su la es).
  - whd wm_general (fun x => mk_layout v h x p su la es).
  - whd wm_page (fun x => mk_layout v h g0 x su la es).
  - whd wm_stack (fun x => mk_layout v h g0 p su x es).
  - whd wm_setup (fun x => mk_layout v h g0 p x la es).
Qed.
Lemma w_step a g : In g w_board_elements -> forall s, follows g s -> layout_step a s = Ok (w_board_upd a s).
Proof.
  unfold w_board_elements. intros C. apply in_app_or in C as [C|C]; [now apply w_eq_head|]. apply in_app_or in C as [C|C]; [now apply w_eq_known|now apply w_eq_other].
Qed.
Lemma wm_layout : means de_layout w_board w_layout_of.
Proof.
  intros s H. destruct (form_inv _ _ _ H) as (l & -> & F); clear H. apply eq_form with [].
  rewrite (foldM_means layout_step w_board_upd _ l) with (2 := F).
  - cbn [bind]. rewrite w_board_fold. reflexivity.
  - intros g I a s H. now apply w_step with g.
Qed.

(** ** Library tables *)
Lemma wm_lib : means de_flib w_lib lib_of.
Proof.
  intros s H. destruct (form_inv _ _ _ H) as (l & -> & F); clear H. parts. match goal with G : follow_all [ignored] ?r |- _ => apply eq_form with r end. repeat estep. fin.
Qed.
Lemma wm_table : means de_fp_lib_table w_table table_of.
Proof.
  intros s H. destruct (form_inv _ _ _ H) as (l & -> & F); clear H. apply eq_form with []. apply means_vec with (gs := [w_lib]); [|exact F].
  constructor; [apply wm_lib|constructor].
Qed.

(** ** Exactness *)
Lemma exact {A} (f : sexp -> res A) g v : sound f g -> means f g v -> forall s a, f s = Ok a <-> follows g s /\ a = v s.
Proof.
  intros S M s a. split; [|intros [F ->]; now apply M]. intros H. pose proof (S s a H) as F. split; [exact F|]. rewrite (M s F) in H. now injection H.
Qed.
Lemma exact_module s m : de_module s = Ok m <-> follows w_module s /\ m = w_module_of s.
Proof. exact (exact _ _ _ sn_module wm_module s m). Qed.
Lemma exact_layout s l : de_layout s = Ok l <-> follows w_board s /\ l = w_layout_of s.
Proof. exact (exact _ _ _ sn_layout wm_layout s l). Qed.
Lemma exact_table s t : de_fp_lib_table s = Ok t <-> follows w_table s /\ t = table_of s.
Proof. exact (exact _ _ _ sn_table wm_table s t). Qed.
