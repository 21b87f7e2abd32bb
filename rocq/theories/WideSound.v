(** What the readers accept follows the wide grammar (C76). *)
From Coq Require Import String Lia.
From Flocq Require Import IEEE754.BinarySingleNaN.
From Verif Require Import Base Str StrFacts Num F64 F64Text Sexp SexpFacts DecSpec DecFacts FpData FpLayer FpDe LyData LyDe FpLibTable GramSpec GramRead MeanSpec MeanFacts WideSpec.
Open Scope string_scope. Open Scope list_scope.

Definition sound {A} (f : sexp -> res A) (g : gram) : Prop := forall s a, f s = Ok a -> follows g s.
Definition sounds {A} (p : P A) (b : list item) : Prop := forall l a r, p l = Ok (a, r) -> follow_all b l.

(** ** Combinators *)
Lemma sn_t {A B} (f : sexp -> res A) g (k : A -> P B) b : sound f g -> (forall v, sounds (k v) b) -> sounds (pbind (p_t f) k) (One g :: b).
Proof.
  intros F K l a r H. unfold pbind, p_t in H. destruct l as [|x l]; [discriminate H|]. destruct (f x) as [v| |] eqn:E; try discriminate H. cbn [bind] in H.
  apply fa_one; [now apply (F x v)|now apply (K v) in H].
Qed.
Lemma sn_maybe {A B} (f : sexp -> res A) g (k : option A -> P B) b : sound f g -> (forall v, sounds (k v) b) -> sounds (pbind (p_maybe f) k) (Opt g :: b).
Proof.
  intros F K l a r H. unfold pbind, p_maybe in H. destruct l as [|x l]; [apply fa_skip; now apply (K None) in H|]. destruct (f x) as [v|e|] eqn:E; try discriminate H.
  - apply fa_opt; [now apply (F x v)|now apply (K (Some v)) in H].
  - apply fa_skip. now apply (K None) in H.
Qed.
Lemma sn_close {A} (a : A) : sounds (p_close a) [].
Proof. intros l b r H. destruct l; [constructor|discriminate H]. Qed.
Lemma any_rest l : follow_all [Rep [Any]] l.
Proof. induction l as [|x l IH]; [apply fa_end; constructor|]. apply fa_rep with Any; [now left|constructor|exact IH]. Qed.
Lemma sn_ret {A} (a : A) : sounds (pret a) [ignored].
Proof. intros l b r _. apply any_rest. Qed.
Lemma sn_word {A B} (q : str -> Prop) (f : str -> res A) (k : A -> P B) b : (forall s a, f s = Ok a -> q s) -> (forall v, sounds (k v) b) ->
  sounds (let* n := p_s in let* x := plift (f n) in k x) (One (Word q) :: b).
Proof.
  intros F K l a r H. unfold pbind, p_s, p_t, plift in H. destruct l as [|[n| |] l]; try discriminate H. cbn [sx_string bind] in H.
  destruct (f n) as [v| |] eqn:E; try discriminate H. cbn [bind] in H. apply fa_one; [constructor; now apply (F n v)|now apply (K v) in H].
Qed.
Lemma sn_word_end {A} (q : str -> Prop) (f : str -> res A) : (forall s a, f s = Ok a -> q s) -> sounds (let* n := p_s in plift (f n)) [One (Word q); ignored].
Proof.
  intros F l a r H. unfold pbind, p_s, p_t, plift in H. destruct l as [|[n| |] l]; try discriminate H. cbn [sx_string bind] in H.
  destruct (f n) as [v| |] eqn:E; try discriminate H. apply fa_one; [constructor; now apply (F n v)|apply any_rest].
Qed.
Lemma all_rep gs l : Forall (one_of gs) l -> follow_all [Rep gs] l.
Proof. intros F. induction F as [|x l (g & I & G) F IH]; [apply fa_end; constructor|]. now apply fa_rep with g. Qed.
Lemma mapM_inv {A} (f : sexp -> res A) l : forall v, mapM f l = Ok v -> Forall2 (fun s a => f s = Ok a) l v.
Proof.
  induction l as [|x l IH]; intros v H; cbn [mapM] in H; [injection H as <-; constructor|].
  destruct (f x) as [a| |] eqn:E; try discriminate H. cbn [bind] in H. destruct (mapM f l) as [w| |]; try discriminate H. injection H as <-. constructor; [exact E|now apply IH].
Qed.
Lemma sn_vec {A} (f : sexp -> res A) gs : (forall s a, f s = Ok a -> one_of gs s) -> sounds (p_vec f) [Rep gs].
Proof.
  intros F l a r H. unfold p_vec in H. destruct (mapM f l) as [v| |] eqn:E; try discriminate H. apply mapM_inv in E. apply all_rep. clear H.
  induction E as [|x y l v X E IH]; constructor; [now apply (F x y)|exact IH].
Qed.
Lemma sn_vec_then {A B} (f : sexp -> res A) (k : list A -> P B) gs : (forall s a, f s = Ok a -> one_of gs s) -> sounds (pbind (p_vec f) k) [Rep gs].
Proof.
  intros F l a r H. unfold pbind in H. destruct (p_vec f l) as [[v q]| |] eqn:E; try discriminate H. now apply (sn_vec f gs F l v q).
Qed.
Lemma foldM_inv {A} (f : A -> sexp -> res A) gs : (forall a s b, f a s = Ok b -> one_of gs s) -> forall l a b, foldM f a l = Ok b -> Forall (one_of gs) l.
Proof.
  intros F. induction l as [|x l IH]; intros a b H; [constructor|]. cbn [foldM] in H. destruct (f a x) as [c| |] eqn:E; try discriminate H. cbn [bind] in H.
  constructor; [now apply (F a x c)|now apply (IH c b)].
Qed.
Lemma sn_fold {A B} (f : A -> sexp -> res A) (a : A) (h : A -> B) gs : (forall a s b, f a s = Ok b -> one_of gs s) -> sounds (fun l => do n <- foldM f a l; Ok (h n, [])) [Rep gs].
Proof. intros F l b r H. destruct (foldM f a l) as [n| |] eqn:E; try discriminate H. apply all_rep. now apply (foldM_inv f gs F l a n). Qed.
Lemma sn_form {A} k (p : P A) b : sounds p b -> sound (fun s => iter_new s (lit k) p) (Form k b).
Proof.
  intros R s a H. unfold iter_new in H. destruct s as [|l|]; try discriminate H. cbn [sx_list bind] in H. destruct l as [|[n| |] l]; try discriminate H.
  destruct (str_eqb_spec n (lit k)) as [->|]; [|discriminate H]. destruct (p l) as [[v r]| |] eqn:E; try discriminate H. constructor; [reflexivity|now apply (R l v r)].
Qed.
Lemma sn_bare {A} (p : P A) b : sounds p b -> sound (fun s => iter_nameless s p) (Bare b).
Proof.
  intros R s a H. unfold iter_nameless in H. destruct s as [|l|]; try discriminate H. cbn [sx_list bind] in H.
  destruct (p l) as [[v r]| |] eqn:E; try discriminate H. constructor. now apply (R l v r).
Qed.
Lemma sn_slice {A} k (f : sexp -> res A) g : sound f g -> sound (fun s => do v <- sx_slice1 (lit k) s; f v) (fld k g).
Proof.
  intros F s a H. unfold sx_slice1 in H. destruct s as [|l|]; try discriminate H. cbn [sx_list bind] in H. destruct l as [|[n| |] [|v [|w l]]]; try discriminate H.
  destruct (str_eqb_spec n (lit k)) as [->|]; [|discriminate H]. cbn [bind] in H. constructor; [reflexivity|]. apply fa_one; [now apply (F v a)|constructor].
Qed.
Lemma sn_text : sound sx_string text.
Proof. intros s a H. destruct s; try discriminate H. now constructor. Qed.
Lemma sn_lit k : sound (from_literal k) (word [k]).
Proof.
  intros s a H. destruct s as [t| |]; try discriminate H. unfold from_literal in H. cbn [sx_string bind] in H. destruct (str_eqb_spec t (lit k)) as [->|]; [|discriminate H].
  constructor. exists k. split; [now left|reflexivity].
Qed.
Lemma sn_num : sound sx_f (num V).
Proof.
  intros s a H. destruct s as [t| |]; try discriminate H. unfold sx_f in H. cbn [sx_string bind] in H. destruct (f64_of_str t) as [x|] eqn:E; [|discriminate H]. constructor.
  apply f64_accepts in E as [(neg & v & N & _)|(sg & neg & w & y & S & G & W & _)]; [left; now exists neg, v|right; now exists sg, neg, w, y].
Qed.
Lemma sn_int : sound sx_i (int V).
Proof.
  intros s a H. destruct s as [t| |]; try discriminate H. unfold sx_i in H. cbn [sx_string bind] in H. destruct (i64_of_str t) as [z|] eqn:E; [|discriminate H]. constructor.
  apply int_iff in E as (sg & neg & ds & E & S & D & N & Z & R). exists sg, neg, ds. do 4 (split; [assumption|]). unfold fits. destruct neg; lia.
Qed.

(** ** Layers *)
Lemma kind_iff s t : ltype_of_str s = t <-> kind_text s t.
Proof.
  split.
  - intros <-. unfold ltype_of_str.
    repeat match goal with |- context [str_eqb s (lit ?k)] => destruct (str_eqb_spec s (lit k)) as [->|]; [apply kt_known; cbn [In layer_kinds]; tauto|] end.
    apply kt_other. intros k t I. cbn [In layer_kinds] in I. repeat destruct I as [[= <- <-]|I]; try assumption. contradiction.
  - intros H. destruct H as [k t I|s H].
    + cbn [In layer_kinds] in I. repeat destruct I as [[= <- <-]|I]; try reflexivity. contradiction.
    + unfold ltype_of_str.
      repeat match goal with |- context [str_eqb s (lit ?k)] => destruct (str_eqb_spec s (lit k)) as [->|]; [exfalso; eapply H; [|reflexivity]; cbn [In layer_kinds]; tauto|] end.
      reflexivity.
Qed.
Lemma side_iff s d : side_of_str s = Some d <-> exists k, s = lit k /\ In (k, d) layer_sides.
Proof.
  split.
  - unfold side_of_str. intros H.
    repeat match goal with H : context [str_eqb s (lit ?k)] |- _ => destruct (str_eqb_spec s (lit k)) as [->|];
      [injection H as <-; exists k; split; [reflexivity|cbn [In layer_sides]; tauto]|] end.
    discriminate H.
  - intros (k & -> & I). cbn [In layer_sides] in I. repeat destruct I as [[= <- <-]|I]; try reflexivity. contradiction.
Qed.
Lemma split_dots s : exists a r, split_on is_dot s = a :: r /\ no_dots a /\
  match r with [] => s = a | [b] => s = a ++ 46%N :: b /\ no_dots b | _ => exists b c, s = a ++ 46%N :: b ++ 46%N :: c end.
Proof.
  induction s as [|c s (a & r & E & D & IH)].
  - exists [], []. split; [reflexivity|]. split; [intros []|reflexivity].
  - cbn [split_on]. rewrite E. unfold is_dot at 1. destruct (N.eqb_spec c 46) as [->|N].
    + exists [], (a :: r). split; [reflexivity|]. split; [intros []|]. destruct r as [|b [|d r]].
      * subst s. now split.
      * destruct IH as [-> _]. exists a, b. reflexivity.
      * destruct IH as (b' & c' & ->). exists a, (b' ++ 46%N :: c'). reflexivity.
    + exists (c :: a), r. split; [reflexivity|]. split; [intros [H|H]; [now apply N|now apply D]|]. destruct r as [|b [|d r]].
      * now subst s.
      * destruct IH as [-> B]. now split.
      * destruct IH as (b' & c' & ->). now exists b', c'.
Qed.
Lemma split_plain s : no_dots s -> split_on is_dot s = [s].
Proof. intros H. apply split_on_none. apply forallb_forall. intros c Hc. unfold is_dot. destruct (N.eqb_spec c 46); [subst; contradiction|reflexivity]. Qed.
Lemma split_dot a b : no_dots a -> split_on is_dot (a ++ 46%N :: b) = a :: split_on is_dot b.
Proof.
  induction a as [|c a IH]; intros H.
  - cbn [app split_on]. destruct (split_dots b) as (x & r & -> & _). reflexivity.
  - cbn [app split_on]. rewrite IH by (intros I; apply H; now right). unfold is_dot at 1. destruct (N.eqb_spec c 46) as [->|]; [destruct H; now left|reflexivity].
Qed.
Lemma layer_iff s l : layer_of_str s = Some l <-> layer_text s l.
Proof.
  split.
  - unfold layer_of_str. destruct (split_dots s) as (a & r & -> & D & H). destruct r as [|b [|c r]].
    + intros [= <-]. subst s. apply lt_kind; [exact D|now apply kind_iff].
    + destruct H as [-> B]. destruct (side_of_str a) as [d|] eqn:E; [|discriminate]. intros [= <-]. apply side_iff in E as (k & -> & I). apply lt_side; [exact I|exact B|now apply kind_iff].
    + intros [= <-]. destruct H as (x & y & ->). apply lt_more; [exact D|now apply kind_iff].
  - unfold layer_of_str. intros H. destruct H as [s t D K|k d b t I B K|a b c t D K]; apply kind_iff in K; subst t.
    + now rewrite split_plain.
    + assert (D : no_dots (lit k)). { cbn [In layer_sides] in I. unfold no_dots. repeat destruct I as [[= <- <-]|I]; try contradiction; cbn; intuition discriminate. }
      rewrite split_dot, split_plain by assumption. assert (S : side_of_str (lit k) = Some d) by (apply side_iff; now exists k). now rewrite S.
    + rewrite split_dot by assumption. destruct (split_dots (b ++ 46%N :: c)) as (x & r & E & D' & H). destruct r as [|y r]; [|now rewrite E].
      exfalso. subst x. apply D'. apply in_or_app. right. now left.
Qed.
Lemma sn_layer_name s l : layer_from_str s = Ok l -> exists l, layer_text s l.
Proof. unfold layer_from_str. destruct (layer_of_str s) eqn:E; [|discriminate]. intros _. exists l0. now apply layer_iff. Qed.

(** ** Footprints *)
Ltac known := fail.
Ltac leaf := first [apply sn_num | apply sn_int | apply sn_text | apply sn_lit | known | apply sn_slice; leaf].
Ltac sstep := first [apply sn_close | apply sn_ret | apply sn_t; [leaf|intros ?] | apply sn_maybe; [leaf|intros ?]].
Ltac sgo := apply sn_form; repeat sstep.
Lemma sn_offset : sound de_offset (Form "offset" [One (num V); One (num V)]). Proof. sgo. Qed.
Lemma sn_at : sound de_at (g_at V). Proof. sgo. Qed.
Lemma sn_layer : sound de_layer (g_layer V).
Proof. apply sn_form. apply sn_word; [apply sn_layer_name|intros ?; sstep]. Qed.
Lemma sn_justify : sound de_justify w_justify.
Proof.
  apply sn_form. apply sn_word_end. intros s j H.
  repeat match goal with H : context [str_eqb s (lit ?k)] |- _ => destruct (str_eqb_spec s (lit k)) as [->|]; [exists k; split; [cbn [In]; tauto|reflexivity]|] end. discriminate H.
Qed.
Lemma sn_xy : sound de_xy w_point.
Proof.
  intros s a H. unfold de_xy in H. destruct (sx_list_name s) as [n| |] eqn:N; try discriminate H. cbn [bind] in H. destruct (xy_type_of_str n) as [t| |] eqn:T; try discriminate H. cbn [bind] in H.
  assert (K : point_name n).
  { unfold xy_type_of_str in T. repeat match goal with H : context [str_eqb n (lit ?k)] |- _ => destruct (str_eqb_spec n (lit k)) as [->|]; [exists k; split; [cbn [In point_names]; tauto|reflexivity]|] end. discriminate T. }
  unfold iter_new in H. destruct s as [|l|]; try discriminate H. cbn [sx_list bind] in H. destruct l as [|[m| |] l]; try discriminate H. injection N as ->. rewrite str_eqb_refl in H.
  constructor; [exact K|]. match type of H with (do x <- ?p l; _) = _ => destruct (p l) as [[v r]| |] eqn:E; try discriminate H end. revert E.
  assert (S : sounds (let* x := p_f in let* y := p_f in p_close (mk_xy x y t)) [One (num V); One (num V)]) by (repeat sstep). apply S.
Qed.
Ltac known ::= first [apply sn_xy | apply sn_offset | apply sn_at | apply sn_layer | apply sn_justify].
Lemma sn_font : sound de_font w_font. Proof. sgo. Qed.
Lemma sn_effects : sound de_effects w_effects.
Proof. apply sn_form. apply sn_t; [apply sn_font|intros ?]. repeat sstep. Qed.
Lemma sn_layers : sound de_layers (g_layers V).
Proof.
  apply sn_form. apply sn_vec. intros s a H. destruct s as [t| |]; try discriminate H. cbn [sx_string bind] in H. exists (layer_name V). split; [now left|]. constructor. now apply sn_layer_name in H.
Qed.
Lemma one_sound {A} (f : sexp -> res A) g : sound f g -> forall s a, f s = Ok a -> one_of [g] s.
Proof. intros F s a H. exists g. split; [now left|now apply (F s a)]. Qed.
Lemma sn_pts : sound de_pts w_pts.
Proof. apply sn_form. apply sn_vec. apply one_sound. apply sn_xy. Qed.
Lemma sn_xyz : sound de_xyz (g_xyz V). Proof. sgo. Qed.
Lemma sn_fnet : sound de_fnet (g_net V). Proof. sgo. Qed.
Lemma sn_drill : sound de_drill (GramSpec.drill V).
Proof.
  apply sn_form. apply sn_maybe; [leaf|intros ?]. apply sn_t; [apply sn_num|intros ?]. apply sn_maybe; [apply sn_num|intros ?]. apply sn_maybe; [leaf|intros ?].
  destruct (default _ _). apply sn_close.
Qed.
Ltac known ::= first [apply sn_xy | apply sn_offset | apply sn_at | apply sn_layer | apply sn_justify | apply sn_effects | apply sn_layers | apply sn_pts | apply sn_xyz | apply sn_drill].
Lemma sn_text_el : sound de_text w_text. Proof. sgo. Qed.
Lemma sn_model : sound de_model (g_model V). Proof. sgo. Qed.
Lemma sn_poly : sound de_poly w_poly. Proof. sgo. Qed.
Lemma sn_line : sound de_line w_line. Proof. sgo. Qed.
Lemma sn_circle : sound de_circle w_circle. Proof. sgo. Qed.
Lemma sn_arc : sound de_arc w_arc. Proof. sgo. Qed.
(** A list with the given name *)
Lemma name_inv s n : sx_list_name s = Ok n -> exists l, s = SList (SStr n :: l).
Proof. destruct s as [|[|[m| |] l]|]; try discriminate. intros [= ->]. now exists l. Qed.
Lemma sn_second {A} k (f : sexp -> res A) g l a : sound f g -> second f (SList (SStr (lit k) :: l)) = Ok a -> follows (start k g) (SList (SStr (lit k) :: l)).
Proof. intros F H. unfold second in H. cbn [sx_list bind] in H. destruct l as [|x l]; [discriminate H|]. constructor; [reflexivity|]. apply fa_one; [now apply (F x a)|apply any_rest]. Qed.
Lemma rmap_inv {A B} (c : A -> B) r b : rmap c r = Ok b -> exists a, r = Ok a /\ b = c a.
Proof. destruct r as [a| |]; try discriminate. intros [= <-]. now exists a. Qed.
Lemma sn_part s y : de_part s = Ok y -> one_of w_parts s \/ exists f, y = PaThickness f.
Proof.
  unfold de_part. destruct (sx_list_name s) as [n| |] eqn:N; try discriminate. apply name_inv in N as [l ->]. cbn [bind]. intros H.
  repeat match goal with H : context [str_eqb n (lit ?k)] |- _ => destruct (str_eqb_spec n (lit k)) as [->|];
    [apply rmap_inv in H as (a & H & ->); first [right; now eexists|left; match type of H with
       | second ?f _ = _ => eexists; split; [|eapply sn_second; [|exact H]; first [apply sn_num|apply sn_int]]; cbn [In w_parts]; tauto
       | _ => eexists; split; [|eapply sn_fnet; exact H]; cbn [In w_parts]; tauto end]|] end.
  discriminate H.
Qed.
Lemma sn_parts ps : forall p q, pad_parts p ps = Ok q -> Forall (fun y => forall f, y <> PaThickness f) ps.
Proof.
  induction ps as [|y ps IH]; intros p q H; [constructor|]. cbn [pad_parts] in H. destruct (pad_part p y) as [p'| |] eqn:E; try discriminate H. cbn [bind] in H.
  constructor; [|now apply (IH p' q)]. intros f ->. destruct p. discriminate E.
Qed.
Lemma sn_pad : sound de_pad w_pad.
Proof.
  apply sn_form. apply sn_t; [apply sn_text|intros ?].
  apply sn_word.
  { intros s t H. unfold pad_type_of_str in H. repeat match goal with H : context [str_eqb s (lit ?k)] |- _ => destruct (str_eqb_spec s (lit k)) as [->|]; [exists k; split; [cbn [In]; tauto|reflexivity]|] end. discriminate H. }
  intros ?. apply sn_word.
  { intros s t H. unfold pad_shape_of_str in H. repeat match goal with H : context [str_eqb s (lit ?k)] |- _ => destruct (str_eqb_spec s (lit k)) as [->|]; [exists k; split; [cbn [In]; tauto|reflexivity]|] end. discriminate H. }
  intros ?. do 2 (apply sn_maybe; [leaf|intros ?]). cbv zeta. do 2 (apply sn_maybe; [leaf|intros ?]).
  intros l p r H. unfold pbind in H. destruct (p_vec de_part l) as [[ps q]| |] eqn:E; try discriminate H. unfold plift in H.
  match type of H with (do a <- ?X; _) = _ => destruct X as [p'| |] eqn:K; try discriminate H end. apply sn_parts in K. apply all_rep.
  unfold p_vec in E. destruct (mapM de_part l) as [ps'| |] eqn:M; try discriminate E. injection E as -> <-. apply mapM_inv in M. clear - M K.
  induction M as [|x y l ps X M IH]; [constructor|]. inversion K as [|? ? K1 K2]; subst. constructor; [|now apply IH]. destruct (sn_part x y X) as [?|[f ->]]; [assumption|]. now destruct (K1 f).
Qed.
Lemma sn_first {A} (p : P A) k b l a : sounds p b -> first_after p (SList (SStr (lit k) :: l)) = Ok a -> follows (Form k b) (SList (SStr (lit k) :: l)).
Proof. intros S H. unfold first_after in H. cbn [sx_list_name sx_list bind sx_string] in H. now apply (sn_form k p b S) in H. Qed.
Lemma sn_one {A} (f : sexp -> res A) g : sound f g -> sounds (p_t f) [One g; ignored].
Proof. intros F l a r H. unfold p_t in H. destruct l as [|x l]; [discriminate H|]. destruct (f x) as [v| |] eqn:E; try discriminate H. apply fa_one; [now apply (F x v)|apply any_rest]. Qed.
Lemma sn_hex : sounds (let* w := p_s in plift (of_option ESexp (parse_int 16 w))) [One (hex V); ignored].
Proof. apply (sn_word_end (fun s => exists z, hex_text s z) (fun w => of_option ESexp (parse_int 16 w))). intros s a H. destruct (parse_int 16 s) as [z|] eqn:E; [|discriminate H]. exists z. now apply hex_iff. Qed.
Ltac pick := cbn [In w_elements w_known w_heads w_board_elements app others wide]; tauto.
Lemma sn_element s e : de_element s = Ok e -> one_of w_elements s.
Proof.
  destruct s as [w|q|]; [| |discriminate]; cbn [de_element].
  - destruct (str_eqb_spec w (lit "locked")) as [->|]; [|discriminate]. intros _. exists (word ["locked"]). split; [now left|]. constructor. exists "locked". split; [now left|reflexivity].
  - destruct (sx_list_name (SList q)) as [n| |] eqn:N; try discriminate. apply name_inv in N as [l [= ->]]. cbn [bind]. intros H.
    repeat match goal with H : context [str_eqb n (lit ?k)] |- _ => destruct (str_eqb_spec n (lit k)) as [->|];
      [apply rmap_inv in H as (a & H & _); eexists; (split; [|match type of H with
         | de_float_element _ = _ => eapply sn_first; [|exact H]; apply sn_one; apply sn_num
         | de_string_element _ = _ => eapply sn_first; [|exact H]; apply sn_one; apply sn_text
         | de_stamp_element _ = _ => eapply sn_first; [|exact H]; apply sn_hex
         | de_layer _ = _ => eapply sn_layer; exact H
         | de_at _ = _ => eapply sn_at; exact H
         | de_text _ = _ => eapply sn_text_el; exact H
         | de_pad _ = _ => eapply sn_pad; exact H
         | de_poly _ = _ => eapply sn_poly; exact H
         | de_line _ = _ => eapply sn_line; exact H
         | de_circle _ = _ => eapply sn_circle; exact H
         | de_arc _ = _ => eapply sn_arc; exact H
         | de_model _ = _ => eapply sn_model; exact H
         end]); pick|] end.
    discriminate H.
Qed.
Lemma sn_module : sound de_module w_module.
Proof. apply sn_form. apply sn_t; [apply sn_text|intros ?]. apply sn_vec_then. apply sn_element. Qed.

(** ** Boards *)
Lemma sn_version : sound de_version (fld "version" (int V)). Proof. sgo. Qed.
Lemma sn_page : sound de_page (fld "page" text). Proof. sgo. Qed.
Lemma sn_net : sound de_net (g_net V). Proof. sgo. Qed.
Lemma sn_host : sound de_host g_host. Proof. sgo. Qed.
Lemma sn_area : sound de_area (g_area V). Proof. sgo. Qed.
Lemma sn_general : sound de_general (g_general V).
Proof. apply sn_form. do 2 (apply sn_t; [leaf|intros ?]). apply sn_t; [apply sn_area|intros ?]. repeat sstep. Qed.
Lemma sn_kind : sound de_ly_type g_kind.
Proof.
  intros s a H. destruct s as [t| |]; try discriminate H. unfold de_ly_type in H. cbn [sx_string bind] in H. constructor.
  repeat match goal with H : context [str_eqb t (lit ?k)] |- _ => destruct (str_eqb_spec t (lit k)) as [->|]; [exists k; split; [cbn [In]; tauto|reflexivity]|] end. discriminate H.
Qed.
Lemma sn_stack : sound de_ly_layers w_stack.
Proof.
  apply sn_form. apply sn_vec. apply one_sound. apply sn_bare. apply sn_t; [apply sn_int|intros ?]. apply sn_word; [apply sn_layer_name|intros ?].
  apply sn_t; [apply sn_kind|intros ?]. repeat sstep.
Qed.
Lemma sn_setting : sound de_setup_element (g_setting text).
Proof. apply sn_bare. repeat sstep. Qed.
Lemma sn_setup : sound de_setup (g_setup V).
Proof.
  apply sn_form. apply (sn_fold setup_step setup_default (fun u => u)). intros u s b H. unfold setup_step in H. destruct (sx_list_name s) as [n| |] eqn:N; try discriminate H. apply name_inv in N as [l ->].
  cbn [bind] in H. destruct (str_eqb_spec n (lit "pcbplotparams")) as [->|D].
  - destruct (iter_new _ _ _) as [ps| |] eqn:E; try discriminate H. apply (sn_form "pcbplotparams" (p_vec de_setup_element) [Rep [g_setting text]]) in E; [|apply sn_vec; apply one_sound; apply sn_setting].
    eexists. split; [|exact E]. cbn [flat_map app In]. tauto.
  - destruct (de_setup_element _) as [e| |] eqn:E; try discriminate H. apply sn_setting in E. eexists. split; [cbn [flat_map app In]; left; reflexivity|].
    destruct (bare_inv _ _ E) as (q & [= <-] & F). inversion F; subst. constructor. apply fa_one; [|assumption]. now constructor.
Qed.
Lemma sn_ncf k s a : de_nc_float (lit k) s = Ok a -> follows (fld k (num V)) s.
Proof. revert s a. change (sound (de_nc_float (lit k)) (fld k (num V))). sgo. Qed.
Lemma sn_net_class : sound de_net_class (g_net_class V).
Proof.
  apply sn_form. apply sn_t; [apply sn_text|intros name]. apply sn_t; [apply sn_text|intros desc]. apply (sn_fold nc_step (nc_start name desc) (fun u => u)).
  intros n s b H. destruct n as [nm de cl tw vd vr ud ur gap wid nets]. unfold nc_step in H. destruct (sx_list_name s) as [k| |] eqn:N; try discriminate H. cbn [bind] in H.
  apply name_inv in N as [l ->].
  destruct (str_eqb_spec k (lit "add_net")) as [->|].
  { destruct (do w <- sx_slice1 (lit "add_net") (SList (SStr (lit "add_net") :: l)); sx_string w) as [v| |] eqn:E; try discriminate H. apply (sn_slice "add_net" sx_string text sn_text) in E.
    eexists. split; [|exact E]. cbn [flat_map app In]. tauto. }
  repeat match goal with H : context [str_eqb k (lit ?j)] |- _ => destruct (str_eqb_spec k (lit j)) as [->|];
    [match type of H with (do x <- ?X; _) = _ => destruct X as [v| |] eqn:E; try discriminate H end; apply sn_ncf in E; eexists; (split; [|exact E]); cbn [flat_map app In]; tauto|] end.
  discriminate H.
Qed.
Lemma sn_gr_text : sound de_gr_text w_gr_text. Proof. sgo. Qed.
Lemma sn_gr_line : sound de_gr_line w_gr_line. Proof. sgo. Qed.
Lemma sn_gr_arc : sound de_gr_arc w_gr_arc. Proof. sgo. Qed.
Lemma sn_gr_circle : sound de_gr_circle w_gr_circle. Proof. sgo. Qed.
Lemma sn_segment : sound de_segment w_segment. Proof. sgo. Qed.
Lemma sn_via : sound de_via (g_via V). Proof. sgo. Qed.
Lemma sn_hatch : sound de_hatch (g_hatch V). Proof. sgo. Qed.
Lemma sn_connect : sound de_connect (g_connect V). Proof. sgo. Qed.
Lemma sn_keepout : sound de_keepout w_keepout. Proof. sgo. Qed.
Lemma sn_fill : sound de_fill w_fill. Proof. sgo. Qed.
Ltac known ::= first [apply sn_layer | apply sn_pts | apply sn_gr_text | apply sn_hatch | apply sn_connect | apply sn_keepout | apply sn_fill].
Lemma sn_dimension : sound de_dimension w_dimension. Proof. sgo. Qed.
Lemma sn_zone : sound de_zone w_zone.
Proof. apply sn_form. repeat sstep. intros l a r _. apply any_rest. Qed.
Lemma push_inv {A} l (c : A -> ly_element) r b : push_wrap l c r = Ok b -> exists a, r = Ok a.
Proof. destruct r as [a| |]; try discriminate. intros _. now exists a. Qed.
Ltac snd := first [eapply sn_module; eassumption | eapply sn_net; eassumption | eapply sn_net_class; eassumption | eapply sn_gr_text; eassumption | eapply sn_gr_line; eassumption
  | eapply sn_gr_arc; eassumption | eapply sn_gr_circle; eassumption | eapply sn_dimension; eassumption | eapply sn_zone; eassumption | eapply sn_segment; eassumption | eapply sn_via; eassumption
  | eapply sn_version; eassumption | eapply sn_host; eassumption | eapply sn_general; eassumption | eapply sn_page; eassumption | eapply sn_stack; eassumption | eapply sn_setup; eassumption].
Lemma sn_board_element b s c : layout_step b s = Ok c -> one_of w_board_elements s.
Proof.
  destruct b as [v h g p su la es]. unfold layout_step. destruct (sx_list_name s) as [n| |] eqn:N; try discriminate. apply name_inv in N as [l ->]. cbn [bind]. intros H.
  repeat match goal with H : context [str_eqb n (lit ?j)] |- _ => destruct (str_eqb_spec n (lit j)) as [->|];
    [first [apply push_inv in H as [a H] | match type of H with (do x <- ?X; _) = _ => destruct X as [a| |] eqn:E; try discriminate H end]; eexists; (split; [|snd]); pick|] end.
  exists (Named (fun s => ~ exists k, In k board_names /\ s = lit k) [Rep [Any]]). split; [pick|]. constructor; [|apply any_rest].
  intros (k & I & ->). cbn [In board_names] in I. repeat destruct I as [<-|I]; contradiction.
Qed.
Lemma sn_layout : sound de_layout w_board.
Proof. apply sn_form. apply (sn_fold layout_step layout_default (fun u => u)). apply sn_board_element. Qed.

(** ** Library tables *)
Lemma sn_flib : sound de_flib w_lib. Proof. sgo. Qed.
Lemma sn_table : sound de_fp_lib_table w_table.
Proof. apply sn_form. apply sn_vec. apply one_sound. apply sn_flib. Qed.
