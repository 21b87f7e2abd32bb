(** The readers with texts agree with the readers without (C106). *)
From Coq Require Import String.
From Verif Require Import Base Str StrFacts Num F64 F64Text Sexp FpData FpLayer FpDe LyData LyDe TreeErr.
Open Scope string_scope. Open Scope list_scope.

Definition agree {A} (t : told A) (r : res A) : Prop :=
  match t, r with
  | TFine a, Ok b => a = b
  | TSays _, Err _ | TOther, Err _ | TStops, Panic => True
  | _, _ => False
  end.
Definition agrees {A} (p : TP A) (q : P A) : Prop := forall l, agree (p l) (q l).

Lemma ag_lift {A} (r : res A) : agree (tlift r) r. Proof. destruct r; exact I || reflexivity. Qed.
Lemma ag_bind {A B} (t : told A) r (f : A -> told B) g : agree t r -> (forall a, agree (f a) (g a)) -> agree (tbind t f) (bind r g).
Proof. intros T F. destruct t, r; try contradiction T; cbn [tbind bind]; try exact I. cbn [agree] in T. subst. apply F. Qed.
Lemma ag_map {A B} (f : A -> B) t r : agree t r -> agree (tmap f t) (rmap f r).
Proof. intros T. apply ag_bind; [exact T|]. intros a. reflexivity. Qed.
Lemma ag_if {A} (b : bool) (t u : told A) r s : agree t r -> agree u s -> agree (if b then t else u) (if b then r else s).
Proof. now destruct b. Qed.
Lemma as_bind {A B} (p : TP A) q (f : A -> TP B) g : agrees p q -> (forall a, agrees (f a) (g a)) -> agrees (tpbind p f) (pbind q g).
Proof.
  intros T F l. unfold tpbind, pbind. specialize (T l). destruct (p l) as [[a r]| | |], (q l) as [[b u]| |]; try contradiction T; try exact I.
  cbn [agree] in T. injection T as <- <-. apply F.
Qed.
Lemma as_of {A} (p : P A) : agrees (tp_of p) p. Proof. intros l. apply ag_lift. Qed.
Lemma as_lift {A} (t : told A) r : agree t r -> agrees (tplift t) (plift r).
Proof. intros T l. apply ag_bind; [exact T|]. intros a. reflexivity. Qed.
Lemma as_t {A} (t : sexp -> told A) f : (forall s, agree (t s) (f s)) -> agrees (tp_t t) (p_t f).
Proof. intros T [|x l]; [exact I|]. apply ag_bind; [apply T|]. intros a. reflexivity. Qed.
Lemma as_in {A} k (t : sexp -> told A) f : (forall s, agree (t s) (f s)) -> agrees (tp_in_list k t) (p_in_list k f).
Proof. intros T. apply as_t. intros s. apply ag_bind; [apply ag_lift|exact T]. Qed.
Lemma ag_mapM {A} (t : sexp -> told A) f l : (forall s, agree (t s) (f s)) -> agree (tmapM t l) (mapM f l).
Proof.
  intros T. induction l as [|x l IH]; [reflexivity|]. cbn [tmapM mapM]. apply ag_bind; [apply T|]. intros a. apply ag_bind; [exact IH|]. intros v. reflexivity.
Qed.
Lemma as_vec {A} (t : sexp -> told A) f : (forall s, agree (t s) (f s)) -> agrees (tp_vec t) (p_vec f).
Proof. intros T l. apply ag_bind; [now apply ag_mapM|]. intros v. reflexivity. Qed.
Lemma ag_foldM {A} (t : A -> sexp -> told A) f l : (forall a s, agree (t a s) (f a s)) -> forall a, agree (tfoldM t a l) (foldM f a l).
Proof. intros T. induction l as [|x l IH]; intros a; [reflexivity|]. cbn [tfoldM foldM]. apply ag_bind; [apply T|exact IH]. Qed.
Lemma as_fold {A} (t : A -> sexp -> told A) f a : (forall a s, agree (t a s) (f a s)) ->
  agrees (fun l => ask n <- tfoldM t a l; TFine (n, [])) (fun l => do n <- foldM f a l; Ok (n, [])).
Proof. intros T l. apply ag_bind; [now apply ag_foldM|]. intros n. reflexivity. Qed.
Lemma ag_new {A} s k (p : TP A) q : agrees p q -> agree (t_new s k p) (iter_new s k q).
Proof.
  intros T. unfold t_new, iter_new. destruct s as [|l|]; try exact I. cbn [sx_list bind]. destruct l as [|[n| |] l]; try exact I.
  destruct (str_eqb n k); [|exact I]. apply ag_bind; [apply T|]. intros a. reflexivity.
Qed.
Lemma ag_nameless {A} s (p : TP A) q : agrees p q -> agree (t_nameless s p) (iter_nameless s q).
Proof. intros T. unfold t_nameless, iter_nameless. destruct s as [|l|]; try exact I. cbn [sx_list bind]. apply ag_bind; [apply T|]. intros a. reflexivity. Qed.

(** ** Footprints *)
Lemma ag_layer_name s : agree (layer_told s) (layer_from_str s).
Proof.
  unfold layer_told, layer_from_str, layer_of_str. destruct (split_on is_dot s) as [|a [|b [|c l]]]; try exact I; try reflexivity.
  destruct (side_of_str a); [reflexivity|exact I].
Qed.
Lemma ag_layer s : agree (t_layer s) (de_layer s).
Proof. apply ag_new. apply as_bind; [apply as_of|intros n]. apply as_bind; [apply as_lift, ag_layer_name|intros l]. apply as_of. Qed.
Lemma ag_layers s : agree (t_layers s) (de_layers s).
Proof. apply ag_new. apply as_vec. intros x. apply ag_bind; [apply ag_lift|exact ag_layer_name]. Qed.
Lemma ag_xy s : agree (t_xy s) (de_xy s).
Proof.
  unfold t_xy, de_xy. apply ag_bind; [apply ag_lift|intros k]. apply ag_bind.
  - unfold xy_type_told, xy_type_of_str. repeat (apply ag_if; [reflexivity|]). exact I.
  - intros t. apply ag_new. do 2 (apply as_bind; [apply as_of|intros ?]). apply as_of.
Qed.
Lemma ag_pts s : agree (t_pts s) (de_pts s). Proof. apply ag_new. apply as_vec, ag_xy. Qed.
Section Show.
Context (sh : sexp -> str) (dbg : f64 -> str).
Lemma ag_second {A} (f : sexp -> res A) s : agree (t_second sh f s) (second f s).
Proof. unfold t_second, second. apply ag_bind; [apply ag_lift|]. intros [|x [|y l]]; try exact I. apply ag_lift. Qed.
Lemma ag_part s : agree (t_part sh s) (de_part s).
Proof.
  unfold t_part, de_part. apply ag_bind; [apply ag_lift|intros k].
  repeat (apply ag_if; [apply ag_map; first [apply ag_second|apply ag_lift]|]). exact I.
Qed.
Lemma ag_pad_parts l : forall p, agree (pad_parts_told dbg p l) (pad_parts p l).
Proof.
  induction l as [|x l IH]; intros p; [reflexivity|]. cbn [pad_parts_told pad_parts]. apply ag_bind; [|exact IH].
  destruct x; try apply ag_lift. destruct p; exact I.
Qed.
Lemma ag_pad s : agree (t_pad sh dbg s) (de_pad s).
Proof.
  apply ag_new. apply as_bind; [apply as_of|intros name]. apply as_bind; [apply as_of|intros ts]. apply as_bind; [apply as_lift|intros t].
  { unfold pad_type_told, pad_type_of_str. repeat (apply ag_if; [reflexivity|]). exact I. }
  apply as_bind; [apply as_of|intros ss]. apply as_bind; [apply as_lift|intros u].
  { unfold pad_shape_told, pad_shape_of_str. repeat (apply ag_if; [reflexivity|]). exact I. }
  do 4 (apply as_bind; [apply as_of|intros ?]). apply as_bind; [apply as_vec, ag_part|intros ps]. apply as_lift. apply ag_pad_parts.
Qed.
Lemma ag_element s : agree (t_element sh dbg s) (de_element s).
Proof.
  destruct s as [w|l|]; [| |exact I]; unfold t_element, de_element.
  - apply ag_if; [reflexivity|exact I].
  - apply ag_bind; [apply ag_lift|intros k].
    repeat (apply ag_if; [apply ag_map; first [apply ag_lift|apply ag_layer|apply ag_pad]|]). exact I.
Qed.
Lemma ag_module s : agree (t_module sh dbg s) (de_module s).
Proof. apply ag_new. apply as_bind; [apply as_of|intros n]. apply as_bind; [apply as_vec, ag_element|intros es]. apply as_of. Qed.

(** ** Boards *)
Lemma ag_type s : agree (t_ly_type sh s) (de_ly_type s).
Proof. unfold t_ly_type, de_ly_type. apply ag_bind; [apply ag_lift|intros x]. repeat (apply ag_if; [reflexivity|]). exact I. Qed.
Lemma ag_row s : agree (t_ly_layer sh s) (de_ly_layer s).
Proof.
  apply ag_nameless. do 2 (apply as_bind; [apply as_of|intros ?]). apply as_bind; [apply as_lift, ag_layer_name|intros ?].
  apply as_bind; [apply as_t, ag_type|intros ?]. apply as_bind; [apply as_of|intros ?]. apply as_of.
Qed.
Lemma ag_stack s : agree (t_ly_layers sh s) (de_ly_layers s). Proof. apply ag_new. apply as_vec, ag_row. Qed.
Lemma ag_field n x : agree (nc_told n x) (nc_step n x).
Proof.
  unfold nc_told. destruct (sx_list_name x) as [k| |] eqn:K; cbn [tlift tbind]; [|destruct n; unfold nc_step; rewrite K; exact I|destruct n; unfold nc_step; rewrite K; exact I].
  match goal with |- context [existsb ?f ?l] => destruct (existsb f l) eqn:E end; [apply ag_lift|].
  cbn [existsb] in E. repeat (apply Bool.orb_false_iff in E as [? E]). clear E. destruct n. unfold nc_step. rewrite K. cbn [bind].
  repeat match goal with H : str_eqb k _ = false |- _ => rewrite H; clear H end. exact I.
Qed.
Lemma ag_class s : agree (t_net_class s) (de_net_class s).
Proof. apply ag_new. do 2 (apply as_bind; [apply as_of|intros ?]). apply as_fold. exact ag_field. Qed.
Ltac ags := repeat first [apply as_of|apply as_bind; [first [apply as_of|apply as_t; first [exact ag_xy|exact ag_layer|exact ag_layers]|apply as_in; exact ag_pts]|intros ?]].
Lemma ag_gr_text s : agree (t_gr_text s) (de_gr_text s). Proof. apply ag_new. ags. Qed.
Lemma ag_gr_line s : agree (t_gr_line s) (de_gr_line s). Proof. apply ag_new. ags. Qed.
Lemma ag_gr_arc s : agree (t_gr_arc s) (de_gr_arc s). Proof. apply ag_new. ags. Qed.
Lemma ag_gr_circle s : agree (t_gr_circle s) (de_gr_circle s). Proof. apply ag_new. ags. Qed.
Lemma ag_dimension s : agree (t_dimension s) (de_dimension s).
Proof.
  apply ag_new. do 2 (apply as_bind; [apply as_of|intros ?]). apply as_bind; [apply as_t, ag_layer|intros ?]. apply as_bind; [apply as_of|intros ?].
  apply as_bind; [apply as_t, ag_gr_text|intros ?]. ags.
Qed.
Lemma ag_zone s : agree (t_zone s) (de_zone s). Proof. apply ag_new. ags. Qed.
Lemma ag_segment s : agree (t_segment s) (de_segment s). Proof. apply ag_new. ags. Qed.
Lemma ag_via s : agree (t_via s) (de_via s). Proof. apply ag_new. ags. Qed.
Lemma ag_push {A} l (c : A -> ly_element) t r : agree t r -> agree (push_told l c t) (push_wrap l c r).
Proof. intros T. apply ag_bind; [exact T|]. intros a. reflexivity. Qed.
Lemma ag_refl {A} (r s : res A) : r = s -> agree (tlift r) s. Proof. intros <-. apply ag_lift. Qed.
Lemma ag_step l x : agree (layout_told sh dbg l x) (layout_step l x).
Proof.
  destruct l as [v h g p su la es]. unfold layout_told. destruct (sx_list_name x) as [k| |] eqn:K; cbn [tlift tbind]; [|unfold layout_step; rewrite K; exact I|unfold layout_step; rewrite K; exact I].
  Ltac pick k j K := destruct (str_eqb_spec k (lit j)) as [->|?]; [unfold layout_step; rewrite K; cbn [bind]|].
  pick k "layers" K; [apply ag_bind; [apply ag_stack|intros ?; reflexivity]|].
  pick k "module" K; [apply ag_push, ag_module|]. pick k "net_class" K; [apply ag_push, ag_class|].
  pick k "gr_text" K; [apply ag_push, ag_gr_text|]. pick k "gr_line" K; [apply ag_push, ag_gr_line|].
  pick k "gr_arc" K; [apply ag_push, ag_gr_arc|]. pick k "gr_circle" K; [apply ag_push, ag_gr_circle|].
  pick k "dimension" K; [apply ag_push, ag_dimension|]. pick k "zone" K; [apply ag_push, ag_zone|].
  pick k "segment" K; [apply ag_push, ag_segment|]. pick k "via" K; [apply ag_push, ag_via|]. apply ag_lift.
Qed.
Lemma ag_layout s : agree (t_layout sh dbg s) (de_layout s).
Proof. apply ag_new. apply as_fold. exact ag_step. Qed.
End Show.
