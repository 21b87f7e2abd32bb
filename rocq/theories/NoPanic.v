(** Readers that never crash. *)
From Coq Require Import String.
From Verif Require Import Base Str Num F64 F64Text Sexp FpData FpLayer FpDe.
Open Scope string_scope. Open Scope list_scope.

Lemma mapM_no_panic {A B} (f : A -> res B) l : (forall x, f x <> Panic) -> mapM f l <> Panic.
Proof.
  intros H; induction l as [|x l IH]; cbn [mapM]; [discriminate|].
  pose proof (H x). destruct (f x); cbn [bind]; try congruence.
  destruct (mapM f l); cbn [bind]; congruence.
Qed.
(** A reader that never crashes. *)
Definition np {A} (p : P A) : Prop := forall l, p l <> Panic.
Lemma np_bind {A B} (p : P A) (f : A -> P B) : np p -> (forall a, np (f a)) -> np (pbind p f).
Proof. intros Hp Hf l. unfold pbind. specialize (Hp l). destruct (p l) as [[a r]| |]; [apply Hf|discriminate|congruence]. Qed.
Lemma np_t {A} (f : sexp -> res A) : (forall x, f x <> Panic) -> np (p_t f).
Proof. intros H l. destruct l as [|x l]; cbn; [discriminate|]. specialize (H x). destruct (f x); cbn; congruence. Qed.
Lemma np_maybe {A} (f : sexp -> res A) : (forall x, f x <> Panic) -> np (p_maybe f).
Proof. intros H l. destruct l as [|x l]; cbn; [discriminate|]. specialize (H x). destruct (f x); congruence. Qed.
Lemma np_close {A} (a : A) : np (p_close a).
Proof. intros [|]; discriminate. Qed.
Lemma np_lift {A} (r : res A) : r <> Panic -> np (plift r).
Proof. intros H l. unfold plift. destruct r; cbn; congruence. Qed.
Lemma np_vec {A} (f : sexp -> res A) : (forall x, f x <> Panic) -> np (p_vec f).
Proof.
  intros H l. unfold p_vec. pose proof (mapM_no_panic f l H). destruct (mapM f l); cbn; congruence.
Qed.
Lemma np_iter {A} s n (p : P A) : np p -> iter_new s n p <> Panic.
Proof.
  intros H. unfold iter_new. destruct s as [|[|[w| |] l]|]; cbn; try discriminate.
  destruct (str_eqb w n); [|discriminate]. specialize (H l). destruct (p l); cbn; congruence.
Qed.
Lemma np_nameless {A} s (p : P A) : np p -> iter_nameless s p <> Panic.
Proof. intros H. unfold iter_nameless. destruct s as [|l|]; cbn; try discriminate. specialize (H l). destruct (p l); cbn; congruence. Qed.
Lemma np_string x : sx_string x <> Panic.
Proof. destruct x; discriminate. Qed.
Lemma np_of_option {A} e (o : option A) : of_option e o <> Panic.
Proof. destruct o; discriminate. Qed.
Lemma bind_np {A B} (r : res A) (f : A -> res B) : r <> Panic -> (forall a, f a <> Panic) -> bind r f <> Panic.
Proof. intros H Hf. destruct r; cbn; auto; congruence. Qed.
Lemma np_f x : sx_f x <> Panic.
Proof. unfold sx_f. apply bind_np; [apply np_string|intros; apply np_of_option]. Qed.
Lemma np_i x : sx_i x <> Panic.
Proof. unfold sx_i. apply bind_np; [apply np_string|intros; apply np_of_option]. Qed.
Lemma np_slice1 n x : sx_slice1 n x <> Panic.
Proof. unfold sx_slice1. destruct x as [|[|[w| |] [|v [|? ?]]]|]; cbn; try discriminate. destruct (str_eqb w n); discriminate. Qed.
Lemma np_list_name x : sx_list_name x <> Panic.
Proof. unfold sx_list_name. destruct x as [|[|y l]|]; cbn; try discriminate. apply np_string. Qed.
Lemma np_xy x : de_xy x <> Panic.
Proof.
  unfold de_xy. apply bind_np; [apply np_list_name|]. intros n. apply bind_np.
  - unfold xy_type_of_str. repeat match goal with |- (if ?b then _ else _) <> _ => destruct b end; discriminate.
  - intros t. apply np_iter. repeat (apply np_bind; [apply np_t, np_f|intros]). apply np_close.
Qed.
Lemma np_pts x : de_pts x <> Panic.
Proof. apply np_iter, np_vec, np_xy. Qed.
