(** Lemmas and tactics about the S-expression readers. *)
From Coq Require Import String.
From Verif Require Import Base Str Num F64 F64Text Sexp StrFacts NumFacts F64Facts.

Lemma sx_f_a_f x : sx_f (a_f x) = Ok x.
Proof. unfold sx_f, a_f; cbn [sx_string bind]; now rewrite f64_roundtrip. Qed.

Lemma sx_i_a_i z : i64_ok z = true -> sx_i (a_i z) = Ok z.
Proof. intros H; unfold sx_i, a_i; cbn [sx_string bind]; now rewrite i64_roundtrip. Qed.

Lemma mapM_map {A B} (f : A -> B) (g : B -> res A) l :
  (forall x, In x l -> g (f x) = Ok x) -> mapM g (map f l) = Ok l.
Proof.
  induction l as [|x l IH]; intros H; [reflexivity|].
  cbn [map mapM]; rewrite H by (left; reflexivity); cbn [bind].
  rewrite IH; [reflexivity|]. intros y Hy; apply H; right; exact Hy.
Qed.

Lemma mapM_app {A B} (f : A -> res B) l1 l2 :
  mapM f (l1 ++ l2) = do a <- mapM f l1; do b <- mapM f l2; Ok (a ++ b).
Proof.
  induction l1 as [|x l1 IH]; cbn [app mapM bind].
  - destruct (mapM f l2); reflexivity.
  - destruct (f x); cbn [bind]; [|reflexivity|reflexivity].
    rewrite IH; destruct (mapM f l1); cbn [bind]; [|reflexivity|reflexivity].
    destruct (mapM f l2); reflexivity.
Qed.

Lemma mapM_Forall {A B} (f : A -> res B) (Q : B -> Prop) l v :
  mapM f l = Ok v -> (forall x y, In x l -> f x = Ok y -> Q y) -> Forall Q v.
Proof.
  revert v; induction l as [|x l IH]; intros v H HQ.
  - injection H as <-; constructor.
  - cbn [mapM] in H. destruct (f x) as [y| |] eqn:Hx; try discriminate H.
    cbn [bind] in H. destruct (mapM f l) as [ys| |] eqn:Hl; try discriminate H.
    injection H as <-. constructor.
    + eapply HQ; [left; reflexivity|exact Hx].
    + apply IH; [reflexivity|]. intros a b Ha; apply HQ; right; exact Ha.
Qed.

(** Step lemmas: one reader consuming (or skipping) one element. *)
Lemma iter_new_node {A} k l (p : P A) :
  iter_new (node k l) (lit k) p = do ar <- p l; Ok (fst ar).
Proof. unfold iter_new, node, a_lit; cbn [sx_list bind]. now rewrite str_eqb_refl. Qed.

Lemma pbind_ok {A B} (p : P A) (f : A -> P B) l a r :
  p l = Ok (a, r) -> pbind p f l = f a r.
Proof. unfold pbind; now intros ->. Qed.

Lemma p_t_ok {A} (from : sexp -> res A) x r a : from x = Ok a -> p_t from (x :: r) = Ok (a, r).
Proof. unfold p_t; now intros ->. Qed.

Lemma p_s_ok s r : p_s (SStr s :: r) = Ok (s, r).
Proof. reflexivity. Qed.
Lemma p_s_lit s r : p_s (a_lit s :: r) = Ok (lit s, r).
Proof. reflexivity. Qed.
Lemma p_f_ok x r : p_f (a_f x :: r) = Ok (x, r).
Proof. apply p_t_ok, sx_f_a_f. Qed.
Lemma p_i_ok z r : i64_ok z = true -> p_i (a_i z :: r) = Ok (z, r).
Proof. intros H; now apply p_t_ok, sx_i_a_i. Qed.

Lemma sx_slice1_kv k v : sx_slice1 (lit k) (kv k v) = Ok v.
Proof. unfold sx_slice1, kv, a_lit; cbn [sx_list bind]. now rewrite str_eqb_refl. Qed.

Lemma in_list_ok {A} (from : sexp -> res A) k v a :
  from v = Ok a -> (do w <- sx_slice1 (lit k) (kv k v); from w) = Ok a.
Proof. intros H; now rewrite sx_slice1_kv. Qed.
Lemma p_in_list_ok {A} (from : sexp -> res A) k v r a :
  from v = Ok a -> p_in_list k from (kv k v :: r) = Ok (a, r).
Proof. intros H; apply p_t_ok, in_list_ok, H. Qed.

Lemma p_maybe_ok {A} (from : sexp -> res A) x r a :
  from x = Ok a -> p_maybe from (x :: r) = Ok (Some a, r).
Proof. unfold p_maybe; now intros ->. Qed.
Lemma p_maybe_no {A} (from : sexp -> res A) x r e :
  from x = Err e -> p_maybe from (x :: r) = Ok (None, x :: r).
Proof. unfold p_maybe; now intros ->. Qed.
Lemma p_maybe_nil {A} (from : sexp -> res A) : p_maybe from [] = Ok (None, []).
Proof. reflexivity. Qed.
Lemma p_maybe_in_ok {A} (from : sexp -> res A) k v r a :
  from v = Ok a -> p_maybe_in k from (kv k v :: r) = Ok (Some a, r).
Proof. intros H; apply p_maybe_ok, in_list_ok, H. Qed.
Lemma p_maybe_f_ok x r : p_maybe_f (a_f x :: r) = Ok (Some x, r).
Proof. apply p_maybe_ok, sx_f_a_f. Qed.
Lemma p_maybe_i_ok z r : i64_ok z = true -> p_maybe_i (a_i z :: r) = Ok (Some z, r).
Proof. intros H; now apply p_maybe_ok, sx_i_a_i. Qed.
Lemma from_literal_ok k : from_literal k (a_lit k) = Ok (lit k).
Proof. unfold from_literal, a_lit; cbn [sx_string bind]. now rewrite str_eqb_refl. Qed.
Lemma p_maybe_lit_ok k r : p_maybe_lit k (a_lit k :: r) = Ok (Some (lit k), r).
Proof. apply p_maybe_ok, from_literal_ok. Qed.

Lemma p_vec_ok {A} (from : sexp -> res A) l v : mapM from l = Ok v -> p_vec from l = Ok (v, []).
Proof. unfold p_vec; now intros ->. Qed.
Lemma plift_ok {A} (r : res A) a l : r = Ok a -> plift r l = Ok (a, l).
Proof. now intros ->. Qed.

Create HintDb rt.
#[export] Hint Resolve sx_f_a_f sx_i_a_i : rt.

(** Advance the reader by one step. *)
Ltac nxt :=
  erewrite pbind_ok;
  [ | first [ apply p_s_ok | apply p_s_lit | apply p_f_ok | apply p_i_ok; solve [eauto 3 with rt]
            | apply p_maybe_f_ok | apply p_maybe_i_ok; solve [eauto 3 with rt]
            | apply p_maybe_lit_ok
            | apply p_maybe_nil
            | apply p_in_list_ok; solve [eauto 3 with rt]
            | apply p_maybe_in_ok; solve [eauto 3 with rt]
            | apply p_t_ok; solve [eauto 3 with rt]
            | apply p_maybe_ok; solve [eauto 3 with rt]
            | apply plift_ok; solve [eauto 3 with rt]
            | apply p_vec_ok; solve [eauto 3 with rt]
            | eapply p_maybe_no; reflexivity ] ].
Ltac start := try unfold iter_nameless; rewrite ?iter_new_node; cbn [app opt_list when map].

(** Inversion lemmas. *)
Lemma iter_new_inv {A} s n (p : P A) a :
  iter_new s n p = Ok a -> exists l r, s = SList (SStr n :: l) /\ p l = Ok (a, r).
Proof.
  unfold iter_new. destruct s as [|[|[w| |] l]|]; cbn [sx_list bind]; try discriminate.
  destruct (str_eqb_spec w n) as [->|]; [|discriminate].
  destruct (p l) as [[b r]| |] eqn:E; cbn [bind fst]; try discriminate.
  intros [= <-]. eauto.
Qed.
Lemma pbind_inv {A B} (p : P A) (f : A -> P B) l b r :
  pbind p f l = Ok (b, r) -> exists a r', p l = Ok (a, r') /\ f a r' = Ok (b, r).
Proof. unfold pbind. destruct (p l) as [[a r']| |]; try discriminate. eauto. Qed.
Lemma bind_inv {A B} (x : res A) (f : A -> res B) b :
  bind x f = Ok b -> exists a, x = Ok a /\ f a = Ok b.
Proof. destruct x; cbn; try discriminate. eauto. Qed.
Lemma p_close_inv {A} (a b : A) l r : p_close a l = Ok (b, r) -> b = a /\ l = [] /\ r = [].
Proof. destruct l; cbn; try discriminate. intros [= <- <-]. auto. Qed.
Lemma p_maybe_inv {A} (from : sexp -> res A) l o r :
  p_maybe from l = Ok (o, r) ->
  match o with
  | Some a => exists x, l = x :: r /\ from x = Ok a
  | None => l = r
  end.
Proof.
  destruct l as [|x l]; cbn; [intros [= <- <-]; reflexivity|].
  destruct (from x) eqn:E; intros [= <- <-]; eauto.
Qed.
Lemma p_t_inv {A} (from : sexp -> res A) l a r :
  p_t from l = Ok (a, r) -> exists x, l = x :: r /\ from x = Ok a.
Proof.
  destruct l as [|x l]; cbn; try discriminate.
  destruct (from x) eqn:E; cbn; intros [= <- <-]; eauto.
Qed.
Lemma plift_inv {A} (x : res A) l a r : plift x l = Ok (a, r) -> x = Ok a /\ l = r.
Proof. unfold plift; destruct x; cbn; intros [= <- <-]; auto. Qed.
Lemma p_vec_inv {A} (from : sexp -> res A) l v r : p_vec from l = Ok (v, r) -> mapM from l = Ok v /\ r = [].
Proof. unfold p_vec; destruct (mapM from l); cbn; intros [= <- <-]; auto. Qed.
Lemma sx_i_inv s z : sx_i s = Ok z -> i64_ok z = true.
Proof.
  unfold sx_i. destruct (sx_string s); cbn; try discriminate.
  destruct (i64_of_str a) eqn:E; cbn; try discriminate. intros [= <-].
  now apply i64_of_str_range in E.
Qed.

Ltac pinv H :=
  repeat match type of H with
  | pbind _ _ _ = Ok _ =>
      let a := fresh "v" in let r := fresh "r" in let H1 := fresh "Hv" in
      apply pbind_inv in H; destruct H as (a & r & H1 & H); cbv beta in H
  end.
