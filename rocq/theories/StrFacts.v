(** Facts about the string operations. *)
From Coq Require Import String Ascii Lia ZifyBool ZifyN ZifyNat.
From Verif Require Import Base Str.
Open Scope N_scope.

Lemma str_eqb_eq a b : str_eqb a b = true <-> a = b.
Proof.
  revert b; induction a as [|x a IH]; intros [|y b]; cbn [str_eqb]; try (split; congruence).
  rewrite andb_true_iff, IH, N.eqb_eq. split; [intros [-> ->]; reflexivity|intros [= -> ->]; auto].
Qed.

Lemma str_eqb_refl a : str_eqb a a = true.
Proof. apply str_eqb_eq; reflexivity. Qed.

Lemma str_eqb_neq a b : str_eqb a b = false <-> a <> b.
Proof.
  rewrite <- str_eqb_eq. destruct (str_eqb a b); split; congruence.
Qed.

Lemma str_eqb_sym a b : str_eqb a b = str_eqb b a.
Proof.
  destruct (str_eqb a b) eqn:E.
  - apply str_eqb_eq in E. subst. symmetry. apply str_eqb_refl.
  - symmetry. apply str_eqb_neq. apply str_eqb_neq in E. congruence.
Qed.

Lemma str_eqb_spec a b : reflect (a = b) (str_eqb a b).
Proof.
  destruct (str_eqb a b) eqn:E; constructor; [apply str_eqb_eq|apply str_eqb_neq]; exact E.
Qed.

Lemma str_eq_dec (a b : str) : {a = b} + {a <> b}.
Proof. destruct (str_eqb_spec a b); [left|right]; assumption. Defined.

Lemma starts_with_app p s : starts_with p (p ++ s) = true.
Proof. induction p as [|x p IH]; cbn; [reflexivity|]. rewrite N.eqb_refl. exact IH. Qed.

Lemma starts_with_iff p s : starts_with p s = true <-> exists r, s = p ++ r.
Proof.
  split.
  - revert s; induction p as [|x p IH]; intros s; cbn; [eauto|].
    destruct s as [|y s]; [discriminate|]. rewrite andb_true_iff, N.eqb_eq.
    intros [-> H]. destruct (IH _ H) as [r ->]. eauto.
  - intros [r ->]. apply starts_with_app.
Qed.

(** [split_on] *)

Lemma split_on_nonnil p s : split_on p s <> [].
Proof.
  destruct s as [|c r]; cbn; [discriminate|]. destruct (p c); [discriminate|].
  destruct (split_on p r); discriminate.
Qed.

Lemma split_on_none p w : forallb (fun c => negb (p c)) w = true -> split_on p w = [w].
Proof.
  induction w as [|c w IH]; cbn; [reflexivity|].
  rewrite andb_true_iff. intros [Hc Hw]. rewrite IH by exact Hw.
  destruct (p c); [discriminate|reflexivity].
Qed.

Lemma split_on_sep p w c r :
  forallb (fun c => negb (p c)) w = true -> p c = true ->
  split_on p (w ++ c :: r) = w :: split_on p r.
Proof.
  intros Hw Hc. induction w as [|x w IH]; cbn.
  - rewrite Hc. reflexivity.
  - cbn in Hw. apply andb_true_iff in Hw as [Hx Hw]. rewrite IH by exact Hw.
    destruct (p x); [discriminate|reflexivity].
Qed.

(** Concatenation of lines, each ended by a newline, split back. *)
Definition no_nl (s : str) : bool := forallb (fun c => negb (c =? 10)) s.
Definition line_ok (s : str) : bool := no_nl s && negb (last s 0 =? 13).

Lemma split_on_lines ls :
  forallb no_nl ls = true ->
  split_on (fun c => c =? 10) (concat (map ln ls)) = ls ++ [[]].
Proof.
  induction ls as [|l ls IH]; cbn; [reflexivity|].
  rewrite andb_true_iff. intros [Hl Hls]. unfold ln at 1. rewrite <- app_assoc.
  cbn [app]. rewrite split_on_sep; [|exact Hl|reflexivity]. rewrite IH by exact Hls. reflexivity.
Qed.

Lemma drop_last_empty_app ls : drop_last_empty (ls ++ [[]]) = ls.
Proof.
  induction ls as [|l ls IH]; cbn; [reflexivity|].
  destruct ls as [|l' ls]; cbn in *.
  - destruct l; reflexivity.
  - destruct l; rewrite IH; reflexivity.
Qed.

Lemma strip_cr_id s : (last s 0 =? 13) = false -> strip_cr s = s.
Proof.
  induction s as [|c s IH]; [reflexivity|]. intros H.
  destruct s as [|d s]; cbn in *; [rewrite H; reflexivity|].
  rewrite IH by exact H. reflexivity.
Qed.

Lemma lines_concat ls :
  forallb line_ok ls = true -> lines (concat (map ln ls)) = ls.
Proof.
  intros H. unfold lines. rewrite split_on_lines, drop_last_empty_app.
  - rewrite <- (map_id ls) at 2. apply map_ext_in. intros l Hl.
    rewrite forallb_forall in H. specialize (H _ Hl). unfold line_ok in H.
    apply andb_true_iff in H as [_ H]. apply strip_cr_id. destruct (last l 0 =? 13); [discriminate|reflexivity].
  - rewrite forallb_forall in *. intros l Hl. specialize (H _ Hl).
    unfold line_ok in H. apply andb_true_iff in H as [H _]. exact H.
Qed.

(** A text is its lines, each followed by newline, when it ends with one. *)
Lemma forallb_app_iff {A} (f : A -> bool) l1 l2 :
  forallb f (l1 ++ l2) = forallb f l1 && forallb f l2.
Proof. apply forallb_app. Qed.

Lemma forallb_Forall {A} (f : A -> bool) l : forallb f l = true <-> Forall (fun x => f x = true) l.
Proof. rewrite forallb_forall, Forall_forall. reflexivity. Qed.

Lemma length_lit s : length (lit s) = String.length s.
Proof. induction s as [|a s IH]; cbn; [reflexivity|]. now rewrite IH. Qed.

Lemma lit_inj a b : lit a = lit b -> a = b.
Proof.
  revert b; induction a as [|x a IH]; intros [|y b]; cbn; try congruence.
  intros [= H1 H2]. apply IH in H2. subst.
  rewrite <- (ascii_N_embedding x), <- (ascii_N_embedding y), H1. reflexivity.
Qed.

(** Joining the pieces of a split gives the text back. *)
Fixpoint join (sep : str) (l : list str) : str :=
  match l with
  | [] => []
  | [w] => w
  | w :: r => w ++ sep ++ join sep r
  end.
Lemma join_split c s : join [c] (split_on (N.eqb c) s) = s.
Proof.
  induction s as [|x s IH]; [reflexivity|].
  cbn [split_on]. pose proof (split_on_nonnil (N.eqb c) s) as Hn.
  destruct (N.eqb_spec c x) as [->|].
  - destruct (split_on (N.eqb x) s) as [|w ws]; [contradiction|].
    cbn [join app] in *. now rewrite IH.
  - destruct (split_on (N.eqb c) s) as [|w [|w2 ws]]; [contradiction| |]; cbn [join app] in *; now rewrite IH.
Qed.
Lemma split_on_ext p q s : (forall c, p c = q c) -> split_on p s = split_on q s.
Proof. intros H; induction s as [|c s IH]; cbn [split_on]; [reflexivity|]; now rewrite H, IH. Qed.
