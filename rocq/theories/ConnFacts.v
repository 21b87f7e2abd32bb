(** Facts about what is connected on a board (C103). *)
From Coq Require Import List ZArith Lia String.
From Verif Require Import Base Str StrFacts FpData LyData LyOps LySpec LyNetFacts AlgBoard ConnSpec.
Import ListNotations.
Open Scope string_scope. Open Scope list_scope.

Lemma pad_snd e : map snd (pad_places e) = pad_net_names e.
Proof. destruct e; try reflexivity. cbn. destruct (pa_net p); reflexivity. Qed.
Lemma flat_map_map {A B C} (g : B -> C) (f : A -> list B) l : map g (flat_map f l) = flat_map (fun x => map g (f x)) l.
Proof. induction l as [|x l IH]; [reflexivity|]. cbn. now rewrite map_app, IH. Qed.
Lemma flat_same {A B} (f g : A -> list B) l : (forall x, f x = g x) -> flat_map f l = flat_map g l.
Proof. intros H. induction l as [|x l IH]; [reflexivity|]. cbn. now rewrite H, IH. Qed.
Lemma places_snd e : map snd (places e) = net_names e.
Proof.
  destruct e; try reflexivity; cbn.
  - rewrite flat_map_map. apply flat_same. exact pad_snd.
  - rewrite map_map. cbn. apply map_id.
Qed.
Lemma board_snd l : map snd (board_places l) = layout_names l.
Proof. unfold board_places, layout_names. rewrite flat_map_map. apply flat_same. exact places_snd. Qed.
Lemma pad_fst e : map fst (pad_places (hide_pad e)) = map fst (pad_places e).
Proof. destruct e; try reflexivity. match goal with p : pad |- _ => destruct p as [? ? ? ? ? ? ? net ? ? ? ? ? ?]; destruct net; reflexivity end. Qed.
Lemma places_fst e : map fst (places (hide_names e)) = map fst (places e).
Proof.
  destruct e; try reflexivity.
  - cbn [hide_names places m_elements]. rewrite !flat_map_map. induction (m_elements m) as [|x l IH]; [reflexivity|]. cbn. now rewrite pad_fst, IH.
  - destruct n. cbn. now rewrite !map_map.
  - destruct z. reflexivity.
Qed.
Lemma hidden_fst a b : map hide_names a = map hide_names b -> map fst (flat_map places a) = map fst (flat_map places b).
Proof.
  assert (K : forall l, map fst (flat_map places l) = map fst (flat_map places (map hide_names l))).
  { intros l. rewrite !flat_map_map. induction l as [|x l IH]; [reflexivity|]. cbn. now rewrite places_fst, IH. }
  intros H. now rewrite (K a), H, <- K.
Qed.
Lemma pairs_ext {A B} (a b : list (A * B)) : map fst a = map fst b -> map snd a = map snd b -> a = b.
Proof.
  revert b. induction a as [|[x y] a IH]; intros [|[x' y'] b] F S; try discriminate; [reflexivity|]. cbn in F, S.
  injection F as -> F. injection S as -> S. f_equal. now apply IH.
Qed.
Definition upd (f : str -> str) (p : option Z * str) : option Z * str := (fst p, f (snd p)).
Lemma places_map l l' f : layout_names l' = map f (layout_names l) -> map hide_names (ly_elements l') = map hide_names (ly_elements l) ->
  board_places l' = map (upd f) (board_places l).
Proof.
  intros N H. apply pairs_ext.
  - rewrite map_map. cbn. exact (hidden_fst _ _ H).
  - rewrite map_map. cbn. rewrite board_snd, N, <- board_snd, map_map. reflexivity.
Qed.

(** Declarations *)
Lemma declared_in l k n : declares l k n -> In (Some k, n) (board_places l).
Proof. intros (x & I & <- & <-). apply in_flat_map. exists (YNet x). split; [exact I|]. now left. Qed.
Lemma hide_net e k : hide_names e = YNet (mk_net k []) -> exists n, e = YNet (mk_net k n).
Proof. destruct e; try discriminate; [|destruct n; discriminate|destruct z; discriminate]. destruct n as [j m]. cbn. intros [= ->]. now exists m. Qed.
Lemma declares_map a : forall b f, map hide_names b = map hide_names a -> flat_map net_names b = map f (flat_map net_names a) ->
  forall k n, In (YNet (mk_net k n)) a -> In (YNet (mk_net k (f n))) b.
Proof.
  induction a as [|x a IH]; intros [|y b] f H N k n I; try discriminate; [destruct I|].
  cbn [map flat_map] in *. assert (Hx : hide_names y = hide_names x) by congruence. assert (Ha : map hide_names b = map hide_names a) by congruence.
  pose proof (hide_length _ _ Hx) as L. rewrite map_app in N.
  assert (M : length (net_names y) = length (map f (net_names x))) by now rewrite map_length.
  assert (Q : net_names y = map f (net_names x) /\ flat_map net_names b = map f (flat_map net_names a)).
  { apply (f_equal (fun l => (firstn (length (net_names y)) l, skipn (length (net_names y)) l))) in N.
    rewrite firstn_app, skipn_app, firstn_all, skipn_all, Nat.sub_diag in N. rewrite M, firstn_app, skipn_app, firstn_all, skipn_all, Nat.sub_diag in N.
    cbn [firstn skipn app] in N. rewrite !app_nil_r in N. injection N as N1 N2. now split. }
  destruct Q as [Q1 Q2]. destruct I as [-> |I].
  - left. destruct (hide_net y k Hx) as [m ->]. cbn in Q1. injection Q1 as ->. reflexivity.
  - right. exact (IH b f Ha Q2 k n I).
Qed.
Lemma declares_upd l l' f : layout_names l' = map f (layout_names l) -> map hide_names (ly_elements l') = map hide_names (ly_elements l) ->
  forall k n, declares l k n -> declares l' k (f n).
Proof.
  intros N H k n (x & I & <- & <-). exists (mk_net (ne_num x) (f (ne_name x))). split; [|now split].
  apply (declares_map (ly_elements l) (ly_elements l') f H N). destruct x; exact I.
Qed.

Section update.
Context (l l' : layout) (f : str -> str) (N : layout_names l' = map f (layout_names l)) (H : map hide_names (ly_elements l') = map hide_names (ly_elements l)).
Lemma in_upd k n : In (k, n) (board_places l') <-> exists m, In (k, m) (board_places l) /\ n = f m.
Proof.
  rewrite (places_map l l' f N H). rewrite in_map_iff. split.
  - intros ([j m] & E & I). unfold upd in E. cbn in E. injection E as -> <-. now exists m.
  - intros (m & I & ->). now exists (k, m).
Qed.
Lemma upd_one_name : one_name l -> one_name l'.
Proof. intros O k a b A B. apply in_upd in A as (x & A & ->). apply in_upd in B as (y & B & ->). now rewrite (O k x y A B). Qed.
Lemma upd_declared : all_declared l -> all_declared l'.
Proof.
  intros [D E]. split.
  - intros k n I. apply in_upd in I as (m & I & ->). apply (declares_upd l l' f N H). exact (D k m I).
  - intros n I. apply in_upd in I as (m & I & ->). destruct (E m I) as [k K]. exists k. now apply (declares_upd l l' f N H).
Qed.
Lemma at_upd i n : named_at l' i n <-> exists m, named_at l i m /\ n = f m.
Proof.
  unfold named_at. rewrite (places_map l l' f N H), nth_error_map. split.
  - intros [k E]. destruct (nth_error (board_places l) i) as [[j m]|]; [|discriminate]. unfold upd in E. cbn in E. injection E as -> <-. exists m. split; [now exists k|reflexivity].
  - intros (m & [k ->] & ->). now exists k.
Qed.
Lemma at_fun i a b : named_at l i a -> named_at l i b -> a = b.
Proof. intros [j A] [k B]. congruence. Qed.
Lemma at_use i n : named_at l i n -> in_use l n.
Proof. intros [k E]. exists k. now apply nth_error_In in E. Qed.
Lemma use_at n : in_use l n -> exists i, named_at l i n.
Proof. intros [k I]. apply In_nth_error in I as [i E]. exists i. now exists k. Qed.
(** The connections are the same exactly if no two names that are in use become one. *)
Lemma joined_iff : (forall i j, joined l' i j <-> joined l i j) <-> forall a b, in_use l a -> in_use l b -> f a = f b -> a = b.
Proof.
  split.
  - intros J a b A B E. destruct (use_at a A) as [i I]. destruct (use_at b B) as [j K].
    assert (X : joined l' i j) by (exists (f a); split; apply at_upd; [now exists a|exists b; now split]).
    apply J in X as (n & P & Q). rewrite (at_fun i a n I P). now apply (at_fun j).
  - intros F i j. split.
    + intros (n & P & Q). apply at_upd in P as (a & P & ->). apply at_upd in Q as (b & Q & E).
      rewrite (F a b (at_use i a P) (at_use j b Q) E) in P. now exists b.
    + intros (n & P & Q). exists (f n). split; apply at_upd; now exists n.
Qed.
End update.

Section rename.
Context (l l' : layout) (old new : str) (E : change_net_name old new l = Ok l').
Let f := fun n => if str_eqb n old then new else n.
Lemma ren_old : f old = new.
Proof. unfold f. now rewrite str_eqb_refl. Qed.
Lemma ren_other n : n <> old -> f n = n.
Proof. intros D. unfold f. now rewrite (neq_false n old D). Qed.
Lemma ren_views : layout_names l' = map f (layout_names l) /\ map hide_names (ly_elements l') = map hide_names (ly_elements l).
Proof. destruct (change_net_name_spec old new l) as (k & K & N & H & _). rewrite E in K. injection K as <-. now split. Qed.
Theorem rename_numbers : map fst (board_places l') = map fst (board_places l).
Proof. destruct ren_views as [N H]. rewrite (places_map l l' f N H), map_map. reflexivity. Qed.
Theorem rename_one_name : one_name l -> one_name l'.
Proof. destruct ren_views as [N H]. exact (upd_one_name l l' f N H). Qed.
Theorem rename_declared : all_declared l -> all_declared l'.
Proof. destruct ren_views as [N H]. exact (upd_declared l l' f N H). Qed.
Theorem rename_one_number : one_number l ->
  (one_number l' <-> forall j k, In (Some j, old) (board_places l) -> In (Some k, new) (board_places l) -> j = k).
Proof.
  destruct ren_views as [N H]. pose proof (in_upd l l' f N H) as U. intros O. split.
  - intros O' j k A B. apply (O' new).
    + apply U. exists old. split; [exact A|symmetry; exact ren_old].
    + apply U. destruct (str_eqb_spec new old) as [X|X].
      * exists old. rewrite <- X at 1. split; [exact B|symmetry; exact ren_old].
      * exists new. split; [exact B|symmetry; now apply ren_other].
  - intros S n j k A B. apply U in A as (a & A & EA). apply U in B as (b & B & EB).
    destruct (str_eqb_spec a old) as [-> |X]; destruct (str_eqb_spec b old) as [-> |Y].
    + exact (O old j k A B).
    + rewrite ren_old in EA. rewrite (ren_other b Y) in EB. apply S; [exact A|]. now rewrite <- EA, EB.
    + rewrite ren_old in EB. rewrite (ren_other a X) in EA. symmetry. apply S; [exact B|]. now rewrite <- EB, EA.
    + rewrite (ren_other a X) in EA. rewrite (ren_other b Y) in EB. apply (O n); congruence.
Qed.
Theorem rename_joined i j : joined l' i j <->
  joined l i j \/ (named_at l i old /\ named_at l j new) \/ (named_at l i new /\ named_at l j old).
Proof.
  destruct ren_views as [N H]. pose proof (at_upd l l' f N H) as U. split.
  - intros (n & A & B). apply U in A as (a & A & EA). apply U in B as (b & B & EB).
    destruct (str_eqb_spec a old) as [-> |X]; destruct (str_eqb_spec b old) as [-> |Y].
    + left. now exists old.
    + rewrite ren_old in EA. rewrite (ren_other b Y) in EB. right. left. split; [exact A|]. now rewrite <- EA, EB.
    + rewrite ren_old in EB. rewrite (ren_other a X) in EA. right. right. split; [|exact B]. now rewrite <- EB, EA.
    + rewrite (ren_other a X) in EA. rewrite (ren_other b Y) in EB. left. exists n. split; congruence.
  - assert (W : f new = new) by (unfold f; destruct (str_eqb new old); reflexivity).
    intros [(n & A & B)|[[A B]|[A B]]].
    + exists (f n). split; apply U; now exists n.
    + exists new. split; apply U; [exists old|exists new]; split; auto; symmetry; auto; exact ren_old.
    + exists new. split; apply U; [exists new|exists old]; split; auto; symmetry; auto; exact ren_old.
Qed.
Theorem rename_fresh : (old = new \/ ~ in_use l old \/ ~ in_use l new) <-> forall i j, joined l' i j <-> joined l i j.
Proof.
  destruct ren_views as [N H]. split.
  - intros D i j. rewrite rename_joined. split; [|now left]. intros [J|[[A B]|[A B]]]; [exact J| |].
    + destruct D as [D|[D|D]]; [subst new; now exists old| |]; exfalso; apply D; eauto using at_use.
    + destruct D as [D|[D|D]]; [subst new; now exists old| |]; exfalso; apply D; eauto using at_use.
  - intros J0. pose proof (proj1 (joined_iff l l' f N H) J0) as J.
    destruct (str_eqb_spec old new) as [X|X]; [now left|]. right.
    assert (DA : in_use l old \/ ~ in_use l old).
    { destruct (in_dec (list_eq_dec N.eq_dec) old (map snd (board_places l))) as [I|I].
      - left. apply in_map_iff in I as ([k n] & Q & I). cbn in Q. subst n. now exists k.
      - right. intros [k K]. apply I. apply in_map_iff. now exists (k, old). }
    destruct DA as [A|A]; [|now left]. right. intros B. apply X. apply (J old new A B). rewrite ren_old. unfold f. now destruct (str_eqb new old).
Qed.
End rename.

Section any.
Context (l l' : layout) (u : name_update) (E : update_net_names u l = (l', None)).
Let f := fun n => fst (u n).
Theorem update_keeps : map fst (board_places l') = map fst (board_places l) /\ (one_name l -> one_name l') /\ (all_declared l -> all_declared l').
Proof.
  destruct (update_names_ok u l l' E) as (_ & N & H & _). split; [|split].
  - rewrite (places_map l l' f N H), map_map. reflexivity.
  - exact (upd_one_name l l' f N H).
  - exact (upd_declared l l' f N H).
Qed.
Theorem update_joined : (forall i j, joined l' i j <-> joined l i j) <-> forall a b, in_use l a -> in_use l b -> fst (u a) = fst (u b) -> a = b.
Proof. destruct (update_names_ok u l l' E) as (_ & N & H & _). exact (joined_iff l l' f N H). Qed.
End any.
