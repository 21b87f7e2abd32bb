(** Lemmas about the functions of lib.rs and fp_lib_table.rs. *)
From Coq Require Import String Lia.
From Verif Require Import Base Str Num NumFacts StrFacts Sexp SexpFacts LibFns LibSpec FpLibTable.
Open Scope string_scope. Open Scope list_scope.

(** ** Library tables *)
Lemma rt_flib l : de_flib (ser_flib l) = Ok l.
Proof. destruct l as [n t u o d]. reflexivity. Qed.
Lemma mapM_rt {A B} (f : B -> res A) (g : A -> B) l : (forall x, f (g x) = Ok x) -> mapM f (map g l) = Ok l.
Proof. intros H. induction l as [|x l IH]; cbn [map mapM]; [reflexivity|]. rewrite H. cbn [bind]. rewrite IH. reflexivity. Qed.
Lemma rt_fp_lib_table t : de_fp_lib_table (ser_fp_lib_table t) = Ok t.
Proof.
  unfold de_fp_lib_table, ser_fp_lib_table, node, iter_new, a_lit. cbn [sx_list bind].
  rewrite str_eqb_refl. unfold p_vec. rewrite mapM_rt by apply rt_flib. reflexivity.
Qed.
Lemma flib_extra : exists s l, de_flib s = Ok l /\ ser_flib l <> s.
Proof.
  exists (node "lib" [kv "name" (a_lit "a"); kv "type" (a_lit "b"); kv "uri" (a_lit "c"); kv "options" (a_lit "d");
    kv "descr" (a_lit "e"); kv "disabled" (a_lit "f")]).
  eexists. split; [reflexivity|discriminate].
Qed.

(** ** The splitter *)
Definition at_n (n : option nat) (i : nat) : bool := match n with Some k => Nat.eqb i k | None => false end.

Lemma step_plain n i v seen s w : at_n n i = false ->
  forallb (fun c => negb (N.eqb c 34 || N.eqb c 32)) w = true ->
  fold_left (sp_step n) w (mk_sp i v false seen s) = mk_sp i v false seen (s ++ w).
Proof.
  intros Hn. revert s. induction w as [|c w IH]; intros s H; cbn [fold_left]; [now rewrite app_nil_r|].
  cbn [forallb] in H. apply andb_prop in H as [H1 H2]. apply negb_true_iff, orb_false_iff in H1 as [H1 H1'].
  unfold sp_step at 2. unfold at_n in Hn. rewrite Hn, H1, H1'. cbn [negb andb].
  rewrite IH by assumption. now rewrite <- app_assoc.
Qed.
Lemma step_inside n i v seen s w : at_n n i = false ->
  forallb (fun c => negb (N.eqb c 34)) w = true ->
  fold_left (sp_step n) w (mk_sp i v true seen s) = mk_sp i v true seen (s ++ w).
Proof.
  intros Hn. revert s. induction w as [|c w IH]; intros s H; cbn [fold_left]; [now rewrite app_nil_r|].
  cbn [forallb] in H. apply andb_prop in H as [H1 H2]. apply negb_true_iff in H1.
  unfold sp_step at 2. unfold at_n in Hn. rewrite Hn, H1. cbn [negb andb].
  rewrite IH by assumption. now rewrite <- app_assoc.
Qed.
Definition is_quoted (p : piece) : bool := match p with Quoted _ => true | _ => false end.
Lemma step_piece n i v seen s p : at_n n i = false -> piece_ok p = true ->
  fold_left (sp_step n) (piece_text p) (mk_sp i v false seen s)
  = mk_sp i v false (seen || is_quoted p) (s ++ piece_value p).
Proof.
  intros Hn Hp. destruct p as [w|w]; cbn [piece_ok piece_text piece_value is_quoted] in *.
  - apply andb_prop in Hp as [_ Hp]. rewrite step_plain, orb_false_r by assumption. reflexivity.
  - cbn [fold_left]. unfold sp_step at 2. unfold at_n in Hn. rewrite Hn. cbn [N.eqb Pos.eqb].
    rewrite fold_left_app, step_inside by assumption. cbn [fold_left].
    unfold sp_step. rewrite Hn. cbn [N.eqb Pos.eqb]. now rewrite orb_true_r.
Qed.
Lemma step_word n i v w : forall seen s, at_n n i = false -> forallb piece_ok w = true ->
  fold_left (sp_step n) (word_text w) (mk_sp i v false seen s)
  = mk_sp i v false (seen || existsb is_quoted w) (s ++ word_value w).
Proof.
  induction w as [|p w IH]; intros seen s Hn H; cbn [word_text word_value flat_map existsb].
  - cbn [fold_left]. now rewrite orb_false_r, app_nil_r.
  - cbn [forallb] in H. apply andb_prop in H as [H1 H2].
    rewrite fold_left_app, step_piece by assumption. fold (word_text w).
    rewrite IH by assumption. now rewrite orb_assoc, app_assoc.
Qed.
(** A word leaves something to push. *)
Lemma word_pushes w : word_ok w = true -> negb (is_empty (word_value w)) || existsb is_quoted w = true.
Proof.
  destruct w as [|p w]; [discriminate|]. cbn [word_ok forallb]. intros H. apply andb_prop in H as [H _].
  destruct p as [w'|w']; cbn [piece_ok word_value flat_map piece_value existsb is_quoted] in *.
  - apply andb_prop in H as [H _]. destruct w'; [discriminate|]. reflexivity.
  - apply orb_true_r.
Qed.
Lemma step_blanks n i v k : at_n n i = false ->
  fold_left (sp_step n) (blanks k) (mk_sp i v false false []) = mk_sp i v false false [].
Proof.
  intros Hn. induction k as [|k IH]; [reflexivity|]. cbn [blanks repeat fold_left].
  unfold sp_step at 2. unfold at_n in Hn. rewrite Hn. cbn. exact IH.
Qed.

Lemma step_flush n i v seen s : at_n n i = false -> negb (is_empty s) || seen = true ->
  sp_step n (mk_sp i v false seen s) 32%N = mk_sp (S i) (v ++ [s]) false false [].
Proof. intros Hn H. unfold sp_step. unfold at_n in Hn. rewrite Hn. cbn [N.eqb Pos.eqb negb andb]. now rewrite H. Qed.

Lemma split_spaced l : forall v tail, spaced_ok l = true ->
  fold_left (sp_step None) (spaced l ++ tail) (mk_sp (length v) v false false [])
  = fold_left (sp_step None) tail (mk_sp (length (v ++ values l)) (v ++ values l) false false []).
Proof.
  induction l as [|[w k] l IH]; intros v tail H; cbn [spaced flat_map values map fst snd app].
  - now rewrite app_nil_r.
  - cbn [spaced_ok forallb fst] in H. apply andb_prop in H as [H1 H2].
    assert (H1' : forallb piece_ok w = true) by (destruct w; [discriminate|exact H1]).
    rewrite <- !app_assoc, !fold_left_app, step_word by auto.
    cbn [blanks repeat fold_left]. rewrite step_flush; [|reflexivity|now apply word_pushes].
    cbn [app]. fold (blanks k). rewrite step_blanks by reflexivity.
    rewrite <- fold_left_app. fold (spaced l).
    replace (S (length v)) with (length (v ++ [word_value w])) by (rewrite app_length; cbn; lia).
    rewrite IH by assumption. rewrite <- app_assoc. reflexivity.
Qed.

(** Words and blanks in any arrangement. *)
Lemma split_words k l w m : spaced_ok l = true -> word_ok w = true ->
  split_quote_aware (blanks k ++ spaced l ++ word_text w ++ blanks m) = Ok (values l ++ [word_value w]).
Proof.
  intros Hl Hw. assert (Hw' : forallb piece_ok w = true) by (destruct w; [discriminate|exact Hw]).
  unfold split_quote_aware, split_quote_aware_int. rewrite fold_left_app, step_blanks by reflexivity.
  change 0%nat with (length (@nil str)). rewrite split_spaced by assumption.
  rewrite fold_left_app, step_word by auto. cbn [app orb].
  pose proof (word_pushes w Hw) as P.
  destruct m as [|m]; cbn [blanks repeat fold_left].
  - cbn [sp_s sp_seen sp_v]. rewrite P. reflexivity.
  - rewrite step_flush by auto. fold (blanks m). rewrite step_blanks by reflexivity. reflexivity.
Qed.
Lemma split_blank k : split_quote_aware (blanks k) = Ok [].
Proof. unfold split_quote_aware, split_quote_aware_int. rewrite step_blanks by reflexivity. reflexivity. Qed.

(** Words and quoted values separated by single blanks. *)
Lemma one_blank_spaced l p : one_blank (l ++ [p]) = spaced (map (fun q => ([q], O)) l) ++ piece_text p.
Proof.
  induction l as [|q l IH]; [reflexivity|]. cbn [map spaced flat_map fst snd word_text].
  rewrite app_nil_r. cbn [blanks repeat]. rewrite <- app_assoc.
  transitivity (piece_text q ++ 32%N :: one_blank (l ++ [p])).
  - cbn [app one_blank]. destruct (l ++ [p]) eqn:E; [destruct l; discriminate|reflexivity].
  - rewrite IH, <- app_assoc. reflexivity.
Qed.
Lemma split_one_blank l : forallb piece_ok l = true -> split_quote_aware (one_blank l) = Ok (map piece_value l).
Proof.
  intros H. destruct l as [|p l] using rev_ind; [apply (split_blank 0)|]. clear IHl.
  rewrite forallb_app in H. apply andb_prop in H as [H1 H2]. cbn [forallb] in H2.
  rewrite one_blank_spaced, map_app. cbn [map].
  pose proof (split_words 0 (map (fun q => ([q], O)) l) [p] 0) as S.
  cbn [blanks repeat app word_text flat_map] in S. rewrite !app_nil_r in S. rewrite S.
  - f_equal. f_equal.
    + unfold values. rewrite map_map. apply map_ext. intros q. cbn. apply app_nil_r.
    + cbn. now rewrite app_nil_r.
  - unfold spaced_ok. rewrite forallb_forall in *. intros x Hx. apply in_map_iff in Hx as (q & <- & Hq).
    cbn. now rewrite H1.
  - cbn. exact H2.
Qed.

(** With a count: after that many words the rest is kept as it is. *)
Lemma step_rest n v s w : forall seen, fold_left (sp_step (Some n)) w (mk_sp n v false seen s) = mk_sp n v false seen (s ++ w).
Proof.
  revert s. induction w as [|c w IH]; intros s seen; cbn [fold_left]; [now rewrite app_nil_r|].
  unfold sp_step at 2. rewrite Nat.eqb_refl, IH, <- app_assoc. reflexivity.
Qed.
Lemma split_n_prefix n l : forall v tail, spaced_ok l = true -> (length v + length l <= n)%nat ->
  (forall w k, l <> [] -> In (w, k) [last l ([], O)] -> k = O) ->
  fold_left (sp_step (Some n)) (spaced l ++ tail) (mk_sp (length v) v false false [])
  = fold_left (sp_step (Some n)) tail (mk_sp (length (v ++ values l)) (v ++ values l) false false []).
Proof.
  induction l as [|[w k] l IH]; intros v tail H Hn Hk; cbn [spaced flat_map values map fst snd app].
  - now rewrite app_nil_r.
  - cbn [spaced_ok forallb fst] in H. apply andb_prop in H as [H1 H2].
    cbn [length] in Hn.
    assert (H1' : forallb piece_ok w = true) by (destruct w; [discriminate|exact H1]).
    assert (Hi : at_n (Some n) (length v) = false) by (unfold at_n; apply Nat.eqb_neq; lia).
    rewrite <- !app_assoc, !fold_left_app, step_word by auto.
    cbn [blanks repeat fold_left]. rewrite step_flush; [|exact Hi|now apply word_pushes].
    cbn [app]. fold (blanks k).
    assert (Hb : fold_left (sp_step (Some n)) (blanks k) (mk_sp (S (length v)) (v ++ [word_value w]) false false [])
                 = mk_sp (S (length v)) (v ++ [word_value w]) false false []).
    { destruct l as [|x l].
      - rewrite (Hk w k); [reflexivity|discriminate|now left].
      - apply step_blanks. unfold at_n. apply Nat.eqb_neq. cbn [length] in Hn. lia. }
    match goal with |- fold_left _ _ (fold_left _ _ ?X) = _ =>
      replace X with (mk_sp (S (length v)) (v ++ [word_value w]) false false []) by (symmetry; exact Hb) end.
    rewrite <- fold_left_app. fold (spaced l).
    replace (S (length v)) with (length (v ++ [word_value w])) by (rewrite app_length; cbn; lia).
    rewrite IH.
    + rewrite <- app_assoc. reflexivity.
    + assumption.
    + rewrite app_length; cbn; lia.
    + intros w' k' Hne Hin. apply (Hk w' k'); [discriminate|]. destruct l; [contradiction|exact Hin].
Qed.

Definition single (l : list word) : list (word * nat) := map (fun w => (w, O)) l.
Lemma last_single l : forall w k, single l <> [] -> In (w, k) [last (single l) ([], O)] -> k = O.
Proof.
  induction l as [|x l IH]; intros w k H Hin; [contradiction|]. destruct l as [|y l].
  - destruct Hin as [[= _ <-]|[]]. reflexivity.
  - apply (IH w k); [discriminate|exact Hin].
Qed.
Lemma single_ok l : forallb word_ok l = true -> spaced_ok (single l) = true.
Proof.
  unfold spaced_ok, single. rewrite !forallb_forall. intros H x Hx. apply in_map_iff in Hx as (q & <- & Hq). auto.
Qed.
Lemma single_values l : values (single l) = map word_value l.
Proof. unfold values, single. rewrite map_map. reflexivity. Qed.

Lemma split_n_rest l rest : forallb word_ok l = true ->
  split_quote_aware_n (length l) (spaced (single l) ++ rest)
  = Ok (map word_value l ++ match rest with [] => [] | _ => [rest] end).
Proof.
  intros H. unfold split_quote_aware_n, split_quote_aware_int.
  change 0%nat with (length (@nil str)).
  rewrite split_n_prefix; [|now apply single_ok|unfold single; rewrite map_length; cbn; lia|apply last_single].
  rewrite single_values. cbn [app]. rewrite map_length, step_rest. cbn [sp_s sp_seen sp_v app].
  destruct rest as [|c r]; cbn [is_empty negb orb].
  - rewrite map_length, Nat.ltb_irrefl, app_nil_r. reflexivity.
  - rewrite app_length, map_length. cbn [length].
    destruct (Nat.ltb_spec (length l + 1) (length l)); [lia|reflexivity].
Qed.
(** Too few words are an error. *)
Lemma split_n_few n l w : spaced_ok l = true -> word_ok w = true -> (S (length l) < n)%nat ->
  split_quote_aware_n n (spaced (map (fun p => (fst p, O)) l) ++ word_text w) = Err EOther.
Proof.
  intros Hl Hw Hn. assert (Hw' : forallb piece_ok w = true) by (destruct w; [discriminate|exact Hw]).
  replace (map (fun p : word * nat => (fst p, O)) l) with (single (map fst l)) by (unfold single; now rewrite map_map).
  assert (Hl' : forallb word_ok (map fst l) = true).
  { unfold spaced_ok in Hl. rewrite forallb_forall in *. intros x Hx. apply in_map_iff in Hx as (q & <- & Hq). auto. }
  unfold split_quote_aware_n, split_quote_aware_int. change 0%nat with (length (@nil str)).
  rewrite split_n_prefix; [|now apply single_ok|unfold single; rewrite !map_length; cbn; lia|apply last_single].
  rewrite single_values. cbn [app]. rewrite step_word; [|unfold at_n; apply Nat.eqb_neq; rewrite !map_length; lia|auto].
  cbn [sp_s sp_seen sp_v app orb]. rewrite (word_pushes w Hw).
  rewrite app_length, !map_length. cbn [length]. destruct (Nat.ltb_spec (length l + 1) n); [reflexivity|lia].
Qed.

(** ** Sort key of references *)
Lemma ref_digits_plain p s : forallb (fun c => no_digit c && no_comma c) p = true ->
  ref_digits (p ++ s) = ref_digits s.
Proof.
  induction p as [|c p IH]; cbn [app ref_digits forallb]; intros H; [reflexivity|].
  apply andb_prop in H as [H1 H2]. apply andb_prop in H1 as [H1 H3].
  unfold no_digit, no_comma in *. apply negb_true_iff in H1, H3. rewrite H3, H1. now apply IH.
Qed.
Lemma ref_digits_digits d : Forall (fun c => is_dec_digit c = true) d -> ref_digits d = d.
Proof.
  induction 1 as [|c d H _ IH]; cbn [ref_digits]; [reflexivity|].
  unfold is_dec_digit in H. destruct (N.eqb_spec c 44) as [->|]; [discriminate|]. rewrite H, IH. reflexivity.
Qed.
Lemma ref_digits_comma a b : ref_digits (a ++ 44%N :: b) = ref_digits (a ++ [44%N]).
Proof. induction a as [|c a IH]; cbn [app ref_digits]; [reflexivity|]. now rewrite IH. Qed.
Lemma ref_digits_comma' a : ref_digits (a ++ [44%N]) = ref_digits a.
Proof. induction a as [|c a IH]; cbn [app ref_digits]; [reflexivity|]. now rewrite IH. Qed.

Lemma reference_ord_value c p n : forallb (fun c => no_digit c && no_comma c) (c :: p) = true ->
  (0 <= n < 2 ^ 63)%Z -> reference_ord (c :: p ++ show_Z n) = Ok (c, n).
Proof.
  intros H Hn. unfold reference_ord. change (c :: p ++ show_Z n) with ((c :: p) ++ show_Z n).
  rewrite ref_digits_plain by assumption.
  assert (S : show_Z n = show_N (Z.abs_N n)) by (unfold show_Z; destruct (Z.ltb_spec n 0); [lia|reflexivity]).
  rewrite ref_digits_digits by (rewrite S; apply show_N_digits).
  rewrite i64_roundtrip_range by lia. reflexivity.
Qed.
Lemma reference_ord_list a b : a <> [] -> reference_ord (a ++ 44%N :: b) = reference_ord a.
Proof.
  destruct a as [|c a]; [contradiction|]. intros _. unfold reference_ord.
  change ((c :: a) ++ 44%N :: b) with (c :: a ++ 44%N :: b).
  change (c :: a ++ 44%N :: b) with ((c :: a) ++ 44%N :: b).
  rewrite ref_digits_comma, ref_digits_comma'. reflexivity.
Qed.
Lemma reference_ord_order c p q m n : forallb (fun c => no_digit c && no_comma c) (c :: p ++ q) = true ->
  (0 <= m < 2 ^ 63)%Z -> (0 <= n < 2 ^ 63)%Z ->
  exists a b, reference_ord (c :: p ++ show_Z m) = Ok a /\ reference_ord (c :: q ++ show_Z n) = Ok b
    /\ (key_le a b <-> (m <= n)%Z).
Proof.
  intros H Hm Hn. cbn [forallb] in H. apply andb_prop in H as [H0 H]. rewrite forallb_app in H.
  apply andb_prop in H as [H1 H2].
  exists (c, m), (c, n). split; [apply reference_ord_value; [cbn [forallb]; now rewrite H0, H1|exact Hm]|].
  split; [apply reference_ord_value; [cbn [forallb]; now rewrite H0, H2|exact Hn]|].
  unfold key_le; cbn [fst snd]. split; [intros [?|[_ ?]]; lia|auto].
Qed.
Lemma reference_ord_total r : r <> [] -> exists k, reference_ord r = Ok k /\ hd 0%N r = fst k /\ (0 <= snd k < 2 ^ 63)%Z.
Proof.
  destruct r as [|c r]; [contradiction|]. intros _. unfold reference_ord. eexists. split; [reflexivity|].
  split; [reflexivity|]. cbn [snd].
  assert (D : Forall (fun c => is_dec_digit c = true) (ref_digits (c :: r))).
  { induction (c :: r) as [|d s IH]; [constructor|]. cbn [ref_digits]. destruct (N.eqb d 44); [constructor|].
    destruct ((48 <=? d) && (d <=? 57))%N eqn:E; [constructor; [exact E|exact IH]|exact IH]. }
  destruct (i64_of_str (ref_digits (c :: r))) as [n|] eqn:E; [|lia].
  pose proof (i64_of_str_bounds _ _ E) as B. split; [|lia].
  unfold i64_of_str, parse_int in E. destruct (ref_digits (c :: r)) as [|d s]; [discriminate|].
  inversion D; subst. unfold is_dec_digit in H1.
  destruct (N.eqb_spec d 45) as [->|_]; [discriminate|]. destruct (N.eqb_spec d 43) as [->|_]; [discriminate|].
  destruct (digits_of_str 10 (d :: s)); [|discriminate]. destruct (i64_ok _); [|discriminate]. injection E as <-. lia.
Qed.

Lemma project_iff s d : parse_project s = Ok d <-> d = s /\ exists r, s = lit "update=" ++ r.
Proof.
  unfold parse_project. assert (SW : starts_with (lit "update=") s = true <-> exists r, s = lit "update=" ++ r).
  { generalize (lit "update="). intros p. revert s. induction p as [|x p IH]; intros s; cbn [starts_with].
    - split; [intros _; now exists s|auto].
    - destruct s as [|y s].
      + split; [discriminate|intros [r [=]]].
      + rewrite andb_true_iff, N.eqb_eq, IH. split.
        * intros [-> [r ->]]. now exists r.
        * intros [r [= -> ->]]. eauto. }
  rewrite <- SW. destruct (starts_with (lit "update=") s); cbn; split; try discriminate.
  - intros [= ->]. auto.
  - intros [-> _]. reflexivity.
  - intros [_ [=]].
Qed.
