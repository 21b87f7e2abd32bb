(** Lemmas about the lines of schematics: splitting them and line ends. *)
From Coq Require Import String Lia.
From Verif Require Import Base Str StrFacts Num NumFacts F64 F64Text F64Facts LibFns LibSpec LibFacts SchData SchPrint SchParse SchWf.
Open Scope string_scope. Open Scope list_scope.

(** ** [split_whitespace] *)
Lemma split_ws_skip c s : is_ws c = true -> split_ws (c :: s) = split_ws s.
Proof. intros H. unfold split_ws. cbn [split_on]. rewrite H. reflexivity. Qed.
Lemma split_ws_blanks k s : split_ws (blanks k ++ s) = split_ws s.
Proof. induction k as [|k IH]; [reflexivity|]. cbn [blanks repeat app]. rewrite split_ws_skip by reflexivity. exact IH. Qed.
Lemma split_ws_cons w c s : ws_word w = true -> is_ws c = true -> split_ws (w ++ c :: s) = w :: split_ws s.
Proof.
  unfold ws_word. intros H Hc. apply andb_prop in H as [H1 H2]. unfold split_ws.
  rewrite split_on_sep by assumption. cbn [filter]. rewrite H1. reflexivity.
Qed.
Lemma split_ws_last w : ws_word w = true -> split_ws w = [w].
Proof.
  unfold ws_word. intros H. apply andb_prop in H as [H1 H2]. unfold split_ws. rewrite split_on_none by assumption.
  cbn [filter]. now rewrite H1.
Qed.
(** A padded word before a blank *)
Lemma split_ws_pad n w s : ws_word w = true -> split_ws (pad_right n w ++ 32%N :: s) = w :: split_ws s.
Proof.
  intros H. unfold pad_right. rewrite <- app_assoc. destruct (n - length w)%nat as [|k].
  - cbn [repeat app]. now apply split_ws_cons.
  - cbn [repeat app]. rewrite split_ws_cons by (assumption || reflexivity). f_equal.
    change (repeat 32%N k) with (blanks k). rewrite split_ws_blanks. now apply split_ws_skip.
Qed.
Lemma split_ws_pad_last n w : ws_word w = true -> split_ws (pad_right n w) = [w].
Proof.
  intros H. unfold pad_right. destruct (n - length w)%nat as [|k]; [rewrite app_nil_r; now apply split_ws_last|].
  cbn [repeat]. rewrite split_ws_cons by (assumption || reflexivity). f_equal.
  change (repeat 32%N k) with (blanks k). rewrite <- (app_nil_r (blanks k)), split_ws_blanks. reflexivity.
Qed.

Lemma digits_ws s (p : N -> bool) : s <> [] -> Forall (fun c => p c = true) s -> (forall c, p c = true -> is_ws c = false) -> ws_word s = true.
Proof.
  intros Hn HF Hp. unfold ws_word. destruct s as [|c s]; [contradiction|]. cbn [is_empty negb andb].
  rewrite forallb_forall. rewrite Forall_forall in HF. intros x Hx. now rewrite (Hp x) by auto.
Qed.
Lemma ws_range c : (c < 128)%N -> (33 <= c)%N -> is_ws c = false.
Proof.
  intros H1 H2. unfold is_ws.
  repeat match goal with |- context [(?a <=? ?b)%N] => destruct (N.leb_spec a b); try lia
                       | |- context [(?a =? ?b)%N] => destruct (N.eqb_spec a b); try lia end; reflexivity.
Qed.
Definition num_char (c : N) : bool := is_dec_digit c || N.eqb c 45.
Lemma num_char_range c : num_char c = true -> (45 <= c < 58)%N.
Proof.
  unfold num_char, is_dec_digit. intros H. apply orb_true_iff in H as [H|H].
  - apply andb_prop in H as [H1 H2]. apply N.leb_le in H1, H2. lia.
  - apply N.eqb_eq in H. lia.
Qed.
Lemma ws_num z : ws_word (show_Z z) = true.
Proof.
  apply (digits_ws _ num_char); [apply show_Z_nonnil|apply show_Z_chars|]. intros c H. apply num_char_range in H.
  apply ws_range; lia.
Qed.

(** Characters of numbers *)
Lemma word_of_chars s (p : N -> bool) : s <> [] -> Forall (fun c => p c = true) s ->
  (forall c, p c = true -> c <> 34%N /\ c <> 32%N) -> word_str s = true.
Proof.
  intros Hn HF Hp. unfold word_str. destruct s as [|c s]; [contradiction|]. cbn [is_empty negb andb].
  rewrite forallb_forall. rewrite Forall_forall in HF. intros x Hx. destruct (Hp x (HF x Hx)) as [H1 H2].
  apply N.eqb_neq in H1, H2. now rewrite H1, H2.
Qed.
Lemma word_num z : word_str (show_Z z) = true.
Proof.
  apply (word_of_chars _ num_char); [apply show_Z_nonnil|apply show_Z_chars|]. intros c H. apply num_char_range in H. lia.
Qed.
Lemma word_f x : word_str (f64_to_str x) = true.
Proof.
  apply (word_of_chars _ float_char); [apply f64_to_str_nonnil|apply f64_to_str_chars|].
  intros c H; split; intros ->; discriminate.
Qed.

Lemma last_in (s : str) d : s <> [] -> In (last s d) s.
Proof.
  induction s as [|c s IH]; [contradiction|]. intros _. destruct s as [|c' s]; [now left|].
  right. apply IH. discriminate.
Qed.
Lemma line_of_chars s (p : N -> bool) : Forall (fun c => p c = true) s ->
  (forall c, p c = true -> c <> 10%N /\ c <> 13%N) -> line_ok s = true.
Proof.
  intros HF Hp. rewrite Forall_forall in HF. unfold line_ok. apply andb_true_intro; split.
  - unfold no_nl. rewrite forallb_forall. intros x Hx. apply negb_true_iff, N.eqb_neq. apply Hp. auto.
  - apply negb_true_iff, N.eqb_neq. destruct s as [|c s]; [discriminate|]. apply Hp, HF, last_in. discriminate.
Qed.
Lemma line_num z : line_ok (show_Z z) = true.
Proof. apply (line_of_chars _ num_char); [apply show_Z_chars|]. intros c H. apply num_char_range in H. lia. Qed.
Lemma line_f x : line_ok (f64_to_str x) = true.
Proof. apply (line_of_chars _ float_char); [apply f64_to_str_chars|]. intros c H; split; intros ->; discriminate. Qed.
Lemma line_no_nl s : line_ok s = true -> no_nl s = true.
Proof. unfold line_ok. intros H. now apply andb_prop in H as [H _]. Qed.
Lemma nl_app s t : no_nl s = true -> no_nl t = true -> no_nl (s ++ t) = true.
Proof. unfold no_nl. rewrite forallb_app. now intros -> ->. Qed.
Lemma last_app_ne (s t : str) d : t <> [] -> last (s ++ t) d = last t d.
Proof.
  intros H. induction s as [|c s IH]; [reflexivity|]. cbn [app]. destruct (s ++ t) eqn:E.
  - destruct s; [|discriminate]. cbn in E. contradiction.
  - rewrite <- IH. reflexivity.
Qed.
Lemma line_app s t : no_nl s = true -> t <> [] -> line_ok t = true -> line_ok (s ++ t) = true.
Proof.
  intros Hs Hn Ht. unfold line_ok in *. apply andb_prop in Ht as [H1 H2].
  rewrite nl_app, last_app_ne by assumption. exact H2.
Qed.
Lemma line_app' s t : line_ok s = true -> line_ok t = true -> line_ok (s ++ t) = true.
Proof.
  intros Hs Ht. destruct t as [|c t]; [now rewrite app_nil_r|]. apply line_app; [now apply line_no_nl|discriminate|assumption].
Qed.
Lemma quotable_nl s : quotable s = true -> no_nl s = true.
Proof. unfold quotable. intros H. now apply andb_prop in H as [_ H]. Qed.
Lemma line_quoted s : no_nl s = true -> line_ok (quoted s) = true.
Proof.
  intros H. unfold quoted. change (34%N :: s ++ [34%N]) with ([34%N] ++ s ++ [34%N]).
  apply line_app; [reflexivity|now destruct s|]. apply line_app; [assumption|discriminate|reflexivity].
Qed.
Lemma line_pad n s : line_ok s = true -> line_ok (pad_right n s) = true.
Proof.
  intros H. unfold pad_right. apply line_app'; [assumption|]. apply (line_of_chars _ (N.eqb 32)).
  - apply Forall_forall. intros x Hx. apply repeat_spec in Hx. now subst.
  - intros c Hc. apply N.eqb_eq in Hc. subst. split; discriminate.
Qed.

(** ** Quote-aware splitting *)
Lemma split_n_exact l w n : n = S (length l) -> forallb word_ok l = true -> word_ok w = true ->
  split_quote_aware_n n (spaced (single l) ++ word_text w) = Ok (map word_value l ++ [word_value w]).
Proof.
  intros -> Hl Hw. assert (Hw' : forallb piece_ok w = true) by (destruct w; [discriminate|exact Hw]).
  unfold split_quote_aware_n, split_quote_aware_int.
  change (mk_sp 0 [] false false []) with (mk_sp (@length str []) [] false false []).
  rewrite split_n_prefix; [|now apply single_ok|cbn [length]; unfold single; rewrite map_length; lia|apply last_single].
  cbn [app]. rewrite step_word; [|apply Nat.eqb_neq; unfold values, single; rewrite !map_length; lia|assumption].
  cbn [sp_s sp_seen sp_v orb app]. rewrite word_pushes by assumption. rewrite single_values, app_length, map_length.
  cbn [length]. destruct (Nat.ltb_spec (length l + 1) (S (length l))); [lia|reflexivity].
Qed.

Lemma first_word_cons w s : ws_word w = true -> first_word (w ++ 32%N :: s) = Some w.
Proof. intros H. unfold first_word. rewrite split_ws_cons by (assumption || reflexivity). reflexivity. Qed.
Lemma word_piece s : word_str s = true -> piece_ok (Plain s) = true. Proof. exact id. Qed.
Lemma quote_piece s : quotable s = true -> piece_ok (Quoted s) = true.
Proof. unfold quotable. intros H. now apply andb_prop in H as [H _]. Qed.
