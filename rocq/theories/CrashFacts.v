(** The schematic reader panics exactly at the texts of [schematic_crash] (C41). *)
From Coq Require Import String Lia.
From Verif Require Import Base Str StrFacts Num F64 F64Text SexpFacts LibFns LibSpec CutSpec CutFacts SchData SchPrint SchParse SchReadSpec SchReadFacts SymReadFacts CrashSpec.
Open Scope string_scope. Open Scope list_scope.

(** ** Where a panic comes from *)
Lemma bind_panic {A B} (r : res A) (f : A -> res B) : bind r f = Panic -> r = Panic \/ exists x, r = Ok x /\ f x = Panic.
Proof. destruct r as [x|e|]; cbn [bind]; intros H; [right; now exists x|discriminate H|now left]. Qed.
Lemma int_np w : i64_from_string w <> Panic.
Proof. unfold i64_from_string. now destruct (i64_of_str w). Qed.
Lemma num_np w : f64_from_string w <> Panic.
Proof. unfold f64_from_string. now destruct (f64_of_str w). Qed.
Lemma option_np {A} e (o : option A) : of_option e o <> Panic.
Proof. now destruct o. Qed.
Lemma assume_np k s : assume_string k s <> Panic.
Proof. unfold assume_string. now destruct (seq s k). Qed.
Lemma line_np p k : assume_line p k <> Panic.
Proof. unfold assume_line. destruct p as [|s r]; [discriminate|]. now destruct (seq s k). Qed.
Lemma words_np s : split_quote_aware s <> Panic.
Proof. destruct (words_total s) as [w ->]. discriminate. Qed.
Lemma n_np k s : split_quote_aware_n k s <> Panic.
Proof. destruct (words_total s) as [w W]. apply words_bw in W. destruct (n_words k s w W) as [(_ & v & -> & _)|(_ & ->)]; discriminate. Qed.
Lemma orientation_np c : orientation_new c <> Panic.
Proof. unfold orientation_new. now repeat destruct (N.eqb c _). Qed.
Lemma sjustify_np c : sjustify_new c <> Panic.
Proof. unfold sjustify_new. now repeat destruct (N.eqb c _). Qed.
Lemma bool_np c t f : bool_from c t f <> Panic.
Proof. unfold bool_from. now repeat destruct (N.eqb c _). Qed.
Lemma bools_np c t f : bool_from_string c t f <> Panic.
Proof. unfold bool_from_string. destruct (seq c t); [discriminate|]. now destruct (seq c f). Qed.
Lemma form_np s : parse_label_form s <> Panic.
Proof. unfold parse_label_form. now repeat destruct (seq s _). Qed.
Lemma side_np s : parse_label_side s <> Panic.
Proof. unfold parse_label_side. now repeat destruct (seq s _). Qed.
Lemma idx_panic {A} (v : list A) i : idx v i = Panic <-> (length v <= i)%nat.
Proof. unfold idx. rewrite <- nth_error_None. destruct (nth_error v i); split; intros H; auto; discriminate H. Qed.
Lemma char_panic (v : str) i : char_at v i = Panic <-> (length v <= i)%nat.
Proof. exact (idx_panic v i). Qed.
Lemma four_np s : four s <> Panic.
Proof.
  unfold four. destruct (split_ws s) as [|a [|b [|c [|d [|? ?]]]]]; try discriminate. intros H.
  repeat (apply bind_panic in H as [H|(? & _ & H)]; [now apply int_np in H|]). discriminate H.
Qed.
Lemma n_len k s v : split_quote_aware_n k s = Ok v -> (k <= length v)%nat.
Proof.
  intros H. destruct (n_inv _ _ _ H) as (w & _ & L & S). destruct (Nat.le_gt_cases k (length v)) as [|G]; [assumption|].
  specialize (S (length v) G). rewrite (proj2 (nth_error_None v (length v)) (le_n _)) in S. symmetry in S. apply nth_error_None in S. lia.
Qed.
Lemma named_np k s : word_and_qstring k s <> Panic.
Proof.
  unfold word_and_qstring. intros H. apply bind_panic in H as [H|(v & V & H)]; [now apply n_np in H|]. apply n_len in V.
  apply bind_panic in H as [H|(? & _ & H)]; [apply idx_panic in H; lia|]. apply bind_panic in H as [H|(? & _ & H)]; [now apply assume_np in H|]. apply idx_panic in H. lia.
Qed.
(** One step: nothing happens here, or a panic that has to be explained *)
Ltac lens_n := repeat match goal with H : split_quote_aware_n ?k ?s = Ok ?v |- _ => match goal with K : (k <= length v)%nat |- _ => fail 1 | _ => pose proof (n_len k s v H) end end.
Ltac never H := first
  [ discriminate H | now apply int_np in H | now apply num_np in H | now apply option_np in H | now apply assume_np in H | now apply line_np in H | now apply words_np in H
  | now apply n_np in H | now apply orientation_np in H | now apply sjustify_np in H | now apply bool_np in H | now apply bools_np in H | now apply form_np in H | now apply side_np in H
  | now apply named_np in H | now apply four_np in H | (apply idx_panic in H; lens_n; exfalso; clear - H; lia) | (apply idx_panic in H; lens_n; exfalso; lia) ].
Ltac pstep := match goal with
  | H : bind _ _ = Panic |- _ => let E := fresh "E" in let x := fresh "x" in apply bind_panic in H as [H|(x & E & H)]; [try never H|]
  | H : (if ?b then Err _ else _) = Panic |- _ => let E := fresh "E" in destruct b eqn:E; [discriminate H|]
  | H : (if ?b then _ else Err _) = Panic |- _ => let E := fresh "E" in destruct b eqn:E; [|discriminate H]
  end.

(** ** Title block *)
Definition descr_rest : list str :=
  [[]; lit "Sheet 1 1"; lit "Title x"; lit "Date x"; lit "Rev x"; lit "Comp x"; lit "Comment1 x"; lit "Comment2 x"; lit "Comment3 x"; lit "Comment4 x"; lit "$EndDescr"].
Lemma d_title : named_line "Title" (lit "Title x") (lit "x"). Proof. apply named_iff. reflexivity. Qed.
Lemma d_date : named_line "Date" (lit "Date x") (lit "x"). Proof. apply named_iff. reflexivity. Qed.
Lemma d_rev : named_line "Rev" (lit "Rev x") (lit "x"). Proof. apply named_iff. reflexivity. Qed.
Lemma d_comp : named_line "Comp" (lit "Comp x") (lit "x"). Proof. apply named_iff. reflexivity. Qed.
Lemma d_1 : named_line "Comment1" (lit "Comment1 x") (lit "x"). Proof. apply named_iff. reflexivity. Qed.
Lemma d_2 : named_line "Comment2" (lit "Comment2 x") (lit "x"). Proof. apply named_iff. reflexivity. Qed.
Lemma d_3 : named_line "Comment3" (lit "Comment3 x") (lit "x"). Proof. apply named_iff. reflexivity. Qed.
Lemma d_4 : named_line "Comment4" (lit "Comment4 x") (lit "x"). Proof. apply named_iff. reflexivity. Qed.
Lemma d_words : line_words (lit "Sheet 1 1") [lit "Sheet"; lit "1"; lit "1"]. Proof. apply words_bw. reflexivity. Qed.
Ltac descr_end := first
  [ eassumption | exact d_title | exact d_date | exact d_rev | exact d_comp | exact d_1 | exact d_2 | exact d_3 | exact d_4 | exact d_words | reflexivity
  | (eexists; split; [eassumption|eassumption]) | (eexists; split; reflexivity) ].
Ltac descr_case H :=
  cbn [here next tl] in H; repeat (pstep; cbn [here next tl bind] in * );
  repeat match goal with K : Panic = Ok _ |- _ => discriminate K end;
  repeat match goal with H : word_and_qstring _ _ = Ok _ |- _ => apply named_iff in H end;
  repeat match goal with K : Ok _ = Ok _ |- _ => injection K as K; subst end;
  repeat match goal with u : unit |- _ => destruct u end;
  repeat match goal with K : negb _ = false |- _ => apply Bool.negb_false_iff, seq_iff in K; subst end;
  inv; known_words.
Lemma descr_panic_fw s r : parse_description (s :: r) = Panic -> begins_with s "$Descr" -> unfinished (s :: r).
Proof.
  intros H B. unfold parse_description in H. split; [discriminate|].
  destruct r as [|x2 r]; [|destruct r as [|x3 r]; [|destruct r as [|x4 r]; [|destruct r as [|x5 r]; [|destruct r as [|x6 r]; [|destruct r as [|x7 r]; [|destruct r as [|x8 r]; [|
    destruct r as [|x9 r]; [|destruct r as [|x10 r]; [|destruct r as [|x11 r]; [|destruct r as [|x12 r]]]]]]]]]]].
  1: { descr_case H. exists (skipn 0 descr_rest). eexists. split; [discriminate|]. apply st_descr. eapply descr_lines; descr_end. }
  1: { descr_case H. exists (skipn 1 descr_rest). eexists. split; [discriminate|]. apply st_descr. eapply descr_lines; descr_end. }
  1: { descr_case H. exists (skipn 2 descr_rest). eexists. split; [discriminate|]. apply st_descr. eapply descr_lines; descr_end. }
  1: { descr_case H. exists (skipn 3 descr_rest). eexists. split; [discriminate|]. apply st_descr. eapply descr_lines; descr_end. }
  1: { descr_case H. exists (skipn 4 descr_rest). eexists. split; [discriminate|]. apply st_descr. eapply descr_lines; descr_end. }
  1: { descr_case H. exists (skipn 5 descr_rest). eexists. split; [discriminate|]. apply st_descr. eapply descr_lines; descr_end. }
  1: { descr_case H. exists (skipn 6 descr_rest). eexists. split; [discriminate|]. apply st_descr. eapply descr_lines; descr_end. }
  1: { descr_case H. exists (skipn 7 descr_rest). eexists. split; [discriminate|]. apply st_descr. eapply descr_lines; descr_end. }
  1: { descr_case H. exists (skipn 8 descr_rest). eexists. split; [discriminate|]. apply st_descr. eapply descr_lines; descr_end. }
  1: { descr_case H. exists (skipn 9 descr_rest). eexists. split; [discriminate|]. apply st_descr. eapply descr_lines; descr_end. }
  1: { descr_case H. exists (skipn 10 descr_rest). eexists. split; [discriminate|]. apply st_descr. eapply descr_lines; descr_end. }
  exfalso. descr_case H. discriminate H.
Qed.
Lemma prefix_is {A} (l m w : list A) : l ++ m = w -> l = firstn (length l) w.
Proof. intros <-. now rewrite firstn_app, Nat.sub_diag, firstn_all, firstn_O, app_nil_r. Qed.
Lemma descr_panic_bw l m d : descr_text (l ++ m) d -> l <> [] -> m <> [] -> parse_description l = Panic.
Proof.
  intros H L M. remember (l ++ m) as w eqn:E. pose proof (prefix_is _ _ _ (eq_sym E)) as F. assert (N : (0 < length l < length w)%nat).
  { rewrite E, app_length. destruct l, m; cbn [length]; try contradiction; lia. }
  rewrite F. clear F E L M. generalize dependent (length l). intros k N. destruct H. cbn [length] in N. unfold parse_description.
  repeat match goal with H : named_line _ _ _ |- _ => apply named_iff in H end. opened.
  do 12 (destruct k as [|k]; [try lia; cbn [firstn here next tl bind]; run; replace (seq (lit "Sheet") "Sheet") with true by reflexivity; cbn [negb]; run; cbn [here next tl bind];
    repeat match goal with H : word_and_qstring _ _ = Ok _ |- _ => rewrite H; clear H; cbn [here next tl bind] end; reflexivity|]). lia.
Qed.

(** ** Components *)
Lemma short0 (w : str) : (length w <= 0)%nat -> w = [].
Proof. destruct w; cbn [length]; [reflexivity|lia]. Qed.
Lemma short1 (w : str) c : nth_error w 0 = Some c -> (length w <= 1)%nat -> w = [c].
Proof. destruct w as [|x [|y w]]; cbn [length nth_error]; intros H L; [discriminate H|now injection H as ->|lia]. Qed.
Lemma short2 (w : str) c d : nth_error w 0 = Some c -> nth_error w 1 = Some d -> (length w <= 2)%nat -> w = [c; d].
Proof. destruct w as [|x [|y [|z w]]]; cbn [length nth_error]; intros H K L; try discriminate; [|lia]. injection H as ->. now injection K as ->. Qed.
Definition short_words (v : list str) : Prop :=
  exists i, at_int v 1 i /\ names_field 10 v i /\
    (at_word v 3 [] \/
     exists o x y z b, at_char v 3 0 orientations o /\ at_num v 4 x /\ at_num v 5 y /\ at_int v 6 z /\ at_name v 7 [("0000", true); ("0001", false)] b /\
       (at_word v 8 [] \/ exists h w, at_char v 8 0 justifications h /\ at_word v 9 w /\ style_short w)).
Ltac known_chars := repeat match goal with
  | H : char_at _ _ = Ok _ |- _ => apply char_iff in H
  | H : orientation_new _ = Ok _ |- _ => apply orientation_iff in H
  | H : sjustify_new _ = Ok _ |- _ => apply sjustify_iff in H
  | H : bool_from _ _ _ = Ok _ |- _ => apply bool_from_iff in H; [|discriminate]
  | H : bool_from_string _ _ _ = Ok _ |- _ => apply visible_iff in H as (? & -> & H)
  end.
Lemma cfield_panic_fw v : cfield_new v = Panic -> short_words v.
Proof.
  unfold cfield_new. intros H. pstep. assert (L : length v = 10%nat \/ length v = 11%nat).
  { destruct (Nat.eqb_spec (length v) 10); [now left|]. destruct (Nat.eqb_spec (length v) 11); [now right|discriminate E]. }
  clear E. pstep. pstep. apply bind_panic in H as [H|(name & M & H)].
  { destruct (Nat.eqb (length v) 11) eqn:Q; [apply Nat.eqb_eq in Q; apply idx_panic in H; lia|now apply option_np in H]. }
  assert (N : names_field 10 v x0).
  { destruct L as [L|L]; [|now left]. right. split; [exact L|]. rewrite L in M. cbn [Nat.eqb] in M. destruct (default_field_name x0) as [n|] eqn:D; [|discriminate M]. apply usual_iff in D as (k & K & _). now exists k. }
  clear M. repeat pstep; try discriminate H; apply char_panic in H; inv; known_chars; exists x0; (split; [ints|split; [exact N|]]); clear N.
  - left. apply short0 in H. now subst.
  - right. do 5 eexists. repeat (split; [unfold at_char, at_int, at_num, at_name, at_word; solve [eauto 8]|]). left. apply short0 in H. now subst.
  - right. do 5 eexists. repeat (split; [unfold at_char, at_int, at_num, at_name, at_word; solve [eauto 8]|]). right. eexists _, _. repeat (split; [unfold at_char, at_word; solve [eauto 8]|]).
    left. now apply short0 in H.
  - right. do 5 eexists. repeat (split; [unfold at_char, at_int, at_num, at_name, at_word; solve [eauto 8]|]). right. eexists _, _. repeat (split; [unfold at_char, at_word; solve [eauto 8]|]).
    right. eexists _, _. split; [eassumption|]. left. eapply short1; eassumption.
  - right. do 5 eexists. repeat (split; [unfold at_char, at_int, at_num, at_name, at_word; solve [eauto 8]|]). right. eexists _, _. repeat (split; [unfold at_char, at_word; solve [eauto 8]|]).
    right. eexists _, _. split; [eassumption|]. right. eexists _, _. split; [eassumption|]. eapply short2; eassumption.
Qed.
Lemma name_ok n v i : names_field n v i -> exists name, (if Nat.eqb (length v) (S n) then idx v n else of_option EOther (default_field_name i)) = Ok name.
Proof.
  intros [L|(L & k & K)].
  - rewrite L, Nat.eqb_refl. destruct (nth_error v n) as [w|] eqn:E; [exists w; now apply idx_iff|]. apply nth_error_None in E. lia.
  - exists (lit k). rewrite L. destruct (Nat.eqb_spec n (S n)); [lia|]. rewrite (proj2 (usual_iff i (lit k))); [reflexivity|now exists k].
Qed.
Lemma idx_ok (v : list str) i : (i < length v)%nat -> exists w, idx v i = Ok w.
Proof. intros L. destruct (nth_error v i) as [w|] eqn:E; [exists w; now apply idx_iff|]. apply nth_error_None in E. lia. Qed.
Lemma char_ok (w : str) j c : nth_error w j = Some c -> char_at w j = Ok c.
Proof. apply char_iff. Qed.
Lemma style_panic w {A} (k : sjustify -> bool -> bool -> res A) : style_short w ->
  (do c <- char_at w 0; do vj <- sjustify_new c; do d1 <- char_at w 1; do italic <- bool_from d1 73 78; do d2 <- char_at w 2; do bold <- bool_from d2 66 78; k vj italic bold) = Panic.
Proof.
  intros [->|(c & j & C & [->|(d & b & D & ->)])]; [reflexivity| |]; apply sjustify_iff in C.
  - change (char_at [c] 0) with (Ok c). cbn [bind]. rewrite C. reflexivity.
  - change (char_at [c; d] 0) with (Ok c). cbn [bind]. rewrite C. cbn [bind]. change (char_at [c; d] 1) with (Ok d). cbn [bind]. apply (bool_from_iff _ 73 78) in D; [|discriminate]. rewrite D. reflexivity.
Qed.
Lemma cfield_panic_bw v : short_words v -> cfield_new v = Panic.
Proof.
  intros (i & (w1 & W1 & I1) & N & H). unfold cfield_new. destruct (name_ok 10 v i N) as [name M].
  assert (Q : negb (Nat.eqb (length v) 10) && negb (Nat.eqb (length v) 11) = false) by (destruct N as [N|(N & _)]; rewrite N; reflexivity). rewrite Q. clear Q.
  destruct (idx_ok v 2) as [value V2]; [destruct N as [N|(N & _)]; lia|].
  unfold at_word in W1. apply idx_iff in W1. rewrite W1. cbn [bind]. apply int_ok in I1. rewrite I1. cbn [bind]. rewrite M. cbn [bind]. rewrite V2. cbn [bind].
  destruct H as [W3|(o & x & y & z & b & (w3 & c3 & W3 & C3 & O3) & (w4 & W4 & I4) & (w5 & W5 & I5) & (w6 & W6 & I6) & (k7 & W7 & I7) & H)]; unfold at_word in *; apply idx_iff in W3; rewrite W3; cbn [bind].
  { reflexivity. }
  apply char_ok in C3. apply orientation_iff in O3. rewrite C3. cbn [bind]. rewrite O3. cbn [bind]. apply idx_iff in W4, W5, W6, W7. apply num_ok in I4, I5. apply int_ok in I6.
  rewrite W4. cbn [bind]. rewrite I4. cbn [bind]. rewrite W5. cbn [bind]. rewrite I5. cbn [bind]. rewrite W6. cbn [bind]. rewrite I6. cbn [bind]. rewrite W7. cbn [bind].
  assert (V : bool_from_string (lit k7) "0000" "0001" = Ok b) by (apply visible_iff; eauto). rewrite V. cbn [bind].
  destruct H as [W8|(h & w & (w8 & c8 & W8 & C8 & J8) & W9 & S)]; apply idx_iff in W8; rewrite W8; cbn [bind]; [reflexivity|].
  apply char_ok in C8. apply sjustify_iff in J8. rewrite C8. cbn [bind]. rewrite J8. cbn [bind]. apply idx_iff in W9. rewrite W9. cbn [bind]. now apply style_panic.
Qed.
Lemma comp_line_panic_fw s d : word_is s "1" || word_is s "0" = false -> component_line s d = Panic -> begins_with s "F" /\ field_short s.
Proof.
  intros N H. unfold component_line in H. destruct (word_is s "L") eqn:E1; [repeat pstep; discriminate H|]. destruct (word_is s "U") eqn:E2; [discriminate H|].
  destruct (word_is s "P") eqn:E3; [repeat pstep; discriminate H|]. destruct (word_is s "F") eqn:E4; [|destruct (word_is s "AR"); discriminate H].
  apply word_is_iff in E4. split; [exact E4|]. pstep. apply bind_panic in H as [H|(? & _ & H)]; [|discriminate H]. apply words_bw in E. apply cfield_panic_fw in H as (i & H). exists x, i. tauto.
Qed.
Lemma comp_line_panic_bw s d : begins_with s "F" -> field_short s -> component_line s d = Panic /\ word_is s "1" || word_is s "0" = false /\ s <> lit "$EndComp".
Proof.
  intros B (v & i & W & H). split; [|split].
  - unfold component_line. rewrite !(first_begins _ _ _ B). words. rewrite (words_fw _ _ W). cbn [bind]. rewrite cfield_panic_bw; [reflexivity|]. now exists i.
  - rewrite !(first_begins _ _ _ B). reflexivity.
  - intros ->. assert (Q : begins (lit "$EndComp") (lit "$EndComp")) by (apply begins_iff; reflexivity). apply (begins_fun _ _ _ Q) in B. discriminate B.
Qed.
Lemma comp_prefix_cons s p m k x : s <> lit "$EndComp" -> comp_line s x -> comp_parts (p ++ m) k -> comp_parts ((s :: p) ++ m) (x :: k).
Proof. intros. cbn [app]. now constructor. Qed.
Lemma comp_loop_panic_fw n p d : (length p <= n)%nat -> component_loop p d = Panic ->
  (exists m k, comp_parts (p ++ m) k) \/ (exists l k s r, p = l ++ s :: r /\ comp_parts l k /\ begins_with s "F" /\ field_short s).
Proof.
  revert p d. induction n as [|n IH]; intros [|s r] d L H; try (left; exists [], []; constructor); cbn [length] in L; [lia|].
  cbn [component_loop] in H. destruct (seq s "$EndComp") eqn:E; [discriminate H|]. apply seq_no in E. destruct (word_is s "1" || word_is s "0") eqn:N.
  - assert (T : begins_with s "1" \/ begins_with s "0") by (apply Bool.orb_true_iff in N as [N|N]; [left|right]; now apply word_is_iff). destruct r as [|s2 r].
    + left. exists [lit "0 0 0 0"], [KTurn (mk_rotation 0 0 0 0)]. cbn [app]. constructor; [exact T|apply four_iff; reflexivity|constructor].
    + apply bind_panic in H as [H|([[[a b] c] e] & F & H)]; [now apply four_np in H|]. apply four_iff in F. cbn [length] in L. apply IH in H; [|lia]. destruct H as [(m & k & P)|(l & k & x & t & -> & P & Q)].
      * left. eexists m, _. cbn [app]. econstructor; eassumption.
      * right. exists (s :: s2 :: l). eexists _, x, t. split; [reflexivity|]. split; [econstructor; eassumption|exact Q].
  - apply bind_panic in H as [H|(d1 & F & H)].
    + apply comp_line_panic_fw in H; [|exact N]. right. exists [], [], s, r. split; [reflexivity|]. split; [constructor|exact H].
    + apply comp_line_fw in F as (k & K & _); [|exact N]. apply IH in H; [|lia]. destruct H as [(m & ks & P)|(l & ks & x & t & -> & P & Q)].
      * left. eexists m, _. cbn [app]. econstructor; eassumption.
      * right. exists (s :: l). eexists _, x, t. split; [reflexivity|]. split; [econstructor; eassumption|exact Q].
Qed.
Lemma comp_loop_ends w k : comp_parts w k -> forall p m d, w = p ++ m -> component_loop p d = Panic.
Proof.
  induction 1 as [|s l x r E C P IH|s t l a b c e r T F P IH]; intros p m d H.
  - symmetry in H. apply app_eq_nil in H as [-> _]. reflexivity.
  - destruct p as [|y p]; [reflexivity|]. cbn [app] in H. injection H as <- H. cbn [component_loop]. rewrite (proj2 (seq_no _ _) E). destruct (comp_line_bw s d x C) as [-> ->]. cbn [bind]. now apply (IH p m).
  - destruct p as [|y p]; [reflexivity|]. cbn [app] in H. injection H as <- H. cbn [component_loop]. rewrite (seq_no_first _ T).
    replace (word_is s "1" || word_is s "0") with true by (symmetry; apply Bool.orb_true_iff; destruct T; [left|right]; now apply word_is_iff).
    destruct p as [|y p]; [reflexivity|]. cbn [app] in H. injection H as <- H. apply four_iff in F. rewrite F. cbn [bind]. now apply (IH p m).
Qed.
Lemma comp_loop_field l k s r : comp_parts l k -> begins_with s "F" -> field_short s -> forall d, component_loop (l ++ s :: r) d = Panic.
Proof.
  intros H B S. induction H as [|y l x ks E C P IH|y t l a b c e ks T F P IH]; intros d; cbn [app component_loop].
  - destruct (comp_line_panic_bw s d B S) as (-> & -> & E). now rewrite (proj2 (seq_no _ _) E).
  - rewrite (proj2 (seq_no _ _) E). destruct (comp_line_bw y d x C) as [-> ->]. cbn [bind]. apply IH.
  - rewrite (seq_no_first _ T). replace (word_is y "1" || word_is y "0") with true by (symmetry; apply Bool.orb_true_iff; destruct T; [left|right]; now apply word_is_iff).
    apply four_iff in F. rewrite F. cbn [bind]. apply IH.
Qed.

(** ** Sheets *)
Lemma sheet_line_np st s : sheet_line st s <> Panic.
Proof.
  unfold sheet_line. intros H. destruct (first_word st) as [w|]; [|discriminate H]. destruct (seq w "S"); [repeat pstep; discriminate H|]. destruct (seq w "U"); [repeat pstep; discriminate H|].
  destruct (starts_with (lit "F") w); [|discriminate H]. pstep. destruct (Z.eqb x 0); [repeat pstep; discriminate H|]. destruct (Z.eqb x 1); [repeat pstep; discriminate H|].
  apply bind_panic in H as [H|(? & _ & H)]; [|discriminate H]. unfold parse_sheet_label in H. repeat pstep; discriminate H.
Qed.
Lemma sheet_loop_panic_fw p d : sheet_loop p d = Panic -> exists k, Forall2 sheet_line_text p k /\ ~ In (lit "$EndSheet") p.
Proof.
  revert d. induction p as [|s r IH]; intros d H; [exists []; split; [constructor|intros []]|]. cbn [sheet_loop] in H. destruct (seq s "$EndSheet") eqn:E; [discriminate H|].
  apply bind_panic in H as [H|(d1 & F & H)]; [now apply sheet_line_np in H|]. apply sheet_line_fw in F as (k & K & _). apply IH in H as (ks & P & N). exists (k :: ks). split; [now constructor|].
  intros [M|M]; [subst; now apply seq_no in E|contradiction].
Qed.
Lemma sheet_loop_panic_bw p k : Forall2 sheet_line_text p k -> ~ In (lit "$EndSheet") p -> forall d, sheet_loop p d = Panic.
Proof.
  induction 1 as [|s x p k S P IH]; intros N d; [reflexivity|]. cbn [sheet_loop]. rewrite (proj2 (seq_no s "$EndSheet")) by (intros ->; apply N; now left).
  rewrite (sheet_line_bw _ _ _ S). cbn [bind]. apply IH. intros M. apply N. now right.
Qed.

(** ** Single elements *)
Lemma wire_panic_fw s r : parse_wire (s :: r) = Panic -> begins_with s "Wire" -> unfinished (s :: r).
Proof.
  intros H B. unfold parse_wire in H. cbn [here bind next tl] in H. destruct (split_ws s) as [|w1 [|k [|w3 [|? ?]]]] eqn:E; try discriminate H. apply ws_iff in E.
  destruct r as [|c r].
  - split; [discriminate|]. exists [lit "0 0 0 0"]. eexists. split; [discriminate|]. apply st_single. pose proof (begins_ws _ _ _ B E) as Z. injection Z as ->. cbn [app].
    eapply si_wire; [exact E|apply kind_fw|apply four_iff; reflexivity].
  - cbn [here bind] in H. apply bind_panic in H as [H|([[[a b] c0] e] & F & H)]; [now apply four_np in H|discriminate H].
Qed.
Lemma point_np s r : parse_point (s :: r) <> Panic.
Proof.
  unfold parse_point. cbn [here bind]. destruct (split_ws s) as [|w1 [|w2 [|w3 [|w4 [|? ?]]]]]; try discriminate. intros H. repeat pstep. discriminate H.
Qed.
Definition text_good (v : list str) (t : text_type) : Prop := exists shape italic thickness, text_style v t shape italic thickness.
Lemma text_panic_fw s r : parse_text (s :: r) = Panic -> begins_with s "Text" -> text_short s \/ unfinished (s :: r).
Proof.
  intros H B. unfold parse_text in H. cbn [here bind next tl] in H. remember (split_ws s) as v eqn:E. symmetry in E. apply ws_iff in E. pstep. apply Nat.ltb_ge in E0.
  pstep. apply bind_panic in H as [H|(ty & T & H)]; [repeat destruct (seq x _); discriminate H|]. apply kinds_iff in T as (n & -> & T).
  do 8 pstep. inv.
  assert (G : (length v = 8%nat /\ is_local ty = false) \/ (text_good v ty /\ r = [])).
  { destruct (is_local ty) eqn:LO; cbn [bind] in H.
    - right. do 3 pstep. destruct r as [|c r]; [|discriminate H]. split; [|reflexivity]. inv. destruct ty; try discriminate LO; unfold text_good, text_style, at_int, at_word; do 3 eexists; (split; [reflexivity|split; eexists; split; eauto]).
    - pstep; [pstep; discriminate H|]. match goal with E : bind (idx v 6) _ = Ok _ |- _ => apply bind_inv in E as (w6 & W6 & E); injection E as <- end. pstep. apply bind_panic in H as [H|(wt & WT & H)]; [left; apply idx_panic in H; split; [lia|reflexivity]|].
      right. pstep. destruct r as [|c r]; [|discriminate H]. split; [|reflexivity]. inv. destruct ty; try discriminate LO; unfold text_good, text_style, at_int, at_word; do 3 eexists; (split; [eexists; split; eauto|split; eexists; split; eauto]). }
  destruct G as [(L & LO)|((shape & it & th & S) & ->)].
  - left. exists v, ty. do 4 eexists. split; [exact E|split; [exact L|split; [exact (begins_ws _ _ _ B E)|split]]]; [|repeat (split; [eexists; split; eassumption|]); eexists; split; eassumption]. exists n. split; [assumption|]. unfold text_kinds in T. cbn [In] in *.
    destruct T as [T|[T|[T|[T|[]]]]]; injection T as <- <-; try discriminate LO; auto.
  - right. split; [discriminate|]. exists [[]]. eexists. split; [discriminate|]. cbn [app]. apply st_single. eapply si_text; [exact E|exact (begins_ws _ _ _ B E)|exists n; split; eassumption|ints..|exact S].
Qed.
Lemma text_short_bw s r : text_short s -> parse_text (s :: r) = Panic.
Proof.
  intros (v & t & x & y & o & z & W & L & A & (n & K & T) & X & Y & O & Z). unfold parse_text. cbn [here bind next tl]. apply ws_iff in W. rewrite W, L. cbn [Nat.ltb Nat.leb]. opened.
  assert (T' : In (n, t) text_kinds) by (unfold text_kinds; cbn [In] in *; tauto). assert (LO : is_local t = false) by (destruct T as [T|[T|[]]]; injection T as <- <-; reflexivity).
  run. rewrite (proj2 (kinds_iff _ _) (ex_intro _ n (conj eq_refl T'))). run. rewrite LO. destruct (idx_ok v 6) as [w6 V6]; [lia|]. destruct (idx_ok v 7) as [w7 V7]; [lia|].
  apply idx_iff in V6, V7. assert (V8 : nth_error v 8 = None) by (apply nth_error_None; lia). run. now rewrite V8.
Qed.
Lemma text_ends_bw s v t x y o z shape it th : ws_words s v -> at_name v 1 text_kinds t -> at_int v 2 x -> at_int v 3 y -> at_int v 4 o -> at_int v 5 z -> text_style v t shape it th ->
  parse_text [s] = Panic.
Proof.
  intros W (n & K & T) X Y O Z S. unfold parse_text. cbn [here bind next tl]. apply ws_iff in W. rewrite W. opened.
  assert (L : (8 <= length v)%nat) by (unfold text_style in S; destruct t; opened; lens; lia). destruct (Nat.ltb_spec (length v) 8); [lia|].
  run. rewrite (proj2 (kinds_iff _ _) (ex_intro _ n (conj eq_refl T))). run. destruct t; unfold text_style in S; cbn [is_local]; opened; subst; run; reflexivity.
Qed.

(** ** One section *)
Lemma round_panic_fw s r c : round (s :: r) c = Panic -> section_crash (s :: r).
Proof.
  unfold round. cbn [here bind]. destruct (first_word s) as [w|] eqn:B.
  2: { intros _. apply sc_blank. unfold first_word in B. destruct (split_ws s) eqn:E; [now apply ws_iff|discriminate B]. }
  apply begins_iff in B.
  destruct (seq w "$Descr") eqn:E1; [|destruct (seq w "$Comp") eqn:E2; [|destruct (seq w "$Sheet") eqn:E3; [|destruct (seq w "$EndSCHEMATC") eqn:E4; [|
    destruct (seq w "Wire") eqn:E5; [|destruct (seq w "Connection") eqn:E6; [|destruct (seq w "NoConn") eqn:E7; [|destruct (seq w "Text") eqn:E8]]]]]]]; intros H; try discriminate H;
    apply bind_panic in H as [H|(? & _ & H)]; try discriminate H.
  - apply seq_iff in E1. subst. apply sc_ends. now apply descr_panic_fw.
  - apply seq_iff in E2. subst. unfold parse_component in H. cbn [next tl] in H. apply (comp_loop_panic_fw (length r)) in H; [|lia]. destruct H as [(m & k & P)|(l & k & x & t & -> & P & F & S)].
    + apply sc_ends. split; [discriminate|]. exists (m ++ [lit "$EndComp"]). eexists. split; [intros Z; destruct m; discriminate Z|]. cbn [app]. rewrite app_assoc. apply st_comp; eassumption.
    + eapply sc_field; eassumption.
  - apply seq_iff in E3. subst. unfold parse_sheet in H. cbn [next tl] in H. apply sheet_loop_panic_fw in H as (k & P & N). apply sc_ends. split; [discriminate|].
    exists [lit "$EndSheet"]. eexists. split; [discriminate|]. cbn [app]. apply st_sheet; eassumption.
  - apply seq_iff in E5. subst. apply sc_ends. now apply wire_panic_fw.
  - now apply point_np in H.
  - now apply point_np in H.
  - apply seq_iff in E8. subst. apply text_panic_fw in H; [|exact B]. destruct H as [H|H]; [now apply sc_text|now apply sc_ends].
Qed.
Lemma app_end {A} (l m w : list A) x : l ++ m = w ++ [x] -> m <> [] -> exists t, l ++ t = w.
Proof.
  intros H M. destruct (exists_last M) as (t & y & ->). rewrite app_assoc in H. apply app_inj_tail in H as [H _]. now exists t.
Qed.
Lemma one_ends {A} (l m : list A) a : l ++ m = [a] -> l <> [] -> m <> [] -> False.
Proof. intros H L M. destruct l as [|x l]; [contradiction|]. cbn [app] in H. injection H as _ H. apply app_eq_nil in H as [_ H]. contradiction. Qed.
Lemma two_ends {A} (l m : list A) a b : l ++ m = [a; b] -> l <> [] -> m <> [] -> l = [a].
Proof. intros H L M. destruct l as [|x l]; [contradiction|]. cbn [app] in H. injection H as -> H. destruct l as [|y l]; [reflexivity|]. exfalso. apply (one_ends _ _ _ H); [discriminate|exact M]. Qed.
Lemma round_ends l c : unfinished l -> round l c = Panic.
Proof.
  intros (L & m & s & M & S). remember (l ++ m) as w eqn:E. symmetry in E. destruct S as [w d H|x w k B P|x w k B P N|x B|w e H|x w B N].
  - assert (B : exists x r, l = x :: r /\ begins_with x "$Descr") by (destruct H; destruct l as [|y l]; [contradiction|]; cbn [app] in E; injection E as -> E; eauto).
    subst w. pose proof (descr_panic_bw _ _ _ H L M) as Z. destruct B as (x & r & -> & B). unfold round. cbn [here bind]. known B. now rewrite Z.
  - destruct l as [|y l]; [contradiction|]. cbn [app] in E. injection E as -> E. apply app_end in E as [t E]; [|exact M]. unfold round. cbn [here bind]. known B.
    unfold parse_component. cbn [next tl]. rewrite (comp_loop_ends _ _ P l t); [reflexivity|now symmetry].
  - destruct l as [|y l]; [contradiction|]. cbn [app] in E. injection E as -> E. apply app_end in E as [t E]; [|exact M]. unfold round. cbn [here bind]. known B. subst w.
    apply Forall2_app_inv_l in P as (k1 & k2 & P & _ & _). unfold parse_sheet. cbn [next tl]. rewrite (sheet_loop_panic_bw _ _ P); [reflexivity|]. intros I. apply N. apply in_or_app. now left.
  - exfalso. now apply one_ends in E.
  - destruct H as [x k y z t x1 y1 x2 y2 W K F|x v px py W A Q X Y|x v px py W A Q X Y|x v t px py o z sh it th tx W A K X Y O Z S]; try (exfalso; now apply one_ends in E); apply two_ends in E; try assumption; subst l; unfold round; cbn [here bind].
    + assert (B : begins x (lit "Wire")) by (eexists; exact W). known B. unfold parse_wire. cbn [here bind]. apply ws_iff in W. rewrite W. reflexivity.
    + pose proof (first_at _ _ _ W A) as B. known B. now rewrite (text_ends_bw _ _ _ _ _ _ _ _ _ _ W K X Y O Z S).
  - exfalso. now apply one_ends in E.
Qed.
Lemma crash_ne l : section_crash l -> l <> [].
Proof. intros [s r _|w (L & _)|a w p s r _ _ _ _|s r _]; try discriminate; exact L. Qed.
Lemma round_panic_bw l c : section_crash l -> round l c = Panic.
Proof.
  intros [s r W|w H|a w p s r B P F S|s r H].
  - unfold round. cbn [here bind]. apply ws_iff in W. unfold first_word. now rewrite W.
  - now apply round_ends.
  - unfold round. cbn [here bind]. known B. unfold parse_component. cbn [next tl]. now rewrite (comp_loop_field _ _ _ _ P F S).
  - pose proof H as (v & t & x & y & o & z & W & L & A & _). pose proof (first_at _ _ _ W A) as B. unfold round. cbn [here bind]. known B. now rewrite (text_short_bw _ _ H).
Qed.

(** ** The whole text *)
Lemma main_panic_fw n p c : main_loop n p c = Panic -> exists body secs last, p = body ++ last /\ sections body secs /\ section_crash last.
Proof.
  revert p c. induction n as [|n IH]; intros [|s r] c H; try discriminate H. cbn [main_loop] in H. apply bind_panic in H as [H|([c1 q] & R & H)].
  - apply round_panic_fw in H. exists [], [], (s :: r). split; [reflexivity|split; [constructor|exact H]].
  - apply round_fw in R as (a & x & E & _ & S & _). cbn [fst snd] in H. apply IH in H as (body & secs & last & Q & B & K). exists (a ++ body), (x :: secs), last.
    split; [rewrite E, Q; apply app_assoc|split; [now constructor|exact K]].
Qed.
Lemma main_panic_bw body secs last n c : sections body secs -> section_crash last -> (length (body ++ last) <= n)%nat -> main_loop n (body ++ last) c = Panic.
Proof.
  intros H K. revert n c. induction H as [|a b s r A B IH]; intros n c L.
  - cbn [app] in *. pose proof (crash_ne _ K) as N. pose proof (fun c => round_panic_bw _ c K) as R. destruct last as [|x last]; [contradiction|]. destruct n as [|n]; [cbn [length] in L; lia|].
    cbn [main_loop]. now rewrite R.
  - pose proof (section_ne _ _ A) as N. rewrite <- app_assoc in *. rewrite app_length in L. destruct n as [|n]; [destruct a; [contradiction|cbn [length] in L; lia]|].
    destruct (round_bw a s (b ++ last) c A) as (q & R & Q). destruct a as [|x a]; [contradiction|]. cbn [app main_loop] in *. rewrite R. cbn [bind fst snd]. rewrite Q. apply IH. cbn [length] in L. lia.
Qed.
Lemma libs_all l acc : libs_loop (map (fun x => lit "LIBS:" ++ x) l) acc = (acc ++ l, []).
Proof.
  revert acc. induction l as [|x l IH]; intros acc; cbn [map libs_loop]; [now rewrite app_nil_r|].
  rewrite (proj2 (starts_iff _ _) (ex_intro _ x eq_refl)). change (skipn 5 (lit "LIBS:" ++ x)) with x. rewrite IH. now rewrite <- app_assoc.
Qed.
Lemma crash_lines fn ls : parse_lines fn ls = Panic <-> schematic_crash ls.
Proof.
  unfold schematic_crash, parse_lines. split.
  - intros H. apply bind_panic in H as [H|(p & A & H)]; [now apply line_np in H|]. apply assume_line_iff in A. destruct (libs_loop p []) as [libs q] eqn:L. apply libs_fw in L as (l & -> & ->).
    exists l, q. split; [exact A|]. apply bind_panic in H as [H|(e & E & H)]; [left; destruct q; [reflexivity|discriminate H]|]. right.
    destruct q as [|e' q]; [discriminate E|injection E as ->]. destruct (starts_with (lit "EELAYER ") e) eqn:S; [|discriminate H]. cbn [negb next tl] in H.
    apply bind_panic in H as [H|(body & B & H)]; [now apply line_np in H|]. apply assume_line_iff in B. apply main_panic_fw in H as (b & secs & last & -> & X & K). exists e, b, secs, last.
    split; [now rewrite B|split; [exact S|split; [exact X|exact K]]].
  - intros (l & rest & -> & H). rewrite (proj2 (assume_line_iff _ _ _) eq_refl). cbn [bind]. destruct H as [->|(e & body & secs & last & -> & S & X & K)].
    + rewrite app_nil_r, libs_all. reflexivity.
    + assert (E : starts_with (lit "LIBS:") e = false) by (apply starts_iff in S as [r ->]; reflexivity).
      rewrite libs_bw by exact E. cbn [here bind]. rewrite S. cbn [negb next tl]. rewrite (proj2 (assume_line_iff _ _ _) eq_refl). cbn [bind]. now rewrite (main_panic_bw _ _ _ _ _ X K).
Qed.
Theorem schematic_panic_iff fn s : parse_schematic fn s = Panic <-> exists ls, text_lines s ls /\ schematic_crash ls.
Proof.
  unfold parse_schematic. rewrite crash_lines. split; [intros H; exists (lines s); split; [now apply lines_iff|exact H]|]. intros (ls & L & H). apply lines_iff in L. now subst.
Qed.
Theorem schematic_err_iff fn t : (exists e, parse_schematic fn t = Err e) <-> forall ls, text_lines t ls -> ~ schematic_crash ls /\ forall c, ~ schematic_text fn ls c.
Proof.
  split.
  - intros [e E] ls L. split; [intros K|intros c K].
    + assert (P : parse_schematic fn t = Panic) by (apply schematic_panic_iff; now exists ls). rewrite E in P. discriminate P.
    + assert (P : parse_schematic fn t = Ok c) by (apply schematic_iff; now exists ls). rewrite E in P. discriminate P.
  - intros H. destruct (parse_schematic fn t) as [c|e|] eqn:E; [|now exists e|].
    + apply schematic_iff in E as (ls & L & K). destruct (H ls L) as [_ N]. now apply N in K.
    + apply schematic_panic_iff in E as (ls & L & K). destruct (H ls L) as [N _]. contradiction.
Qed.
