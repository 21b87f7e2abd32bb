(** What the schematic reader says when it refuses a text *)
From Coq Require Import String Lia.
From Verif Require Import Base Str StrFacts Num F64 F64Text LibFns LibSpec CutSpec CutFacts SchData SchPrint SchParse SchReadSpec SchReadFacts SymData SymReadSpec SymReadFacts
  OutSpec Said SchErr ErrErase ErrSpec ErrFacts ErrLines.
Open Scope string_scope. Open Scope list_scope.

Lemma plain_ok {A} (r : said A) x : plain r = Ok x -> r = Fine x.
Proof. destruct r; intros [=]. subst. reflexivity. Qed.
Lemma checks_quotes {A} f s v (r : said A) : line_words s v -> agree (f s v) good r -> checks (by_quotes f) s r.
Proof. intros W H. exists (f s v). destruct (quotes_one f s v W). auto. Qed.
Lemma has_words s : exists v, line_words s v.
Proof. destruct (words_total s) as [v V]. exists v. apply words_bw. exact V. Qed.
Lemma split_all_is {A} s v (f : list str -> said A) : line_words s v -> (try u <- split_all s; f u) = f v.
Proof. intros W. unfold split_all. rewrite (words_fw s v W). reflexivity. Qed.

(** ** Components *)
Lemma agree_field_name {A} n v w i k (d : list must) K (f : str -> said A) : i64_of_str w = Some i -> length v = n \/ length v = S n -> k = S n ->
  (forall x, agree d K (f x)) ->
  agree (m_field_name n v w :: d) K
    (try name <- (if Nat.eqb (length v) k then sidx v n else match default_field_name i with Some k => Fine k | None => Says (lit "expecting name for componentfield > 3") end); f name).
Proof.
  intros I L -> H. unfold m_field_name. destruct (Nat.eqb_spec (length v) (S n)) as [E|E].
  - apply agree_yes; [left; exact E|]. unfold sidx. destruct (nth_error v n) as [x|] eqn:X; [apply H|apply nth_error_None in X; lia].
  - destruct (default_field_name i) as [x|] eqn:X; cbn [sbind].
    + apply agree_yes; [|apply H]. right. apply usual_iff in X. destruct X as (y & Y & _). exists i, y. auto.
    + apply agree_no; [|reflexivity]. intros [Y|(j & y & J & Y)]; [contradiction|]. assert (j = i) by congruence. subst j.
      assert (Z : default_field_name i = Some (lit y)) by (apply usual_iff; eauto). rewrite Z in X. discriminate.
Qed.
Lemma agree_style {A} v w i (K : said A -> Prop) (f : sjustify -> bool -> bool -> said A) : nth_error v i = Some w -> (forall a b c, K (f a b c)) ->
  agree (m_justify v i 0 ++ m_flag 73 78 v i 1 ++ m_flag 66 78 v i 2) K
    (try c9 <- schar w 0; try vj <- sjustify_said c9; try d1 <- schar w 1; try italic <- flag_said d1 73 78; try d2 <- schar w 2; try bold <- flag_said d2 66 78; f vj italic bold).
Proof.
  intros E H. apply (agree_letter justifications "unexpected justify: " v w i 0 [] _ K sjustify_said); [exact E|apply justify_reads|]. intros vj.
  apply (agree_letter [(73%N, true); (78%N, false)] "unknown boolean " v w i 1 (or_else [73%N] [78%N]) _ K (fun c => flag_said c 73 78)); [exact E|apply flag_reads|]. intros b.
  rewrite <- (app_nil_r (m_flag 66 78 v i 2)).
  apply (agree_letter [(66%N, true); (78%N, false)] "unknown boolean " v w i 2 (or_else [66%N] [78%N]) _ K (fun c => flag_said c 66 78)); [exact E|apply flag_reads|]. intros b'.
  apply agree_nil. apply H.
Qed.
Lemma field_checked s v : line_words s v -> checks field_checks s (cfield_said s v).
Proof.
  intros W. apply (checks_quotes _ s v _ W). unfold cfield_said. cbv zeta.
  destruct (negb (Nat.eqb (length v) 10) && negb (Nat.eqb (length v) 11)) eqn:N.
  { apply agree_no; [|reflexivity]. apply andb_prop in N as [X Y]. apply Bool.negb_true_iff, Nat.eqb_neq in X. apply Bool.negb_true_iff, Nat.eqb_neq in Y. lia. }
  assert (L : (length v = 10 \/ length v = 11)%nat).
  { destruct (Nat.eqb_spec (length v) 10); [auto|]. destruct (Nat.eqb_spec (length v) 11); [auto|]. discriminate N. }
  apply agree_yes; [exact L|]. apply (agree_int s v v 1); [lia|reflexivity|]. intros i (w & W1 & I). rewrite (word_at v 1 w W1).
  apply (agree_field_name 10 v w i 11); [exact I|exact L|reflexivity|]. intros name. apply (skip_word v v 2); [lia|reflexivity|]. intros value _.
  apply (skip_word v v 3); [lia|reflexivity|]. intros w3 E3.
  apply (agree_letter orientations "unknown orientation " v w3 3 0 [] _ _ orientation_said); [exact E3|apply orient_reads|]. intros o.
  cbn [app]. apply (agree_num s v v 4); [lia|reflexivity|]. intros x. apply (agree_num s v v 5); [lia|reflexivity|]. intros y.
  apply (agree_int s v v 6); [lia|reflexivity|]. intros z _.
  apply (agree_name (yes_no "0000" "0001") "unknown boolean " v v 7 _ _ _ (fun w => bool_said w "0000" "0001")); [lia|reflexivity|apply bool_reads|]. intros b _.
  apply (skip_word v v 8); [lia|reflexivity|]. intros w8 E8.
  apply (agree_letter justifications "unexpected justify: " v w8 8 0 [] _ _ sjustify_said); [exact E8|apply justify_reads|]. intros h.
  apply (skip_word v v 9); [lia|reflexivity|]. intros w9 E9.
  apply (agree_style v w9 9 _ (fun vj it bo => Fine (mk_cfield i value o x y z b h vj it bo name))); [exact E9|]. intros a b0 c. eexists. reflexivity.
Qed.
Lemma checks_bind {A B} c s (r : said A) (f : A -> said B) : checks c s r -> (forall a, good (f a)) -> checks c s (sbind r f).
Proof.
  intros (d & C & U & [[m [B0 E]]|[F [a G]]]) H; exists d; (split; [exact C|]); (split; [exact U|]).
  - left. exists m. split; [exact B0|]. unfold ends in *. rewrite E. destruct m; reflexivity.
  - right. split; [exact F|]. rewrite G. cbn. apply H.
Qed.
Lemma l_checked s (d : component) : checks (by_quotes (fun s v => [m_count 3 s v])) s (try v <- split_said 3 s; try n <- sidx v 1; try r <- sidx v 2; Fine (set_l d n r)).
Proof.
  destruct (has_words s) as [v W]. apply (checks_quotes _ s v _ W). apply agree_count; [exact W|]. intros u L U.
  apply (skip_word v u 1); [lia|apply U; lia|]. intros n _. apply (skip_word v u 2); [lia|apply U; lia|]. intros r _. apply agree_nil. eexists. reflexivity.
Qed.
Lemma p_checked s (d : component) : checks (by_quotes (fun s v => m_count 3 s v :: ints s v [1; 2]%nat)) s
  (try v <- split_said 3 s; try w1 <- sidx v 1; try x <- int_said s w1; try w2 <- sidx v 2; try y <- int_said s w2; Fine (set_p d x y)).
Proof.
  destruct (has_words s) as [v W]. apply (checks_quotes _ s v _ W). apply agree_count; [exact W|]. intros u L U.
  apply (agree_int s v u 1); [lia|apply U; lia|]. intros x _. apply (agree_int s v u 2); [lia|apply U; lia|]. intros y _. apply agree_nil. eexists. reflexivity.
Qed.
Lemma f_checked s (d : component) : checks field_checks s (try v <- split_all s; try f <- cfield_said s v; Fine (set_fields d (co_fields d ++ [f]))).
Proof.
  destruct (has_words s) as [v W]. rewrite (split_all_is s v _ W). apply checks_bind; [apply field_checked; exact W|]. intros a. eexists. reflexivity.
Qed.
Lemma ends_fine {A} m (a : A) : ~ ends m (Fine a).
Proof. unfold ends. destruct m; discriminate. Qed.
Lemma comp_line_ends s d m : word_is s "1" || word_is s "0" = false -> ends m (comp_line_said s d) <-> comp_line_fails s m.
Proof.
  intros _. unfold comp_line_said.
  destruct (word_is s "L") eqn:BL; [|destruct (word_is s "U") eqn:BU; [|destruct (word_is s "P") eqn:BP; [|destruct (word_is s "F") eqn:BF; [|destruct (word_is s "AR") eqn:BA]]]].
  - apply word_is_iff in BL. rewrite <- (checks_fails _ s _ m (l_checked s d)). split; [apply clf_name; exact BL|].
    intros C; inversion C; subst; [assumption|exfalso|exfalso]; match goal with H : begins_with s _ |- _ => pose proof (begins_fun s _ _ BL H) as X; try discriminate X end.
  - apply word_is_iff in BU. split; [intros E; destruct (ends_fine _ _ E)|].
    intros C; inversion C; subst; exfalso; match goal with H : begins_with s _ |- _ => pose proof (begins_fun s _ _ BU H) as X; try discriminate X end.
  - apply word_is_iff in BP. rewrite <- (checks_fails _ s _ m (p_checked s d)). split; [apply clf_pos; exact BP|].
    intros C; inversion C; subst; [exfalso|assumption|exfalso]; match goal with H : begins_with s _ |- _ => pose proof (begins_fun s _ _ BP H) as X; try discriminate X end.
  - apply word_is_iff in BF. rewrite <- (checks_fails _ s _ m (f_checked s d)). split; [apply clf_field; exact BF|].
    intros C; inversion C; subst; [exfalso|exfalso|assumption]; match goal with H : begins_with s _ |- _ => pose proof (begins_fun s _ _ BF H) as X; try discriminate X end.
  - apply word_is_iff in BA. split; [intros E; destruct (ends_fine _ _ E)|].
    intros C; inversion C; subst; exfalso; match goal with H : begins_with s _ |- _ => pose proof (begins_fun s _ _ BA H) as X; try discriminate X end.
  - apply word_is_no in BL, BP, BF. split; [intros E; destruct (ends_fine _ _ E)|]. intros C; inversion C; subst; contradiction.
Qed.
Lemma ends_bind {A B} m (r : said A) (f : A -> said B) : ends m (sbind r f) <-> ends m r \/ exists a, r = Fine a /\ ends m (f a).
Proof.
  unfold ends. destruct r as [a|k| |]; cbn [sbind]; split.
  - eauto.
  - intros [E|(b & [= <-] & E)]; [destruct m; discriminate E|exact E].
  - intros E. left. destruct m; [injection E as ->; reflexivity|discriminate].
  - intros [E|(b & Y & _)]; [destruct m; [injection E as ->; reflexivity|discriminate]|discriminate].
  - intros E. left. destruct m; [discriminate|reflexivity].
  - intros [E|(b & Y & _)]; [destruct m; [discriminate|reflexivity]|discriminate].
  - destruct m; discriminate.
  - intros [E|(b & Y & _)]; [destruct m; discriminate|discriminate].
Qed.
Lemma four_ends s m : ends m (four_said s) <-> fails four_line s m.
Proof.
  symmetry. apply checks_fails. destruct (blanks_one (fun s v => (length v = 4%nat, Some (lit "expecting 4 elements in " ++ s)) :: ints s v [0; 1; 2; 3]%nat) s) as [B U].
  eexists. split; [exact B|]. split; [exact U|]. pose proof (agree_four s good (@Fine (Z * Z * Z * Z)) (fun q => ex_intro _ q eq_refl)) as H.
  replace (four_said s) with (try q <- four_said s; Fine q) by (destruct (four_said s); reflexivity). exact H.
Qed.
Lemma fun_four : fun_checker four_line. Proof. apply fun_blanks. Qed.
Lemma four_runs_iff r m : runs [four_line] r m <-> (r = [] /\ m = None) \/ exists s t, r = s :: t /\ fails four_line s m.
Proof.
  split.
  - intros H. inversion H; subst; [left; auto|right; eauto|]. match goal with H : runs [] _ _ |- _ => inversion H end.
  - intros [[-> ->]|(s & t & -> & Fm)]; [constructor|apply rn_here; exact Fm].
Qed.
Lemma comp_fw n : forall p d m, (length p <= n)%nat -> ends m (comp_said p d) -> exists l k r, p = l ++ r /\ comp_parts l k /\ comp_stops r m.
Proof.
  induction n as [|n IH]; intros [|s r] d m L E; try (cbn in L; lia).
  1,2: exists [], [], []; split; [reflexivity|]; split; [constructor|]; cbn in E; unfold ends in E; destruct m; [discriminate|constructor].
  cbn [comp_said] in E. destruct (seq s "$EndComp") eqn:Q; [destruct (ends_fine _ _ E)|]. apply seq_no in Q. cbn [length] in L.
  destruct (word_is s "1" || word_is s "0") eqn:T.
  - assert (B : begins_with s "1" \/ begins_with s "0"). { apply Bool.orb_true_iff in T. destruct T as [T|T]; apply word_is_iff in T; auto. }
    destruct r as [|s2 r2].
    + exists [], [], [s]. split; [reflexivity|]. split; [constructor|]. apply cs_turn; [exact B|]. unfold ends in E. destruct m; [discriminate|constructor].
    + apply ends_bind in E. destruct E as [E|([[[a b] c] e] & F & E)].
      * exists [], [], (s :: s2 :: r2). split; [reflexivity|]. split; [constructor|]. apply cs_turn; [exact B|]. apply rn_here. apply four_ends. exact E.
      * cbn [length] in L. destruct (IH r2 _ m ltac:(lia) E) as (l & k & r & -> & C & S).
        exists (s :: s2 :: l), (KTurn (mk_rotation a b c e) :: k), r. split; [reflexivity|]. split; [|exact S]. apply cp_turn; [exact B| |exact C].
        apply four_iff. rewrite <- plain_four, F. reflexivity.
  - apply ends_bind in E. destruct E as [E|(d' & F & E)].
    + exists [], [], (s :: r). split; [reflexivity|]. split; [constructor|]. apply cs_line. apply (comp_line_ends s d m T). exact E.
    + destruct (IH r _ m ltac:(lia) E) as (l & k & r' & -> & C & S).
      destruct (comp_line_fw s d d' T) as (x & X & _); [rewrite <- plain_comp_line, F; reflexivity|].
      exists (s :: l), (x :: k), r'. split; [reflexivity|]. split; [|exact S]. apply cp_line; assumption.
Qed.
Lemma fails_word s m : comp_line_fails s m -> seq s "$EndComp" = false /\ word_is s "1" || word_is s "0" = false.
Proof.
  intros C. assert (B : exists k, begins_with s k /\ In k ["L"; "P"; "F"]). { inversion C; subst; eexists; split; try eassumption; cbn; auto. }
  destruct B as (k & B & I). split.
  - apply seq_no. intros ->. assert (X : begins_with (lit "$EndComp") "$EndComp") by (apply begins_iff; reflexivity). pose proof (begins_fun _ _ _ B X) as Y.
    destruct I as [<-|[<-|[<-|[]]]]; discriminate Y.
  - apply Bool.orb_false_iff. split; apply word_is_no; intros X; pose proof (begins_fun _ _ _ B X) as Y; destruct I as [<-|[<-|[<-|[]]]]; discriminate Y.
Qed.
Lemma comp_bw l k r m d : comp_parts l k -> comp_stops r m -> ends m (comp_said (l ++ r) d).
Proof.
  intros C S. revert d. induction C as [|s l x k N Cl C IH|s s2 l a b c e k B Fo C IH]; intros d.
  - inversion S; subst; [reflexivity| |].
    + match goal with H : comp_line_fails _ _ |- _ => destruct (fails_word _ _ H) as [Q T]; cbn [app comp_said]; rewrite Q, T; apply ends_bind; left; apply (comp_line_ends _ d m T); exact H end.
    + match goal with H : begins_with ?x "1" \/ _ |- _ => rename x into h; rename H into B end.
      cbn [app comp_said]. rewrite (seq_no_first _ B).
      assert (T : word_is h "1" || word_is h "0" = true). { apply Bool.orb_true_iff. destruct B as [B|B]; apply word_is_iff in B; auto. } rewrite T.
      match goal with H : runs _ _ _ |- _ => apply four_runs_iff in H; destruct H as [[-> ->]|(s & t & -> & Fm)] end; [reflexivity|].
      apply ends_bind. left. apply four_ends. exact Fm.
  - cbn [app comp_said]. rewrite (proj2 (seq_no s "$EndComp") N). destruct (comp_line_bw s d x Cl) as [E T]. rewrite T. rewrite <- plain_comp_line in E. apply plain_ok in E.
    rewrite E. cbn [sbind]. apply IH.
  - cbn [app comp_said]. rewrite (seq_no_first _ B).
    assert (T : word_is s "1" || word_is s "0" = true). { apply Bool.orb_true_iff. destruct B as [B|B]; apply word_is_iff in B; auto. } rewrite T.
    apply four_iff in Fo. rewrite <- plain_four in Fo. apply plain_ok in Fo. rewrite Fo. cbn [sbind]. apply IH.
Qed.

(** ** Sheets *)
Lemma box_checked st (s : sheet) g : checks (by_quotes (fun s v => m_count 5 s v :: ints s v [1; 2; 3; 4]%nat)) st
  (try v <- split_said 5 st; try w1 <- sidx v 1; try x <- int_said st w1; try w2 <- sidx v 2; try y <- int_said st w2;
   try w3 <- sidx v 3; try dx <- int_said st w3; try w4 <- sidx v 4; try dy <- int_said st w4; Fine (g x y dx dy : sheet)).
Proof.
  destruct (has_words st) as [v W]. apply (checks_quotes _ st v _ W). apply agree_count; [exact W|]. intros u L U. cbn [ints map].
  apply (agree_int st v u 1); [lia|apply U; lia|]. intros x _. apply (agree_int st v u 2); [lia|apply U; lia|]. intros y _.
  apply (agree_int st v u 3); [lia|apply U; lia|]. intros z _. apply (agree_int st v u 4); [lia|apply U; lia|]. intros t _. apply agree_nil. eexists. reflexivity.
Qed.
Lemma unique_checked st (g : str -> sheet) : checks (by_quotes (fun s v => [m_count 2 s v])) st (try v <- split_said 2 st; try u <- sidx v 1; Fine (g u)).
Proof.
  destruct (has_words st) as [v W]. apply (checks_quotes _ st v _ W). apply agree_count; [exact W|]. intros u L U.
  apply (skip_word v u 1); [lia|apply U; lia|]. intros n _. apply agree_nil. eexists. reflexivity.
Qed.
Lemma sized_checked st (g : str -> Z -> sheet) : checks (by_quotes (fun s v => [m_count 3 s v; m_int s v 2])) st
  (try v <- split_said 3 st; try n <- sidx v 1; try w2 <- sidx v 2; try z <- int_said st w2; Fine (g n z)).
Proof.
  destruct (has_words st) as [v W]. apply (checks_quotes _ st v _ W). apply agree_count; [exact W|]. intros u L U.
  apply (skip_word v u 1); [lia|apply U; lia|]. intros n _. apply (agree_int st v u 2); [lia|apply U; lia|]. intros z _. apply agree_nil. eexists. reflexivity.
Qed.
Lemma label_checked st (g : sheet_label -> sheet) : checks label_checks st (try l <- label_said st; Fine (g l)).
Proof.
  apply checks_bind; [|intros a; eexists; reflexivity].
  destruct (has_words st) as [v W]. apply (checks_quotes _ st v _ W). apply agree_count; [exact W|]. intros u L U. cbn [ints map].
  apply (skip_word v u 1); [lia|apply U; lia|]. intros n _.
  apply (agree_name _ "unknown labelform " v u 2 [] _ _ label_form_said); [lia|apply U; lia|apply form_reads|]. intros f _.
  apply (agree_name _ "unknown labelside " v u 3 [] _ _ label_side_said); [lia|apply U; lia|apply side_reads|]. intros sd _.
  apply (agree_int st v u 4); [lia|apply U; lia|]. intros x _. apply (agree_int st v u 5); [lia|apply U; lia|]. intros y _.
  apply (agree_int st v u 6); [lia|apply U; lia|]. intros z _. apply agree_nil. eexists. reflexivity.
Qed.
Ltac other_word B := exfalso; repeat match goal with
  | H : begins_with ?s _ |- _ => let X := fresh in pose proof (begins_fun s _ _ B H) as X; clear H; try discriminate X
  | H : begins ?s (70%N :: _) |- _ => let X := fresh in pose proof (begins_fun s _ _ B H) as X; clear H; try discriminate X end.
Lemma sheet_line_ends st s m : ends m (sheet_line_said st s) <-> sheet_line_fails st m.
Proof.
  unfold sheet_line_said. destruct (first_word st) as [w|] eqn:FW.
  2:{ split; [intros E; destruct (ends_fine _ _ E)|]. intros C. exfalso. assert (X : exists w, begins st w) by (inversion C; subst; eauto). destruct X as [w B].
      apply begins_iff in B. congruence. }
  apply begins_iff in FW.
  destruct (seq w "S") eqn:QS; [apply seq_iff in QS; subst w|destruct (seq w "U") eqn:QU; [apply seq_iff in QU; subst w|destruct (starts_with (lit "F") w) eqn:QF]].
  - rewrite <- (checks_fails _ st _ m (box_checked st s (fun x y dx dy => mk_sheet x y dx dy (sh_unique s) (sh_name s) (sh_name_size s) (sh_filename s) (sh_filename_size s) (sh_labels s)))).
    split; [apply slf_box; exact FW|]. intros C; inversion C; subst; [assumption| | | |]; other_word FW.
  - rewrite <- (checks_fails _ st _ m (unique_checked st (fun u => mk_sheet (sh_x s) (sh_y s) (sh_dimx s) (sh_dimy s) u (sh_name s) (sh_name_size s) (sh_filename s) (sh_filename_size s) (sh_labels s)))).
    split; [apply slf_unique; exact FW|]. intros C; inversion C; subst; [|assumption| | |]; other_word FW.
  - apply starts_F in QF. destruct QF as [i ->]. cbn [tl]. unfold int_said. destruct (i64_of_str i) as [k|] eqn:I; cbn [sbind].
    + assert (R : forall t : said sheet, (forall u, k = 0%Z \/ k = 1%Z -> fails (by_quotes (fun s v => [m_count 3 s v; m_int s v 2])) st u <-> ends u t) ->
                   (forall u, k <> 0%Z -> k <> 1%Z -> fails label_checks st u <-> ends u t) -> ends m t <-> sheet_line_fails st m).
      { intros t H1 H2. split.
        - intros E. destruct (Z.eq_dec k 0) as [Z0|Z0]; [|destruct (Z.eq_dec k 1) as [Z1|Z1]].
          + apply (slf_name st i k); auto. apply H1; auto.
          + apply (slf_name st i k); auto. apply H1; auto.
          + apply (slf_label st i k); auto. apply H2; auto.
        - intros C. inversion C; subst; match goal with H : begins_with st _ |- _ => pose proof (begins_fun st _ _ FW H) as X; discriminate X
            | H : begins st _ |- _ => pose proof (begins_fun st _ _ FW H) as X; injection X as <- end.
          + congruence.
          + assert (k0 = k) by congruence. subst k0. apply H1; assumption.
          + assert (k0 = k) by congruence. subst k0. apply H2; assumption. }
      destruct (Z.eqb_spec k 0) as [->|Z0]; [|destruct (Z.eqb_spec k 1) as [->|Z1]]; apply R.
      * intros u _. apply checks_fails. exact (sized_checked st (fun n z => mk_sheet (sh_x s) (sh_y s) (sh_dimx s) (sh_dimy s) (sh_unique s) n z (sh_filename s) (sh_filename_size s) (sh_labels s))).
      * intros u X. destruct (X eq_refl).
      * intros u _. apply checks_fails. exact (sized_checked st (fun n z => mk_sheet (sh_x s) (sh_y s) (sh_dimx s) (sh_dimy s) (sh_unique s) (sh_name s) (sh_name_size s) n z (sh_labels s))).
      * intros u _ X. destruct (X eq_refl).
      * intros u [X|X]; contradiction.
      * intros u _ _. apply checks_fails. exact (label_checked st (fun l => mk_sheet (sh_x s) (sh_y s) (sh_dimx s) (sh_dimy s) (sh_unique s) (sh_name s) (sh_name_size s) (sh_filename s)
              (sh_filename_size s) (sh_labels s ++ [l]))).
    + split.
      * intros E. unfold ends in E. destruct m as [m|]; [|discriminate]. injection E as <-. apply slf_number; assumption.
      * intros C. inversion C; subst; match goal with H : begins_with st _ |- _ => pose proof (begins_fun st _ _ FW H) as X; discriminate X
            | H : begins st _ |- _ => pose proof (begins_fun st _ _ FW H) as X; injection X as <- end; [reflexivity|congruence|congruence].
  - split; [intros E; destruct (ends_fine _ _ E)|]. intros C. exfalso. apply seq_no in QS, QU.
    inversion C; subst; match goal with H : begins_with st _ |- _ => pose proof (begins_fun st _ _ FW H) as X; congruence
            | H : begins st _ |- _ => pose proof (begins_fun st _ _ FW H) as X; rewrite X in QF; discriminate QF end.
Qed.
Lemma sheet_fw' p : forall d m, ends m (sheet_said p d) -> exists l k r, p = l ++ r /\ Forall2 sheet_line_text l k /\ ~ In (lit "$EndSheet") l /\ sheet_stops r m.
Proof.
  induction p as [|s p IH]; intros d m E; cbn [sheet_said] in E.
  - exists [], [], []. split; [reflexivity|]. split; [constructor|]. split; [intros []|]. unfold ends in E. destruct m; [discriminate|constructor].
  - destruct (seq s "$EndSheet") eqn:Q; [destruct (ends_fine _ _ E)|]. apply seq_no in Q. apply ends_bind in E. destruct E as [E|(d' & F & E)].
    + exists [], [], (s :: p). split; [reflexivity|]. split; [constructor|]. split; [intros []|]. apply hs_line. apply (sheet_line_ends s d m). exact E.
    + destruct (IH d' m E) as (l & k & r & -> & H & N & S). destruct (sheet_line_fw s d d') as (x & X & _); [rewrite <- plain_sheet_line, F; reflexivity|].
      exists (s :: l), (x :: k), r. split; [reflexivity|]. split; [constructor; assumption|]. split; [|exact S]. intros [->|I]; [apply Q; reflexivity|exact (N I)].
Qed.
Lemma sheet_fails_end m : ~ sheet_line_fails (lit "$EndSheet") m.
Proof.
  intros C. assert (B : begins (lit "$EndSheet") (lit "$EndSheet")) by (apply begins_iff; reflexivity).
  inversion C; subst; match goal with H : begins_with _ _ |- _ => pose proof (begins_fun _ _ _ B H) as X; discriminate X
            | H : begins _ _ |- _ => pose proof (begins_fun _ _ _ B H) as X; discriminate X end.
Qed.
Lemma sheet_bw' l k r m d : Forall2 sheet_line_text l k -> ~ In (lit "$EndSheet") l -> sheet_stops r m -> ends m (sheet_said (l ++ r) d).
Proof.
  intros H N S. revert d. induction H as [|s x l k Hs H IH]; intros d.
  - inversion S; subst; [reflexivity|]. cbn [app sheet_said]. rewrite (proj2 (seq_no _ "$EndSheet")).
    + apply ends_bind. left. apply sheet_line_ends. assumption.
    + intros ->. match goal with H : sheet_line_fails _ _ |- _ => exact (sheet_fails_end m H) end.
  - cbn [app sheet_said]. rewrite (proj2 (seq_no s "$EndSheet")); [|intros ->; apply N; left; reflexivity].
    pose proof (sheet_line_bw s d x Hs) as E. rewrite <- plain_sheet_line in E. apply plain_ok in E. rewrite E. cbn [sbind]. apply IH. intros I. apply N. right. exact I.
Qed.

(** ** The whole text *)
Lemma ends_map {A B} m (r : said A) (f : A -> B) : ends m (try x <- r; Fine (f x)) <-> ends m r.
Proof. rewrite ends_bind. split; [intros [E|(a & _ & E)]; [exact E|destruct (ends_fine _ _ E)]|auto]. Qed.
Lemma all_fun k cs : In (k, cs) single_kinds -> Forall fun_checker cs.
Proof.
  cbn [single_kinds In]. intros [[= _ <-]|[[= _ <-]|[[= _ <-]|[[= _ <-]|[[= _ <-]|[]]]]]];
    repeat (constructor; [first [apply fun_quotes|apply fun_blanks|apply fun_as_is]|]); constructor.
Qed.
Lemma kind_one k cs cs' : In (k, cs) single_kinds -> In (k, cs') single_kinds -> cs = cs'.
Proof. cbn [single_kinds In]. intros H G. assert (X : forall (l : list (string * list checker)) a, NoDup (map fst l) -> In (k, a) l -> forall b, In (k, b) l -> a = b).
  { clear. induction l as [|[x y] l IH]; intros a N I b J; [destruct I|]. cbn [map fst] in N. inversion N; subst. destruct I as [I|I], J as [J|J].
    - congruence.
    - injection I as -> _. exfalso. apply H1. apply (in_map fst) in J. exact J.
    - injection J as -> _. exfalso. apply H1. apply (in_map fst) in I. exact I.
    - exact (IH a H2 I b J). }
  refine (X single_kinds cs _ H cs' G). cbn [single_kinds map fst]. repeat (constructor; [cbn; intuition discriminate|]). constructor.
Qed.
Lemma kind_word_of k cs : In (k, cs) single_kinds -> In k ["$Descr"; "Wire"; "Connection"; "NoConn"; "Text"].
Proof. cbn. intuition congruence. Qed.
Lemma round_lines {A} s r k cs m (x : said A) : begins_with s k -> In (k, cs) single_kinds -> runs_ok cs (s :: r) x ->
  ends m x <-> section_fails (s :: r) m.
Proof.
  intros B I R. rewrite <- (runs_iff cs (s :: r) x m (all_fun k cs I) R). split; [apply (sf_lines s r k cs m B I)|].
  intros C. assert (K : k <> "$Comp" /\ k <> "$Sheet"). { apply kind_word_of in I. cbn in I. split; intros ->; intuition discriminate. }
  inversion C as [? ? W|s' r' k' cs' m' B' I' R'|s' l p r' m' B' P S|s' l p r' m' B' P N S]; subst.
  - destruct B as [v B]. apply ws_iff in B. apply ws_iff in W. congruence.
  - assert (E : k' = k).
    { pose proof (begins_fun s _ _ B B') as E. apply kind_word_of in I. apply kind_word_of in I'. cbn in I, I'.
      repeat destruct I as [<-|I]; try (destruct I); repeat destruct I' as [<-|I']; try (destruct I'); try reflexivity; discriminate E. }
    subst k'. rewrite (kind_one k cs cs' I I'). exact R'.
  - exfalso. pose proof (begins_fun s _ _ B B') as E. apply kind_word_of in I. cbn in I. repeat destruct I as [<-|I]; try (destruct I); discriminate E.
  - exfalso. pose proof (begins_fun s _ _ B B') as E. apply kind_word_of in I. cbn in I. repeat destruct I as [<-|I]; try (destruct I); discriminate E.
Qed.
Lemma section_begins s r m w : section_fails (s :: r) m -> begins s w -> In w (map lit ["$Descr"; "$Comp"; "$Sheet"; "Wire"; "Connection"; "NoConn"; "Text"]).
Proof.
  intros C B. inversion C as [? ? W|s' r' k' cs' m' B' I' R'|s' l p r' m' B' P S|s' l p r' m' B' P N S]; subst.
  - destruct B as [v B]. apply ws_iff in B. apply ws_iff in W. congruence.
  - rewrite (begins_fun s _ _ B B'). apply kind_word_of in I'. apply in_map. cbn in *. intuition.
  - rewrite (begins_fun s _ _ B B'). apply in_map. cbn. auto.
  - rewrite (begins_fun s _ _ B B'). apply in_map. cbn. auto.
Qed.
Lemma round_ends p c m : p <> [] -> ends m (round_said p c) <-> section_fails p m.
Proof.
  intros NE. destruct p as [|s r]; [destruct (NE eq_refl)|]. unfold round_said. cbn [here_said sbind]. destruct (first_word s) as [w|] eqn:FW.
  2:{ assert (B : ws_words s []). { apply ws_iff. unfold first_word in FW. destruct (split_ws s); [reflexivity|discriminate]. }
      split; [intros E; unfold ends in E; destruct m; [discriminate|apply sf_blank; exact B]|]. intros C.
      inversion C as [? ? W|s' r' k' cs' m' B' I' R'|s' l p r' m' B' P S|s' l p r' m' B' P N S]; subst; [reflexivity| | |]; apply begins_iff in B'; congruence. }
  apply begins_iff in FW.
  destruct (seq w "$Descr") eqn:Q1; [apply seq_iff in Q1; subst w; rewrite ends_map; eapply round_lines; [exact FW|left; reflexivity|apply descr_runs]|].
  destruct (seq w "$Comp") eqn:Q2.
  { apply seq_iff in Q2; subst w. rewrite ends_map. cbn [next tl]. split.
    - intros E. destruct (comp_fw (length r) r comp_default m (le_n _) E) as (l & k & t & -> & P & S). apply (sf_comp s l k t m); assumption.
    - intros C. inversion C as [? ? W|s' r' k' cs' m' B' I' R'|s' l p r' m' B' P S|s' l p r' m' B' P N S]; subst.
      + destruct FW as [v B]. apply ws_iff in B. apply ws_iff in W. congruence.
      + exfalso. pose proof (begins_fun s _ _ FW B') as E. apply kind_word_of in I'. cbn in I'. repeat destruct I' as [<-|I']; try (destruct I'); discriminate E.
      + exact (comp_bw l p r' m comp_default P S).
      + pose proof (begins_fun s _ _ FW B') as E. discriminate E. }
  destruct (seq w "$Sheet") eqn:Q3.
  { apply seq_iff in Q3; subst w. rewrite ends_map. cbn [next tl]. split.
    - intros E. destruct (sheet_fw' r sheet_default m E) as (l & k & t & -> & P & N & S). apply (sf_sheet s l k t m); assumption.
    - intros C. inversion C as [? ? W|s' r' k' cs' m' B' I' R'|s' l p r' m' B' P S|s' l p r' m' B' P N S]; subst.
      + destruct FW as [v B]. apply ws_iff in B. apply ws_iff in W. congruence.
      + exfalso. pose proof (begins_fun s _ _ FW B') as E. apply kind_word_of in I'. cbn in I'. repeat destruct I' as [<-|I']; try (destruct I'); discriminate E.
      + pose proof (begins_fun s _ _ FW B') as E. discriminate E.
      + exact (sheet_bw' l p r' m sheet_default P N S). }
  destruct (seq w "$EndSCHEMATC") eqn:Q4.
  { apply seq_iff in Q4; subst w. split; [intros E; destruct (ends_fine _ _ E)|]. intros C. pose proof (section_begins s r m _ C FW) as I. cbn in I.
    repeat destruct I as [X|I]; try (discriminate X); destruct I. }
  destruct (seq w "Wire") eqn:Q5; [apply seq_iff in Q5; subst w; rewrite ends_map; eapply round_lines; [exact FW|right; left; reflexivity|apply wire_runs]|].
  destruct (seq w "Connection") eqn:Q6; [apply seq_iff in Q6; subst w; rewrite ends_map; eapply round_lines; [exact FW|right; right; left; reflexivity|apply point_runs]|].
  destruct (seq w "NoConn") eqn:Q7; [apply seq_iff in Q7; subst w; rewrite ends_map; eapply round_lines; [exact FW|right; right; right; left; reflexivity|apply point_runs]|].
  destruct (seq w "Text") eqn:Q8; [apply seq_iff in Q8; subst w; rewrite ends_map; eapply round_lines; [exact FW|right; right; right; right; left; reflexivity|apply text_runs]|].
  split; [intros E; destruct (ends_fine _ _ E)|]. intros C. pose proof (section_begins s r m _ C FW) as I. apply seq_no in Q1, Q2, Q3, Q5, Q6, Q7, Q8. cbn [map In] in I.
  repeat destruct I as [X|I]; try (symmetry in X; contradiction). destruct I.
Qed.
Lemma main_fw' n : forall p c m, ends m (main_said n p c) -> exists a secs b, p = a ++ b /\ sections a secs /\ section_fails b m.
Proof.
  induction n as [|n IH]; intros [|s r] c m E; cbn [main_said] in E; try (destruct (ends_fine _ _ E)); [unfold ends in E; destruct m; discriminate|].
  apply ends_bind in E. destruct E as [E|([c' q] & F & E)].
  - exists [], [], (s :: r). split; [reflexivity|]. split; [constructor|]. apply (round_ends (s :: r) c m); [discriminate|exact E].
  - cbn [fst snd] in E. destruct (IH _ _ _ E) as (a & secs & b & Q & S & Fa). destruct (round_fw (s :: r) c c' q) as (x & y & P & _ & Y & _); [rewrite <- plain_round, F; reflexivity|].
    exists (x ++ a), (y :: secs), b. split; [rewrite P, Q, app_assoc; reflexivity|]. split; [apply ss_cons; assumption|exact Fa].
Qed.
Lemma main_bw' a secs b m : sections a secs -> section_fails b m -> forall n c, (length (a ++ b) <= n)%nat -> ends m (main_said n (a ++ b) c).
Proof.
  intros S Fa. induction S as [|x a y secs X S IH]; intros n c L.
  - destruct b as [|s r]; [inversion Fa|]. destruct n as [|n]; [cbn in L; lia|]. cbn [app main_said]. apply ends_bind. left. apply round_ends; [discriminate|exact Fa].
  - pose proof (section_ne x y X) as NE. destruct (round_bw x y (a ++ b) c X) as (q & R & Q). rewrite <- plain_round in R. apply plain_ok in R.
    destruct x as [|s x]; [destruct (NE eq_refl)|]. rewrite <- app_assoc in *. destruct n as [|n]; [cbn in L; lia|]. cbn [app main_said]. cbn [app] in R. rewrite R. cbn [sbind fst snd].
    rewrite Q. apply IH. rewrite !app_length in *. cbn in L. lia.
Qed.
Lemma line_ends p k m : ends m (line_said p k) <-> exists x, m = Some x /\ wants [k] p x.
Proof.
  unfold line_said. destruct p as [|s r].
  - unfold ends. split.
    + intros E. destruct m; [|discriminate]. injection E as <-. eexists. split; [reflexivity|constructor].
    + intros (x & -> & W). inversion W. reflexivity.
  - destruct (str_eqb s (lit k)) eqn:Q.
    + apply str_eqb_eq in Q. subst s. split; [intros E; destruct (ends_fine _ _ E)|]. intros (x & -> & W). inversion W; subst; [contradiction|].
      match goal with H : wants [] _ _ |- _ => inversion H end.
    + assert (N : s <> lit k). { intros ->. rewrite str_eqb_refl in Q. discriminate. } unfold ends. split.
      * intros E. destruct m; [|discriminate]. injection E as <-. eexists. split; [reflexivity|]. constructor. exact N.
      * intros (x & -> & W). inversion W; subst; [reflexivity|contradiction].
Qed.
Lemma line_fine p k q : line_said p k = Fine q <-> p = lit k :: q.
Proof. rewrite <- assume_line_iff, <- plain_line. split; [intros ->; reflexivity|apply plain_ok]. Qed.
Lemma layer_lib e : starts_with (lit "EELAYER ") e = true -> starts_with (lit "LIBS:") e = false.
Proof. intros E. apply starts_iff in E as [r ->]. reflexivity. Qed.
Lemma libs_end libs acc : libs_loop (map (fun x => lit "LIBS:" ++ x) libs) acc = (acc ++ libs, []).
Proof. revert acc. induction libs as [|l libs IH]; intros acc; [cbn; rewrite app_nil_r; reflexivity|]. cbn [map libs_loop]. replace (starts_with (lit "LIBS:") _) with true by reflexivity.
  change (skipn 5 (lit "LIBS:" ++ l)) with l. rewrite IH, <- app_assoc. reflexivity. Qed.
Lemma libs_stop p acc libs s r : libs_loop p acc = (libs, s :: r) -> starts_with (lit "LIBS:") s = false.
Proof.
  revert acc. induction p as [|x p IH]; intros acc E; [discriminate|]. cbn [libs_loop] in E. destruct (starts_with (lit "LIBS:") x) eqn:Q; [exact (IH _ E)|]. injection E as _ <- _. exact Q.
Qed.
Ltac libs_at X := let Y := fresh in pose proof X as Y; match type of Y with _ = ?v => match goal with |- context[libs_loop ?p []] => replace (libs_loop p []) with v by (symmetry; exact Y) end end; clear Y.
Lemma lines_ends fn ls m : ends m (lines_said fn ls) <-> refused ls m.
Proof.
  unfold lines_said. split.
  - intros E. apply ends_bind in E. destruct E as [E|(p & F & E)].
    + apply line_ends in E. destruct E as (x & -> & W). apply rf_first. exact W.
    + apply line_fine in F. subst ls. destruct (libs_loop p []) as [libs q] eqn:Lp. destruct (libs_fw _ _ _ _ Lp) as (l & -> & ->). cbn [app] in *.
      apply ends_bind in E. destruct q as [|e q]; cbn [here_said next tl] in E.
      * destruct E as [E|(a & [=] & _)]. unfold ends in E. destruct m; [discriminate|]. rewrite app_nil_r. apply rf_ends.
      * destruct E as [E|(a & [= <-] & E)]; [destruct (ends_fine _ _ E)|]. pose proof (libs_stop _ _ _ _ _ Lp) as NL. cbn [next tl] in E.
        destruct (starts_with (lit "EELAYER ") e) eqn:QE; cbn [negb] in E.
        -- apply ends_bind in E. destruct E as [E|(t & F & E)].
           ++ apply line_ends in E. destruct E as (x & -> & W). exact (rf_layers l e q x QE W).
           ++ apply line_fine in F. subst q. destruct (main_fw' _ _ _ _ E) as (a & secs & b & -> & S & Fa).
              pose proof (rf_section l e a secs b m QE S Fa) as R. unfold heading in R. rewrite <- app_comm_cons, <- app_assoc in R. exact R.
        -- unfold ends in E. destruct m as [m|]; [|discriminate]. injection E as <-. exact (rf_layer l e q NL QE).
  - intros R. inversion R as [ls' x W|libs|libs s r NL NE|libs e r x QE W|libs e a secs b x QE S Fa]; subst.
    + apply ends_bind. left. apply line_ends. eauto.
    + unfold libraries. cbn [line_said]. rewrite str_eqb_refl. cbn [sbind]. rewrite libs_end. reflexivity.
    + unfold libraries. cbn [app line_said]. rewrite str_eqb_refl. cbn [sbind]. libs_at (libs_bw libs [] s r NL). cbn [here_said sbind]. rewrite NE. reflexivity.
    + unfold libraries. cbn [app line_said]. rewrite str_eqb_refl. cbn [sbind]. libs_at (libs_bw libs [] e r (layer_lib e QE)). cbn [here_said sbind]. rewrite QE. cbn [negb next tl].
      apply ends_bind. left. apply line_ends. eauto.
    + unfold heading. rewrite <- app_comm_cons, <- app_assoc. cbn [line_said]. rewrite str_eqb_refl. cbn [sbind]. cbn [app]. libs_at (libs_bw libs [] e (lit "EELAYER END" :: a ++ b) (layer_lib e QE)).
      cbn [here_said sbind]. rewrite QE. cbn [negb next tl line_said]. rewrite str_eqb_refl. cbn [sbind]. apply (main_bw' a secs b m S Fa). lia.
Qed.
Theorem schematic_ends fn t m : ends m (schematic_said fn t) <-> exists ls, text_lines t ls /\ refused ls m.
Proof.
  unfold schematic_said. rewrite lines_ends. split.
  - intros R. exists (lines t). split; [apply lines_iff; reflexivity|exact R].
  - intros (ls & T & R). apply lines_iff in T. rewrite T. exact R.
Qed.
