(** Demands, checkers and the models with error texts *)
From Coq Require Import String Lia.
From Verif Require Import Base Str StrFacts Num F64 F64Text LibFns LibSpec CutSpec CutFacts SchData SchPrint SchParse SchReadSpec SchReadFacts SymData SymReadSpec SymReadFacts
  OutSpec Said SchErr ErrErase ErrSpec.
Open Scope string_scope. Open Scope list_scope.

(** ** One outcome *)
Definition ends {A} (m : option str) (r : said A) : Prop := r = match m with Some k => Says k | None => Stops end.
Definition good {A} (r : said A) : Prop := exists a, r = Fine a.
Lemma ends_good {A} m (r : said A) : ends m r -> ~ good r.
Proof. unfold ends. intros -> [a E]. destruct m; discriminate. Qed.
Lemma ends_fun {A} m k (r : said A) : ends m r -> ends k r -> m = k.
Proof. unfold ends. intros -> E. destruct m, k; congruence. Qed.
Lemma blamed_fun d m : blamed d m -> forall k, blamed d k -> m = k.
Proof. induction 1; intros k B; inversion B; subst; [reflexivity|contradiction|contradiction|auto]. Qed.
Lemma blamed_met d m : blamed d m -> ~ Forall met d.
Proof. induction 1; intros F; inversion F; subst; auto. Qed.

(** The outcome is that of the demands; if they are met, [K] holds of it. *)
Definition agree {A} (d : list must) (K : said A -> Prop) (r : said A) : Prop := (exists m, blamed d m /\ ends m r) \/ (Forall met d /\ K r).
Lemma agree_nil {A} (K : said A -> Prop) r : K r -> agree [] K r.
Proof. intros H. right. split; [constructor|exact H]. Qed.
Lemma agree_no {A} (P : Prop) m d K (r : said A) : ~ P -> ends m r -> agree ((P, m) :: d) K r.
Proof. intros N E. left. exists m. split; [constructor; exact N|exact E]. Qed.
Lemma agree_yes {A} (P : Prop) m d K (r : said A) : P -> agree d K r -> agree ((P, m) :: d) K r.
Proof.
  intros H [[k [B E]]|[F G]]; [left; exists k; split; [constructor; assumption|exact E]|right; split; [constructor; assumption|exact G]].
Qed.
Lemma agree_app {A} d e K (r : said A) : agree d (agree e K) r -> agree (d ++ e) K r.
Proof.
  induction d as [|[P m] d IH]; intros [[k [B E]]|[F G]]; [inversion B|exact G| |].
  - cbn [app]. inversion B; subst; [apply agree_no; assumption|]. apply agree_yes; [assumption|]. apply IH. left. eauto.
  - inversion F; subst. apply agree_yes; [assumption|]. apply IH. right. auto.
Qed.
(** Words *)
Lemma word_at v i w : nth_error v i = Some w -> word v i = w.
Proof. intros E. apply nth_error_nth. exact E. Qed.
Lemma agree_int {A} s v u i d K (f : Z -> said A) : (i < length v)%nat -> nth_error u i = nth_error v i ->
  (forall z, at_int v i z -> agree d K (f z)) -> agree (m_int s v i :: d) K (try w <- sidx u i; try z <- int_said s w; f z).
Proof.
  intros L U H. unfold sidx. rewrite U. destruct (nth_error v i) as [w|] eqn:E; [|apply nth_error_None in E; lia]. cbn [sbind]. unfold int_said, m_int.
  rewrite (word_at v i w E). destruct (i64_of_str w) as [z|] eqn:Z; cbn [sbind].
  - assert (T : at_int v i z) by (exists w; split; assumption). apply agree_yes; [exists z; exact T|auto].
  - apply agree_no; [|reflexivity]. intros [z [x [X Y]]]. unfold at_word in X. congruence.
Qed.
Lemma agree_num {A} s v u i d K (f : f64 -> said A) : (i < length v)%nat -> nth_error u i = nth_error v i ->
  (forall z, agree d K (f z)) -> agree (m_num s v i :: d) K (try w <- sidx u i; try z <- float_said s w; f z).
Proof.
  intros L U H. unfold sidx. rewrite U. destruct (nth_error v i) as [w|] eqn:E; [|apply nth_error_None in E; lia]. cbn [sbind]. unfold float_said, m_num.
  rewrite (word_at v i w E). destruct (f64_of_str w) as [z|] eqn:Z; cbn [sbind].
  - apply agree_yes; [exists z, w; split; assumption|auto].
  - apply agree_no; [|reflexivity]. intros [z [x [X Y]]]. unfold at_word in X. rewrite X in E. injection E as ->. rewrite Y in Z. discriminate Z.
Qed.
(** A word from a table; [g] reads it. *)
Lemma agree_name {A B} (t : list (string * B)) before v u i after d K (g : str -> said B) (f : B -> said A) : (i < length v)%nat -> nth_error u i = nth_error v i ->
  (forall w, match g w with Fine b => exists k, w = lit k /\ In (k, b) t | Says m => m = lit before ++ w ++ after /\ (forall k b, w = lit k -> ~ In (k, b) t) | _ => False end) ->
  (forall b, at_name v i t b -> agree d K (f b)) -> agree (m_name t before v i after :: d) K (try w <- sidx u i; try b <- g w; f b).
Proof.
  intros L U G H. unfold sidx. rewrite U. destruct (nth_error v i) as [w|] eqn:E; [|apply nth_error_None in E; lia]. cbn [sbind]. unfold m_name.
  rewrite (word_at v i w E). specialize (G w). destruct (g w) as [b|m| |]; [| |contradiction|contradiction]; cbn [sbind].
  - destruct G as (k & -> & I). assert (T : at_name v i t b) by (exists k; split; assumption). apply agree_yes; [exists b; exact T|auto].
  - destruct G as [-> N]. apply agree_no; [|reflexivity]. intros [b (k & X & Y)]. unfold at_word in X. rewrite X in E. injection E as <-. exact (N k b eq_refl Y).
Qed.
Lemma agree_letter {A B} (t : list (N * B)) before v w i j after d K (g : N -> said B) (f : B -> said A) : nth_error v i = Some w ->
  (forall c, match g c with Fine b => In (c, b) t | Says m => m = lit before ++ [c] ++ after /\ (forall b, ~ In (c, b) t) | _ => False end) ->
  (forall b, agree d K (f b)) -> agree (m_letter t before v i j after ++ d) K (try c <- schar w j; try b <- g c; f b).
Proof.
  intros E G H. unfold m_letter, schar, sidx. rewrite (word_at v i w E). destruct (nth_error w j) as [c|] eqn:C; cbn [sbind app].
  - assert (L : (j < length w)%nat) by (apply nth_error_Some; congruence). apply agree_yes; [exact L|].
    rewrite (nth_error_nth w j 0%N C). specialize (G c). destruct (g c) as [b|m| |]; [| |contradiction|contradiction]; cbn [sbind].
    + apply agree_yes; [exists b, w, c; auto|auto].
    + destruct G as [-> N]. apply agree_no; [|reflexivity]. intros [b (w' & c' & X & Y & I)]. unfold at_word in X. assert (w' = w) by congruence. subst w'.
      assert (c' = c) by congruence. subst c'. exact (N b I).
  - apply nth_error_None in C. apply agree_no; [lia|reflexivity].
Qed.
(** Splitting *)
Lemma agree_count {A} n s d K (f : list str -> said A) v : line_words s v ->
  (forall u, (n <= length v)%nat -> (forall i, (i < n)%nat -> nth_error u i = nth_error v i) -> agree d K (f u)) ->
  agree (m_count n s v :: d) K (try u <- split_said n s; f u).
Proof.
  intros W H. unfold m_count, split_said. destruct (Compare_dec.le_lt_dec n (length v)) as [L|L].
  - destruct (n_ok n s v W L) as (u & E & I). rewrite E. apply agree_yes; [exact L|]. apply H; assumption.
  - destruct (split_quote_aware_n n s) as [u|e|] eqn:E.
    + destruct (n_inv n s u E) as (w & W' & L' & _). rewrite (same_words s v w W W') in L. lia.
    + apply agree_no; [lia|reflexivity].
    + apply agree_no; [lia|reflexivity].
Qed.
Lemma skip_word {A B} (v u : list B) i d K (f : B -> said A) : (i < length v)%nat -> nth_error u i = nth_error v i ->
  (forall w, nth_error v i = Some w -> agree d K (f w)) -> agree d K (try w <- sidx u i; f w).
Proof. intros L U H. unfold sidx. rewrite U. destruct (nth_error v i) as [w|] eqn:E; [exact (H w eq_refl)|apply nth_error_None in E; lia]. Qed.

(** ** Lines *)
Definition fun_checker (c : checker) : Prop := forall s, exists d, c s d /\ forall e, c s e -> e = d.
(** The checker [c] describes the outcome of [f]. *)
Definition checks {A} (c : checker) (s : str) (r : said A) : Prop := exists d, c s d /\ (forall e, c s e -> e = d) /\ agree d good r.
Lemma checks_fails {A} c s (r : said A) m : checks c s r -> fails c s m <-> ends m r.
Proof.
  intros (d & C & U & [[k [B E]]|[F G]]); split.
  - intros (e & C' & B'). rewrite (U e C') in B'. rewrite (blamed_fun d m B' k B). exact E.
  - intros E'. exists d. split; [exact C|]. rewrite (ends_fun m k r E' E). exact B.
  - intros (e & C' & B'). rewrite (U e C') in B'. destruct (blamed_met d m B' F).
  - intros E. destruct (ends_good m r E G).
Qed.
Lemma checks_passes {A} c s (r : said A) : checks c s r -> passes c s <-> good r.
Proof.
  intros (d & C & U & [[k [B E]]|[F G]]); split.
  - intros (e & C' & F). rewrite (U e C') in F. destruct (blamed_met d k B F).
  - intros G. destruct (ends_good k r E G).
  - intros _. exact G.
  - intros _. exists d. auto.
Qed.
Lemma quotes_one f s v : line_words s v -> by_quotes f s (f s v) /\ forall e, by_quotes f s e -> e = f s v.
Proof. intros W. split; [exists v; auto|]. intros e (u & U & ->). rewrite (same_words s u v U W). reflexivity. Qed.
Lemma blanks_one f s : by_blanks f s (f s (split_ws s)) /\ forall e, by_blanks f s e -> e = f s (split_ws s).
Proof. split; [exists (split_ws s); split; [apply ws_iff; reflexivity|reflexivity]|]. intros e (u & U & ->). apply ws_iff in U. rewrite U. reflexivity. Qed.
