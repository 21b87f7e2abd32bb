(** A tree that was cut short is no tree. *)
From Coq Require Import String Lia.
From Verif Require Import Base Str StrFacts Sexp SexpFacts FpData FpDe LyData LyDe FpLibTable Formatter FormatterSpec FormatterFacts DocSpec DocFacts DocText SchData SchParse SymData SymParse
  LibFns LibSpec CutSpec SchReadFacts CutFacts GramSpec MeanSpec WideSpec KicadFile SpellSpec SpellFacts SpellKind SxText TornSpec.
Open Scope string_scope. Open Scope list_scope.

Lemma build_rest l r : forallb doc_ok l = true -> build [] (toks (SList l) ++ r) = Some (SList l, r).
Proof.
  intros D. cbn [toks app build]. rewrite <- app_assoc.
  assert (B : forall l a u, forallb doc_ok l = true -> build [a] (flat_map toks l ++ u) = build [rev l ++ a] u).
  { clear. induction l as [|y l IH]; intros a u D; [reflexivity|]. cbn [forallb] in D. apply andb_prop in D as [D1 D2]. cbn [flat_map].
    rewrite <- app_assoc, build_toks, IH by assumption. cbn [rev]. now rewrite <- app_assoc. }
  rewrite B by assumption. cbn [app build]. now rewrite app_nil_r, rev_involutive.
Qed.
(** The first character that is not white space *)
Lemma first_black w c a w' c' a' : blank_text w -> blank_text w' -> is_ws c = false -> is_ws c' = false -> w ++ c :: a = w' ++ c' :: a' -> c = c'.
Proof.
  revert w'. induction w as [|x w IH]; intros [|x' w'] W W' C C' E; cbn [app] in E; injection E as E1 E2.
  - exact E1.
  - subst. rewrite (W' x') in C by now left. discriminate C.
  - subst. rewrite (W c') in C' by now left. discriminate C'.
  - apply (IH w'); auto; intros d I; [apply W|apply W']; now right.
Qed.
Lemma document_inv s t : document s t -> exists w a u, t = w ++ a ++ u /\ blank_text w /\ spelt s a /\ blank_text u.
Proof. intros H. inversion H as [|w s' a l u W S L R]; subst. inversion L; subst. now exists w, a, u. Qed.
Lemma torn_tree l t p : document (SList l) t -> torn p t -> forall s, ~ document s p.
Proof.
  intros D (q & -> & NB) s P. apply document_inv in P as (w & a & u & -> & W & S & U).
  pose proof (spelt_doc _ _ S) as OK. apply read_iff in D. destruct S as [x NE PL|x NQ|l' a S].
  - destruct x as [|c x]; [now apply NE|]. destruct (PL c (or_introl eq_refl)) as (C & C1 & _).
    apply read_iff, document_inv in D as (w' & a' & u' & E & W' & S' & _). inversion S' as [| |l0 b S0]; subst. rewrite <- !app_assoc in E. cbn [app] in E.
    pose proof (first_black _ _ _ _ _ _ W W' C (eq_refl : is_ws 40 = false) E). subst. now apply C1.
  - apply read_iff, document_inv in D as (w' & a' & u' & E & W' & S' & _). inversion S' as [| |l0 b S0]; subst. rewrite <- !app_assoc in E. cbn [app] in E.
    pose proof (first_black _ _ _ _ _ _ W W' (eq_refl : is_ws 34 = false) (eq_refl : is_ws 40 = false) E). discriminate.
  - unfold read_sexp in D. rewrite <- !app_assoc in D. apply blank_wsb in W. rewrite lex_ws in D by exact W. rewrite !app_assoc in D. rewrite <- (app_assoc _ u q) in D.
    rewrite (spelt_lex (SList l') _ (sp_list _ _ S)) in D.
    2: { intros (t1 & c & d & u1 & A & _ & C & _). rewrite app_assoc in A. apply app_inj_tail in A as [_ <-]. destruct C as (_ & _ & C & _). now apply C. }
    pose proof U as U'. apply blank_wsb in U'. rewrite lex_ws in D by exact U'. destruct (lex LNone q) as [ts|] eqn:Q; [|discriminate D]. cbn [option_map] in D.
    rewrite build_rest in D by exact OK. destruct ts; [|discriminate D]. apply NB. apply (lex_lexed q LNone [] I) in Q. cbv beta iota in Q. inversion Q. assumption.
Qed.
Lemma torn_read l t p : read_sexp t = Ok (SList l) -> torn p t -> read_sexp p = Err ESexp.
Proof.
  intros D T. apply read_iff in D. assert (N : forall s, read_sexp p <> Ok s) by (intros s R; apply read_iff in R; exact (torn_tree _ _ _ D T s R)).
  unfold read_sexp in *. destruct (lex LNone p) as [ts|]; [|reflexivity]. destruct (build [] ts) as [[v [|]]|]; try reflexivity. destruct (N v eq_refl).
Qed.
(** Texts of the three kinds are lists. *)
Definition tree_text (t : str) : Prop := exists l, read_sexp t = Ok (SList l).
Lemma module_tree t m : parse_module t = Ok m -> tree_text t.
Proof.
  unfold parse_module, tree_text. intros H. apply bind_inv in H as (s & R & H). rewrite R. destruct s as [x|l|]; [discriminate H|eauto|discriminate H].
Qed.
Lemma layout_tree t m : parse_layout t = Ok m -> tree_text t.
Proof.
  unfold parse_layout, tree_text. intros H. apply bind_inv in H as (s & R & H). rewrite R. destruct s as [x|l|]; [discriminate H|eauto|discriminate H].
Qed.
Lemma table_tree t m : parse_table t = Ok m -> tree_text t.
Proof.
  unfold parse_table, tree_text. intros H. apply bind_inv in H as (s & R & H). rewrite R. destruct s as [x|l|]; [discriminate H|eauto|discriminate H].
Qed.
Lemma tree_torn t p : tree_text t -> torn p t -> parse_module p = Err ESexp /\ parse_layout p = Err ESexp /\ parse_table p = Err ESexp.
Proof. intros [l L] T. unfold parse_module, parse_layout, parse_table. rewrite (torn_read _ _ _ L T). now repeat split. Qed.
(** Nor is it a file of another kind. *)
Definition no_letter (p : str) : Prop := match p with [] => True | c :: _ => c <> 69%N /\ c <> 117%N end.
Lemma tree_start t p : tree_text t -> beginning p t -> no_letter p.
Proof.
  intros [l L] [q ->]. destruct p as [|c p]; [exact I|]. apply read_iff, document_inv in L as (w & a & u & E & W & S & _). inversion S as [| |l0 b S0]; subst.
  destruct w as [|x w]; cbn [app] in E; injection E as -> _; [split; discriminate|]. specialize (W x (or_introl eq_refl)). split; intros ->; discriminate W.
Qed.
Lemma first_line p : no_letter p -> match lines p with [] => True | s :: _ => no_letter s end.
Proof.
  intros H. destruct (lines p) as [|s r] eqn:E; [exact I|]. apply lines_iff in E. 
  assert (K : forall l k m, without_cr l k -> l ++ m = p -> no_letter k).
  { intros l k m C P. destruct k as [|c k]; [exact I|]. destruct C as [->|[-> _]]; cbn [app] in P; rewrite <- P in H; exact H. }
  inversion E as [|l k N O C|l k s0 v O C X]; subst; [apply (K p s [] C); apply app_nil_r|apply (K l s (10%N :: s0) C eq_refl)].
Qed.
Lemma other_kinds n p : no_letter p -> parse_schematic n p = Err EOther /\ parse_symbol_lib p = Err EOther /\ parse_project p = Err EOther.
Proof.
  intros H. pose proof (first_line _ H) as F. unfold parse_schematic, parse_lines, parse_symbol_lib, parse_symbol_lines.
  assert (A : forall k, match k with EmptyString => False | String a _ => a = Ascii.ascii_of_nat 69 end -> assume_line (lines p) k = Err EOther).
  { intros k K. destruct (assume_line (lines p) k) eqn:E; [|unfold assume_line in E; destruct (lines p); [congruence|]; match type of E with (if ?b then _ else _) = _ => destruct b; congruence end|unfold assume_line in E; destruct (lines p); [congruence|]; match type of E with (if ?b then _ else _) = _ => destruct b; congruence end].
    apply assume_line_iff in E. rewrite E in F. destruct k as [|c k]; [contradiction|]. subst c. cbn in F. destruct F as [F _]. now destruct F. }
  rewrite !A by reflexivity. cbn [bind]. repeat split. unfold parse_project. destruct (starts_with (lit "update=") p) eqn:S; [|reflexivity].
  apply starts_iff in S as [r ->]. destruct H as [_ H]. now destruct H.
Qed.
Lemma torn_kind n t p x : tree_text t -> torn p t ->
  read_data n p x = match x with XModule | XLayout | XFpLibTable => Err ESexp | XSchematic | XSymbolLib | XProject => Err EOther | XAny => Ok (KUnknown n) end.
Proof.
  intros L T. destruct (tree_torn _ _ L T) as (A & B & C). assert (P : beginning p t) by (destruct T as (q & E & _); now exists q).
  destruct (other_kinds (Some n) p (tree_start _ _ L P)) as (D & E & F). unfold read_data. rewrite A, B, C, D, E, F. destruct x; reflexivity.
Qed.
Lemma file_tree n t f : file_is n t f -> match f with KModule _ | KLayout _ | KFpLibTable _ => True | _ => False end -> tree_text t.
Proof.
  destruct f as [u|m|c|l|l|d|tb]; intros H K; try contradiction.
  - apply (module_tree t m), module_text, H.
  - apply (layout_tree t l), layout_text, H.
  - apply (table_tree t tb), table_text, H.
Qed.
(** What is written *)
Lemma saved_tree nq n l : quote_contract nq -> forallb doc_ok l = true -> forall w, blank_text w -> tree_text (pretty nq n (SList l) ++ w).
Proof. intros Q D w W. exists l. apply read_pretty; [exact Q|exact D|]. now apply blank_wsb. Qed.
