(** Text round trips of footprints, layouts and library tables. *)
From Coq Require Import String.
From Verif Require Import Base Str Sexp FpData FpSer FpDe FpWf FpFacts LyData LySer LyDe LyWf LyFacts FpLibTable LibFacts
  Formatter FormatterSpec FormatterFacts DocSpec DocFacts DocText.

Lemma rt_module_text nq m n : quote_contract nq -> module_ok m = true -> forallb no_quote (module_strs m) = true ->
  parse_module (module_to_string nq m n) = Ok m.
Proof.
  intros Q W S. unfold parse_module, module_to_string. rewrite <- (app_nil_r (pretty _ _ _)).
  rewrite read_pretty by (auto using doc_module; reflexivity). cbn [bind]. now apply rt_module.
Qed.
Lemma rt_layout_text nq l n : quote_contract nq -> layout_ok l = true -> forallb no_quote (layout_strs l) = true ->
  forallb doc_ok (layout_other l) = true -> parse_layout (layout_to_string nq l n) = Ok l.
Proof.
  intros Q W S O. unfold parse_layout, layout_to_string. rewrite read_pretty by (auto using doc_layout; reflexivity).
  now apply rt_layout.
Qed.
Lemma rt_table_text nq t n : quote_contract nq -> forallb no_quote (flat_map flib_strs t) = true ->
  parse_table (table_to_string nq t n) = Ok t.
Proof.
  intros Q S. unfold parse_table, table_to_string. rewrite <- (app_nil_r (pretty _ _ _)).
  rewrite read_pretty by (auto using doc_table; reflexivity). cbn [bind]. apply rt_fp_lib_table.
Qed.
Lemma pretty_compact nq n s : quote_contract nq -> doc_ok s = true ->
  lex LNone (pretty nq n s) = lex LNone (compact nq s) /\ read_sexp (pretty nq n s) = Ok s /\ read_sexp (compact nq s) = Ok s.
Proof.
  intros Q D. rewrite lex_compact_doc by assumption. split; [|split].
  - rewrite <- (app_nil_r (pretty _ _ _)). now apply lex_pretty.
  - rewrite <- (app_nil_r (pretty _ _ _)). now apply read_pretty.
  - now apply read_compact.
Qed.
Lemma ser_restores nq s f : named s = true ->
  fs_stack (fst (fm_ser nq s f)) = fs_stack f /\ fs_indent (fst (fm_ser nq s f)) = fs_indent f.
Proof. intros N. destruct (ser_state nq s f) as (H1 & _ & H2). auto. Qed.
Lemma ser_nesting nq s f : fs_stack (fst (fm_ser nq s f)) = fs_stack f /\ (fs_indent f <= fs_indent (fst (fm_ser nq s f)))%Z.
Proof. destruct (ser_state nq s f) as (H1 & H2 & _). auto. Qed.
