(** Property theorems: pretty printing (C12, C13). *)
From Coq Require Import String.
From Verif Require Import Base Str Sexp FpData FpSer FpWf LyData LySer LyWf FpLibTable Formatter FormatterSpec FormatterFacts
  DocSpec DocFacts DocText DocTextFacts FpExamples LyExamples.
Open Scope string_scope. Open Scope list_scope.

(** A quoting rule that meets the contract. *)
Definition quote_special (s : str) : bool :=
  is_empty s || existsb (fun c => is_ws c || N.eqb c 40 || N.eqb c 41 || N.eqb c 34) s.
Example quote_special_ok : quote_contract quote_special.
Proof.
  intros s H. unfold quote_special in H. apply orb_false_iff in H as [H1 H2]. split.
  - intros ->. discriminate.
  - clear H1. induction s as [|c s IH]; [reflexivity|]. cbn [existsb forallb] in *.
    apply orb_false_iff in H2 as [H2 H3]. now rewrite H2, IH.
Qed.

(** ** C12 *)
Theorem C12_pretty : forall nq n s, quote_contract nq -> doc_ok s = true ->
  lex LNone (pretty nq n s) = lex LNone (compact nq s) /\ read_sexp (pretty nq n s) = Ok s /\ read_sexp (compact nq s) = Ok s.
Proof. exact pretty_compact. Qed.
Print Assumptions C12_pretty.
Example C12_ex :
  let s := node "module" [a_lit "R 1"; node "fp_text" [a_lit "a"; node "effects" [kv "font" (a_lit "")]]; SList [SList []; a_lit "x"]] in
  doc_ok s = true /\
  pretty quote_special 0 s
  = lit "(module " ++ [34]%N ++ lit "R 1" ++ [34; 10]%N ++ lit "  (fp_text a" ++ [10]%N ++ lit "    (effects (font " ++ [34; 34]%N ++ lit "))"
    ++ [10]%N ++ lit "  ) (() x)" ++ [10]%N ++ lit ")".
Proof. split; reflexivity. Qed.
(** Whole files: footprints, layouts, library tables. *)
Theorem C12_module_text : forall nq m n, quote_contract nq -> module_ok m = true ->
  forallb no_quote (module_strs m) = true -> parse_module (module_to_string nq m n) = Ok m.
Proof. exact rt_module_text. Qed.
Print Assumptions C12_module_text.
Theorem C12_layout_text : forall nq l n, quote_contract nq -> layout_ok l = true -> forallb no_quote (layout_strs l) = true ->
  forallb doc_ok (layout_other l) = true -> parse_layout (layout_to_string nq l n) = Ok l.
Proof. exact rt_layout_text. Qed.
Print Assumptions C12_layout_text.
Theorem C12_table_text : forall nq t n, quote_contract nq -> forallb no_quote (flat_map flib_strs t) = true ->
  parse_table (table_to_string nq t n) = Ok t.
Proof. exact rt_table_text. Qed.
Print Assumptions C12_table_text.
Example C12_module_ex : module_ok ex_module = true /\ forallb no_quote (module_strs ex_module) = true.
Proof. split; reflexivity. Qed.
Example C12_layout_ex : layout_ok ex_layout = true /\ forallb no_quote (layout_strs ex_layout) = true /\
  forallb doc_ok (layout_other ex_layout) = true.
Proof. repeat split; reflexivity. Qed.

(** ** C13 *)
Theorem C13_restored : forall nq s f, named s = true ->
  fs_stack (fst (fm_ser nq s f)) = fs_stack f /\ fs_indent (fst (fm_ser nq s f)) = fs_indent f.
Proof. exact ser_restores. Qed.
Print Assumptions C13_restored.
(** Nesting is always restored and indentation never drops. *)
Theorem C13_nesting : forall nq s f,
  fs_stack (fst (fm_ser nq s f)) = fs_stack f /\ (fs_indent f <= fs_indent (fst (fm_ser nq s f)))%Z.
Proof. exact ser_nesting. Qed.
Print Assumptions C13_nesting.
(** What this crate writes. *)
Theorem C13_module : forall m, named (ser_module m) = true.
Proof. exact named_module. Qed.
Print Assumptions C13_module.
Theorem C13_table : forall t, named (ser_fp_lib_table t) = true.
Proof. exact named_table. Qed.
Print Assumptions C13_table.
Theorem C13_layout : forall l, forallb named (layout_other l) = true ->
  forallb (fun n => negb (is_empty n)) (setup_names l) = true -> named (ser_layout l) = true.
Proof. exact named_layout. Qed.
Print Assumptions C13_layout.
Example C13_layout_ex : forallb named (layout_other ex_layout) = true /\
  forallb (fun n => negb (is_empty n)) (setup_names ex_layout) = true /\ setup_names ex_layout <> [].
Proof. split; [reflexivity|split; [reflexivity|discriminate]]. Qed.
(** A list without a name shifts all that follows, as for a setup entry with an
    empty name. *)
Theorem C13_unnamed_refuted : exists nq s, quote_contract nq /\ doc_ok s = true /\
  s = node "kicad_pcb" [ser_setup (mk_setup [mk_se [] (lit "v") None] [])] /\
  fs_indent (fst (fm_ser nq s (fs_new 0))) <> 0%Z.
Proof.
  exists quote_special. eexists. split; [apply quote_special_ok|]. split; [|split; [reflexivity|]]; [reflexivity|].
  vm_compute. discriminate.
Qed.
Print Assumptions C13_unnamed_refuted.
