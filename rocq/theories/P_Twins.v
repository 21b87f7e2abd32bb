(** Property theorems: no two documents that survive saving share a file (C125). *)
From Coq Require Import String.
From Verif Require Import Base Str StrFacts Num F64 Sexp FpData FpSer FpDe FpFacts FpExamples LyData LySer LyDe LyExamples FpLibTable FormatterSpec
  DocSpec DocText KeepSpec SchData SchPrint SchParse SchWf SymData SymPrint SymParse SymWf DocTextFacts P_Formatter P_Exact P_Survive P_Schematic P_Symbol TwinFacts.
Open Scope string_scope. Open Scope list_scope.

(** ** C125 *)
(** Take a document that survives saving ([module_saves], [layout_saves], [sch_ok], [symbol_lib_ok]: the
    documents read back as they were, by C62 and C82).  Another document has the same file only if it
    does not survive saving itself: files tell surviving documents apart. *)
Theorem C125_module : forall nq m m' n n', quote_contract nq -> module_saves m = true ->
  module_to_string nq m' n' = module_to_string nq m n -> (m' = m <-> module_saves m' = true).
Proof. exact twin_module. Qed.
Print Assumptions C125_module.
Theorem C125_layout : forall nq l l' n n', quote_contract nq -> layout_saves l = true ->
  layout_to_string nq l' n' = layout_to_string nq l n -> (l' = l <-> layout_saves l' = true).
Proof. exact twin_layout. Qed.
Print Assumptions C125_layout.
Theorem C125_table : forall nq t t' n n', quote_contract nq -> forallb no_quote (flat_map flib_strs t) = true ->
  table_to_string nq t' n' = table_to_string nq t n -> (t' = t <-> forallb no_quote (flat_map flib_strs t') = true).
Proof. exact twin_table. Qed.
Print Assumptions C125_table.
(** The name of its file is no part of the text of a schematic. *)
Theorem C125_schematic : forall s s', (Z.of_nat (length (print_schematic s)) < 2 ^ 31)%Z -> sc_filename s' = sc_filename s -> sch_ok s = true ->
  print_schematic s' = print_schematic s -> (s' = s <-> sch_ok s' = true).
Proof. exact twin_schematic. Qed.
Print Assumptions C125_schematic.
Theorem C125_library : forall l l' t, symbol_lib_ok l = true -> print_symbol_lib l = Ok t -> print_symbol_lib l' = Ok t ->
  (l' = l <-> symbol_lib_ok l' = true).
Proof. exact twin_library. Qed.
Print Assumptions C125_library.

(** Without that, files do not tell documents apart: a rotation of -0 is not written, ... *)
Definition turned (r : string) : module := mod_of (EAt (mk_at (fl "1") (fl "2") (fl r))).
Definition board_of (m : module) : layout := mk_layout 4 host_default general_default (lit "A4") setup_default [] [YModule m].
Theorem C125_module_refuted : exists m m', module_saves m = true /\ m' <> m /\ forall nq n, module_to_string nq m' n = module_to_string nq m n.
Proof.
  exists (turned "0"), (turned "-0").
  assert (A : module_saves (turned "0") = true) by (vm_compute; reflexivity).
  assert (B : module_saves (turned "-0") = false) by (vm_compute; reflexivity).
  split; [exact A|]. split; [intros E; rewrite E, A in B; discriminate B|].
  assert (E : ser_module (turned "-0") = ser_module (turned "0")) by (vm_compute; reflexivity).
  intros nq n. unfold module_to_string. now rewrite E.
Qed.
Print Assumptions C125_module_refuted.
(** ... nor is it within a board; ... *)
Theorem C125_layout_refuted : exists l l', layout_saves l = true /\ l' <> l /\ forall nq n, layout_to_string nq l' n = layout_to_string nq l n.
Proof.
  exists (board_of (turned "0")), (board_of (turned "-0")).
  assert (A : layout_saves (board_of (turned "0")) = true) by (vm_compute; reflexivity).
  assert (B : layout_saves (board_of (turned "-0")) = false) by (vm_compute; reflexivity).
  split; [exact A|]. split; [intros E; rewrite E, A in B; discriminate B|].
  assert (E : ser_layout (board_of (turned "-0")) = ser_layout (board_of (turned "0"))) by (vm_compute; reflexivity).
  intros nq n. unfold layout_to_string. now rewrite E.
Qed.
Print Assumptions C125_layout_refuted.
(** ... one element of two lines is written as two elements are. *)
Theorem C125_schematic_refuted : exists s s', sch_ok s = true /\ sc_filename s' = sc_filename s /\ s' <> s /\ print_schematic s' = print_schematic s.
Proof.
  exists (wit_sch [SOther (lit "a"); SOther (lit "b")] []), (wit_sch [SOther (lit "a" ++ [10%N] ++ lit "b")] []).
  split; [vm_compute; reflexivity|]. split; [reflexivity|]. split; [discriminate|]. vm_compute. reflexivity.
Qed.
Print Assumptions C125_schematic_refuted.
Definition drawn (d : list draw) : symbol := mk_symbol (lit "A") (lit "U") fzero true true 1 false false (sy_fields ex_power) [] d.
Theorem C125_library_refuted : exists l l' t, symbol_lib_ok l = true /\ l' <> l /\ print_symbol_lib l = Ok t /\ print_symbol_lib l' = Ok t.
Proof.
  exists [drawn [DOther (lit "a"); DOther (lit "b")]], [drawn [DOther (lit "a" ++ [10%N] ++ lit "b")]].
  destruct (print_symbol_lib [drawn [DOther (lit "a"); DOther (lit "b")]]) as [t|e|] eqn:E; [|vm_compute in E; discriminate E..].
  exists t. split; [vm_compute; reflexivity|].
  split; [intros K; apply (f_equal (fun l => List.map (fun y => length (sy_draw y)) l)) in K; vm_compute in K; discriminate K|].
  split; [reflexivity|]. rewrite <- E. vm_compute. reflexivity.
Qed.
Print Assumptions C125_library_refuted.

(** Documents meeting the hypotheses; the files of two boards that differ in one rotation differ. *)
Example C125_ex : module_saves ex_module = true /\ layout_saves ex_layout = true /\ sch_ok ex_sch = true /\ symbol_lib_ok [ex_symbol; ex_power] = true.
Proof. split; [vm_compute; reflexivity|]. split; [vm_compute; reflexivity|]. split; vm_compute; reflexivity. Qed.
Example C125_ex_apart : forall nq n n', quote_contract nq -> module_to_string nq (turned "90") n' <> module_to_string nq (turned "0") n.
Proof.
  intros nq n n' Q E.
  assert (A : module_saves (turned "0") = true) by (vm_compute; reflexivity).
  assert (B : module_saves (turned "90") = true) by (vm_compute; reflexivity).
  apply (C125_module nq _ _ n n' Q A) in E. apply E in B.
  apply (f_equal ser_module) in B. revert B. vm_compute. discriminate.
Qed.
Example C125_ex_table : forallb no_quote (flat_map flib_strs [mk_flib (lit "a b") (lit "KiCad") (lit "x") [] []]) = true.
Proof. vm_compute. reflexivity. Qed.
