(** Property theorems: detecting the kind of a file (C39), saved files (C40),
    readers that never abort (C50). *)
From Coq Require Import String.
From Verif Require Import Base Str Sexp FpData FpDe FpWf LyData LyDe LyWf FpLibTable Formatter FormatterSpec DocSpec DocText LibFns
  SchData SchPrint SchParse SchWf SymData SymPrint SymParse SymWf KicadFile KfSpec KfFacts KfTotal SxSpec SxTotal
  FpExamples LyExamples P_Formatter P_Schematic P_Symbol.
Open Scope string_scope. Open Scope list_scope.

(** ** C39 *)
(** A kind is reported exactly when the reader of that kind accepts the content and
    the expected kind does not stop the search earlier. *)
Theorem C39_kind : forall n s x f, f <> KUnknown n ->
  (read_data n s x = Ok f <-> accepted n s f /\ (rank (kind f) <= rank x)%nat).
Proof. exact known_iff. Qed.
Print Assumptions C39_kind.
Theorem C39_sound : forall n s x f, read_data n s x = Ok f -> accepted n s f \/ f = KUnknown n.
Proof. exact sound. Qed.
Print Assumptions C39_sound.
(** No content is accepted as two things. *)
Theorem C39_exclusive : forall n s f g, accepted n s f -> accepted n s g -> f = g.
Proof. exact exclusive. Qed.
Print Assumptions C39_exclusive.
(** What no reader accepts is unknown for [Any] and refused otherwise. *)
Theorem C39_unknown : forall n s x, parse_schematic (Some n) s <> Panic -> parse_symbol_lib s <> Panic ->
  (forall f, ~ accepted n s f) ->
  (x = XAny -> read_data n s x = Ok (KUnknown n)) /\ (x <> XAny -> exists e, read_data n s x = Err e).
Proof. exact unknown_two. Qed.
Print Assumptions C39_unknown.
(** The readers for one kind give exactly what the reader of that kind gives. *)
Theorem C39_read_module : forall fs n m, read_module fs n = Ok m <-> exists s, fs n = Some s /\ parse_module s = Ok m.
Proof. exact read_module_iff. Qed.
Print Assumptions C39_read_module.
Theorem C39_read_schematic : forall fs n m,
  read_schematic fs n = Ok m <-> exists s, fs n = Some s /\ parse_schematic (Some n) s = Ok m.
Proof. exact read_schematic_iff. Qed.
Print Assumptions C39_read_schematic.
Theorem C39_read_layout : forall fs n m, read_layout fs n = Ok m <-> exists s, fs n = Some s /\ parse_layout s = Ok m.
Proof. exact read_layout_iff. Qed.
Print Assumptions C39_read_layout.
Theorem C39_read_symbol_lib : forall fs n m, read_symbol_lib fs n = Ok m <-> exists s, fs n = Some s /\ parse_symbol_lib s = Ok m.
Proof. exact read_symbol_lib_iff. Qed.
Print Assumptions C39_read_symbol_lib.
Theorem C39_read_project : forall fs n m, read_project fs n = Ok m <-> exists s, fs n = Some s /\ parse_project s = Ok m.
Proof. exact read_project_iff. Qed.
Print Assumptions C39_read_project.
Theorem C39_read_table : forall fs n m, read_fp_lib_table fs n = Ok m <-> exists s, fs n = Some s /\ parse_table s = Ok m.
Proof. exact read_table_iff. Qed.
Print Assumptions C39_read_table.

Definition kind_of (r : res kicad_file) : option expected := match r with Ok f => Some (kind f) | _ => None end.
Example C39_ex :
  kind_of (read_data (lit "a") (lit "(module x locked)") XAny) = Some XModule /\
  kind_of (read_data (lit "a") (lit "(fp_lib_table)") XFpLibTable) = Some XFpLibTable /\
  kind_of (read_data (lit "a") (lit "(fp_lib_table)") XProject) = None /\
  kind_of (read_data (lit "a") (lit "(module x locked)") XLayout) = Some XModule /\
  kind_of (read_data (lit "a") (lit "update=now") XAny) = Some XProject /\
  kind_of (read_data (lit "a") (lit "hello") XAny) = Some XAny.
Proof. vm_compute. auto 10. Qed.
Example C39_unknown_ex : parse_schematic (Some (lit "a")) (lit "hello") <> Panic /\ parse_symbol_lib (lit "hello") <> Panic /\
  forall f, ~ accepted (lit "a") (lit "hello") f.
Proof.
  split; [|split].
  - vm_compute. discriminate.
  - vm_compute. discriminate.
  - intros [u|m|c|l|l|d|t]; cbn [accepted]; [tauto|..]; intros H.
    + assert (E : is_ok (parse_module (lit "hello")) = false) by (vm_compute; reflexivity). rewrite H in E. discriminate E.
    + assert (E : is_ok (parse_schematic (Some (lit "a")) (lit "hello")) = false) by (vm_compute; reflexivity). rewrite H in E. discriminate E.
    + assert (E : is_ok (parse_layout (lit "hello")) = false) by (vm_compute; reflexivity). rewrite H in E. discriminate E.
    + assert (E : is_ok (parse_symbol_lib (lit "hello")) = false) by (vm_compute; reflexivity). rewrite H in E. discriminate E.
    + assert (E : is_ok (parse_project (lit "hello")) = false) by (vm_compute; reflexivity). rewrite H in E. discriminate E.
    + assert (E : is_ok (parse_table (lit "hello")) = false) by (vm_compute; reflexivity). rewrite H in E. discriminate E.
Qed.

(** ** C40 *)
(** The conditions are those of the text round trips C09, C10 and C12. *)
Theorem C40_module : forall nq fs n x m, quote_contract nq -> module_ok m = true -> forallb no_quote (module_strs m) = true ->
  read_kicad_file (write_module nq fs m n) n x = Ok (KModule m).
Proof. exact saved_module. Qed.
Print Assumptions C40_module.
Theorem C40_layout : forall nq fs n x l, quote_contract nq -> layout_ok l = true -> forallb no_quote (layout_strs l) = true ->
  forallb doc_ok (layout_other l) = true -> (2 <= rank x)%nat -> read_kicad_file (write_layout nq fs l n) n x = Ok (KLayout l).
Proof. exact saved_layout. Qed.
Print Assumptions C40_layout.
Theorem C40_table : forall nq fs n x t i, quote_contract nq -> forallb no_quote (flat_map flib_strs t) = true -> (5 <= rank x)%nat ->
  read_kicad_file (write_file fs n (table_to_string nq t i)) n x = Ok (KFpLibTable t).
Proof. exact saved_table. Qed.
Print Assumptions C40_table.
Theorem C40_schematic : forall fs n x s, sch_ok s = true -> sc_filename s = Some n -> (1 <= rank x)%nat ->
  read_kicad_file (write_file fs n (print_schematic s)) n x = Ok (KSchematic s).
Proof. exact saved_schematic. Qed.
Print Assumptions C40_schematic.
Theorem C40_symbol_lib : forall fs n x l, symbol_lib_ok l = true -> (3 <= rank x)%nat ->
  exists t, print_symbol_lib l = Ok t /\ read_kicad_file (write_file fs n t) n x = Ok (KSymbolLib l).
Proof. exact saved_symbol_lib. Qed.
Print Assumptions C40_symbol_lib.
Theorem C40_project : forall fs n x d d', parse_project d = Ok d' -> (4 <= rank x)%nat ->
  read_kicad_file (write_file fs n d') n x = Ok (KProject d').
Proof. exact saved_project. Qed.
Print Assumptions C40_project.
(** Saving leaves all other files as they were. *)
Theorem C40_others : forall fs n x d m, m <> n -> read_kicad_file (write_file fs n d) m x = read_kicad_file fs m x.
Proof. exact other_files. Qed.
Print Assumptions C40_others.
Example C40_ex : quote_contract quote_special /\ module_ok ex_module = true /\ forallb no_quote (module_strs ex_module) = true /\
  layout_ok ex_layout = true /\ forallb no_quote (layout_strs ex_layout) = true /\ forallb doc_ok (layout_other ex_layout) = true /\
  sch_ok ex_sch = true /\ sc_filename ex_sch = Some (lit "d/top.sch") /\ symbol_lib_ok [ex_symbol; ex_power] = true.
Proof.
  split; [exact quote_special_ok|]. destruct C12_module_ex as [A B], C12_layout_ex as (C & D & E).
  repeat (split; [assumption||exact C09_ex||reflexivity|]). exact C10_ex.
Qed.
Example C40_ex_table : is_ok (read_kicad_file (write_file (fun _ => None) (lit "t")
   (table_to_string quote_special [mk_flib (lit "a b") (lit "KiCad") (lit "/x y") [] (lit "d")] 0)) (lit "t") XFpLibTable) = true.
Proof. vm_compute. reflexivity. Qed.

(** ** C50 *)
Theorem C50_module : forall s, parse_module s <> Panic.
Proof. exact parse_module_np. Qed.
Print Assumptions C50_module.
Theorem C50_layout : forall s, parse_layout s <> Panic.
Proof. exact parse_layout_np. Qed.
Print Assumptions C50_layout.
Theorem C50_table : forall s, parse_table s <> Panic.
Proof. exact parse_table_np. Qed.
Print Assumptions C50_table.
(** The same for trees built by other means, as long as they hold no empty expression. *)
Theorem C50_module_tree : forall t, no_empty t -> de_module t <> Panic.
Proof. exact np_module. Qed.
Print Assumptions C50_module_tree.
Theorem C50_layout_tree : forall t, no_empty t -> de_layout t <> Panic.
Proof. exact np_layout. Qed.
Print Assumptions C50_layout_tree.
Theorem C50_table_tree : forall t, de_fp_lib_table t <> Panic.
Proof. exact np_table. Qed.
Print Assumptions C50_table_tree.
Theorem C50_text_tree : forall s t, read_sexp s = Ok t -> no_empty t.
Proof. exact read_no_empty. Qed.
Print Assumptions C50_text_tree.
(** Reading a file aborts exactly when the schematic or the symbol library reader is
    reached and aborts. *)
Theorem C50_read_file : forall n s x, read_data n s x = Panic <->
  (parse_schematic (Some n) s = Panic /\ 1 <= rank x \/ parse_symbol_lib s = Panic /\ 3 <= rank x)%nat.
Proof. exact read_panic. Qed.
Print Assumptions C50_read_file.
(** An empty expression inside a footprint aborts. *)
Theorem C50_empty_refuted : de_module (SList [a_lit "module"; a_lit "x"; SEmpty]) = Panic /\
  de_layout (SList [a_lit "kicad_pcb"; SList [a_lit "module"; a_lit "x"; SEmpty]]) = Panic.
Proof. vm_compute. auto. Qed.
Print Assumptions C50_empty_refuted.
(** Asking for a layout aborts on a schematic cut after its first line. *)
Theorem C50_read_layout_refuted : exists fs n, read_layout fs n = Panic /\ read_module fs n <> Panic.
Proof.
  exists (fun _ => Some (unlines [lit "EESchema Schematic File Version 2"])), (lit "a"). split; vm_compute; [reflexivity|discriminate].
Qed.
Print Assumptions C50_read_layout_refuted.
Example C50_ex : no_empty (SList [a_lit "module"; SList []; a_lit "x"]).
Proof. constructor. intros x [<-|[<-|[<-|[]]]]; constructor. intros y []. Qed.
