(** Property theorems: which error is reported when a file cannot be opened (C83). *)
From Coq Require Import String.
From Verif Require Import Base Str Sexp FpData LyData FpLibTable Formatter DocText LibFns SchData SchParse SymData SymParse KicadFile GramSpec WideSpec KindSx KindText SpellSpec SpellKind KindSpec KindFacts P_Spell.
Open Scope string_scope. Open Scope list_scope.

(** ** C83 *)
(** A file that is not there gives an input error and nothing else does; any other refusal
    gives the error of the kind asked for. *)
Theorem C83_file : forall fs n x e, read_kicad_file fs n x = Err e <-> file_fails fs n x e.
Proof. exact file_fails_iff. Qed.
Print Assumptions C83_file.
(** The readers for one kind: a file of a kind tried earlier gives the error [Other]. *)
Theorem C83_module : forall fs n e, read_module fs n = Err e <-> open_fails fs n XModule e.
Proof. exact module_fails. Qed.
Print Assumptions C83_module.
Theorem C83_schematic : forall fs n e, read_schematic fs n = Err e <-> open_fails fs n XSchematic e.
Proof. exact schematic_fails. Qed.
Print Assumptions C83_schematic.
Theorem C83_layout : forall fs n e, read_layout fs n = Err e <-> open_fails fs n XLayout e.
Proof. exact layout_fails. Qed.
Print Assumptions C83_layout.
Theorem C83_library : forall fs n e, read_symbol_lib fs n = Err e <-> open_fails fs n XSymbolLib e.
Proof. exact library_fails. Qed.
Print Assumptions C83_library.
Theorem C83_project : forall fs n e, read_project fs n = Err e <-> open_fails fs n XProject e.
Proof. exact project_fails. Qed.
Print Assumptions C83_project.
Theorem C83_table : forall fs n e, read_fp_lib_table fs n = Err e <-> open_fails fs n XFpLibTable e.
Proof. exact table_fails. Qed.
Print Assumptions C83_table.
(** The text readers themselves: one error each, never [Parse], never out of fuel. *)
Theorem C83_texts : forall e t,
  (parse_module t = Err e -> e = ESexp) /\ (parse_layout t = Err e -> e = ESexp) /\ (parse_table t = Err e -> e = ESexp) /\
  (forall fn, parse_schematic fn t = Err e -> e = EOther) /\ (parse_symbol_lib t = Err e -> e = EOther) /\ (parse_project t = Err e -> e = EOther).
Proof. exact text_errors. Qed.
Print Assumptions C83_texts.

(** "a" holds a footprint, "b" a project, "c" is not there (see C77). *)
Example C83_ex :
  read_layout some_files (lit "a") = Err EOther /\ read_layout some_files (lit "b") = Err ESexp /\ read_layout some_files (lit "c") = Err EIo /\
  read_module some_files (lit "b") = Err ESexp /\ read_schematic some_files (lit "b") = Err EOther /\ read_fp_lib_table some_files (lit "b") = Err EOther /\
  read_kicad_file some_files (lit "c") XAny = Err EIo /\ read_kicad_file some_files (lit "b") XLayout = Err ESexp.
Proof. vm_compute. repeat (split; [reflexivity|]). reflexivity. Qed.
(** The hypotheses of the two parts of [open_fails] *)
Example C83_earlier_ex : exists f, file_is (lit "a") odd_text f /\ earlier f XLayout.
Proof.
  pose proof odd_text_read as H. destruct (parse_module odd_text) as [m| |] eqn:E; try discriminate. exists (KModule m).
  split; [now apply C77_module|]. exists XModule. split; [exact I|]. cbn. apply Nat.lt_0_succ.
Qed.
Example C83_nothing_ex : nothing (lit "b") (lit "update=1") XLayout.
Proof.
  assert (H : exists e, read_data (lit "b") (lit "update=1") XLayout = Err e) by (eexists; vm_compute; reflexivity).
  apply data_err in H as (_ & C & F). split; assumption.
Qed.
