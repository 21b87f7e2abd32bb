(** Property theorems: opening, saving and opening again (C56). *)
From Coq Require Import String.
From Verif Require Import Base Str StrFacts Sexp FpData FpDe FpWf LyData LyDe LyWf FpLibTable Formatter FormatterSpec DocSpec DocText LibFns
  SchData SchPrint SchParse SchWf SymData SymPrint SymParse SymWf KicadFile KfSpec SxText SaveSpec SaveFacts P_Formatter.
Open Scope string_scope. Open Scope list_scope.

(** ** C56 *)
(** Whatever text it was read from: no condition on the strings is left, only that
    the numbers and flags are ones the writers keep. *)
Theorem C56_module : forall nq s m n, quote_contract nq -> parse_module s = Ok m -> module_clean m = true ->
  parse_module (module_to_string nq m n) = Ok m.
Proof. exact (fun nq s m n => text_module nq s m n). Qed.
Print Assumptions C56_module.
Theorem C56_layout : forall nq s l n, quote_contract nq -> parse_layout s = Ok l -> layout_clean l = true ->
  parse_layout (layout_to_string nq l n) = Ok l.
Proof. exact (fun nq s l n => text_layout nq s l n). Qed.
Print Assumptions C56_layout.
(** Library tables: every table that can be read. *)
Theorem C56_table : forall nq s t n, quote_contract nq -> parse_table s = Ok t -> parse_table (table_to_string nq t n) = Ok t.
Proof. exact (fun nq s t n => text_table nq s t n). Qed.
Print Assumptions C56_table.
(** A file of any kind, on disk. *)
Theorem C56_open_save_open : forall nq fs n x f, quote_contract nq -> read_kicad_file fs n x = Ok f -> file_clean f = true ->
  exists t, save_text nq f = Ok t /\ read_kicad_file (write_file fs n t) n x = Ok f.
Proof. exact save_opened. Qed.
Print Assumptions C56_open_save_open.
(** No text read from a file holds a quote character, even though quoted texts are read. *)
Theorem C56_no_quotes : forall s t, read_sexp s = Ok t -> doc_ok t = true.
Proof. exact read_doc_ok. Qed.
Print Assumptions C56_no_quotes.

Definition q : str := [34]%N.
Definition text_m : str := lit "(module " ++ q ++ lit "R (1)" ++ q ++ lit " (layer F.Cu)(tedit 0)  (descr " ++ q ++ lit "two words" ++ q ++
  lit ") (fp_text reference a (at 0 1 90) (layer Odd.layer.x) hide (effects (font (size 1 1) (thickness 0.1)))) (fp_line (start 0 0) (end 1 1) (layer F.SilkS) (width 0.10)))".
Definition text_l : str := lit "(kicad_pcb (version 4) (page " ++ q ++ lit "A 4" ++ q ++ lit ") (what is (" ++ q ++ lit "this?)" ++ q ++
  lit ")) (gr_line (start 0 0) (end 1 2) (layer Edge.Cuts) (width 0.1)) " ++ text_m ++ lit ")".
Definition same_text (f : kicad_file) (s : str) : bool := match save_text quote_special f with Ok t => str_eqb t s | _ => false end.
Definition opened (s : str) (x : expected) : bool :=
  match read_data (lit "f") s XAny with Ok f => file_clean f && expected_eqb (kind f) x && negb (same_text f s) | _ => false end.
(** The texts can be read, are clean, and are not already what would be written. *)
Example C56_ex : opened text_m XModule = true /\ opened text_l XLayout = true /\
  opened (lit "(fp_lib_table (lib (name a)(type KiCad)(uri " ++ q ++ lit "${X}/a b.pretty" ++ q ++ lit ")(options " ++ q ++ q ++ lit ")(descr d)))") XFpLibTable = true.
Proof. vm_compute. auto. Qed.
(** Without the condition it is false: a footprint with a rect_delta pad can be opened,
    but once saved it cannot be opened again. *)
Definition lost (s : str) : bool :=
  match parse_module s with Ok m => negb (is_ok (parse_module (module_to_string quote_special m 0))) | _ => false end.
Theorem C56_lost_refuted : exists s, lost s = true.
Proof. exists (lit "(module a (layer F.Cu) (pad 1 smd rect (at 0 0) (rect_delta 1 2) (layers F.Cu)))"). vm_compute. reflexivity. Qed.
Print Assumptions C56_lost_refuted.
