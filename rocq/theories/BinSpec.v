(** Specification of the programs (C53). *)
From Coq Require Import String.
From Verif Require Import Base Str SymData SymCheck CheckFix CheckSpec KicadFile.
Open Scope string_scope. Open Scope list_scope.

(** What [identify] calls the kinds of files *)
Definition word (x : expected) : str :=
  match x with
  | XModule => lit "module" | XSchematic => lit "schematic" | XLayout => lit "layout" | XSymbolLib => lit "symbollib"
  | XProject => lit "project" | XFpLibTable => lit "fp-lib-table" | XAny => []
  end.
(** The log of a library: per symbol that breaks a rule its name and one line per
    finding, in the order of the library. *)
Inductive symbol_log : list symbol -> list (bool * str) -> Prop :=
| sl_nil : symbol_log [] []
| sl_fine s l log : symbol_accepted s -> symbol_log l log -> symbol_log (s :: l) log
| sl_bad s l lines log : ~ symbol_accepted s ->
    Forall2 (fun line i => exists k, line = dump_item k i) lines (all_findings (symbol_check s)) ->
    symbol_log l log -> symbol_log (s :: l) ((false, lit "Symbol " ++ sy_name s) :: lines ++ log).
