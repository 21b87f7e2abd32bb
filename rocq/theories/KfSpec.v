(** Specification: which file is of which kind (C39, C40). *)
From Coq Require Import String.
From Verif Require Import Base Str Sexp FpData LyData FpLibTable DocText LibFns SchData SchParse SymData SymParse KicadFile.

(** The reader of the kind of [f] gives [f]. *)
Definition accepted (name data : str) (f : kicad_file) : Prop :=
  match f with
  | KModule m => parse_module data = Ok m
  | KSchematic s => parse_schematic (Some name) data = Ok s
  | KLayout l => parse_layout data = Ok l
  | KSymbolLib l => parse_symbol_lib data = Ok l
  | KProject d => parse_project data = Ok d
  | KFpLibTable t => parse_table data = Ok t
  | KUnknown _ => False
  end.
Definition kind (f : kicad_file) : expected :=
  match f with
  | KModule _ => XModule | KSchematic _ => XSchematic | KLayout _ => XLayout | KSymbolLib _ => XSymbolLib
  | KProject _ => XProject | KFpLibTable _ => XFpLibTable | KUnknown _ => XAny
  end.
(** The documented order *)
Definition rank (x : expected) : nat :=
  match x with XModule => 0 | XSchematic => 1 | XLayout => 2 | XSymbolLib => 3 | XProject => 4 | XFpLibTable => 5 | XAny => 6 end.
(** No reader aborts. *)
Definition no_crash (name data : str) : Prop :=
  parse_module data <> Panic /\ parse_schematic (Some name) data <> Panic /\ parse_layout data <> Panic
  /\ parse_symbol_lib data <> Panic /\ parse_table data <> Panic.
