(** Specification: saving whatever was opened (C56). *)
From Coq Require Import String.
From Verif Require Import Base Str Sexp FpData FpWf LyData LyWf FpLibTable DocText SchData SchPrint SchWf SymData SymPrint SymWf KicadFile.

(** The text the crate writes for a file of each kind *)
Definition save_text (nq : str -> bool) (f : kicad_file) : res str :=
  match f with
  | KModule m => Ok (module_to_string nq m 0)
  | KSchematic s => Ok (print_schematic s)
  | KLayout l => Ok (layout_to_string nq l 0)
  | KSymbolLib l => print_symbol_lib l
  | KProject d => Ok d
  | KFpLibTable t => Ok (table_to_string nq t 0)
  | KUnknown _ => Err EOther
  end.
(** The values the writers keep (see C02, C07, C09, C10) *)
Definition file_clean (f : kicad_file) : bool :=
  match f with
  | KModule m => module_clean m
  | KSchematic s => sch_clean s
  | KLayout l => layout_clean l
  | KSymbolLib l => symbol_lib_clean l
  | KProject _ | KFpLibTable _ => true
  | KUnknown _ => false
  end.
