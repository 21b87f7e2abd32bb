(** Reading a file of unknown kind (/repo/src/lib.rs:82-237) and util.rs. *)
From Coq Require Import String.
From Verif Require Import Base Str Sexp FpData LyData FpLibTable Formatter DocText LibFns SchData SchPrint SchParse SymData SymPrint SymParse.
Open Scope string_scope. Open Scope list_scope.

(** lib.rs:84-99 *)
Inductive kicad_file :=
| KUnknown (name : str)
| KModule (m : module)
| KSchematic (s : schematic)
| KLayout (l : layout)
| KSymbolLib (l : list symbol)
| KProject (data : str)
| KFpLibTable (t : fp_lib_table).
(** lib.rs:103-118 *)
Inductive expected := XModule | XSchematic | XLayout | XSymbolLib | XProject | XFpLibTable | XAny.
Definition expected_eqb (a b : expected) : bool :=
  match a, b with
  | XModule, XModule | XSchematic, XSchematic | XLayout, XLayout | XSymbolLib, XSymbolLib | XProject, XProject
  | XFpLibTable, XFpLibTable | XAny, XAny => true
  | _, _ => false
  end.

(** util.rs:11-19: the files that can be read and their contents.  Writing
    (util.rs:22-44) always succeeds here and replaces the content. *)
Definition files := str -> option str.
Definition read_file (fs : files) (name : str) : res str := of_option EIo (fs name).
Definition write_file (fs : files) (name data : str) : files := fun n => if str_eqb n name then Some data else fs n.

(** One of the [match] blocks of lib.rs:138-177, with the rest of the function *)
Definition attempt {A} (r : res A) (mk : A -> kicad_file) (stop : bool) (rest : res kicad_file) : res kicad_file :=
  match r with
  | Ok a => Ok (mk a)
  | Err e => if stop then Err e else rest
  | Panic => Panic
  end.
(** lib.rs:138-177 *)
Definition read_data (name data : str) (x : expected) : res kicad_file :=
  attempt (parse_module data) KModule (expected_eqb x XModule)
  (attempt (parse_schematic (Some name) data) KSchematic (expected_eqb x XSchematic)
  (attempt (parse_layout data) KLayout (expected_eqb x XLayout)
  (attempt (parse_symbol_lib data) KSymbolLib (expected_eqb x XSymbolLib)
  (attempt (parse_project data) KProject (expected_eqb x XProject)
  (attempt (parse_table data) KFpLibTable (expected_eqb x XFpLibTable)
  (Ok (KUnknown name))))))).
Definition read_kicad_file (fs : files) (name : str) (x : expected) : res kicad_file :=
  do data <- read_file fs name; read_data name data x.

(** lib.rs:180-185, 188-193, 196-201, 216-237 *)
Definition read_module (fs : files) (name : str) : res module :=
  do k <- read_kicad_file fs name XModule; match k with KModule m => Ok m | _ => Err EOther end.
Definition read_schematic (fs : files) (name : str) : res schematic :=
  do k <- read_kicad_file fs name XSchematic; match k with KSchematic s => Ok s | _ => Err EOther end.
Definition read_layout (fs : files) (name : str) : res layout :=
  do k <- read_kicad_file fs name XLayout; match k with KLayout l => Ok l | _ => Err EOther end.
Definition read_symbol_lib (fs : files) (name : str) : res (list symbol) :=
  do k <- read_kicad_file fs name XSymbolLib; match k with KSymbolLib l => Ok l | _ => Err EOther end.
Definition read_project (fs : files) (name : str) : res str :=
  do k <- read_kicad_file fs name XProject; match k with KProject d => Ok d | _ => Err EOther end.
Definition read_fp_lib_table (fs : files) (name : str) : res fp_lib_table :=
  do k <- read_kicad_file fs name XFpLibTable; match k with KFpLibTable t => Ok t | _ => Err EOther end.
(** lib.rs:204-213 *)
Definition write_layout (nq : str -> bool) (fs : files) (l : layout) (name : str) : files := write_file fs name (layout_to_string nq l 0).
Definition write_module (nq : str -> bool) (fs : files) (m : module) (name : str) : files := write_file fs name (module_to_string nq m 0).
