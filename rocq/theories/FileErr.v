(** Opening a file (/repo/src/lib.rs:121-237) with the texts of the errors made by
    [str_error].  The texts of input/output errors and of errors about trees come from
    other crates and are left out. *)
From Coq Require Import String.
From Verif Require Import Base Str Sexp FpData LyData FpLibTable Formatter DocText LibFns SchData SchParse SymData SymParse KicadFile Bins Said SchErr SymErr.
Open Scope string_scope. Open Scope list_scope.

Inductive told (A : Type) : Type :=
| TFine (a : A)
| TSays (m : str) (* [KicadError::Other] (error.rs:16-17) *)
| TElse (e : ekind) (* an error without its text *)
| TStops (* a panic *).
Arguments TFine {A} a. Arguments TSays {A} m. Arguments TElse {A} e. Arguments TStops {A}.
Definition tbind {A B} (r : told A) (f : A -> told B) : told B :=
  match r with TFine a => f a | TSays m => TSays m | TElse e => TElse e | TStops => TStops end.
(** The line readers, and the others *)
Definition of_said {A} (r : said A) : told A := match r with Fine a => TFine a | Says m => TSays m | Stops => TStops | Spent => TElse EFuel end.
Definition of_res {A} (r : res A) : told A := match r with Ok a => TFine a | Err e => TElse e | Panic => TStops end.
(** project.rs:20-28 *)
Definition project_told (s : str) : told str :=
  if negb (starts_with (lit "update=") s) then TSays (lit "not a kicad project file!") else TFine s.

(** One of the [match] blocks of lib.rs:138-177, with the rest of the function *)
Definition attempt_told {A} (r : told A) (mk : A -> kicad_file) (stop : bool) (rest : told kicad_file) : told kicad_file :=
  match r with
  | TFine a => TFine (mk a)
  | TSays m => if stop then TSays m else rest
  | TElse e => if stop then TElse e else rest
  | TStops => TStops
  end.
(** lib.rs:138-177 *)
Definition data_told (name data : str) (x : expected) : told kicad_file :=
  attempt_told (of_res (parse_module data)) KModule (expected_eqb x XModule)
  (attempt_told (of_said (schematic_said (Some name) data)) KSchematic (expected_eqb x XSchematic)
  (attempt_told (of_res (parse_layout data)) KLayout (expected_eqb x XLayout)
  (attempt_told (of_said (library_said data)) KSymbolLib (expected_eqb x XSymbolLib)
  (attempt_told (project_told data) KProject (expected_eqb x XProject)
  (attempt_told (of_res (parse_table data)) KFpLibTable (expected_eqb x XFpLibTable)
  (TFine (KUnknown name))))))).
Definition file_told (fs : files) (name : str) (x : expected) : told kicad_file :=
  match fs name with Some data => data_told name data x | None => TElse EIo end.

(** The last arm of the readers of one kind; [show_file] is the [Display] of lib.rs:121-133. *)
Definition unexpected {A} (f : kicad_file) (name : str) : told A := TSays (lit "unexpected " ++ show_file f ++ lit " in " ++ name).
(** lib.rs:180-185, 188-193, 196-201, 216-237 *)
Definition module_told (fs : files) (name : str) : told module :=
  tbind (file_told fs name XModule) (fun k => match k with KModule m => TFine m | x => unexpected x name end).
Definition schematic_told (fs : files) (name : str) : told schematic :=
  tbind (file_told fs name XSchematic) (fun k => match k with KSchematic s => TFine s | x => unexpected x name end).
Definition layout_told (fs : files) (name : str) : told layout :=
  tbind (file_told fs name XLayout) (fun k => match k with KLayout l => TFine l | x => unexpected x name end).
Definition symbol_lib_told (fs : files) (name : str) : told (list symbol) :=
  tbind (file_told fs name XSymbolLib) (fun k => match k with KSymbolLib l => TFine l | x => unexpected x name end).
Definition proj_told (fs : files) (name : str) : told str :=
  tbind (file_told fs name XProject) (fun k => match k with KProject d => TFine d | x => unexpected x name end).
Definition table_told (fs : files) (name : str) : told fp_lib_table :=
  tbind (file_told fs name XFpLibTable) (fun k => match k with KFpLibTable t => TFine t | x => unexpected x name end).
