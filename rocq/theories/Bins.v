(** The programs of /repo/src/bin. *)
From Coq Require Import String.
From Verif Require Import Base Str F64 F64Text FpData LyData LyOps FpLibTable DocText SchData SymData KicadFile CheckFix SymCheck FpCheck.
Open Scope string_scope. Open Scope list_scope.

(** What a run leaves behind: standard output, and the log records as (is a warning, text).
    Left out: what is written while a file is being read; that is in LyLog.v, and the
    lines schematic.rs prints about lines it skips are in SchOut.v.  Aborting with a message is [Panic]. *)
Record ran := mk_ran { r_out : str; r_log : list (bool * str) }.
Definition nl : str := [10%N].
(** [Result::unwrap] *)
Definition unwrap {A} (r : res A) : res A := match r with Err _ => Panic | x => x end.
(** The first argument; [args] starts with the name of the program. *)
Definition arg (args : list str) : res str := match args with _ :: n :: _ => Ok n | _ => Panic end.

(** lib.rs:121-133 *)
Definition show_file (f : kicad_file) : str :=
  match f with
  | KUnknown x => lit "unknown: " ++ x
  | KModule _ => lit "module"
  | KSchematic _ => lit "schematic"
  | KLayout _ => lit "layout"
  | KSymbolLib _ => lit "symbollib"
  | KProject _ => lit "project"
  | KFpLibTable _ => lit "fp-lib-table"
  end.
(** identify.rs:7-14 *)
Definition identify (fs : files) (args : list str) : res ran :=
  do name <- arg args;
  do f <- unwrap (read_kicad_file fs name XAny);
  Ok (mk_ran (lit "found: " ++ show_file f ++ nl) []).
(** dump_footprint.rs:7-16 *)
Definition dump_footprint (nq : str -> bool) (fs : files) (args : list str) : res ran :=
  do name <- arg args;
  do m <- unwrap (read_module fs name);
  Ok (mk_ran (m_name m ++ nl ++ module_to_string nq m 0 ++ nl) []).
(** dump_layout.rs:11-23 *)
Definition dump_layout (nq : str -> bool) (fs : files) (args : list str) : res ran :=
  do name <- arg args;
  do l <- unwrap (read_layout fs name);
  Ok (mk_ran (layout_to_string nq l 0 ++ nl) [(false, name)]).
(** adjust_layout.rs:12-25 *)
Definition adjust_program (nq : str -> bool) (fs : files) (args : list str) : res ran :=
  do name <- arg args;
  do l <- unwrap (read_layout fs name);
  Ok (mk_ran (layout_to_string nq (adjust_layout (flit "100.0") (flit "0.0") l) 0 ++ nl) [(false, name)]).
(** klc_kicad_mod.rs:13-30 *)
Definition klc_kicad_mod (fs : files) (args : list str) : res ran :=
  do name <- arg args;
  do m <- unwrap (read_module fs name);
  Ok (mk_ran [] match fp_check klc m with
                | [] => []
                | v => (false, lit "Module " ++ m_name m) :: flat_map (dump 1) v
                end).
(** klc_symbol_lib.rs:13-32 *)
Definition klc_symbol_lib (fs : files) (args : list str) : res ran :=
  do name <- arg args;
  do l <- unwrap (read_symbol_lib fs name);
  Ok (mk_ran [] (flat_map (fun s => match symbol_check s with
                                     | [] => []
                                     | v => (false, lit "Symbol " ++ sy_name s) :: flat_map (dump 1) v
                                     end) l)).
