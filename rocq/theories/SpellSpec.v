(** Specification: how a tree is spelt as a text, and what a file of any kind is read as
    (C77). *)
From Coq Require Import String.
From Verif Require Import Base Str Sexp FpData LyData FpLibTable SchData SymData LibSpec CutSpec SchReadSpec SymReadSpec CrashSpec GramSpec MeanSpec WideSpec KicadFile.

(** ** Trees *)
Definition blank_text (w : str) : Prop := forall c, In c w -> is_ws c = true.
(** The characters that may stand in a word without quotes: not ( ) and quote *)
Definition plain (c : N) : Prop := is_ws c = false /\ c <> 40%N /\ c <> 41%N /\ c <> 34%N.
(** The texts run together when one ends and the other begins with such a character. *)
Definition run_together (t u : str) : Prop := exists t1 c d u1, t = t1 ++ [c] /\ u = d :: u1 /\ plain c /\ plain d.

Inductive spelt : sexp -> str -> Prop :=
| sp_word (x : str) : x <> [] -> (forall c, In c x -> plain c) -> spelt (SStr x) x
| sp_quoted (x : str) : ~ In 34%N x -> spelt (SStr x) ([34%N] ++ x ++ [34%N])
| sp_list l t : spelt_all l t -> spelt (SList l) ([40%N] ++ t ++ [41%N])
with spelt_all : list sexp -> str -> Prop :=
| sa_nil w : blank_text w -> spelt_all [] w
| sa_cons w s t l u : blank_text w -> spelt s t -> spelt_all l u -> ~ run_together t u -> spelt_all (s :: l) (w ++ t ++ u).
(** A text that is one tree, with white space around it *)
Definition document (s : sexp) (t : str) : Prop := spelt_all [s] t.

(** ** Files of any kind *)
Definition project_start : str := lit "update=".
Definition file_is (name text : str) (f : kicad_file) : Prop :=
  match f with
  | KModule m => exists s, document s text /\ follows w_module s /\ m = w_module_of s
  | KLayout l => exists s, document s text /\ follows w_board s /\ l = w_layout_of s
  | KFpLibTable t => exists s, document s text /\ follows w_table s /\ t = table_of s
  | KSchematic c => exists ls, text_lines text ls /\ schematic_text (Some name) ls c
  | KSymbolLib l => exists ls, text_lines text ls /\ library_text ls l
  | KProject d => d = text /\ exists r, text = project_start ++ r
  | KUnknown _ => False
  end.
(** The order in which the kinds are tried; the one asked for is the last. *)
Definition turn (x : expected) : nat :=
  match x with XModule => 0 | XSchematic => 1 | XLayout => 2 | XSymbolLib => 3 | XProject => 4 | XFpLibTable => 5 | XAny => 6 end.
Definition is_kind (f : kicad_file) (x : expected) : Prop :=
  match f, x with
  | KModule _, XModule | KSchematic _, XSchematic | KLayout _, XLayout | KSymbolLib _, XSymbolLib | KProject _, XProject | KFpLibTable _, XFpLibTable => True
  | _, _ => False
  end.
Definition within (f : kicad_file) (x : expected) : Prop := exists y, is_kind f y /\ (turn y <= turn x)%nat.
(** The texts that stop the program *)
Definition file_crash (text : str) (x : expected) : Prop :=
  exists ls, text_lines text ls /\ (schematic_crash ls /\ (turn XSchematic <= turn x)%nat \/ library_crash ls /\ (turn XSymbolLib <= turn x)%nat).
