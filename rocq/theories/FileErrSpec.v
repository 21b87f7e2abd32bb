(** Specification: what the error says when a file cannot be opened as what it should be (C97) *)
From Coq Require Import String.
From Verif Require Import Base Str LibSpec CutSpec KicadFile SpellSpec KindSpec ErrSpec.
Open Scope string_scope. Open Scope list_scope.

(** The names of the kinds *)
Definition kinds : list (expected * string) :=
  [(XModule, "module"); (XSchematic, "schematic"); (XLayout, "layout"); (XSymbolLib, "symbollib"); (XProject, "project"); (XFpLibTable, "fp-lib-table")].
(** What is wrong with a text that is none of the kinds tried: the complaint of the line
    readers about it.  Those of the other readers are not looked into. *)
Definition complaint (t : str) (x : expected) (m : str) : Prop :=
  match x with
  | XSchematic => exists ls, text_lines t ls /\ refused ls (Some m)
  | XSymbolLib => exists ls, text_lines t ls /\ lib_refused ls (Some m)
  | XProject => m = lit "not a kicad project file!"
  | XModule | XLayout | XFpLibTable | XAny => False
  end.
Definition file_says (fs : files) (n : str) (x : expected) (m : str) : Prop := exists t, fs n = Some t /\ nothing n t x /\ complaint t x m.
(** A file of a kind that is tried earlier, or such a text *)
Definition open_says (fs : files) (n : str) (x : expected) (m : str) : Prop :=
  file_says fs n x m \/
  exists t f y k, fs n = Some t /\ file_is n t f /\ is_kind f y /\ (turn y < turn x)%nat /\ In (y, k) kinds /\ m = lit "unexpected " ++ lit k ++ lit " in " ++ n.
