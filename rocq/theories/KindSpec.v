(** Specification: which error is reported (C83). *)
From Verif Require Import Base Str KicadFile SpellSpec.

(** The readers built on trees report an error about trees, the line readers any other
    error ([Other] in /repo/src/error.rs). *)
Definition blames (x : expected) : ekind :=
  match x with
  | XModule | XLayout | XFpLibTable => ESexp
  | XSchematic | XSymbolLib | XProject | XAny => EOther
  end.
(** The text holds nothing that is tried up to the kind asked for. *)
Definition nothing (name text : str) (x : expected) : Prop := ~ file_crash text x /\ forall f, file_is name text f -> ~ within f x.
(** Opening a file of any kind *)
Definition file_fails (fs : files) (name : str) (x : expected) (e : ekind) : Prop :=
  fs name = None /\ e = EIo \/ exists t, fs name = Some t /\ x <> XAny /\ nothing name t x /\ e = blames x.
(** Opening a file of one kind: also refused when it is of a kind tried earlier *)
Definition earlier (f : kicad_file) (x : expected) : Prop := exists y, is_kind f y /\ (turn y < turn x)%nat.
Definition open_fails (fs : files) (name : str) (x : expected) (e : ekind) : Prop :=
  fs name = None /\ e = EIo
  \/ exists t, fs name = Some t /\ ((exists f, file_is name t f /\ earlier f x) /\ e = EOther \/ nothing name t x /\ e = blames x).
