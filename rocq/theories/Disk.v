(** Writing a file (/repo/src/util.rs:22-44, lib.rs:204-213) when the system may refuse. *)
From Coq Require Import String.
From Verif Require Import Base Str FpData LyData DocText KicadFile Said FileErr.
Open Scope string_scope. Open Scope list_scope.

(** What the system does: it refuses to create the file, or the writing stops after a
    part, or all is stored.  The texts of its errors are not looked into.  Simplification:
    a part ends between characters; Bytes.v has the case of a cut inside one. *)
Inductive answer := Refuses (why : str) | Breaks (stored : nat) (why : str) | Stores.
(** util.rs:22-44; creating a file empties it (util.rs:26). *)
Definition try_write (fs : files) (a : answer) (name data : str) : files * told unit :=
  match a with
  | Refuses why => (fs, TSays (lit "create error in file '" ++ name ++ lit "': " ++ why))
  | Breaks k why => (write_file fs name (firstn k data), TSays (lit "write error in file '" ++ name ++ lit "': " ++ why))
  | Stores => (write_file fs name data, TFine tt)
  end.
(** lib.rs:204-213 *)
Definition try_write_layout (nq : str -> bool) (fs : files) (a : answer) (l : layout) (name : str) : files * told unit :=
  try_write fs a name (layout_to_string nq l 0).
Definition try_write_module (nq : str -> bool) (fs : files) (a : answer) (m : module) (name : str) : files * told unit :=
  try_write fs a name (module_to_string nq m 0).
