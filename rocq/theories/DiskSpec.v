(** Specification: what is left after a save that may have failed (C99). *)
From Coq Require Import String.
From Verif Require Import Base Str KicadFile FileErr TornSpec.
Open Scope string_scope. Open Scope list_scope.

(** No other file is changed. *)
Definition only (n : str) (fs fs' : files) : Prop := forall k, k <> n -> fs' k = fs k.
Inductive save_ends (fs fs' : files) (n d : str) : told unit -> Prop :=
| sv_done : fs' n = Some d -> save_ends fs fs' n d (TFine tt)
| sv_kept why : fs' n = fs n -> save_ends fs fs' n d (TSays (lit "create error in file '" ++ n ++ lit "': " ++ why))
| sv_part p why : fs' n = Some p -> beginning p d -> save_ends fs fs' n d (TSays (lit "write error in file '" ++ n ++ lit "': " ++ why)).
(** What opening the file gives: what was saved, what it gave before, or an error *)
Definition opens {A} (read : files -> str -> res A) (fs fs' : files) (n : str) (saved : A) : Prop :=
  read fs' n = Ok saved \/ read fs' n = read fs n \/ read fs' n = Err ESexp.
