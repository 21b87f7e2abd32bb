(** Specification: which line of a schematic or of a symbol library an error is about
    (C105). *)
From Coq Require Import String.
From Verif Require Import Base Str SchData SchReadSpec SymData SymReadSpec ErrSpec.
Open Scope string_scope. Open Scope list_scope.

(** The complaint about a text that is too short *)
Definition too_short : str := lit "end of file reached".
(** With the right lines behind them, these lines can be read. *)
Definition may_go_on (ls : list str) : Prop := exists r fn c, schematic_text fn (ls ++ r) c.
Definition lib_may_go_on (ls : list str) : Prop := exists r l, library_text (ls ++ r) l.
(** Whatever follows, the complaint ([None]: a panic) is the same. *)
Definition lost (ls : list str) (o : option str) : Prop := forall r, refused (ls ++ r) o.
Definition lib_lost (ls : list str) (o : option str) : Prop := forall r, lib_refused (ls ++ r) o.
