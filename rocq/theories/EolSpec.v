(** Specification: texts that differ in how their lines end (C102). *)
From Verif Require Import Base Str KicadFile SchOps Said.

(** A line ends in a newline, or in a carriage return and a newline. *)
Definition line_end (e : str) : Prop := e = [10%N] \/ e = [13%N; 10%N].
(** The same text but for the ends of its lines, each of which may be of either sort *)
Inductive same_but_ends : str -> str -> Prop :=
| se_nil : same_but_ends [] []
| se_char c t u : c <> 10%N -> c <> 13%N -> same_but_ends t u -> same_but_ends (c :: t) (c :: u)
| se_end e f t u : line_end e -> line_end f -> same_but_ends t u -> same_but_ends (e ++ t) (f ++ u).

(** How many quotes stand in a text; no line ends between an odd one and the next. *)
Definition quotes (t : str) : nat := length (filter (N.eqb 34) t).
Definition ends_unquoted (t : str) : Prop := forall a b, t = a ++ 10%N :: b -> Nat.even (quotes a) = true.

(** A project is its own text; everything else read from a file stays the same. *)
Definition but_project (u : str) (f : kicad_file) : kicad_file := match f with KProject _ => KProject u | x => x end.
(** Two discs with the same files but for the ends of lines; in the second definition as the
    sheets of a schematic see them *)
Definition same_disk (fs gs : files) : Prop :=
  forall n, (fs n = None /\ gs n = None) \/ exists t u, fs n = Some t /\ gs n = Some u /\ same_but_ends t u /\ ends_unquoted t.
Definition same_sheets (fs gs : fsys) : Prop :=
  (forall p f, fs_join fs p f = fs_join gs p f) /\
  forall p, fs_read fs p = fs_read gs p \/ exists t u, fs_read fs p = Ok t /\ fs_read gs p = Ok u /\ same_but_ends t u.
