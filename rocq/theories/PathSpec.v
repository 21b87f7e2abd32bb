(** Specification: where a path leads to (C72): whether it starts at the root, and the
    names on the way.  ("." is no step; ".." is kept, since links may make it lead
    elsewhere.) *)
From Coq Require Import String.
From Verif Require Import Base Str.
Open Scope string_scope. Open Scope list_scope.

Definition step (s : str) : bool := negb (str_eqb s []) && negb (str_eqb s (lit ".")).
(** The pieces of a path between slashes *)
Inductive pieces : str -> list str -> Prop :=
| pc_last a : ~ In 47%N a -> pieces a [a]
| pc_more a b l : ~ In 47%N a -> pieces b l -> pieces (a ++ 47%N :: b) (a :: l).
Definition leads (p : str) (absolute : bool) (names : list str) : Prop :=
  exists l, pieces p l /\ absolute = starts_with (lit "/") p /\ names = filter step l.
(** The directory part of a path: its last piece is a name. *)
Definition ends_in_step (d : str) : Prop := exists s, step s = true /\ ~ In 47%N s /\ (d = s \/ exists e, d = e ++ 47%N :: s).
