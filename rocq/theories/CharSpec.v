(** Specification: the characters that stand in a saved file (C108). *)
From Coq Require Import String.
From Verif Require Import Base Str Sexp FpData LyData FpLibTable DocSpec.
Open Scope string_scope. Open Scope list_scope.

(** The characters of the words that the program itself puts into a file: letters, digits
    and the signs ampersand, star, minus, dot and underscore *)
Definition word_char (c : N) : bool :=
  (N.leb 65 c && N.leb c 90) || (N.leb 97 c && N.leb c 122) || (N.leb 48 c && N.leb c 57)
  || N.eqb c 38 || N.eqb c 42 || N.eqb c 45 || N.eqb c 46 || N.eqb c 95.
(** Between the words: newline, blank, parentheses and the quote *)
Definition between (c : N) : Prop := c = 10%N \/ c = 32%N \/ c = 40%N \/ c = 41%N \/ c = 34%N.
Definition of_program (c : N) : Prop := word_char c = true \/ between c.
(** A character of one of the texts; of a word somewhere in a tree *)
Definition of_texts (l : list str) (c : N) : Prop := exists s, In s l /\ In c s.
Fixpoint tree_strs (s : sexp) : list str :=
  match s with SStr x => [x] | SList l => flat_map tree_strs l | SEmpty => [] end.
(** No [Empty] anywhere *)
Fixpoint solid (s : sexp) : bool := match s with SStr _ => true | SList l => forallb solid l | SEmpty => false end.
