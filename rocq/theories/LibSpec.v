(** Specification notions for the functions of lib.rs. *)
From Coq Require Import String.
From Verif Require Import Base Str.
Open Scope string_scope. Open Scope list_scope.

(** A word on a line is a non-empty sequence of pieces: plain text without
    blanks and quotes, or text in quotes without quotes. *)
Inductive piece := Plain (w : str) | Quoted (w : str).
Definition piece_ok (p : piece) : bool :=
  match p with
  | Plain w => negb (is_empty w) && forallb (fun c => negb (N.eqb c 34 || N.eqb c 32)) w
  | Quoted w => forallb (fun c => negb (N.eqb c 34)) w
  end.
Definition piece_text (p : piece) : str :=
  match p with Plain w => w | Quoted w => 34%N :: w ++ [34%N] end.
Definition piece_value (p : piece) : str := match p with Plain w => w | Quoted w => w end.
Definition word := list piece.
Definition word_ok (w : word) : bool := match w with [] => false | _ => forallb piece_ok w end.
Definition word_text (w : word) : str := flat_map piece_text w.
Definition word_value (w : word) : str := flat_map piece_value w.

Definition blanks (n : nat) : str := repeat 32%N n.
(** Words each followed by one or more blanks. *)
Definition spaced (l : list (word * nat)) : str :=
  flat_map (fun p => word_text (fst p) ++ blanks (S (snd p))) l.
Definition spaced_ok (l : list (word * nat)) : bool := forallb (fun p => word_ok (fst p)) l.
Definition values (l : list (word * nat)) : list str := map (fun p => word_value (fst p)) l.

(** Words and quoted values separated by one blank. *)
Fixpoint one_blank (l : list piece) : str :=
  match l with
  | [] => []
  | [p] => piece_text p
  | p :: r => piece_text p ++ 32%N :: one_blank r
  end.

Definition no_digit (c : N) : bool := negb ((48 <=? c) && (c <=? 57))%N.
Definition no_comma (c : N) : bool := negb (N.eqb c 44).
(** Lexicographic order of keys. *)
Definition key_le (a b : N * Z) : Prop := (fst a < fst b)%N \/ (fst a = fst b /\ (snd a <= snd b)%Z).
