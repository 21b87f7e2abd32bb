(** Specification: hierarchical net names as parts between slashes (C51). *)
From Coq Require Import String.
From Verif Require Import Base Str.

Definition parts (s : str) : list str := split_on (N.eqb 47) s.
Definition no_slash (s : str) : bool := forallb (fun c => negb (N.eqb 47 c)) s.
(** Renaming block names: [l] are the parts that follow a slash.  Only parts that are
    also followed by a slash are block names.  A part right behind a renamed part stays. *)
Fixpoint rename_blocks (from to : str) (l : list str) : list str :=
  match l with
  | p :: ((q :: r) as rest) => if str_eqb p from then to :: q :: rename_blocks from to r else p :: rename_blocks from to rest
  | _ => l
  end.
(** No two neighbours are both [w]. *)
Fixpoint no_pair (w : str) (l : list str) : bool :=
  match l with
  | p :: ((q :: _) as rest) => negb (str_eqb p w && str_eqb q w) && no_pair w rest
  | _ => true
  end.
(** Replacing a text: from left to right, each time the first place where it occurs in
    what is left. *)
Definition occurs_at (p s : str) (n : nat) : Prop := exists x y, s = x ++ p ++ y /\ length x = n.
Inductive replaced (p q : str) : str -> str -> Prop :=
| replaced_none s : (forall n, ~ occurs_at p s n) -> replaced p q s s
| replaced_first a b c : (forall n, occurs_at p (a ++ p ++ b) n -> (length a <= n)%nat) -> replaced p q b c -> replaced p q (a ++ p ++ b) (a ++ q ++ c).
