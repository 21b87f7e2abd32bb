(** Specification for C81: a text with a sign, and how many digits it has. *)
From Verif Require Import Base Str.
Definition signed (neg : bool) (t : str) : str := if neg then 45%N :: t else t.
(** Characters other than the point *)
Definition digit_count (t : str) : nat := length (filter (fun c => negb (c =? 46)%N) t).
