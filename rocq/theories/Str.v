(** Strings as lists of Unicode scalar values, and the std string operations the
    crate uses. *)
From Coq Require Import String Ascii.
From Verif Require Import Base.
Open Scope N_scope.

Definition char := N.
Definition str := list N.

(** Rust string literals (all literals in the modelled code are ASCII). *)
Fixpoint lit (s : string) : str :=
  match s with
  | EmptyString => []
  | String a r => N_of_ascii a :: lit r
  end.

(** [==] on strings. *)
Fixpoint str_eqb (a b : str) : bool :=
  match a, b with
  | [], [] => true
  | x :: a', y :: b' => (x =? y) && str_eqb a' b'
  | _, _ => false
  end.

Definition is_empty {A} (l : list A) : bool := match l with [] => true | _ => false end.

(** [str::starts_with]. *)
Fixpoint starts_with (p s : str) : bool :=
  match p, s with
  | [], _ => true
  | x :: p', y :: s' => (x =? y) && starts_with p' s'
  | _ :: _, [] => false
  end.

(** [str::split] on a character predicate: always at least one piece. *)
Fixpoint split_on (p : N -> bool) (s : str) : list str :=
  match s with
  | [] => [[]]
  | c :: r =>
      if p c then [] :: split_on p r
      else match split_on p r with
           | [] => [[c]]
           | w :: ws => (c :: w) :: ws
           end
  end.

(** Unicode White_Space, used by [split_whitespace]. *)
Definition is_ws (c : N) : bool :=
  ((9 <=? c) && (c <=? 13)) || (c =? 32) || (c =? 133) || (c =? 160) || (c =? 5760)
  || ((8192 <=? c) && (c <=? 8202)) || (c =? 8232) || (c =? 8233) || (c =? 8239)
  || (c =? 8287) || (c =? 12288).

(** [str::split_whitespace]: the non-empty pieces. *)
Definition split_ws (s : str) : list str :=
  filter (fun w => negb (is_empty w)) (split_on is_ws s).

(** Remove one trailing carriage return. *)
Fixpoint strip_cr (s : str) : str :=
  match s with
  | [] => []
  | [c] => if c =? 13 then [] else [c]
  | c :: r => c :: strip_cr r
  end.

Fixpoint drop_last_empty (l : list str) : list str :=
  match l with
  | [] => []
  | [[]] => []
  | w :: ws => w :: drop_last_empty ws
  end.

(** [str::lines]: split on newline, no final empty line, one trailing CR per
    line removed.  (Rust >= 1.77 keeps a CR on a last line that has no newline;
    the modelled writers always end their output with a newline.) *)
Definition lines (s : str) : list str :=
  map strip_cr (drop_last_empty (split_on (fun c => c =? 10) s)).

(** [str::replace] for a non-empty pattern: non-overlapping, left to right.
    [skip] counts the characters of the current match still to be dropped. *)
Fixpoint replace_aux (skip : nat) (from to s : str) : str :=
  match s with
  | [] => []
  | c :: r =>
      match skip with
      | S k => replace_aux k from to r
      | O => if starts_with from s
             then to ++ replace_aux (Nat.pred (length from)) from to r
             else c :: replace_aux O from to r
      end
  end.
Definition replace (from to s : str) : str := replace_aux O from to s.

(** ASCII part of [str::to_lowercase].  Used only under [contains("nc")]
    (symbol_lib.rs:989); no non-ASCII character lower-cases to a string
    containing 'n' or 'c' as an ASCII character, so the restriction is exact for
    that use. *)
Definition lower_ascii (c : N) : N := if (65 <=? c) && (c <=? 90) then c + 32 else c.

(** [{:n}] on a string: pad on the right with blanks to [n] characters. *)
Definition pad_right (n : nat) (s : str) : str := s ++ repeat 32 (n - length s).

(** Concatenation used by [write!]/[format!]. *)
Definition cat (l : list str) : str := concat l.

(** A line followed by newline ([writeln!]). *)
Definition ln (s : str) : str := s ++ [10].

(** [char_at] (schematic.rs:1129-1132, symbol_lib.rs:655-658): panics when the
    string is too short. *)
Definition char_at (s : str) (p : nat) : res N := idx s p.
