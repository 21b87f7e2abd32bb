(** Results that carry the text of the error (/repo/src/error.rs), for the readers whose
    errors are all built by [str_error] (error.rs:70-73) or from a [String]
    (error.rs:45-49): both give [KicadError::Other]. *)
From Coq Require Import String.
From Verif Require Import Base Str Num F64 F64Text LibFns.
Open Scope string_scope. Open Scope list_scope.

Inductive said (A : Type) : Type :=
| Fine (a : A)
| Says (m : str)
| Stops (* a panic *)
| Spent (* out of fuel *).
Arguments Fine {A} a. Arguments Says {A} m. Arguments Stops {A}. Arguments Spent {A}.
Definition sbind {A B} (r : said A) (f : A -> said B) : said B :=
  match r with Fine a => f a | Says m => Says m | Stops => Stops | Spent => Spent end.
Notation "'try' x <- r ; k" := (sbind r (fun x => k)) (at level 200, x name, r at level 100, k at level 200, right associativity).
(** Forgetting the text *)
Definition plain {A} (r : said A) : res A :=
  match r with Fine a => Ok a | Says _ => Err EOther | Stops => Panic | Spent => Err EFuel end.

(** Indexing panics. *)
Definition sidx {A} (l : list A) (i : nat) : said A := match nth_error l i with Some a => Fine a | None => Stops end.
Definition show_nat (n : nat) : str := show_Z (Z.of_nat n).
(** lib.rs:67-71, with a number of parts *)
Definition expecting (n : nat) (s : str) : str := lit "expecting " ++ show_nat n ++ lit " elements in " ++ s.
Definition split_said (n : nat) (s : str) : said (list str) :=
  match split_quote_aware_n n s with Ok v => Fine v | _ => Says (expecting n s) end.
(** lib.rs:78-80: no error without a number *)
Definition split_all (s : str) : said (list str) := match split_quote_aware s with Ok v => Fine v | _ => Stops end.

(** schematic.rs:1129-1132 and symbol_lib.rs: the same *)
Definition schar (s : str) (p : nat) : said N := sidx s p.
(** schematic.rs:1142-1154, symbol_lib.rs:631-643; [l] is the current line. *)
Definition int_said (l s : str) : said Z :=
  match i64_of_str s with Some z => Fine z | None => Says (lit "int parse error in " ++ s ++ lit "; line: " ++ l) end.
Definition float_said (l s : str) : said f64 :=
  match f64_of_str s with Some z => Fine z | None => Says (lit "float parse error in " ++ s ++ lit "; line: " ++ l) end.
(** schematic.rs:1156-1174, symbol_lib.rs:645-653, 731-739, on strings and on characters *)
Definition not_boolean (s t f : str) : str := lit "unknown boolean " ++ s ++ lit ", expected " ++ t ++ lit " or " ++ f.
Definition bool_said (s : str) (t f : string) : said bool :=
  if str_eqb s (lit t) then Fine true else if str_eqb s (lit f) then Fine false else Says (not_boolean s (lit t) (lit f)).
Definition flag_said (c t f : N) : said bool :=
  if N.eqb c t then Fine true else if N.eqb c f then Fine false else Says (not_boolean [c] [t] [f]).
(** schematic.rs:1135-1140, symbol_lib.rs:624-629 *)
Definition assume_said (e : string) (s : str) : said unit :=
  if str_eqb s (lit e) then Fine tt else Says (lit "expecting: " ++ lit e ++ lit ", actually: " ++ s).
(** schematic.rs:225-235, symbol_lib.rs:585-595 *)
Definition line_said (p : list str) (e : string) : said (list str) :=
  match p with
  | [] => Says (lit "end of file reached")
  | s :: r => if str_eqb s (lit e) then Fine r else Says (lit "expected '" ++ lit e ++ lit "', got '" ++ s ++ lit "'")
  end.
