(** Functions of /repo/src/lib.rs and /repo/src/project.rs. *)
From Coq Require Import String.
From Verif Require Import Base Str Num.
Open Scope string_scope. Open Scope list_scope.

(** ** The quote-aware splitter (lib.rs:26-73) *)

(** The loop variables [i], [v], [inside_quotation], [quotation_seen], [s2]. *)
Record sp := mk_sp {
  sp_i : nat; sp_v : list str; sp_inside : bool; sp_seen : bool; sp_s : str }.

(** lib.rs:33-63, one character *)
Definition sp_step (n : option nat) (st : sp) (c : N) : sp :=
  let '(mk_sp i v inside seen s) := st in
  if match n with Some k => Nat.eqb i k | None => false end then mk_sp i v inside seen (s ++ [c])
  else if N.eqb c 34 then
    if inside then mk_sp i v false true s else mk_sp i v true seen s
  else if negb inside && N.eqb c 32 then
    if negb (is_empty s) || seen then mk_sp (S i) (v ++ [s]) inside false []
    else mk_sp i v inside false s
  else mk_sp i v inside seen (s ++ [c]).

(** lib.rs:26-73 *)
Definition split_quote_aware_int (n : option nat) (s : str) : res (list str) :=
  let st := fold_left (sp_step n) s (mk_sp 0 [] false false []) in
  let v := if negb (is_empty (sp_s st)) || sp_seen st then sp_v st ++ [sp_s st] else sp_v st in
  match n with
  | Some k => if Nat.ltb (length v) k then Err EOther else Ok v
  | None => Ok v
  end.
(** lib.rs:75-80 *)
Definition split_quote_aware_n (n : nat) (s : str) := split_quote_aware_int (Some n) s.
Definition split_quote_aware (s : str) := split_quote_aware_int None s.

(** ** Sort key of references (lib.rs:349-367) *)

(** The digits up to the first comma. *)
Fixpoint ref_digits (s : str) : str :=
  match s with
  | [] => []
  | c :: r =>
      if N.eqb c 44 then []
      else if ((48 <=? c) && (c <=? 57))%N then c :: ref_digits r
      else ref_digits r
  end.
Definition reference_ord (r : str) : res (N * Z) :=
  match r with
  | [] => Panic
  | c :: _ => Ok (c, match i64_of_str (ref_digits r) with Some n => n | None => 0%Z end)
  end.

(** ** Projects (project.rs:20-28): the text is kept uninterpreted. *)
Definition parse_project (s : str) : res str :=
  if negb (starts_with (lit "update=") s) then Err EOther else Ok s.
