(** S-expressions and the [IterAtom] helper of the crate symbolic_expressions
    5.0 (a dependency that is not part of /repo; modelled from its documented
    interface, see DESIGN.md, trusted base). *)
From Coq Require Import String.
From Verif Require Import Base Str Num F64 F64Text.

(** [Sexp] has the three variants String, List and Empty. *)
Inductive sexp : Type :=
| SStr (s : str)
| SList (l : list sexp)
| SEmpty.

(** ** Building ([Sexp::start], [push], [Into<Sexp>]) *)
Definition a_lit (s : string) : sexp := SStr (lit s).
Definition a_f (x : f64) : sexp := SStr (f64_to_str x).
Definition a_i (z : Z) : sexp := SStr (show_Z z).

(** [("name", value).into()] is a two element list. *)
Definition kv (k : string) (v : sexp) : sexp := SList [a_lit k; v].
(** [Sexp::start(name)] followed by pushes. *)
Definition node (k : string) (l : list sexp) : sexp := SList (a_lit k :: l).

Definition opt_list {A} (f : A -> sexp) (o : option A) : list sexp :=
  match o with Some x => [f x] | None => [] end.
Definition when (b : bool) (l : list sexp) : list sexp := if b then l else [].

(** ** Reading *)

(** [Sexp::list], [Sexp::string], [Sexp::f], [Sexp::i]: error on the wrong
    variant or on text that is not a number. *)
Definition sx_list (s : sexp) : res (list sexp) :=
  match s with SList l => Ok l | _ => Err ESexp end.
Definition sx_string (s : sexp) : res str :=
  match s with SStr x => Ok x | _ => Err ESexp end.
Definition sx_f (s : sexp) : res f64 :=
  do x <- sx_string s; of_option ESexp (f64_of_str x).
Definition sx_i (s : sexp) : res Z :=
  do x <- sx_string s; of_option ESexp (i64_of_str x).

(** [Sexp::list_name]: the first element, which must be a string. *)
Definition sx_list_name (s : sexp) : res str :=
  do l <- sx_list s;
  match l with
  | x :: _ => sx_string x
  | [] => Err ESexp
  end.

(** [Sexp::slice_atom_num(name, 1)]: the single value of [(name value)]. *)
Definition sx_slice1 (name : str) (s : sexp) : res sexp :=
  do l <- sx_list s;
  match l with
  | [SStr n; v] => if str_eqb n name then Ok v else Err ESexp
  | _ => Err ESexp
  end.

(** An [IterAtom] is the list of elements not yet consumed; a reader returns
    the value and the remaining elements. *)
Definition P (A : Type) := list sexp -> res (A * list sexp).

Definition pret {A} (a : A) : P A := fun l => Ok (a, l).
Definition pbind {A B} (p : P A) (f : A -> P B) : P B :=
  fun l => match p l with Ok (a, r) => f a r | Err e => Err e | Panic => Panic end.
Definition plift {A} (r : res A) : P A := fun l => do a <- r; Ok (a, l).

Notation "'let*' x := p 'in' k" := (pbind p (fun x => k))
  (at level 200, x pattern, p at level 100, k at level 200, right associativity).

(** [IterAtom::new(s, name)]: the list must start with the atom [name]; what is
    iterated is the rest. *)
Definition iter_new {A} (s : sexp) (name : str) (p : P A) : res A :=
  do l <- sx_list s;
  match l with
  | SStr n :: r => if str_eqb n name then do ar <- p r; Ok (fst ar) else Err ESexp
  | _ => Err ESexp
  end.

(** [IterAtom::new_nameless]. *)
Definition iter_nameless {A} (s : sexp) (p : P A) : res A :=
  do l <- sx_list s; do ar <- p l; Ok (fst ar).

(** [i.t(name)]: consume one element with the given conversion. *)
Definition p_t {A} (from : sexp -> res A) : P A :=
  fun l => match l with
           | x :: r => do a <- from x; Ok (a, r)
           | [] => Err ESexp
           end.
Definition p_s : P str := p_t sx_string.
Definition p_f : P f64 := p_t sx_f.
Definition p_i : P Z := p_t sx_i.

(** [i.t_in_list(name)], [f_in_list], [i_in_list], [s_in_list]. *)
Definition p_in_list {A} (name : string) (from : sexp -> res A) : P A :=
  p_t (fun s => do v <- sx_slice1 (lit name) s; from v).
Definition p_s_in (name : string) : P str := p_in_list name sx_string.
Definition p_f_in (name : string) : P f64 := p_in_list name sx_f.
Definition p_i_in (name : string) : P Z := p_in_list name sx_i.

(** [i.maybe_*]: peek; consume only when the conversion succeeds. *)
Definition p_maybe {A} (from : sexp -> res A) : P (option A) :=
  fun l => match l with
           | [] => Ok (None, [])
           | x :: r => match from x with
                       | Ok a => Ok (Some a, r)
                       | Err _ => Ok (None, l)
                       | Panic => Panic
                       end
           end.
Definition p_maybe_in {A} (name : string) (from : sexp -> res A) : P (option A) :=
  p_maybe (fun s => do v <- sx_slice1 (lit name) s; from v).
Definition p_maybe_s : P (option str) := p_maybe sx_string.
Definition p_maybe_f : P (option f64) := p_maybe sx_f.
Definition p_maybe_i : P (option Z) := p_maybe sx_i.

(** [i.maybe_literal_s(name)]: the next element if it is the atom [name]. *)
Definition from_literal (name : string) (s : sexp) : res str :=
  do x <- sx_string s; if str_eqb x (lit name) then Ok x else Err ESexp.
Definition p_maybe_lit (name : string) : P (option str) := p_maybe (from_literal name).

(** [i.vec()] / iterating to the end: convert all remaining elements. *)
Definition p_vec {A} (from : sexp -> res A) : P (list A) :=
  fun l => do v <- mapM from l; Ok (v, []).

(** [i.close(v)]: error when elements remain. *)
Definition p_close {A} (a : A) : P A :=
  fun l => match l with [] => Ok (a, []) | _ => Err ESexp end.

Definition default {A} (d : A) (o : option A) : A := match o with Some x => x | None => d end.
Definition is_some {A} (o : option A) : bool := match o with Some _ => true | None => false end.
