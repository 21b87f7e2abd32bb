(** Common definitions: results with an explicit panic value. *)
From Coq Require Export List Bool Arith NArith ZArith.
Export ListNotations.

(** Kinds of [KicadError] (/repo/src/error.rs:12-25).  The message texts carried
    by the Rust variants are dropped; [EnvVar] and [ShellExpand] are never
    produced by the modelled code.  [EFuel] is no Rust error: it is the result of
    a loop of the model whose bound was too small. *)
Inductive ekind := EParse | EOther | EIo | ESexp | EFuel.

(** [Result<A, KicadError>] with a third outcome for a Rust panic (index out of
    bounds, [unwrap] of [None], [unreachable!]). *)
Inductive res (A : Type) : Type :=
| Ok (a : A)
| Err (e : ekind)
| Panic.
Arguments Ok {A} a.
Arguments Err {A} e.
Arguments Panic {A}.

(** The [?] operator. *)
Definition bind {A B} (r : res A) (f : A -> res B) : res B :=
  match r with
  | Ok a => f a
  | Err e => Err e
  | Panic => Panic
  end.

Notation "'do' x <- r ; k" := (bind r (fun x => k))
  (at level 200, x pattern, r at level 100, k at level 200, right associativity).

Definition is_ok {A} (r : res A) : bool := match r with Ok _ => true | _ => false end.
Definition is_panic {A} (r : res A) : bool := match r with Panic => true | _ => false end.

(** [map] over a fallible function, left to right, stopping at the first error
    (a [for] loop pushing [f(x)?]). *)
Fixpoint mapM {A B} (f : A -> res B) (l : list A) : res (list B) :=
  match l with
  | [] => Ok []
  | x :: r => do y <- f x; do ys <- mapM f r; Ok (y :: ys)
  end.

(** [Vec] index [v[i]]: panics out of bounds. *)
Definition idx {A} (l : list A) (i : nat) : res A :=
  match nth_error l i with Some x => Ok x | None => Panic end.

Definition of_option {A} (e : ekind) (o : option A) : res A :=
  match o with Some x => Ok x | None => Err e end.
