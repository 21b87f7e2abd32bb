(** Specification: what the URI of a footprint library stands for (C93). *)
From Coq Require Import String.
From Verif Require Import Base Str.
Open Scope N_scope.

(** A URI is a sequence of letters and variables. *)
Inductive piece := Letter (c : N) | Var (v : str).
Definition word_char (uni : N -> bool) (c : N) : Prop :=
  c = 95 \/ 48 <= c <= 57 \/ 65 <= c <= 90 \/ 97 <= c <= 122 \/ (127 < c /\ uni c = true).
(** Nothing follows, or something that does not satisfy [p] *)
Definition ends_before (p : N -> Prop) (r : str) : Prop := forall c q, r = c :: q -> ~ p c.
(** [${name}] and [$name] are variables; the latter takes all the letters of a name that
    follow.  [$$] is one dollar; any other dollar stands for itself, as does [${] if no
    brace closes it. *)
Inductive spelled (uni : N -> bool) : str -> list piece -> Prop :=
| sp_end : spelled uni [] []
| sp_letter c r ps : c <> 36 -> spelled uni r ps -> spelled uni (c :: r) (Letter c :: ps)
| sp_braced v r ps : ~ In 125 v -> spelled uni r ps -> spelled uni (36 :: 123 :: v ++ 125 :: r) (Var v :: ps)
| sp_open r ps : ~ In 125 r -> spelled uni r ps -> spelled uni (36 :: 123 :: r) (Letter 36 :: Letter 123 :: ps)
| sp_named c v r ps : Forall (word_char uni) (c :: v) -> ends_before (word_char uni) r -> spelled uni r ps ->
    spelled uni (36 :: c :: v ++ r) (Var (c :: v) :: ps)
| sp_twice r ps : spelled uni r ps -> spelled uni (36 :: 36 :: r) (Letter 36 :: ps)
| sp_lone r ps : ends_before (fun c => c = 36 \/ c = 123 \/ word_char uni c) r -> spelled uni r ps -> spelled uni (36 :: r) (Letter 36 :: ps).

(** The text when every variable has a value ... *)
Definition filled (env : str -> option str) (ps : list piece) (x : str) : Prop :=
  exists xs, Forall2 (fun p y => match p with Letter c => y = [c] | Var v => env v = Some y end) ps xs /\ x = concat xs.
(** ... and the first variable that has none *)
Definition lacks (env : str -> option str) (ps : list piece) (v : str) : Prop :=
  exists a b, ps = a ++ Var v :: b /\ env v = None /\ forall w, In (Var w) a -> env w <> None.

(** A tilde at the beginning of the URI is the home directory if the result goes on with a
    slash or ends there; [x] is the text with the variables filled in. *)
Definition homeward (s x r : str) : Prop := (exists q, s = 126 :: q) /\ x = 126 :: r /\ ends_before (fun c => c <> 47) r.
Definition located (home : option str) (s x t : str) : Prop :=
  (exists r h, homeward s x r /\ home = Some h /\ t = h ++ r) \/ ((home = None \/ forall r, ~ homeward s x r) /\ t = x).
