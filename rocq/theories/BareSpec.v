(** Elements written with only some of their parts. *)
From Coq Require Import String.
From Verif Require Import Base Str F64 F64Text Sexp FpData LyData.
Open Scope string_scope. Open Scope list_scope.

(** The parts that are written, and the value taken for one that is not. *)
Definition part {A} (f : A -> sexp) (o : option A) : list sexp := match o with Some a => [f a] | None => [] end.
Definition given {A} (d : A) (o : option A) : A := match o with Some a => a | None => d end.

(** What stands for a part nobody wrote. *)
Definition nowhere : at_t := mk_at fzero fzero fzero.
Definition front_copper : layer := mk_layer SFront LCu.
Definition plain_letters : effects := mk_effects (mk_font (mk_xy fzero fzero XXy) fzero false) None.
Definition origin (t : xy_type) : xy := mk_xy fzero fzero t.
Definition untouched_board : layout :=
  mk_layout 4 (mk_host (lit "pcbnew") (lit "custom"))
    (mk_general 0 0 (mk_area fzero fzero fzero fzero) (flit "1.6") 0 0 0 0 0) (lit "A4") (mk_setup [] []) [] [].
