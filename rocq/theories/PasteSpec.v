(** Specification: footprint files pasted into board files (C112). *)
From Coq Require Import String.
From Verif Require Import Base Str Sexp FpData LyData MeanSpec SpellSpec JoinSpec.
Open Scope string_scope. Open Scope list_scope.

(** The text [p ++ q] is one list; the entries [x] are in [p] and the entries [y] in [q]. *)
Definition gap (p q : str) (x y : list sexp) : Prop :=
  exists w u v z, p = w ++ [40%N] ++ u /\ q = v ++ [41%N] ++ z /\ blank_text w /\ blank_text z /\
    spelt_all x u /\ spelt_all y v /\ ~ run_together u v.
(** Entries that do not belong to the heading of a board, and a board with a footprint
    after the first [n] elements *)
Definition elements_in (a : list sexp) : nat := length (filter (fun e => negb (existsb (fun k => called k e) heads)) a).
Definition inserted (n : nat) (e : ly_element) (l : layout) : layout :=
  mk_layout (ly_version l) (ly_host l) (ly_general l) (ly_page l) (ly_setup l) (ly_layers l) (firstn n (ly_elements l) ++ e :: skipn n (ly_elements l)).
