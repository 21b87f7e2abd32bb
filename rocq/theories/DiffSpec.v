(** Specification for C86 and C87: a text as fixed pieces with variable words
    between them. *)
From Coq Require Import String.
From Verif Require Import Base Str Num F64 Sexp FpData FpLayer LyData TextSpec.
Open Scope string_scope. Open Scope list_scope.

(** The words [xs] between the pieces [ps] *)
Fixpoint weave (ps xs : list str) : str :=
  match ps, xs with
  | p :: ps', x :: xs' => p ++ x ++ weave ps' xs'
  | p :: _, [] => p
  | [], _ => []
  end.

(** The numbers of a list of points, in order *)
Definition coords (l : list (f64 * f64)) : list f64 := flat_map (fun p => [fst p; snd p]) l.

(** The values of the reference texts of a footprint, and what remains without
    them *)
Definition ref_value (e : element) : list str :=
  match e with EFpText t => if str_eqb (tx_name t) (lit "reference") then [tx_value t] else [] | _ => [] end.
Definition hide_ref (e : element) : element :=
  match e with
  | EFpText t => if str_eqb (tx_name t) (lit "reference") then EFpText (mk_text (tx_name t) [] (tx_at t) (tx_layer t) (tx_effects t) (tx_hide t)) else e
  | _ => e
  end.

(** The last named element is a footprint *)
Definition ends_in_module (es : list ly_element) : bool :=
  fold_left (fun b e => match e with
    | YModule _ => true
    | YOther s => match name_of s with Some c => str_eqb c (lit "module") | None => b end
    | _ => false
    end) es false.

(** The board with another setup section *)
Definition with_setup (l : layout) (u : setup) : layout :=
  mk_layout (ly_version l) (ly_host l) (ly_general l) (ly_page l) u (ly_layers l) (ly_elements l).
