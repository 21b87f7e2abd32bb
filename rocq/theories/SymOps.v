(** Operations on symbols (/repo/src/symbol_lib.rs:246-330). *)
From Coq Require Import String.
From Verif Require Import Base Str F64 SchData SchParse SymData.
Open Scope string_scope. Open Scope list_scope.

(** symbol_lib.rs:248-258 *)
Fixpoint lib_find (f : symbol -> bool) (l : list symbol) : option symbol :=
  match l with [] => None | s :: r => if f s then Some s else lib_find f r end.
(** symbol_lib.rs:303-311 *)
Definition pins (s : symbol) : list pin := flat_map (fun d => match d with DPin p => [p] | _ => [] end) (sy_draw s).
(** symbol_lib.rs:314-329 *)
Definition sym_is_power (s : symbol) : bool := seq (sy_reference s) "#PWR" && Nat.eqb (length (pins s)) 1.
Definition sym_is_graphics (s : symbol) : bool := starts_with (lit "#") (sy_reference s) && is_empty (pins s).
Definition sym_is_basic (s : symbol) : bool :=
  seq (sy_name s) "L" || seq (sy_name s) "R" || seq (sy_name s) "C" || seq (sy_name s) "D".
(** symbol_lib.rs:275-289 *)
Definition symbol_new (name reference : str) : symbol := mk_symbol name reference fzero false false 1 false false [] [] [].
Definition sf_set_value (v : str) (f : sfield) : sfield :=
  mk_sfield (sf_i f) v (sf_x f) (sf_y f) (sf_dim f) (sf_orient f) (sf_visible f) (sf_hjust f) (sf_vjust f) (sf_italic f) (sf_bold f) (sf_name f).
Definition sy_set (n : str) (fs : list sfield) (s : symbol) : symbol :=
  mk_symbol n (sy_reference s) (sy_text_offset s) (sy_pinnumber s) (sy_pinname s) (sy_unit_count s) (sy_unit_locked s) (sy_is_power s)
    fs (sy_aliases s) (sy_draw s).
(** symbol_lib.rs:292-300: panics on an empty name and without a second field *)
Definition set_name (name : str) (s : symbol) : res symbol :=
  do c <- char_at (sy_name s) 0;
  let n := if N.eqb c 126 then lit "~" ++ name else name in
  match sy_fields s with
  | f0 :: f1 :: fs => Ok (sy_set n (f0 :: sf_set_value name f1 :: fs) s)
  | _ => Panic
  end.
