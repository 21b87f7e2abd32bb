(** Check results and the name rule (/repo/src/checkfix.rs). *)
From Coq Require Import String.
From Verif Require Import Base Str Num F64 F64Text.
Open Scope string_scope. Open Scope list_scope.

(** checkfix.rs:111-122 *)
Record cf_item := mk_item { it_section : Z; it_rule : Z; it_item : str; it_message : str; it_info : bool }.
(** checkfix.rs:51-57 *)
Inductive cf_data := Item (i : cf_item) | More (l : list cf_data).
(** checkfix.rs:73-92, 125-143 *)
Definition cf_new (section rule : Z) (item message : str) : cf_data := Item (mk_item section rule item message false).
Definition cf_info (section rule : Z) (item message : str) : cf_data := Item (mk_item section rule item message true).
(** checkfix.rs:61-70 *)
Definition flatter (d : cf_data) : cf_data :=
  match d with
  | Item _ => d
  | More v => match v with [x] => x | _ => More v end
  end.
(** checkfix.rs:95-106, 146-169: the lines given to the logger, as (is it a warning,
    text) *)
Definition dump_item (indent : nat) (i : cf_item) : bool * str :=
  (negb (it_info i),
   repeat 32%N (indent * 2) ++ show_Z (it_section i) ++ lit "." ++ show_Z (it_rule i) ++ lit " " ++ it_item i ++ lit ":" ++ it_message i).
Fixpoint dump (indent : nat) (d : cf_data) : list (bool * str) :=
  match d with
  | Item i => [dump_item indent i]
  | More l => flat_map (fun k => dump (match k with Item _ => indent | More _ => S indent end) k) l
  end.

(** checkfix.rs:172-195 *)
Inductive klc_section :=
| KGeneral | KSymbolLibraryNames | KSymbolNames | KSymbolRules | KFootprintLibraryNames | KFootprintNames | KFootprintRules | KSMDRules | KTHTRules
| KFootprintProperties.
(** checkfix.rs:197-212 *)
Definition klc_number (k : klc_section) : Z :=
  match k with
  | KGeneral => 1 | KSymbolLibraryNames => 2 | KSymbolNames => 3 | KSymbolRules => 4 | KFootprintLibraryNames => 5 | KFootprintNames => 6
  | KFootprintRules => 7 | KSMDRules => 8 | KTHTRules => 9 | KFootprintProperties => 10
  end%Z.
(** checkfix.rs:214-230 *)
Definition klc_show (k : klc_section) : str :=
  match k with
  | KGeneral => lit "General Rules" | KSymbolLibraryNames => lit "Symbol Library Names" | KSymbolNames => lit "Symbol Names"
  | KSymbolRules => lit "General Rules for Symbols" | KFootprintLibraryNames => lit "Footprint Library Names" | KFootprintNames => lit "Footprint Names"
  | KFootprintRules => lit "General Rules for Footprints" | KSMDRules => lit "Rules for SMD Footprints" | KTHTRules => lit "Rules for Through-hole Footprints"
  | KFootprintProperties => lit "Footprint Properties"
  end.

(** checkfix.rs:245 *)
Definition ALLOWED_1_7 : str := lit "ABCDEFGHIJKLMNOPQRSTUVWXYZabcdefghijklmnopqrstuvwxyz0123456789_-.".
(** checkfix.rs:247-259: position counted in characters *)
Definition invalid_char (s : str) (i : nat) (c : N) : str :=
  lit "Invalid char '" ++ [c] ++ lit "' at " ++ show_Z (Z.of_nat i) ++ lit " in '" ++ s ++ lit "'".
Fixpoint invalid_from (s : str) (i : nat) (r : str) : list str :=
  match r with
  | [] => []
  | c :: r' => if existsb (N.eqb c) ALLOWED_1_7 then invalid_from s (S i) r' else invalid_char s i c :: invalid_from s (S i) r'
  end.
Definition allowed_1_7 (s : str) : option (list str) :=
  let v := invalid_from s 0 s in if is_empty v then None else Some v.
(** checkfix.rs:262-271 *)
Definition allowed_1_7_items (s : str) : list cf_data :=
  match allowed_1_7 s with Some v => map (cf_new 1 7 s) v | None => [] end.
(** checkfix.rs:273-275 *)
Definition is_allowed_1_7 (s : str) : bool := match allowed_1_7 s with None => true | Some _ => false end.

(** checkfix.rs:7-40: the settings used *)
Record config := mk_config { cg_font_size : f64; cg_font_thickness : f64 }.
Definition klc : config := mk_config (flit "1.0") (flit "0.15").
