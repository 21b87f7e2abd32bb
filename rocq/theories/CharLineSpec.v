(** Specification: the characters that stand in a saved schematic or symbol library
    (C108). *)
From Coq Require Import String.
From Verif Require Import Base Str SchData SymData.
Open Scope string_scope. Open Scope list_scope.

(** Letters, digits, the signs minus, dot, colon, dollar, number sign and tilde, the quote, blank,
    tab and newline *)
Definition line_ownb (c : N) : bool :=
  (N.leb 65 c && N.leb c 90) || (N.leb 97 c && N.leb c 122) || (N.leb 48 c && N.leb c 57)
  || existsb (N.eqb c) [45; 46; 58; 36; 35; 126; 34; 32; 9; 10]%N.
Definition line_own (c : N) : Prop := line_ownb c = true.
(** The texts of a schematic, and of a symbol *)
Definition descr_strs (d : description) : list str :=
  [ds_size d; ds_title d; ds_date d; ds_rev d; ds_comp d; ds_comment1 d; ds_comment2 d; ds_comment3 d; ds_comment4 d].
Definition cfield_strs (f : cfield) : list str := [cf_value f; cf_name f].
Definition selement_strs (e : selement) : list str :=
  match e with
  | SComponent c => co_name c :: co_reference c :: co_u c :: co_ar c ++ flat_map cfield_strs (co_fields c)
  | SText t => te_text t :: match te_shape t with Some s => [s] | None => [] end
  | SOther s => [s]
  | _ => []
  end.
Definition sheet_strs (s : sheet) : list str := sh_unique s :: sh_name s :: sh_filename s :: map sl_name (sh_labels s).
Definition sch_strs (s : schematic) : list str :=
  sc_eelayer s :: sc_libraries s ++ descr_strs (sc_description s) ++ flat_map selement_strs (sc_elements s) ++ flat_map sheet_strs (sc_sheets s).
Definition draw_strs (d : draw) : list str := match d with DOther s => [s] | DPin p => [pn_name p; pn_number p] | DRect _ => [] end.
Definition symbol_strs (s : symbol) : list str :=
  sy_name s :: sy_reference s :: sy_aliases s ++ flat_map (fun f => [sf_value f; sf_name f]) (sy_fields s) ++ flat_map draw_strs (sy_draw s).
