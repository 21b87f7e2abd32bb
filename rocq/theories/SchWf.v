(** Schematics whose text can be read back (specification for C09). *)
From Coq Require Import String.
From Verif Require Import Base Str StrFacts Num F64 SchData SchPrint.
Open Scope string_scope. Open Scope list_scope.

(** Non-empty, without blanks and quotes: one word of a line. *)
Definition word_str (s : str) : bool :=
  negb (is_empty s) && forallb (fun c => negb (N.eqb c 34 || N.eqb c 32)) s.
(** Can stand between quotes. *)
Definition quotable (s : str) : bool := forallb (fun c => negb (N.eqb c 34)) s && no_nl s.
(** A word that ends a line. *)
Definition end_word (s : str) : bool := word_str s && line_ok s.
(** No white space at all. *)
Definition ws_word (s : str) : bool := negb (is_empty s) && forallb (fun c => negb (is_ws c)) s.
(** The first word of a line ([split_whitespace]). *)
Definition begins (w : string) (s : str) : bool :=
  match split_ws s with x :: _ => str_eqb x (lit w) | [] => false end.

Definition descr_ok (d : description) : bool :=
  word_str (ds_size d) && no_nl (ds_size d)
  && forallb i64_ok [ds_dimx d; ds_dimy d; ds_sheet d; ds_count d]
  && forallb quotable [ds_title d; ds_date d; ds_rev d; ds_comp d; ds_comment1 d; ds_comment2 d; ds_comment3 d; ds_comment4 d].

(** The names of the first four fields are not written. *)
Definition field_name (i : Z) : str :=
  match i with 0 => lit "Reference" | 1 => lit "Value" | 2 => lit "Footprint" | _ => lit "UserDocLink" end%Z.
Definition cfield_ok (f : cfield) : bool :=
  (0 <=? cf_i f)%Z && i64_ok (cf_i f) && i64_ok (cf_size f) && quotable (cf_value f) && quotable (cf_name f)
  && ((3 <? cf_i f)%Z || str_eqb (cf_name f) (field_name (cf_i f))).

Definition component_ok (c : component) : bool :=
  word_str (co_name c) && no_nl (co_name c) && end_word (co_reference c)
  && (is_empty (co_u c) || begins "U" (co_u c)) && line_ok (co_u c)
  && i64_ok (co_x c) && i64_ok (co_y c)
  && forallb (fun a => begins "AR" a && line_ok a) (co_ar c)
  && forallb cfield_ok (co_fields c)
  && forallb i64_ok [ro_a (co_rotation c); ro_b (co_rotation c); ro_c (co_rotation c); ro_d (co_rotation c)].

Definition label_ok (l : sheet_label) : bool :=
  quotable (sl_name l) && forallb i64_ok [sl_x l; sl_y l; sl_size l].
(** The label numbers are counted in an i32. *)
Definition sheet_ok (s : sheet) : bool :=
  end_word (sh_unique s) && quotable (sh_name s) && quotable (sh_filename s)
  && forallb i64_ok [sh_x s; sh_y s; sh_dimx s; sh_dimy s; sh_name_size s; sh_filename_size s]
  && forallb label_ok (sh_labels s)
  && (Z.of_nat (length (sh_labels s)) <=? 2 ^ 31 - 3)%Z.

Definition wire_ok (w : wire) : bool := forallb i64_ok [wi_x1 w; wi_y1 w; wi_x2 w; wi_y2 w].
Definition spoint_ok (c : spoint) : bool := i64_ok (cn_x c) && i64_ok (cn_y c).
(** Global and hierarchical labels have a shape, the others have none. *)
Definition stext_ok (t : stext) : bool :=
  forallb i64_ok [te_x t; te_y t; te_orient t; te_size t; te_thickness t]
  && match te_t t, te_shape t with
     | (TNote | TLabel), None => true
     | (TGlobal | THier), Some s => ws_word s
     | _, _ => false
     end
  && line_ok (te_text t).

(** Lines that are not the start of a known element. *)
Definition keywords : list string :=
  ["$Descr"; "$Comp"; "$Sheet"; "$EndSCHEMATC"; "Wire"; "Connection"; "NoConn"; "Text"].
Definition other_ok (s : str) : bool :=
  line_ok s && match split_ws s with w :: _ => forallb (fun k => negb (str_eqb w (lit k))) keywords | [] => false end.

Definition selement_ok (e : selement) : bool :=
  match e with
  | SComponent c => component_ok c
  | SWire w => wire_ok w
  | SConnection c | SNoConnect c => spoint_ok c
  | SText t => stext_ok t
  | SOther s => other_ok s
  end.

Definition sch_ok (s : schematic) : bool :=
  forallb line_ok (sc_libraries s)
  && starts_with (lit "EELAYER ") (sc_eelayer s) && line_ok (sc_eelayer s)
  && descr_ok (sc_description s) && forallb selement_ok (sc_elements s) && forallb sheet_ok (sc_sheets s).

(** ** What remains to be asked of a schematic that was read from a text *)
Definition no_cr (s : str) : bool := negb (last s 0%N =? 13)%N.
Definition cfield_clean (f : cfield) : bool :=
  (0 <=? cf_i f)%Z && ((3 <? cf_i f)%Z || str_eqb (cf_name f) (field_name (cf_i f))).
Definition component_clean (c : component) : bool :=
  word_str (co_name c) && word_str (co_reference c) && no_cr (co_reference c) && no_cr (co_u c)
  && forallb no_cr (co_ar c) && forallb cfield_clean (co_fields c).
Definition sheet_clean (s : sheet) : bool :=
  word_str (sh_unique s) && no_cr (sh_unique s) && (Z.of_nat (length (sh_labels s)) <=? 2 ^ 31 - 3)%Z.
Definition selement_clean (e : selement) : bool :=
  match e with
  | SComponent c => component_clean c
  | SText t => no_cr (te_text t)
  | SOther s => no_cr s
  | _ => true
  end.
Definition sch_clean (s : schematic) : bool :=
  forallb no_cr (sc_libraries s) && no_cr (sc_eelayer s) && word_str (ds_size (sc_description s))
  && forallb selement_clean (sc_elements s) && forallb sheet_clean (sc_sheets s).
