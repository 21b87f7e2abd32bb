(** Symbol libraries whose text can be read back (specification for C10). *)
From Coq Require Import String.
From Verif Require Import Base Str StrFacts Num F64 SchData SchPrint SchWf SymData.
Open Scope string_scope. Open Scope list_scope.

(** One word in the middle of a line *)
Definition mid_word (s : str) : bool := word_str s && no_nl s.
(** No bold fields; the names of the first four fields are not written. *)
Definition sfield_ok (f : sfield) : bool :=
  (0 <=? sf_i f)%Z && i64_ok (sf_i f) && i64_ok (sf_dim f) && quotable (sf_value f) && quotable (sf_name f)
  && ((3 <? sf_i f)%Z || str_eqb (sf_name f) (field_name (sf_i f))) && negb (sf_bold f).
Definition pin_ok (p : pin) : bool :=
  mid_word (pn_name p) && mid_word (pn_number p)
  && forallb i64_ok [pn_x p; pn_y p; pn_len p; pn_num_size p; pn_name_size p; pn_unit p; pn_convert p].
Definition rect_ok (r : rectangle) : bool :=
  forallb i64_ok [rc_x1 r; rc_y1 r; rc_x2 r; rc_y2 r; rc_unit r; rc_convert r; rc_thickness r].
Definition draw_ok (d : draw) : bool :=
  match d with
  | DPin p => pin_ok p
  | DRect r => rect_ok r
  | DOther s => line_ok s && negb (starts_with (lit "X ") s) && negb (starts_with (lit "S ") s) && negb (str_eqb s (lit "ENDDRAW"))
  end.
Definition symbol_ok (s : symbol) : bool :=
  mid_word (sy_name s) && mid_word (sy_reference s) && i64_ok (sy_unit_count s)
  && Nat.leb 2 (length (sy_fields s)) && forallb sfield_ok (sy_fields s)
  && forallb mid_word (sy_aliases s) && line_ok (last (sy_aliases s) []) && forallb draw_ok (sy_draw s).
Definition symbol_lib_ok (l : list symbol) : bool := forallb symbol_ok l.

(** ** What remains to be asked of a library that was read from a text *)
Definition sfield_clean (f : sfield) : bool :=
  (0 <=? sf_i f)%Z && ((3 <? sf_i f)%Z || str_eqb (sf_name f) (field_name (sf_i f))) && negb (sf_bold f).
Definition draw_clean (d : draw) : bool :=
  match d with
  | DPin p => word_str (pn_name p) && word_str (pn_number p)
  | DRect _ => true
  | DOther s => no_cr s
  end.
Definition symbol_clean (s : symbol) : bool :=
  word_str (sy_name s) && word_str (sy_reference s) && Nat.leb 2 (length (sy_fields s)) && forallb sfield_clean (sy_fields s)
  && forallb word_str (sy_aliases s) && no_cr (last (sy_aliases s) []) && forallb draw_clean (sy_draw s).
Definition symbol_lib_clean (l : list symbol) : bool := forallb symbol_clean l.
