(** Schematic data types (/repo/src/schematic.rs). *)
From Coq Require Import String.
From Verif Require Import Base Str F64.
Open Scope string_scope.

(** schematic.rs:277-325 *)
Record description := mk_descr {
  ds_size : str; ds_dimx : Z; ds_dimy : Z; ds_title : str; ds_date : str; ds_rev : str;
  ds_comp : str; ds_comment1 : str; ds_comment2 : str; ds_comment3 : str; ds_comment4 : str;
  ds_sheet : Z; ds_count : Z }.
Definition descr_default : description :=
  mk_descr [] 0 0 (lit "Normal") (lit "Tue 19 May 2015") [] [] [] [] [] [] 1 1.

(** schematic.rs:626-631, 656-667 *)
Inductive orientation := Horizontal | Vertical.
Inductive sjustify := SJLeft | SJRight | SJCenter | SJBottom | SJTop.

(** schematic.rs:698-723 *)
Record cfield := mk_cfield {
  cf_i : Z; cf_value : str; cf_orient : orientation; cf_x : f64; cf_y : f64; cf_size : Z;
  cf_visible : bool; cf_hjust : sjustify; cf_vjust : sjustify; cf_italic : bool; cf_bold : bool;
  cf_name : str }.

(** schematic.rs:617-622, 394-431 *)
Record rotation := mk_rotation { ro_a : Z; ro_b : Z; ro_c : Z; ro_d : Z }.
Record component := mk_comp {
  co_name : str; co_reference : str; co_u : str; co_x : Z; co_y : Z; co_ar : list str;
  co_fields : list cfield; co_rotation : rotation }.
Definition comp_default : component :=
  mk_comp (lit "DUMMY") (lit "U1") [] 0 0 [] [] (mk_rotation 0 0 0 0).

(** schematic.rs:922-959, 877-903 *)
Inductive label_form := FInput | FOutput | FBiDi | FTriState | FUnspecified.
Inductive label_side := DLeft | DRight | DTop | DBottom.
Record sheet_label := mk_slabel {
  sl_name : str; sl_form : label_form; sl_side : label_side; sl_x : Z; sl_y : Z; sl_size : Z }.

(** schematic.rs:805-854 *)
Record sheet := mk_sheet {
  sh_x : Z; sh_y : Z; sh_dimx : Z; sh_dimy : Z; sh_unique : str; sh_name : str; sh_name_size : Z;
  sh_filename : str; sh_filename_size : Z; sh_labels : list sheet_label }.
Definition sheet_default : sheet := mk_sheet 0 0 0 0 [] (lit "DUMMY") 60 [] 60 [].

(** schematic.rs:975-1107 *)
Inductive wire_type := WWire | WNotes | WBus.
Record wire := mk_wire { wi_t : wire_type; wi_x1 : Z; wi_y1 : Z; wi_x2 : Z; wi_y2 : Z }.
(** [Connection] and [NoConnect] have the same fields *)
Record spoint := mk_spoint { cn_x : Z; cn_y : Z }.
Inductive text_type := TNote | TGlobal | THier | TLabel.
Record stext := mk_stext {
  te_t : text_type; te_x : Z; te_y : Z; te_orient : Z; te_size : Z; te_shape : option str;
  te_italic : bool; te_thickness : Z; te_text : str }.

(** schematic.rs:344-359 *)
Inductive selement :=
| SComponent (c : component) | SWire (w : wire) | SConnection (c : spoint) | SNoConnect (c : spoint)
| SText (t : stext) | SOther (s : str).

(** schematic.rs:18-33; the file name is a path (a string) *)
Record schematic := mk_sch {
  sc_filename : option str; sc_libraries : list str; sc_description : description;
  sc_elements : list selement; sc_sheets : list sheet; sc_eelayer : str }.
Definition sch_default : schematic := mk_sch None [] descr_default [] [] [].
