(** Schematic to text (the [Display] implementations of /repo/src/schematic.rs). *)
From Coq Require Import String.
From Verif Require Import Base Str Num F64 F64Text SchData.
Open Scope string_scope. Open Scope list_scope.

Definition bl : str := [32%N].
Definition quoted (s : str) : str := 34%N :: s ++ [34%N].
Definition tab : str := [9%N].

(** Each printer gives the list of lines it writes; [unlines] puts the newlines. *)
Definition unlines (l : list str) : str := flat_map ln l.

(** schematic.rs:327-342 *)
Definition print_description (d : description) : list str :=
  [lit "$Descr " ++ ds_size d ++ bl ++ show_Z (ds_dimx d) ++ bl ++ show_Z (ds_dimy d);
   lit "encoding utf-8";
   lit "Sheet " ++ show_Z (ds_sheet d) ++ bl ++ show_Z (ds_count d);
   lit "Title " ++ quoted (ds_title d);
   lit "Date " ++ quoted (ds_date d);
   lit "Rev " ++ quoted (ds_rev d);
   lit "Comp " ++ quoted (ds_comp d);
   lit "Comment1 " ++ quoted (ds_comment1 d);
   lit "Comment2 " ++ quoted (ds_comment2 d);
   lit "Comment3 " ++ quoted (ds_comment3 d);
   lit "Comment4 " ++ quoted (ds_comment4 d);
   lit "$EndDescr"].

(** schematic.rs:644-651, 683-693 *)
Definition show_orientation (o : orientation) : str :=
  match o with Horizontal => lit "H" | Vertical => lit "V" end.
Definition show_sjustify (j : sjustify) : str :=
  match j with
  | SJLeft => lit "L" | SJRight => lit "R" | SJCenter => lit "C" | SJBottom => lit "B" | SJTop => lit "T"
  end.

(** schematic.rs:782-801 *)
Definition print_field (f : cfield) : str :=
  lit "F " ++ show_Z (cf_i f) ++ bl ++ quoted (cf_value f) ++ bl ++ show_orientation (cf_orient f) ++ bl
  ++ pad_right 3 (f64_to_str (cf_x f)) ++ bl ++ pad_right 3 (f64_to_str (cf_y f)) ++ bl ++ pad_right 3 (show_Z (cf_size f)) ++ bl
  ++ lit (if cf_visible f then "0000" else "0001") ++ bl
  ++ show_sjustify (cf_hjust f) ++ bl ++ show_sjustify (cf_vjust f)
  ++ lit (if cf_italic f then "I" else "N") ++ lit (if cf_bold f then "B" else "N")
  ++ (if (3 <? cf_i f)%Z then bl ++ quoted (cf_name f) else []).

(** schematic.rs:584-613 *)
Definition print_component (c : component) : list str :=
  [lit "$Comp"; lit "L " ++ co_name c ++ bl ++ co_reference c; co_u c;
   lit "P " ++ show_Z (co_x c) ++ bl ++ show_Z (co_y c)]
  ++ co_ar c
  ++ map print_field (co_fields c)
  ++ [tab ++ pad_right 4 (lit "1") ++ bl ++ pad_right 4 (show_Z (co_x c)) ++ bl ++ pad_right 4 (show_Z (co_y c));
      tab ++ pad_right 4 (show_Z (ro_a (co_rotation c))) ++ bl ++ pad_right 4 (show_Z (ro_b (co_rotation c))) ++ bl
        ++ pad_right 4 (show_Z (ro_c (co_rotation c))) ++ bl ++ pad_right 4 (show_Z (ro_d (co_rotation c)));
      lit "$EndComp"].

(** schematic.rs:935-971, 905-918 *)
Definition show_form (f : label_form) : str :=
  match f with
  | FInput => lit "I" | FOutput => lit "O" | FBiDi => lit "B" | FTriState => lit "T" | FUnspecified => lit "U"
  end.
Definition show_lside (s : label_side) : str :=
  match s with DLeft => lit "L" | DRight => lit "R" | DTop => lit "T" | DBottom => lit "B" end.
Definition print_label (l : sheet_label) : str :=
  quoted (sl_name l) ++ bl ++ show_form (sl_form l) ++ bl ++ show_lside (sl_side l) ++ bl ++ show_Z (sl_x l) ++ bl
  ++ show_Z (sl_y l) ++ bl ++ show_Z (sl_size l).

(** schematic.rs:856-870; the counter is an i32 in Rust *)
Fixpoint print_labels (i : Z) (l : list sheet_label) : list str :=
  match l with
  | [] => []
  | x :: r => (lit "F" ++ show_Z i ++ bl ++ print_label x) :: print_labels (i + 1) r
  end.
Definition print_sheet (s : sheet) : list str :=
  [lit "$Sheet";
   lit "S " ++ show_Z (sh_x s) ++ bl ++ show_Z (sh_y s) ++ bl ++ show_Z (sh_dimx s) ++ bl ++ show_Z (sh_dimy s);
   lit "U " ++ sh_unique s;
   lit "F0 " ++ quoted (sh_name s) ++ bl ++ show_Z (sh_name_size s);
   lit "F1 " ++ quoted (sh_filename s) ++ bl ++ show_Z (sh_filename_size s)]
  ++ print_labels 2 (sh_labels s)
  ++ [lit "$EndSheet"].

(** schematic.rs:984-1015 *)
Definition show_wire_type (t : wire_type) : str :=
  match t with WWire => lit "Wire" | WNotes => lit "Notes" | WBus => lit "Bus" end.
Definition print_wire (w : wire) : list str :=
  [lit "Wire " ++ show_wire_type (wi_t w) ++ lit " Line";
   tab ++ show_Z (wi_x1 w) ++ bl ++ show_Z (wi_y1 w) ++ bl ++ show_Z (wi_x2 w) ++ bl ++ show_Z (wi_y2 w)].
(** schematic.rs:1026-1045 *)
Definition print_connection (c : spoint) : list str := [lit "Connection ~ " ++ show_Z (cn_x c) ++ bl ++ show_Z (cn_y c)].
Definition print_no_connect (c : spoint) : list str := [lit "NoConn ~ " ++ show_Z (cn_x c) ++ bl ++ show_Z (cn_y c)].
(** schematic.rs:1060-1079, 1109-1127 *)
Definition show_text_type (t : text_type) : str :=
  match t with TNote => lit "Notes" | TGlobal => lit "GLabel" | THier => lit "HLabel" | TLabel => lit "Label" end.
Definition is_local (t : text_type) : bool :=
  match t with TNote | TLabel => true | TGlobal | THier => false end.
Definition print_text (t : stext) : list str :=
  [lit "Text " ++ show_text_type (te_t t) ++ bl ++ pad_right 4 (show_Z (te_x t)) ++ bl ++ pad_right 4 (show_Z (te_y t)) ++ bl
   ++ pad_right 4 (show_Z (te_orient t)) ++ bl ++ pad_right 4 (show_Z (te_size t)) ++ bl
   ++ match te_shape t with Some s => s ++ bl | None => [] end
   ++ lit (if te_italic t then "Italic" else "~") ++ bl ++ show_Z (te_thickness t);
   te_text t].

(** schematic.rs:377-388 *)
Definition print_selement (e : selement) : list str :=
  match e with
  | SComponent c => print_component c
  | SWire w => print_wire w
  | SConnection c => print_connection c
  | SNoConnect c => print_no_connect c
  | SText t => print_text t
  | SOther s => [s]
  end.

(** schematic.rs:205-223 *)
Definition sch_lines (s : schematic) : list str :=
  [lit "EESchema Schematic File Version 2"]
  ++ map (fun v => lit "LIBS:" ++ v) (sc_libraries s)
  ++ [sc_eelayer s; lit "EELAYER END"]
  ++ print_description (sc_description s)
  ++ flat_map print_selement (sc_elements s)
  ++ flat_map print_sheet (sc_sheets s)
  ++ [lit "$EndSCHEMATC"].
Definition print_schematic (s : schematic) : str := unlines (sch_lines s).
