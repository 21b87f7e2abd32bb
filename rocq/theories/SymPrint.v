(** Symbol library to text (the [Display] implementations of
    /repo/src/symbol_lib.rs). *)
From Coq Require Import String.
From Verif Require Import Base Str Num F64 F64Text SchData SchPrint SymData.
Open Scope string_scope. Open Scope list_scope.

(** symbol_lib.rs:388-410.  Bold is written as "I". *)
Definition print_sfield (f : sfield) : str :=
  lit "F" ++ show_Z (sf_i f) ++ bl ++ quoted (sf_value f) ++ bl ++ f64_to_str (sf_x f) ++ bl ++ f64_to_str (sf_y f) ++ bl
  ++ show_Z (sf_dim f) ++ bl ++ show_orientation (sf_orient f) ++ bl ++ lit (if sf_visible f then "V" else "I") ++ bl
  ++ show_sjustify (sf_hjust f) ++ bl ++ show_sjustify (sf_vjust f)
  ++ lit (if sf_italic f then "I" else "N") ++ lit (if sf_bold f then "I" else "N")
  ++ (if (3 <? sf_i f)%Z then bl ++ quoted (sf_name f) else []).
(** symbol_lib.rs:430-438, 421-428 *)
Definition show_fill (f : fill) : str := match f with FillFg => lit "F" | FillBg => lit "f" | FillNone => lit "N" end.
Definition print_rect (r : rectangle) : str :=
  lit "S " ++ show_Z (rc_x1 r) ++ bl ++ show_Z (rc_y1 r) ++ bl ++ show_Z (rc_x2 r) ++ bl ++ show_Z (rc_y2 r) ++ bl
  ++ show_Z (rc_unit r) ++ bl ++ show_Z (rc_convert r) ++ bl ++ show_Z (rc_thickness r) ++ bl ++ show_fill (rc_fill r).
(** symbol_lib.rs:461-470, 491-507, 533-547 *)
Definition show_pin_orientation (o : pin_orientation) : str :=
  match o with PUp => lit "U" | PDown => lit "D" | PLeft => lit "L" | PRight => lit "R" end.
Definition show_pin_type (t : pin_type) : str :=
  match t with
  | PTInput => lit "I" | PTOutput => lit "O" | PTBidi => lit "B" | PTTristate => lit "T" | PTPassive => lit "P"
  | PTUnspecified => lit "U" | PTPowerInput => lit "W" | PTPowerOutput => lit "w" | PTOpenCollector => lit "C"
  | PTOpenEmitter => lit "E" | PTNotConnected => lit "N"
  end.
Definition show_pin_shape (s : pin_shape) : str :=
  match s with
  | PSLine => [] | PSInverted => lit "I" | PSClock => lit "C" | PSInvertedClock => lit "CI" | PSInputLow => lit "L"
  | PSClockLow => lit "CL" | PSOutputLow => lit "V" | PSFallingEdgeClock => lit "F" | PSNonLogic => lit "X"
  end.
(** symbol_lib.rs:441-459 *)
Definition print_pin (p : pin) : str :=
  lit "X " ++ pn_name p ++ bl ++ pn_number p ++ bl ++ show_Z (pn_x p) ++ bl ++ show_Z (pn_y p) ++ bl ++ show_Z (pn_len p) ++ bl
  ++ show_pin_orientation (pn_orient p) ++ bl ++ show_Z (pn_num_size p) ++ bl ++ show_Z (pn_name_size p) ++ bl
  ++ show_Z (pn_unit p) ++ bl ++ show_Z (pn_convert p) ++ bl ++ show_pin_type (pn_type p)
  ++ (if pn_visible p then match pn_shape p with PSLine => [] | s => bl ++ show_pin_shape s end
      else lit " N" ++ show_pin_shape (pn_shape p)).
(** symbol_lib.rs:411-419 *)
Definition print_draw (d : draw) : str :=
  match d with DOther s => s | DPin p => print_pin p | DRect r => print_rect r end.
(** symbol_lib.rs:332-367: indexes the second field, so it panics with fewer than
    two *)
Definition print_symbol (s : symbol) : res (list str) :=
  do f1 <- idx (sy_fields s) 1;
  Ok ([lit "# " ++ sf_value f1; lit "#";
       lit "DEF " ++ sy_name s ++ bl ++ sy_reference s ++ lit " 0 " ++ f64_to_str (sy_text_offset s) ++ bl
         ++ lit (if sy_pinnumber s then "Y" else "N") ++ bl ++ lit (if sy_pinname s then "Y" else "N") ++ bl
         ++ show_Z (sy_unit_count s) ++ bl ++ lit (if sy_unit_locked s then "L" else "F") ++ bl
         ++ lit (if sy_is_power s then "P" else "N")]
      ++ map print_sfield (sy_fields s)
      ++ (if is_empty (sy_aliases s) then [] else [lit "ALIAS" ++ flat_map (fun a => bl ++ a) (sy_aliases s)])
      ++ [lit "DRAW"] ++ map print_draw (sy_draw s) ++ [lit "ENDDRAW"; lit "ENDDEF"; lit "#"]).
(** symbol_lib.rs:261-271 *)
Definition print_symbol_lib (l : list symbol) : res str :=
  do ls <- mapM print_symbol l;
  Ok (unlines ([lit "EESchema-LIBRARY Version 2.3"; lit "#encoding utf-8"; lit "#"] ++ concat ls ++ [lit "#End Library"])).
