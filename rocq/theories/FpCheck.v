(** Rule checks and fixes on footprints (/repo/src/footprint/data.rs:1383-1763). *)
From Coq Require Import String.
From Verif Require Import Base Str Num F64 F64Text FpData FpLayer Bound FpOps CheckFix SymCheck.
Open Scope string_scope. Open Scope list_scope.

(** [std::f64::EPSILON] *)
Definition EPSILON : f64 := f64_of_dec 2220446049250313 (-31).
Definition far (a b : f64) : bool := fgtb (fabs (fsub a b)) EPSILON.
Definition tx_size (t : fp_text) : xy := fo_size (ef_font (tx_effects t)).
Definition tx_thick (t : fp_text) : f64 := fo_thickness (ef_font (tx_effects t)).

(** data.rs:1390-1461 *)
Definition check_reference (c : config) (m : module) : list cf_data :=
  let n := m_name m in
  match get_text m (lit "reference") with
  | Some t =>
      when (negb (str_eqb (tx_value t) (lit "REF**"))) (cf_new 7 3 n (lit "reference should be REF**"))
      ++ when (negb (ltype_eqb (la_t (tx_layer t)) LSilkS)) (cf_new 7 3 n (lit "reference should be on SilkS layertype"))
      ++ when (tx_hide t) (cf_new 7 3 n (lit "reference should not be hidden"))
      ++ when (far (xy_x (tx_size t)) (xy_y (tx_size t))) (cf_new 7 3 n (lit "reference label font aspect ratio should be 1:1"))
      ++ when (far (xy_y (tx_size t)) (cg_font_size c)) (cf_info 7 3 n (lit "reference label should have height " ++ f64_to_str (cg_font_size c)))
      ++ when (far (xy_x (tx_size t)) (cg_font_size c)) (cf_info 7 3 n (lit "reference label should have width " ++ f64_to_str (cg_font_size c)))
      ++ when (far (tx_thick t) (cg_font_thickness c)) (cf_info 7 3 n (lit "reference label thickness should be " ++ f64_to_str (cg_font_thickness c)))
  | None => [cf_new 7 3 n (lit "reference missing")]
  end.
(** data.rs:1463-1518 *)
Definition check_value (c : config) (m : module) : list cf_data :=
  let n := m_name m in
  match get_text m (lit "value") with
  | Some t =>
      when (negb (str_eqb (tx_value t) n)) (cf_new 7 4 n (lit "value text has to match footprint name"))
      ++ when (negb (ltype_eqb (la_t (tx_layer t)) LFab)) (cf_new 7 4 n (lit "value text has to be on Fab layer"))
      ++ when (tx_hide t) (cf_new 7 4 n (lit "value text should not be hidden"))
      ++ when (far (xy_y (tx_size t)) (cg_font_size c)) (cf_info 7 3 n (lit "value label should have height " ++ f64_to_str (cg_font_size c)))
      ++ when (far (xy_x (tx_size t)) (cg_font_size c)) (cf_info 7 3 n (lit "value label should have width " ++ f64_to_str (cg_font_size c)))
      ++ when (far (tx_thick t) (cg_font_thickness c)) (cf_info 7 3 n (lit "value label thickness should be " ++ f64_to_str (cg_font_thickness c)))
  | None => [cf_new 7 4 n (lit "value missing")]
  end.
(** data.rs:1526-1588 *)
Definition check_reference2 (c : config) (m : module) : list cf_data :=
  let n := m_name m in
  match get_text m (lit "user") with
  | Some t =>
      when (negb (str_eqb (tx_value t) (lit "%R"))) (cf_new 7 4 n (lit "reference 2 should be %R"))
      ++ when (negb (ltype_eqb (la_t (tx_layer t)) LFab)) (cf_new 7 4 n (lit "reference 2 should be on Fab layertype"))
      ++ when (far (xy_x (tx_size t)) (xy_y (tx_size t))) (cf_new 7 4 n (lit "reference 2 label font aspect ratio should be 1:1"))
      ++ when (far (xy_y (tx_size t)) (cg_font_size c)) (cf_info 7 3 n (lit "reference 2 label should have height " ++ f64_to_str (cg_font_size c)))
      ++ when (far (xy_x (tx_size t)) (cg_font_size c)) (cf_info 7 3 n (lit "reference 2 label should have width " ++ f64_to_str (cg_font_size c)))
      ++ when (far (tx_thick t) (cg_font_thickness c)) (cf_info 7 3 n (lit "reference 2 label thickness should be " ++ f64_to_str (cg_font_thickness c)))
  | None => [cf_new 7 4 n (lit "reference 2 missing")]
  end.
(** data.rs:1591-1596, 1606-1614, 1708-1716, 1724-1729.  Simplification: the i32
    counters do not overflow. *)
Definition count {A} (f : A -> bool) (l : list A) : nat := length (filter f l).
Definition courtyard_lines (m : module) : nat := count (fun l => ltype_eqb (la_t (li_layer l)) LCrtYd) (fp_lines m).
Definition smd_pads (m : module) : nat := count (fun p => pad_type_eqb (pa_t p) Smd) (pads m).
Definition pth_pads (m : module) : nat := count (fun p => pad_type_eqb (pa_t p) Pth) (pads m).
Definition smd_only (m : module) : bool := Nat.eqb (pth_pads m) 0 && Nat.ltb 0 (smd_pads m).
Definition pth_only (m : module) : bool := Nat.ltb 0 (pth_pads m) && Nat.eqb (smd_pads m) 0.
Definition placement : str := lit "SMD components need to have placement Smd (Normal+Insert in Properties)".
(** data.rs:1384-1646 *)
Definition fp_check (c : config) (m : module) : list cf_data :=
  check_reference c m ++ check_value c m ++ check_reference2 c m
  ++ when (Nat.ltb (courtyard_lines m) 4) (cf_new 7 5 (m_name m) (lit "missing courtyard on CrtYd layer"))
  ++ (if smd_only m then when (negb (has_smd_attr m)) (cf_new 8 1 (m_name m) placement)
      else if pth_only m then when (has_smd_attr m) (cf_new 9 1 (m_name m) placement)
      else []).

(** ** Fix *)
(** data.rs:1651-1658, 1663-1670, 1699-1706: value, layer type, visibility and font *)
Definition fix_text (c : config) (v : str) (lt : layer_type) (t : fp_text) : fp_text :=
  mk_text (tx_name t) v (tx_at t) (mk_layer (la_side (tx_layer t)) lt)
    (mk_effects (mk_font (mk_xy (cg_font_size c) (cg_font_size c) (xy_t (tx_size t))) (cg_font_thickness c)
                         (fo_italic (ef_font (tx_effects t))))
                (ef_justify (tx_effects t)))
    false.
Definition push (es : list element) (m : module) : module := mk_module (m_name m) (m_elements m ++ es).
Definition or_same (m : module) (o : option module) : module := match o with Some x => x | None => m end.
Definition fix_reference (c : config) (m : module) : module :=
  or_same m (modify_text m (lit "reference") (fix_text c (lit "REF**") LSilkS)).
Definition fix_value (c : config) (name : str) (m : module) : module :=
  or_same m (modify_text m (lit "value") (fix_text c name LFab)).
(** data.rs:1674-1705; [Layer::from_string("F.Fab").unwrap()] is front, fab *)
Definition new_ref2 (c : config) : fp_text :=
  mk_text (lit "user") (lit "%R") at_default (mk_layer SFront LFab)
    (mk_effects (mk_font (mk_xy (cg_font_size c) (cg_font_size c) XXy) (cg_font_thickness c) false) None) false.
Definition fix_reference2 (c : config) (m : module) : res module :=
  let m := match get_text m (lit "user") with Some _ => m | None => push [EFpText (new_ref2 c)] m end in
  match modify_text m (lit "user") (fix_text c (lit "%R") LFab) with Some x => Ok x | None => Panic end.
(** data.rs:1707-1722 *)
Definition fix_attr (m : module) : module :=
  if smd_only m && negb (has_smd_attr m) then push [EAttr (lit "smd")] m else m.
(** data.rs:1226-1235: on the default side, the front *)
Definition line_make (x1 y1 x2 y2 : f64) (t : layer_type) (w : f64) : fp_line :=
  mk_line (mk_xy x1 y1 XStart) (mk_xy x2 y2 XEnd) (mk_layer SFront t) w.
(** data.rs:1730-1761 *)
Definition courtyard_offset (m : module) (b : bound) : f64 :=
  if fltb (bound_width b) (flit "2.0") && fltb (bound_height b) (flit "2.0") then flit "0.15"
  else if starts_with (lit "BGA") (m_name m) then flit "0.1" else flit "0.25".
Definition courtyard (m : module) : list fp_line :=
  let b := module_bound m in
  let '(x, y) := module_at m in
  let o := courtyard_offset m b in
  let x1a := fsub (bx1 b) x in let y1a := fsub (by1 b) y in
  let x2a := fsub (bx2 b) x in let y2a := fsub (by2 b) y in
  let x1 := fsub (fmin x1a x2a) o in let y1 := fsub (fmin y1a y2a) o in
  let x2 := fadd (fmax x1a x2a) o in let y2 := fadd (fmax y1a y2a) o in
  let w := flit "0.05" in
  [line_make x1 y1 x2 y1 LCrtYd w; line_make x2 y1 x2 y2 LCrtYd w; line_make x2 y2 x1 y2 LCrtYd w; line_make x1 y2 x1 y1 LCrtYd w].
(** data.rs:1723-1762 *)
Definition fix_courtyard (m : module) : module :=
  if Nat.ltb (courtyard_lines m) 4 then push (map EFpLine (courtyard m)) m else m.
(** data.rs:1648-1763 *)
Definition fp_fix (c : config) (m : module) : res module :=
  let name := m_name m in
  do m3 <- fix_reference2 c (fix_value c name (fix_reference c m));
  Ok (fix_courtyard (fix_attr m3)).
