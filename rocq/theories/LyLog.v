(** The records given to the logger while a board is read (/repo/src/layout/de.rs:255, 362)
    or a footprint is fixed (/repo/src/footprint/data.rs:1753).  [show] is the text the
    S-expression library gives for a tree ([Display], not in /repo). *)
From Coq Require Import String.
From Verif Require Import Base Str Num F64 F64Text Bound Sexp FpData FpDe FpOps LyData LyDe DocText SchData SchParse Formatter KicadFile CheckFix FpCheck Bins.
Open Scope string_scope. Open Scope list_scope.

Inductive level := Debug | Info | Warn.
Definition record : Type := level * str.

Section log.
Variable show : sexp -> str.
(** de.rs:352-363: one of the trailing entries of a zone *)
Definition zone_entry_log (x : sexp) : list str :=
  match de_pts_in "polygon" x with
  | Ok _ | Panic => []
  | Err _ =>
      match de_pts_in "filled_polygon" x with
      | Ok _ | Panic => []
      | Err _ =>
          match de_pts_in "fill_segments" x with
          | Ok _ | Panic => []
          | Err _ => [lit "'zone': not parsing " ++ show x]
          end
      end
  end.
(** de.rs:336-364: nothing is logged before the trailing entries are reached *)
Definition zone_log (s : sexp) : list str :=
  match iter_new s (lit "zone")
    (let* _ := p_i_in "net" in
     let* _ := p_s_in "net_name" in
     let* _ := p_t de_layer in
     let* _ := p_s_in "tstamp" in
     let* _ := p_t de_hatch in
     let* _ := p_maybe_in "priority" sx_i in
     let* _ := p_t de_connect in
     let* _ := p_f_in "min_thickness" in
     let* _ := p_maybe de_keepout in
     let* _ := p_t de_fill in
     (fun r => Ok (flat_map zone_entry_log r, []))) with
  | Ok l => l
  | _ => []
  end.
(** de.rs:253-257, 468-523: one entry of a board *)
Definition board_words : list string :=
  ["version"; "host"; "general"; "page"; "layers"; "module"; "net"; "net_class"; "gr_text"; "gr_line"; "gr_arc"; "gr_circle"; "dimension";
   "segment"; "via"; "setup"].
Definition entry_log (e : sexp) : list str :=
  match sx_list_name e with
  | Ok k =>
      if existsb (fun w => str_eqb k (lit w)) board_words then []
      else if str_eqb k (lit "zone") then zone_log e
      else [lit "Element::Other: " ++ show e]
  | _ => []
  end.
(** The loop de.rs:466-524, up to its end or an error *)
Fixpoint entries_log (l : layout) (es : list sexp) : list str :=
  match es with
  | [] => []
  | e :: r => entry_log e ++ match layout_step l e with Ok l' => entries_log l' r | _ => [] end
  end.
(** de.rs:462-527 *)
Definition layout_log (s : sexp) : list str :=
  match s with
  | SList (SStr n :: es) => if str_eqb n (lit "kicad_pcb") then entries_log layout_default es else []
  | _ => []
  end.
(** layout/mod.rs:16-20 *)
Definition text_log (t : str) : list str := match read_sexp t with Ok s => layout_log s | _ => [] end.
(** lib.rs:138-177: the board reader runs when the first two have failed and were not the
    ones wanted; no other reader logs anything *)
Definition data_log (name data : str) (x : expected) : list str :=
  match parse_module data with
  | Err _ =>
      if expected_eqb x XModule then [] else
      match parse_schematic (Some name) data with
      | Err _ => if expected_eqb x XSchematic then [] else text_log data
      | _ => []
      end
  | _ => []
  end.
Definition read_log (fs : files) (name : str) (x : expected) : list str :=
  match fs name with Some d => data_log name d x | None => [] end.

(** The programs that set up a logger, dump_layout.rs, adjust_layout.rs, klc_kicad_mod.rs and
    klc_symbol_lib.rs: first the records of the reader asked for [x], then those of the
    program itself, also when it aborts in between. *)
Definition program_log (x : expected) (p : files -> list str -> res ran) (fs : files) (args : list str) : list record :=
  match arg args with
  | Ok name =>
      map (fun s => (Debug, s)) (read_log fs name x)
      ++ match p fs args with Ok r => map (fun b : bool * str => (if fst b then Warn else Info, snd b)) (r_log r) | _ => [] end
  | _ => []
  end.
End log.

(** data.rs:1730-1753: the line about the courtyard.  The debug records 1733,
    1735 and 1748 are in BoxLog.v. *)
Definition courtyard_log (m : module) : str :=
  let b := module_bound m in
  let '(x, y) := module_at m in
  let o := courtyard_offset m b in
  let x1a := fsub (bx1 b) x in let y1a := fsub (by1 b) y in
  let x2a := fsub (bx2 b) x in let y2a := fsub (by2 b) y in
  let x1 := fsub (fmin x1a x2a) o in let y1 := fsub (fmin y1a y2a) o in
  let x2 := fadd (fmax x1a x2a) o in let y2 := fadd (fmax y1a y2a) o in
  lit "Creating courtyard: " ++ f64_to_str x1 ++ lit "," ++ f64_to_str y1 ++ lit " -> " ++ f64_to_str x2 ++ lit "," ++ f64_to_str y2.
(** data.rs:1648-1763 *)
Definition fix_log (c : config) (m : module) : list record :=
  match fix_reference2 c (fix_value c (m_name m) (fix_reference c m)) with
  | Ok m3 => let m4 := fix_attr m3 in if Nat.ltb (courtyard_lines m4) 4 then [(Info, courtyard_log m4)] else []
  | _ => []
  end.
