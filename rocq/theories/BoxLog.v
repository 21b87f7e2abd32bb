(** The debug records of the code that computes bounding boxes (/repo/src/footprint/data.rs:548,
    1733-1748, /repo/src/layout/data.rs:359, /repo/src/schematic.rs:370, 435).  [dbg] is the text
    Rust's [{:?}] gives for an f64, which differs between versions of the language. *)
From Coq Require Import String.
From Verif Require Import Base Str F64 F64Text Bound FpData FpOps LyData LyOps SchData SchOps CheckFix FpCheck LyLog.
Open Scope string_scope. Open Scope list_scope.

(** footprint/data.rs:325-348, 545-551 *)
Definition element_box_log (e : element) : list str :=
  match e with EFpText _ => [lit "bound for FpText is poor"] | _ => [] end.
(** footprint/data.rs:240-260: only elements whose box is asked for *)
Definition module_box_log (m : module) : list str :=
  flat_map element_box_log (filter (fun e => is_fab e || is_pad e) (filter is_graphics (m_elements m))).
(** layout/data.rs:357-362 *)
Definition gr_text_box_log (t : gr_text) : list str := [lit "poor bounding box for GrText"].
(** layout/data.rs:513-526, 885-901 *)
Definition ly_element_box_log (e : ly_element) : list str :=
  match e with
  | YModule m => module_box_log m
  | YGrText t => gr_text_box_log t
  | YDimension d => gr_text_box_log (di_text d)
  | YNet _ | YNetClass _ | YGrLine _ | YGrArc _ | YGrCircle _ | YSegment _ | YVia _ | YZone _ | YOther _ => []
  end.
(** layout/data.rs:624-633 *)
Definition layout_box_log (l : layout) : list str := flat_map ly_element_box_log (ly_elements l).
(** schematic.rs:361-375, 433-438 *)
Definition selement_box_log (e : selement) : str :=
  match e with
  | SComponent _ => lit "Component bound calculation is poor"
  | SWire _ | SConnection _ | SNoConnect _ | SText _ | SOther _ => lit "unhandled schematic element for bounding box"
  end.
(** schematic.rs:35-47: the sheets come after the elements and log nothing *)
Definition sch_box_log (s : schematic) : list str := map selement_box_log (sc_elements s).

Section fix_records.
Variable dbg : f64 -> str.
(** the derived [Debug] of lib.rs:246-260 *)
Definition dbg_bound (b : bound) : str :=
  lit "Bound { x1: " ++ dbg (bx1 b) ++ lit ", y1: " ++ dbg (by1 b) ++ lit ", x2: " ++ dbg (bx2 b) ++ lit ", y2: " ++ dbg (by2 b)
  ++ lit ", is_bounded: " ++ (if bounded b then lit "true" else lit "false") ++ lit " }".
(** of a pair *)
Definition dbg_pair (x y : f64) : str := lit "(" ++ dbg x ++ lit ", " ++ dbg y ++ lit ")".
(** data.rs:1730-1753: all records about a courtyard *)
Definition courtyard_records (m : module) : list record :=
  let b := module_bound m in
  let '(x, y) := module_at m in
  map (fun s => (Debug, s)) (module_box_log m)
  ++ [(Debug, lit "bound: " ++ dbg_bound b); (Debug, lit "at: " ++ dbg_pair x y);
      (Debug, lit "a: (" ++ dbg_pair (fsub (bx1 b) x) (fsub (by1 b) y) ++ lit ", " ++ dbg_pair (fsub (bx2 b) x) (fsub (by2 b) y) ++ lit ")");
      (Info, courtyard_log m)].
(** data.rs:1648-1763 *)
Definition fix_records (c : config) (m : module) : list record :=
  match fix_reference2 c (fix_value c (m_name m) (fix_reference c m)) with
  | Ok m3 => let m4 := fix_attr m3 in if Nat.ltb (courtyard_lines m4) 4 then courtyard_records m4 else []
  | _ => []
  end.
End fix_records.
