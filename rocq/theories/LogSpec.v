(** Specification: what the logger is told (C114). *)
From Coq Require Import String.
From Verif Require Import Base Str F64 F64Text Sexp FpData LyData LyDe LyLog.
Open Scope string_scope. Open Scope list_scope.

(** The parts of a board that are kept without having been understood, in order *)
Definition kept_unread (show : sexp -> str) (e : ly_element) : list str :=
  match e with
  | YOther t => [lit "Element::Other: " ++ show t]
  | YZone z => map (fun t => lit "'zone': not parsing " ++ show t) (zo_other z)
  | _ => []
  end.
Definition unread (show : sexp -> str) (l : layout) : list str := flat_map (kept_unread show) (ly_elements l).
(** Nothing of the element is kept without having been understood. *)
Definition understood (e : ly_element) : Prop := match e with YOther _ => False | YZone z => zo_other z = [] | _ => True end.
(** The tree of a board with these entries *)
Definition board_of (es : list sexp) : sexp := SList (SStr (lit "kicad_pcb") :: es).
(** The entries up to the first that cannot be read *)
Definition readable (es : list sexp) (l : layout) : Prop :=
  exists pre rest, es = pre ++ rest /\ de_layout (board_of pre) = Ok l /\
    (rest = [] \/ exists e r, rest = e :: r /\ forall k, de_layout (board_of (pre ++ [e])) <> Ok k).
(** What is said of a new courtyard, by its first two lines *)
Definition says_courtyard (a b : fp_line) : str :=
  lit "Creating courtyard: " ++ f64_to_str (xy_x (li_start a)) ++ lit "," ++ f64_to_str (xy_y (li_start a)) ++ lit " -> "
  ++ f64_to_str (xy_x (li_end b)) ++ lit "," ++ f64_to_str (xy_y (li_end b)).
