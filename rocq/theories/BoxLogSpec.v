(** Specification: what the logger is told about bounding boxes (C119). *)
From Coq Require Import String.
From Verif Require Import Base Str F64 F64Text Bound FpData LyData SchData LyLog.
Open Scope string_scope. Open Scope list_scope.

(** An element of a board that carries a text of its own *)
Definition lettered (e : ly_element) : bool := match e with YGrText _ | YDimension _ => true | _ => false end.
(** The records of a fix that adds a courtyard: the box, the place, the corners of the box
    as seen from the place, and the corners drawn *)
Definition pair_text (d : f64 -> str) (x y : f64) : str := lit "(" ++ d x ++ lit ", " ++ d y ++ lit ")".
Definition box_text (d : f64 -> str) (x1 y1 x2 y2 : f64) : str :=
  lit "bound: Bound { x1: " ++ d x1 ++ lit ", y1: " ++ d y1 ++ lit ", x2: " ++ d x2 ++ lit ", y2: " ++ d y2 ++ lit ", is_bounded: true }".
Definition told_steps (d : f64 -> str) (x1 y1 x2 y2 x y u1 v1 u2 v2 : f64) (last : str) : list record :=
  [(Debug, box_text d x1 y1 x2 y2); (Debug, lit "at: " ++ pair_text d x y);
   (Debug, lit "a: (" ++ pair_text d u1 v1 ++ lit ", " ++ pair_text d u2 v2 ++ lit ")"); (Info, last)].
