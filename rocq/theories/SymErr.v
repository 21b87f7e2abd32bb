(** Symbol library from text (/repo/src/symbol_lib.rs:585-848) with the texts of the
    errors.  Each function is the one of the same name in SymParse.v. *)
From Coq Require Import String.
From Verif Require Import Base Str Num F64 F64Text LibFns SchData SchPrint SchParse SymData SymParse Said SchErr.
Open Scope string_scope. Open Scope list_scope.

(** symbol_lib.rs:235-244, 478-488, 514-531 *)
Definition fill_said (s : str) : said fill := match fill_make s with Ok f => Fine f | _ => Says (lit "unknown fill type " ++ s) end.
Definition pin_orientation_said (s : str) : said pin_orientation :=
  match pin_orientation_make s with Ok f => Fine f | _ => Says (lit "unknown pin orientation " ++ s) end.
Definition pin_type_said (s : str) : said pin_type := match pin_type_make s with Ok f => Fine f | _ => Says (lit "unknown pin type " ++ s) end.
(** symbol_lib.rs:555-574: the text leaves out a leading N *)
Definition pin_shape_said (s : str) : said pin_shape :=
  match pin_shape_make s with Ok f => Fine f | _ => Says (lit "unknown pinshape " ++ (if starts_with (lit "N") s then tl s else s)) end.

(** symbol_lib.rs:742-772 *)
Definition sfield_said (line : str) : said sfield :=
  try v <- split_all line;
  let n := length v in
  if negb (Nat.eqb n 9) && negb (Nat.eqb n 10) then Says (lit "unexpected elements in " ++ line) else
  try w0 <- sidx v 0; try i <- int_said line (tl w0);
  try name <- (if Nat.eqb n 10 then sidx v 9 else match default_field_name i with Some k => Fine k | None => Says (lit "expecting name for componentfield > 3") end);
  try value <- sidx v 1;
  try w2 <- sidx v 2; try x <- float_said line w2;
  try w3 <- sidx v 3; try y <- float_said line w3;
  try w4 <- sidx v 4; try dim <- int_said line w4;
  try w5 <- sidx v 5; try c5 <- schar w5 0; try orient <- orientation_said c5;
  try w6 <- sidx v 6; try visible <- bool_said w6 "V" "I";
  try w7 <- sidx v 7; try c7 <- schar w7 0; try h <- sjustify_said c7;
  try w8 <- sidx v 8; try c8 <- schar w8 0; try vj <- sjustify_said c8;
  try d1 <- schar w8 1; try italic <- flag_said d1 73 78;
  try d2 <- schar w8 2; try bold <- flag_said d2 66 78;
  Fine (mk_sfield i value x y dim orient visible h vj italic bold name).
(** symbol_lib.rs:776-799 *)
Definition pin_said (line : str) : said pin :=
  try v <- split_all line;
  let n := length v in
  if negb (Nat.eqb n 12) && negb (Nat.eqb n 13) then Says (lit "unexpected elements in " ++ line) else
  try name <- sidx v 1; try number <- sidx v 2;
  try w3 <- sidx v 3; try x <- int_said line w3;
  try w4 <- sidx v 4; try y <- int_said line w4;
  try w5 <- sidx v 5; try len <- int_said line w5;
  try w6 <- sidx v 6; try orient <- pin_orientation_said w6;
  try w7 <- sidx v 7; try num_size <- int_said line w7;
  try w8 <- sidx v 8; try name_size <- int_said line w8;
  try w9 <- sidx v 9; try unit <- int_said line w9;
  try w10 <- sidx v 10; try convert <- int_said line w10;
  try w11 <- sidx v 11; try ty <- pin_type_said w11;
  if Nat.eqb n 13 then
    try w12 <- sidx v 12; try shape <- pin_shape_said w12;
    Fine (mk_pin name number x y len orient num_size name_size unit convert ty (visible_from_str w12) shape)
  else Fine (mk_pin name number x y len orient num_size name_size unit convert ty true PSLine).
(** symbol_lib.rs:802-817 *)
Definition rect_said (line : str) : said rectangle :=
  try v <- split_all line;
  if negb (Nat.eqb (length v) 9) then Says (lit "unexpected elements in " ++ line) else
  try w1 <- sidx v 1; try x1 <- int_said line w1;
  try w2 <- sidx v 2; try y1 <- int_said line w2;
  try w3 <- sidx v 3; try x2 <- int_said line w3;
  try w4 <- sidx v 4; try y2 <- int_said line w4;
  try w5 <- sidx v 5; try unit <- int_said line w5;
  try w6 <- sidx v 6; try convert <- int_said line w6;
  try w7 <- sidx v 7; try thickness <- int_said line w7;
  try w8 <- sidx v 8; try f <- fill_said w8;
  Fine (mk_rect x1 y1 x2 y2 unit convert thickness f).
(** symbol_lib.rs:677-686 *)
Fixpoint sfields_said (p : list str) (acc : list sfield) : said (list sfield * list str) :=
  match p with
  | [] => Stops
  | s :: r =>
      try c <- schar s 0;
      if N.eqb c 70 then try f <- sfield_said s; sfields_said r (acc ++ [f]) else Fine (acc, p)
  end.
(** symbol_lib.rs:698-704 *)
Definition aliases_said (p : list str) : said (list str * list str) :=
  try s <- here_said p;
  if starts_with (lit "ALIAS") s then try v <- split_all s; Fine (tl v, next p) else Fine ([], p).
(** symbol_lib.rs:707-724 *)
Definition draw_line_said (s : str) : said draw :=
  if starts_with (lit "X ") s then try p <- pin_said s; Fine (DPin p)
  else if starts_with (lit "S ") s then try r <- rect_said s; Fine (DRect r)
  else Fine (DOther s).
Fixpoint draw_said (p : list str) (acc : list draw) : said (list draw * list str) :=
  match p with
  | [] => Fine (acc, [])
  | s :: r => if seq s "ENDDRAW" then Fine (acc, r) else try d <- draw_line_said s; draw_said r (acc ++ [d])
  end.
(** symbol_lib.rs:663-674: the line of the symbol *)
Definition def_said (s : str) : said symbol :=
  try v <- split_all s;
  if negb (Nat.eqb (length v) 10) then Says (lit "unexpected elements in " ++ s) else
  try w0 <- sidx v 0; try _ <- assume_said "DEF" w0;
  try name <- sidx v 1; try reference <- sidx v 2;
  try w4 <- sidx v 4; try text_offset <- float_said s w4;
  try w5 <- sidx v 5; try pinnumber <- bool_said w5 "Y" "N";
  try w6 <- sidx v 6; try pinname <- bool_said w6 "Y" "N";
  try w7 <- sidx v 7; try unit_count <- int_said s w7;
  try w8 <- sidx v 8; try unit_locked <- bool_said w8 "L" "F";
  try w9 <- sidx v 9; try is_power <- bool_said w9 "P" "N";
  Fine (mk_symbol name reference text_offset pinnumber pinname unit_count unit_locked is_power [] [] []).
(** symbol_lib.rs:686-728: what follows the fields *)
Definition rest_said (y : symbol) (fields : list sfield) (p : list str) : said (symbol * list str) :=
  try s <- here_said p;
  let p := if seq s "$FPLIST" then skip_fplist (next p) else p in
  try ap <- aliases_said p;
  let '(aliases, p) := ap in
  try p <- line_said p "DRAW";
  try dp <- draw_said p [];
  let '(dr, p) := dp in
  try p <- line_said p "ENDDEF";
  try p <- line_said p "#";
  Fine (mk_symbol (sy_name y) (sy_reference y) (sy_text_offset y) (sy_pinnumber y) (sy_pinname y) (sy_unit_count y) (sy_unit_locked y) (sy_is_power y)
          fields aliases dr, p).
(** symbol_lib.rs:660-728 *)
Definition symbol_said (p : list str) : said (symbol * list str) :=
  try p <- line_said (next p) "#";
  try s <- here_said p;
  try y <- def_said s;
  try fp <- sfields_said (next p) [];
  let '(fields, p) := fp in rest_said y fields p.
(** symbol_lib.rs:819-841 *)
Fixpoint symbols_said (fuel : nat) (p : list str) (acc : list symbol) : said (list symbol) :=
  match p with
  | [] => Fine acc
  | s :: _ =>
      if seq s "#End Library" then Fine acc else
      match fuel with
      | O => Spent
      | S n => try sp <- symbol_said p; let '(y, q) := sp in symbols_said n q (acc ++ [y])
      end
  end.
Definition library_said (s : str) : said (list symbol) :=
  try p <- line_said (lines s) "EESchema-LIBRARY Version 2.3";
  try p <- line_said p "#encoding utf-8";
  try p <- line_said p "#";
  symbols_said (length p) p [].
