(** Symbol library from text (/repo/src/symbol_lib.rs:585-848).  The parse state is
    the list of lines from the current one on; [here] panics when there is none. *)
From Coq Require Import String.
From Verif Require Import Base Str Num F64 F64Text LibFns SchData SchPrint SchParse SymData.
Open Scope string_scope. Open Scope list_scope.

(** symbol_lib.rs:236-243, 479-487, 515-530, 556-582 *)
Definition fill_make (s : str) : res fill :=
  if seq s "F" then Ok FillFg else if seq s "f" then Ok FillBg else if seq s "N" then Ok FillNone else Err EOther.
Definition pin_orientation_make (s : str) : res pin_orientation :=
  if seq s "U" then Ok PUp else if seq s "D" then Ok PDown else if seq s "L" then Ok PLeft else if seq s "R" then Ok PRight
  else Err EOther.
Definition pin_type_make (s : str) : res pin_type :=
  if seq s "I" then Ok PTInput else if seq s "O" then Ok PTOutput else if seq s "B" then Ok PTBidi
  else if seq s "T" then Ok PTTristate else if seq s "P" then Ok PTPassive else if seq s "U" then Ok PTUnspecified
  else if seq s "W" then Ok PTPowerInput else if seq s "w" then Ok PTPowerOutput else if seq s "C" then Ok PTOpenCollector
  else if seq s "E" then Ok PTOpenEmitter else if seq s "N" then Ok PTNotConnected else Err EOther.
Definition pin_shape_make (s : str) : res pin_shape :=
  if is_empty s then Ok PSLine else
  let s := if starts_with (lit "N") s then tl s else s in
  if seq s "I" then Ok PSInverted else if seq s "C" then Ok PSClock else if seq s "CI" then Ok PSInvertedClock
  else if seq s "L" then Ok PSInputLow else if seq s "CL" then Ok PSClockLow else if seq s "V" then Ok PSOutputLow
  else if seq s "F" then Ok PSFallingEdgeClock else if seq s "X" then Ok PSNonLogic else if seq s "" then Ok PSLine
  else Err EOther.
Definition visible_from_str (s : str) : bool := if is_empty s then false else negb (starts_with (lit "N") s).

(** symbol_lib.rs:742-772.  The line begins with F, so the first word does and
    [v[0][1..]] is defined. *)
Definition parse_sfield (line : str) : res sfield :=
  do v <- split_quote_aware line;
  let n := length v in
  if negb (Nat.eqb n 9) && negb (Nat.eqb n 10) then Err EOther else
  do w0 <- idx v 0; do i <- i64_from_string (tl w0);
  do name <- (if Nat.eqb n 10 then idx v 9 else of_option EOther (default_field_name i));
  do value <- idx v 1;
  do w2 <- idx v 2; do x <- f64_from_string w2;
  do w3 <- idx v 3; do y <- f64_from_string w3;
  do w4 <- idx v 4; do dim <- i64_from_string w4;
  do w5 <- idx v 5; do c5 <- char_at w5 0; do orient <- orientation_new c5;
  do w6 <- idx v 6; do visible <- bool_from_string w6 "V" "I";
  do w7 <- idx v 7; do c7 <- char_at w7 0; do h <- sjustify_new c7;
  do w8 <- idx v 8; do c8 <- char_at w8 0; do vj <- sjustify_new c8;
  do d1 <- char_at w8 1; do italic <- bool_from d1 73 78;
  do d2 <- char_at w8 2; do bold <- bool_from d2 66 78;
  Ok (mk_sfield i value x y dim orient visible h vj italic bold name).

(** symbol_lib.rs:776-799 *)
Definition parse_pin (line : str) : res pin :=
  do v <- split_quote_aware line;
  let n := length v in
  if negb (Nat.eqb n 12) && negb (Nat.eqb n 13) then Err EOther else
  do name <- idx v 1; do number <- idx v 2;
  do w3 <- idx v 3; do x <- i64_from_string w3;
  do w4 <- idx v 4; do y <- i64_from_string w4;
  do w5 <- idx v 5; do len <- i64_from_string w5;
  do w6 <- idx v 6; do orient <- pin_orientation_make w6;
  do w7 <- idx v 7; do num_size <- i64_from_string w7;
  do w8 <- idx v 8; do name_size <- i64_from_string w8;
  do w9 <- idx v 9; do unit <- i64_from_string w9;
  do w10 <- idx v 10; do convert <- i64_from_string w10;
  do w11 <- idx v 11; do ty <- pin_type_make w11;
  if Nat.eqb n 13 then
    do w12 <- idx v 12; do shape <- pin_shape_make w12;
    Ok (mk_pin name number x y len orient num_size name_size unit convert ty (visible_from_str w12) shape)
  else Ok (mk_pin name number x y len orient num_size name_size unit convert ty true PSLine).

(** symbol_lib.rs:802-817 *)
Definition parse_rect (line : str) : res rectangle :=
  do v <- split_quote_aware line;
  if negb (Nat.eqb (length v) 9) then Err EOther else
  do w1 <- idx v 1; do x1 <- i64_from_string w1;
  do w2 <- idx v 2; do y1 <- i64_from_string w2;
  do w3 <- idx v 3; do x2 <- i64_from_string w3;
  do w4 <- idx v 4; do y2 <- i64_from_string w4;
  do w5 <- idx v 5; do unit <- i64_from_string w5;
  do w6 <- idx v 6; do convert <- i64_from_string w6;
  do w7 <- idx v 7; do thickness <- i64_from_string w7;
  do w8 <- idx v 8; do f <- fill_make w8;
  Ok (mk_rect x1 y1 x2 y2 unit convert thickness f).

(** symbol_lib.rs:677-686: the fields, up to the first line not beginning with F.
    An empty line or the end of the text panics. *)
Fixpoint sfields_loop (p : list str) (acc : list sfield) : res (list sfield * list str) :=
  match p with
  | [] => Panic
  | s :: r =>
      do c <- char_at s 0;
      if N.eqb c 70 then do f <- parse_sfield s; sfields_loop r (acc ++ [f]) else Ok (acc, p)
  end.
(** symbol_lib.rs:687-697: behind $ENDFPLIST, or at the end *)
Fixpoint skip_fplist (p : list str) : list str :=
  match p with
  | [] => []
  | s :: r => if seq s "$ENDFPLIST" then r else skip_fplist r
  end.
(** symbol_lib.rs:698-704 *)
Definition parse_aliases (p : list str) : res (list str * list str) :=
  do s <- here p;
  if starts_with (lit "ALIAS") s then do v <- split_quote_aware s; Ok (tl v, next p) else Ok ([], p).
(** symbol_lib.rs:707-724: behind ENDDRAW, or at the end *)
Definition draw_line (s : str) : res draw :=
  if starts_with (lit "X ") s then do p <- parse_pin s; Ok (DPin p)
  else if starts_with (lit "S ") s then do r <- parse_rect s; Ok (DRect r)
  else Ok (DOther s).
Fixpoint draw_loop (p : list str) (acc : list draw) : res (list draw * list str) :=
  match p with
  | [] => Ok (acc, [])
  | s :: r => if seq s "ENDDRAW" then Ok (acc, r) else do d <- draw_line s; draw_loop r (acc ++ [d])
  end.

(** symbol_lib.rs:660-728: the symbol and the position behind it *)
Definition parse_symbol (p : list str) : res (symbol * list str) :=
  do p <- assume_line (next p) "#";
  do s <- here p;
  do v <- split_quote_aware s;
  if negb (Nat.eqb (length v) 10) then Err EOther else
  do w0 <- idx v 0; do _ <- assume_string "DEF" w0;
  do name <- idx v 1; do reference <- idx v 2;
  do w4 <- idx v 4; do text_offset <- f64_from_string w4;
  do w5 <- idx v 5; do pinnumber <- bool_from_string w5 "Y" "N";
  do w6 <- idx v 6; do pinname <- bool_from_string w6 "Y" "N";
  do w7 <- idx v 7; do unit_count <- i64_from_string w7;
  do w8 <- idx v 8; do unit_locked <- bool_from_string w8 "L" "F";
  do w9 <- idx v 9; do is_power <- bool_from_string w9 "P" "N";
  do fp <- sfields_loop (next p) [];
  let '(fields, p) := fp in
  do s <- here p;
  let p := if seq s "$FPLIST" then skip_fplist (next p) else p in
  do ap <- parse_aliases p;
  let '(aliases, p) := ap in
  do p <- assume_line p "DRAW";
  do dp <- draw_loop p [];
  let '(dr, p) := dp in
  do p <- assume_line p "ENDDEF";
  do p <- assume_line p "#";
  Ok (mk_symbol name reference text_offset pinnumber pinname unit_count unit_locked is_power fields aliases dr, p).

(** symbol_lib.rs:819-841 *)
Fixpoint symbols_loop (fuel : nat) (p : list str) (acc : list symbol) : res (list symbol) :=
  match p with
  | [] => Ok acc
  | s :: _ =>
      if seq s "#End Library" then Ok acc else
      match fuel with
      | O => Err EFuel
      | S n => do sp <- parse_symbol p; let '(y, q) := sp in symbols_loop n q (acc ++ [y])
      end
  end.
Definition parse_symbol_lines (p : list str) : res (list symbol) :=
  do p <- assume_line p "EESchema-LIBRARY Version 2.3";
  do p <- assume_line p "#encoding utf-8";
  do p <- assume_line p "#";
  symbols_loop (length p) p [].
Definition parse_symbol_lib (s : str) : res (list symbol) := parse_symbol_lines (lines s).
