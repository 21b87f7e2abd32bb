(** Schematic from text (/repo/src/schematic.rs:225-262, 1129-1574) with the texts of the
    errors.  Each function is the one of the same name in SchParse.v, in which errors
    have no text; what a line means is taken from there. *)
From Coq Require Import String.
From Verif Require Import Base Str Num F64 F64Text LibFns SchData SchPrint SchParse Said.
Open Scope string_scope. Open Scope list_scope.

(** schematic.rs:251-253 *)
Definition here_said (p : list str) : said str := match p with [] => Stops | s :: _ => Fine s end.
(** schematic.rs:1176-1184 *)
Definition named_said (name : string) (s : str) : said str :=
  try v <- split_said 2 s; try w <- sidx v 0; try _ <- assume_said name w; sidx v 1.
(** schematic.rs:1187-1220 *)
Definition descr_said (p : list str) : said (description * list str) :=
  try s <- here_said p;
  try v <- split_said 4 s;
  try size <- sidx v 1;
  try w2 <- sidx v 2; try dimx <- int_said s w2;
  try w3 <- sidx v 3; try dimy <- int_said s w3;
  let p := next (next p) in
  try s <- here_said p;
  try v <- split_said 3 s;
  try w <- sidx v 0;
  if negb (seq w "Sheet") then Says (lit "Expecting 'Sheet'") else
  try w1 <- sidx v 1; try sheet <- int_said s w1;
  try w2 <- sidx v 2; try count <- int_said s w2;
  let p := next p in
  try s <- here_said p; try title <- named_said "Title" s; let p := next p in
  try s <- here_said p; try date <- named_said "Date" s; let p := next p in
  try s <- here_said p; try rev <- named_said "Rev" s; let p := next p in
  try s <- here_said p; try comp <- named_said "Comp" s; let p := next p in
  try s <- here_said p; try c1 <- named_said "Comment1" s; let p := next p in
  try s <- here_said p; try c2 <- named_said "Comment2" s; let p := next p in
  try s <- here_said p; try c3 <- named_said "Comment3" s; let p := next p in
  try s <- here_said p; try c4 <- named_said "Comment4" s; let p := next p in
  try s <- here_said p; try _ <- assume_said "$EndDescr" s;
  Fine (mk_descr size dimx dimy title date rev comp c1 c2 c3 c4 sheet count, p).

(** schematic.rs:634-641, 671-680 *)
Definition orientation_said (c : N) : said orientation :=
  match orientation_new c with Ok o => Fine o | _ => Says (lit "unknown orientation " ++ [c]) end.
Definition sjustify_said (c : N) : said sjustify :=
  match sjustify_new c with Ok o => Fine o | _ => Says (lit "unexpected justify: " ++ [c]) end.
(** schematic.rs:726-761; [s] is the line *)
Definition cfield_said (s : str) (v : list str) : said cfield :=
  let n := length v in
  if negb (Nat.eqb n 10) && negb (Nat.eqb n 11) then Says (lit "expecting 10 or 11 parts got " ++ show_nat n ++ lit " in " ++ s) else
  try w1 <- sidx v 1; try i <- int_said s w1;
  try name <- (if Nat.eqb n 11 then sidx v 10 else match default_field_name i with Some k => Fine k | None => Says (lit "expecting name for componentfield > 3") end);
  try value <- sidx v 2;
  try w3 <- sidx v 3; try c3 <- schar w3 0; try orient <- orientation_said c3;
  try w4 <- sidx v 4; try x <- float_said s w4;
  try w5 <- sidx v 5; try y <- float_said s w5;
  try w6 <- sidx v 6; try size <- int_said s w6;
  try w7 <- sidx v 7; try visible <- bool_said w7 "0000" "0001";
  try w8 <- sidx v 8; try c8 <- schar w8 0; try h <- sjustify_said c8;
  try w9 <- sidx v 9; try c9 <- schar w9 0; try vj <- sjustify_said c9;
  try d1 <- schar w9 1; try italic <- flag_said d1 73 78;
  try d2 <- schar w9 2; try bold <- flag_said d2 66 78;
  Fine (mk_cfield i value orient x y size visible h vj italic bold name).
(** schematic.rs:1222-1255 *)
Definition comp_line_said (s : str) (d : component) : said component :=
  if word_is s "L" then try v <- split_said 3 s; try n <- sidx v 1; try r <- sidx v 2; Fine (set_l d n r)
  else if word_is s "U" then Fine (set_u d s)
  else if word_is s "P" then
    try v <- split_said 3 s; try w1 <- sidx v 1; try x <- int_said s w1;
    try w2 <- sidx v 2; try y <- int_said s w2; Fine (set_p d x y)
  else if word_is s "F" then
    try v <- split_all s; try f <- cfield_said s v; Fine (set_fields d (co_fields d ++ [f]))
  else if word_is s "AR" then Fine (push_ar d s)
  else Fine d.
(** schematic.rs:1264-1272, 1410-1419 *)
Definition four_said (s : str) : said (Z * Z * Z * Z) :=
  match split_ws s with
  | [a; b; c; d] =>
      try a' <- int_said s a; try b' <- int_said s b; try c' <- int_said s c; try d' <- int_said s d; Fine (a', b', c', d')
  | _ => Says (expecting 4 s)
  end.
(** schematic.rs:1278-1298 *)
Fixpoint comp_said (p : list str) (d : component) : said (component * list str) :=
  match p with
  | [] => Stops
  | s :: r =>
      if seq s "$EndComp" then Fine (d, p)
      else if word_is s "1" || word_is s "0" then
        match r with
        | [] => Stops
        | s2 :: r2 =>
            try q <- four_said s2;
            let '(a, b, c, e) := q in comp_said r2 (set_rotation d (mk_rotation a b c e))
        end
      else try d' <- comp_line_said s d; comp_said r d'
  end.

(** schematic.rs:1317-1336 *)
Definition label_form_said (s : str) : said label_form :=
  match parse_label_form s with Ok f => Fine f | _ => Says (lit "unknown labelform " ++ s) end.
Definition label_side_said (s : str) : said label_side :=
  match parse_label_side s with Ok f => Fine f | _ => Says (lit "unknown labelside " ++ s) end.
(** schematic.rs:1340-1350 *)
Definition label_said (s : str) : said sheet_label :=
  try v <- split_said 7 s;
  try name <- sidx v 1;
  try w2 <- sidx v 2; try form <- label_form_said w2;
  try w3 <- sidx v 3; try side <- label_side_said w3;
  try w4 <- sidx v 4; try x <- int_said s w4;
  try w5 <- sidx v 5; try y <- int_said s w5;
  try w6 <- sidx v 6; try size <- int_said s w6;
  Fine (mk_slabel name form side x y size).
(** schematic.rs:1301-1315, 1352-1370 *)
Definition sheet_line_said (st : str) (s : sheet) : said sheet :=
  match first_word st with
  | None => Fine s
  | Some w =>
    if seq w "S" then
      try v <- split_said 5 st;
      try w1 <- sidx v 1; try x <- int_said st w1; try w2 <- sidx v 2; try y <- int_said st w2;
      try w3 <- sidx v 3; try dx <- int_said st w3; try w4 <- sidx v 4; try dy <- int_said st w4;
      Fine (mk_sheet x y dx dy (sh_unique s) (sh_name s) (sh_name_size s) (sh_filename s) (sh_filename_size s) (sh_labels s))
    else if seq w "U" then
      try v <- split_said 2 st; try u <- sidx v 1;
      Fine (mk_sheet (sh_x s) (sh_y s) (sh_dimx s) (sh_dimy s) u (sh_name s) (sh_name_size s) (sh_filename s)
            (sh_filename_size s) (sh_labels s))
    else if starts_with (lit "F") w then
      try i <- int_said st (tl w);
      if Z.eqb i 0 then
        try v <- split_said 3 st; try n <- sidx v 1; try w2 <- sidx v 2; try z <- int_said st w2;
        Fine (mk_sheet (sh_x s) (sh_y s) (sh_dimx s) (sh_dimy s) (sh_unique s) n z (sh_filename s) (sh_filename_size s) (sh_labels s))
      else if Z.eqb i 1 then
        try v <- split_said 3 st; try n <- sidx v 1; try w2 <- sidx v 2; try z <- int_said st w2;
        Fine (mk_sheet (sh_x s) (sh_y s) (sh_dimx s) (sh_dimy s) (sh_unique s) (sh_name s) (sh_name_size s) n z (sh_labels s))
      else
        try l <- label_said st;
        Fine (mk_sheet (sh_x s) (sh_y s) (sh_dimx s) (sh_dimy s) (sh_unique s) (sh_name s) (sh_name_size s) (sh_filename s)
              (sh_filename_size s) (sh_labels s ++ [l]))
    else Fine s
  end.
(** schematic.rs:1373-1394 *)
Fixpoint sheet_said (p : list str) (s : sheet) : said (sheet * list str) :=
  match p with
  | [] => Stops
  | st :: r => if seq st "$EndSheet" then Fine (s, p) else try s' <- sheet_line_said st s; sheet_said r s'
  end.

(** schematic.rs:1398-1426 *)
Definition wire_said (p : list str) : said (wire * list str) :=
  try t <- here_said p;
  match split_ws t with
  | [_; k; _] =>
      let ty := if seq k "Notes" then WNotes else if seq k "Bus" then WBus else WWire in
      let p := next p in
      try s <- here_said p; try q <- four_said s;
      let '(a, b, c, d) := q in Fine (mk_wire ty a b c d, p)
  | _ => Says (expecting 3 t)
  end.
(** schematic.rs:1429-1450 *)
Definition point_said (p : list str) : said (spoint * list str) :=
  try s <- here_said p;
  match split_ws s with
  | [_; _; a; b] => try x <- int_said s a; try y <- int_said s b; Fine (mk_spoint x y, p)
  | _ => Says (expecting 4 s)
  end.
(** schematic.rs:1456-1498 *)
Definition text_kind_said (k s : str) : said text_type :=
  if seq k "Label" then Fine TLabel else if seq k "Notes" then Fine TNote else if seq k "GLabel" then Fine TGlobal
  else if seq k "HLabel" then Fine THier else Says (lit "Unknown text type " ++ k ++ lit " at " ++ s).
Definition text_said (p : list str) : said (stext * list str) :=
  try s <- here_said p;
  let v := split_ws s in
  if Nat.ltb (length v) 8 then Says (lit "expecting 8 or 9 elements in " ++ s) else
  try k <- sidx v 1;
  try t <- text_kind_said k s;
  try w2 <- sidx v 2; try x <- int_said s w2;
  try w3 <- sidx v 3; try y <- int_said s w3;
  try w4 <- sidx v 4; try orient <- int_said s w4;
  try w5 <- sidx v 5; try size <- int_said s w5;
  let index := if is_local t then 6%nat else 7%nat in
  try shape <- (if is_local t then Fine None else try w6 <- sidx v 6; Fine (Some w6));
  try wi <- sidx v index;
  let italic := seq wi "Italic" in
  try wt <- sidx v (S index); try thickness <- int_said s wt;
  let p := next p in
  try text <- here_said p;
  Fine (mk_stext t x y orient size shape italic thickness text, p).

(** schematic.rs:1524-1560 *)
Definition round_said (p : list str) (c : schematic) : said (schematic * list str) :=
  try s <- here_said p;
  match first_word s with
  | None => Stops (* unreachable! *)
  | Some w =>
    if seq w "$Descr" then try dp <- descr_said p; Fine (with_description c (fst dp), snd dp)
    else if seq w "$Comp" then try dp <- comp_said (next p) comp_default; Fine (with_element c (SComponent (fst dp)), snd dp)
    else if seq w "$Sheet" then try dp <- sheet_said (next p) sheet_default; Fine (with_sheet c (fst dp), snd dp)
    else if seq w "$EndSCHEMATC" then Fine (c, p)
    else if seq w "Wire" then try dp <- wire_said p; Fine (with_element c (SWire (fst dp)), snd dp)
    else if seq w "Connection" then try dp <- point_said p; Fine (with_element c (SConnection (fst dp)), snd dp)
    else if seq w "NoConn" then try dp <- point_said p; Fine (with_element c (SNoConnect (fst dp)), snd dp)
    else if seq w "Text" then try dp <- text_said p; Fine (with_element c (SText (fst dp)), snd dp)
    else Fine (with_element c (SOther s), p)
  end.
Fixpoint main_said (fuel : nat) (p : list str) (c : schematic) : said schematic :=
  match p with
  | [] => Fine c
  | _ =>
      match fuel with
      | O => Spent
      | S n => try cp <- round_said p c; main_said n (next (snd cp)) (fst cp)
      end
  end.
(** schematic.rs:1501-1562 *)
Definition lines_said (fn : option str) (p : list str) : said schematic :=
  try p <- line_said p "EESchema Schematic File Version 2";
  let '(libs, p) := libs_loop p [] in
  try e <- here_said p;
  if negb (starts_with (lit "EELAYER ") e) then Says (lit "expecting EELAYER, got " ++ e) else
  try p <- line_said (next p) "EELAYER END";
  main_said (length p) p (mk_sch fn libs descr_default [] [] e).
Definition schematic_said (fn : option str) (s : str) : said schematic := lines_said fn (lines s).
