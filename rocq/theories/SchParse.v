(** Schematic from text (/repo/src/schematic.rs:225-262, 1129-1574).  The parse
    state is the list of lines from the current one on; [here] panics when there
    is none. *)
From Coq Require Import String.
From Verif Require Import Base Str Num F64 F64Text LibFns SchData SchPrint.
Open Scope string_scope. Open Scope list_scope.

Definition seq (a : str) (b : string) : bool := str_eqb a (lit b).
(** schematic.rs:251-261 *)
Definition here (p : list str) : res str := match p with [] => Panic | s :: _ => Ok s end.
Definition next (p : list str) : list str := tl p.
(** [s.split_whitespace().next()] *)
Definition first_word (s : str) : option str := hd_error (split_ws s).
Definition word_is (s : str) (w : string) : bool :=
  match first_word s with Some x => seq x w | None => false end.

(** schematic.rs:1142-1154 *)
Definition i64_from_string (s : str) : res Z := of_option EOther (i64_of_str s).
Definition f64_from_string (s : str) : res f64 := of_option EOther (f64_of_str s).
(** schematic.rs:1156-1174, on strings and characters *)
Definition bool_from_string (s : str) (t f : string) : res bool :=
  if seq s t then Ok true else if seq s f then Ok false else Err EOther.
Definition bool_from (c t f : N) : res bool :=
  if N.eqb c t then Ok true else if N.eqb c f then Ok false else Err EOther.
(** schematic.rs:1135-1140 *)
Definition assume_string (e : string) (s : str) : res unit := if seq s e then Ok tt else Err EOther.

(** schematic.rs:1176-1184, giving the value to be stored *)
Definition word_and_qstring (name : string) (s : str) : res str :=
  do v <- split_quote_aware_n 2 s;
  do w <- idx v 0; do _ <- assume_string name w; idx v 1.

(** schematic.rs:1187-1220: the description and the position at $EndDescr *)
Definition parse_description (p : list str) : res (description * list str) :=
  do s <- here p;
  do v <- split_quote_aware_n 4 s;
  do size <- idx v 1;
  do w2 <- idx v 2; do dimx <- i64_from_string w2;
  do w3 <- idx v 3; do dimy <- i64_from_string w3;
  let p := next (next p) in
  do s <- here p;
  do v <- split_quote_aware_n 3 s;
  do w <- idx v 0;
  if negb (seq w "Sheet") then Err EOther else
  do w1 <- idx v 1; do sheet <- i64_from_string w1;
  do w2 <- idx v 2; do count <- i64_from_string w2;
  let p := next p in
  do s <- here p; do title <- word_and_qstring "Title" s; let p := next p in
  do s <- here p; do date <- word_and_qstring "Date" s; let p := next p in
  do s <- here p; do rev <- word_and_qstring "Rev" s; let p := next p in
  do s <- here p; do comp <- word_and_qstring "Comp" s; let p := next p in
  do s <- here p; do c1 <- word_and_qstring "Comment1" s; let p := next p in
  do s <- here p; do c2 <- word_and_qstring "Comment2" s; let p := next p in
  do s <- here p; do c3 <- word_and_qstring "Comment3" s; let p := next p in
  do s <- here p; do c4 <- word_and_qstring "Comment4" s; let p := next p in
  do s <- here p; do _ <- assume_string "$EndDescr" s;
  Ok (mk_descr size dimx dimy title date rev comp c1 c2 c3 c4 sheet count, p).

(** schematic.rs:634-643, 671-680 *)
Definition orientation_new (c : N) : res orientation :=
  if N.eqb c 72 then Ok Horizontal else if N.eqb c 86 then Ok Vertical else Err EOther.
Definition sjustify_new (c : N) : res sjustify :=
  if N.eqb c 67 then Ok SJCenter else if N.eqb c 82 then Ok SJRight else if N.eqb c 76 then Ok SJLeft
  else if N.eqb c 66 then Ok SJBottom else if N.eqb c 84 then Ok SJTop else Err EOther.

(** schematic.rs:726-761 *)
Definition default_field_name (i : Z) : option str :=
  match i with
  | 0 => Some (lit "Reference") | 1 => Some (lit "Value") | 2 => Some (lit "Footprint") | 3 => Some (lit "UserDocLink")
  | _ => None
  end%Z.
Definition cfield_new (v : list str) : res cfield :=
  let n := length v in
  if negb (Nat.eqb n 10) && negb (Nat.eqb n 11) then Err EOther else
  do w1 <- idx v 1; do i <- i64_from_string w1;
  do name <- (if Nat.eqb n 11 then idx v 10 else of_option EOther (default_field_name i));
  do value <- idx v 2;
  do w3 <- idx v 3; do c3 <- char_at w3 0; do orient <- orientation_new c3;
  do w4 <- idx v 4; do x <- f64_from_string w4;
  do w5 <- idx v 5; do y <- f64_from_string w5;
  do w6 <- idx v 6; do size <- i64_from_string w6;
  do w7 <- idx v 7; do visible <- bool_from_string w7 "0000" "0001";
  do w8 <- idx v 8; do c8 <- char_at w8 0; do h <- sjustify_new c8;
  do w9 <- idx v 9; do c9 <- char_at w9 0; do vj <- sjustify_new c9;
  do d1 <- char_at w9 1; do italic <- bool_from d1 73 78;
  do d2 <- char_at w9 2; do bold <- bool_from d2 66 78;
  Ok (mk_cfield i value orient x y size visible h vj italic bold name).

Definition set_l (d : component) (n r : str) : component :=
  mk_comp n r (co_u d) (co_x d) (co_y d) (co_ar d) (co_fields d) (co_rotation d).
Definition set_u (d : component) (u : str) : component :=
  mk_comp (co_name d) (co_reference d) u (co_x d) (co_y d) (co_ar d) (co_fields d) (co_rotation d).
Definition set_p (d : component) (x y : Z) : component :=
  mk_comp (co_name d) (co_reference d) (co_u d) x y (co_ar d) (co_fields d) (co_rotation d).
Definition push_ar (d : component) (s : str) : component :=
  mk_comp (co_name d) (co_reference d) (co_u d) (co_x d) (co_y d) (co_ar d ++ [s]) (co_fields d) (co_rotation d).
Definition set_fields (d : component) (l : list cfield) : component :=
  mk_comp (co_name d) (co_reference d) (co_u d) (co_x d) (co_y d) (co_ar d) l (co_rotation d).
Definition set_rotation (d : component) (r : rotation) : component :=
  mk_comp (co_name d) (co_reference d) (co_u d) (co_x d) (co_y d) (co_ar d) (co_fields d) r.

(** schematic.rs:1222-1255: one line of a component (other than the rotation) *)
Definition component_line (s : str) (d : component) : res component :=
  if word_is s "L" then do v <- split_quote_aware_n 3 s; do n <- idx v 1; do r <- idx v 2; Ok (set_l d n r)
  else if word_is s "U" then Ok (set_u d s)
  else if word_is s "P" then
    do v <- split_quote_aware_n 3 s; do w1 <- idx v 1; do x <- i64_from_string w1;
    do w2 <- idx v 2; do y <- i64_from_string w2; Ok (set_p d x y)
  else if word_is s "F" then
    do v <- split_quote_aware s; do f <- cfield_new v; Ok (set_fields d (co_fields d ++ [f]))
  else if word_is s "AR" then Ok (push_ar d s)
  else Ok d.
(** Four numbers separated by white space (1263-1280, 1399-1410) *)
Definition four (s : str) : res (Z * Z * Z * Z) :=
  match split_ws s with
  | [a; b; c; d] =>
      do a' <- i64_from_string a; do b' <- i64_from_string b; do c' <- i64_from_string c; do d' <- i64_from_string d;
      Ok (a', b', c', d')
  | _ => Err EOther
  end.
(** schematic.rs:1278-1298 (after the first [next]): the position at $EndComp *)
Fixpoint component_loop (p : list str) (d : component) : res (component * list str) :=
  match p with
  | [] => Panic
  | s :: r =>
      if seq s "$EndComp" then Ok (d, p)
      else if word_is s "1" || word_is s "0" then
        match r with
        | [] => Panic
        | s2 :: r2 =>
            do q <- four s2;
            let '(a, b, c, e) := q in component_loop r2 (set_rotation d (mk_rotation a b c e))
        end
      else do d' <- component_line s d; component_loop r d'
  end.
Definition parse_component (p : list str) : res (component * list str) := component_loop (next p) comp_default.

(** schematic.rs:1317-1336 *)
Definition parse_label_form (s : str) : res label_form :=
  if seq s "I" then Ok FInput else if seq s "O" then Ok FOutput else if seq s "B" then Ok FBiDi
  else if seq s "T" then Ok FTriState else if seq s "U" then Ok FUnspecified else Err EOther.
Definition parse_label_side (s : str) : res label_side :=
  if seq s "L" then Ok DLeft else if seq s "R" then Ok DRight else if seq s "T" then Ok DTop
  else if seq s "B" then Ok DBottom else Err EOther.
(** schematic.rs:1340-1350 *)
Definition parse_sheet_label (s : str) : res sheet_label :=
  do v <- split_quote_aware_n 7 s;
  do name <- idx v 1;
  do w2 <- idx v 2; do form <- parse_label_form w2;
  do w3 <- idx v 3; do side <- parse_label_side w3;
  do w4 <- idx v 4; do x <- i64_from_string w4;
  do w5 <- idx v 5; do y <- i64_from_string w5;
  do w6 <- idx v 6; do size <- i64_from_string w6;
  Ok (mk_slabel name form side x y size).

(** schematic.rs:1301-1315, 1352-1394: one line of a sheet *)
Definition sheet_line (st : str) (s : sheet) : res sheet :=
  match first_word st with
  | None => Ok s
  | Some w =>
    if seq w "S" then
      do v <- split_quote_aware_n 5 st;
      do w1 <- idx v 1; do x <- i64_from_string w1; do w2 <- idx v 2; do y <- i64_from_string w2;
      do w3 <- idx v 3; do dx <- i64_from_string w3; do w4 <- idx v 4; do dy <- i64_from_string w4;
      Ok (mk_sheet x y dx dy (sh_unique s) (sh_name s) (sh_name_size s) (sh_filename s) (sh_filename_size s) (sh_labels s))
    else if seq w "U" then
      do v <- split_quote_aware_n 2 st; do u <- idx v 1;
      Ok (mk_sheet (sh_x s) (sh_y s) (sh_dimx s) (sh_dimy s) u (sh_name s) (sh_name_size s) (sh_filename s)
            (sh_filename_size s) (sh_labels s))
    else if starts_with (lit "F") w then
      do i <- i64_from_string (tl w);
      if Z.eqb i 0 then
        do v <- split_quote_aware_n 3 st; do n <- idx v 1; do w2 <- idx v 2; do z <- i64_from_string w2;
        Ok (mk_sheet (sh_x s) (sh_y s) (sh_dimx s) (sh_dimy s) (sh_unique s) n z (sh_filename s) (sh_filename_size s) (sh_labels s))
      else if Z.eqb i 1 then
        do v <- split_quote_aware_n 3 st; do n <- idx v 1; do w2 <- idx v 2; do z <- i64_from_string w2;
        Ok (mk_sheet (sh_x s) (sh_y s) (sh_dimx s) (sh_dimy s) (sh_unique s) (sh_name s) (sh_name_size s) n z (sh_labels s))
      else
        do l <- parse_sheet_label st;
        Ok (mk_sheet (sh_x s) (sh_y s) (sh_dimx s) (sh_dimy s) (sh_unique s) (sh_name s) (sh_name_size s) (sh_filename s)
              (sh_filename_size s) (sh_labels s ++ [l]))
    else Ok s
  end.
Fixpoint sheet_loop (p : list str) (s : sheet) : res (sheet * list str) :=
  match p with
  | [] => Panic
  | st :: r => if seq st "$EndSheet" then Ok (s, p) else do s' <- sheet_line st s; sheet_loop r s'
  end.
Definition parse_sheet (p : list str) : res (sheet * list str) := sheet_loop (next p) sheet_default.

(** schematic.rs:1398-1426: position at the second line *)
Definition parse_wire (p : list str) : res (wire * list str) :=
  do t <- here p;
  match split_ws t with
  | [_; k; _] =>
      let ty := if seq k "Notes" then WNotes else if seq k "Bus" then WBus else WWire in
      let p := next p in
      do s <- here p; do q <- four s;
      let '(a, b, c, d) := q in Ok (mk_wire ty a b c d, p)
  | _ => Err EOther
  end.
(** schematic.rs:1429-1450 *)
Definition parse_point (p : list str) : res (spoint * list str) :=
  do s <- here p;
  match split_ws s with
  | [_; _; a; b] => do x <- i64_from_string a; do y <- i64_from_string b; Ok (mk_spoint x y, p)
  | _ => Err EOther
  end.
(** schematic.rs:1456-1498: position at the second line *)
Definition parse_text (p : list str) : res (stext * list str) :=
  do s <- here p;
  let v := split_ws s in
  if Nat.ltb (length v) 8 then Err EOther else
  do k <- idx v 1;
  do t <- (if seq k "Label" then Ok TLabel else if seq k "Notes" then Ok TNote else if seq k "GLabel" then Ok TGlobal
           else if seq k "HLabel" then Ok THier else Err EOther);
  do w2 <- idx v 2; do x <- i64_from_string w2;
  do w3 <- idx v 3; do y <- i64_from_string w3;
  do w4 <- idx v 4; do orient <- i64_from_string w4;
  do w5 <- idx v 5; do size <- i64_from_string w5;
  let index := if is_local t then 6%nat else 7%nat in
  do shape <- (if is_local t then Ok None else do w6 <- idx v 6; Ok (Some w6));
  do wi <- idx v index;
  let italic := seq wi "Italic" in
  do wt <- idx v (S index); do thickness <- i64_from_string wt;
  let p := next p in
  do text <- here p;
  Ok (mk_stext t x y orient size shape italic thickness text, p).

Definition with_element (s : schematic) (e : selement) : schematic :=
  mk_sch (sc_filename s) (sc_libraries s) (sc_description s) (sc_elements s ++ [e]) (sc_sheets s) (sc_eelayer s).
Definition with_sheet (s : schematic) (h : sheet) : schematic :=
  mk_sch (sc_filename s) (sc_libraries s) (sc_description s) (sc_elements s) (sc_sheets s ++ [h]) (sc_eelayer s).
Definition with_description (s : schematic) (d : description) : schematic :=
  mk_sch (sc_filename s) (sc_libraries s) d (sc_elements s) (sc_sheets s) (sc_eelayer s).

(** schematic.rs:1524-1560: one round; the new state and the position reached *)
Definition round (p : list str) (c : schematic) : res (schematic * list str) :=
  do s <- here p;
  match first_word s with
  | None => Panic (* unreachable! *)
  | Some w =>
    if seq w "$Descr" then do dp <- parse_description p; Ok (with_description c (fst dp), snd dp)
    else if seq w "$Comp" then do dp <- parse_component p; Ok (with_element c (SComponent (fst dp)), snd dp)
    else if seq w "$Sheet" then do dp <- parse_sheet p; Ok (with_sheet c (fst dp), snd dp)
    else if seq w "$EndSCHEMATC" then Ok (c, p)
    else if seq w "Wire" then do dp <- parse_wire p; Ok (with_element c (SWire (fst dp)), snd dp)
    else if seq w "Connection" then do dp <- parse_point p; Ok (with_element c (SConnection (fst dp)), snd dp)
    else if seq w "NoConn" then do dp <- parse_point p; Ok (with_element c (SNoConnect (fst dp)), snd dp)
    else if seq w "Text" then do dp <- parse_text p; Ok (with_element c (SText (fst dp)), snd dp)
    else Ok (with_element c (SOther s), p)
  end.
Fixpoint main_loop (fuel : nat) (p : list str) (c : schematic) : res schematic :=
  match p with
  | [] => Ok c
  | _ =>
      match fuel with
      | O => Err EFuel
      | S n => do cp <- round p c; main_loop n (next (snd cp)) (fst cp)
      end
  end.

(** schematic.rs:1507-1516 *)
Fixpoint libs_loop (p : list str) (acc : list str) : list str * list str :=
  match p with
  | [] => (acc, [])
  | s :: r => if starts_with (lit "LIBS:") s then libs_loop r (acc ++ [skipn 5 s]) else (acc, p)
  end.
(** schematic.rs:225-235 *)
Definition assume_line (p : list str) (e : string) : res (list str) :=
  match p with
  | [] => Err EOther
  | s :: r => if seq s e then Ok r else Err EOther
  end.
(** schematic.rs:1501-1562 *)
Definition parse_lines (fn : option str) (p : list str) : res schematic :=
  do p <- assume_line p "EESchema Schematic File Version 2";
  let '(libs, p) := libs_loop p [] in
  do e <- here p;
  if negb (starts_with (lit "EELAYER ") e) then Err EOther else
  do p <- assume_line (next p) "EELAYER END";
  main_loop (length p) p (mk_sch fn libs descr_default [] [] e).
Definition parse_schematic (fn : option str) (s : str) : res schematic := parse_lines fn (lines s).
