(** What reading a schematic writes to standard output (/repo/src/schematic.rs:1293, 1387,
    1389), and what the programs write with it. *)
From Coq Require Import String.
From Verif Require Import Base Str F64 DocText SchData SchParse KicadFile Bins.
Open Scope string_scope. Open Scope list_scope.

(** schematic.rs:1293 *)
Definition say_comp (s : str) : str := lit "skipping unknown component line " ++ s.
(** schematic.rs:1387, 1389 *)
Definition say_sheet (s : str) : str := lit "skipping unknown sheet line " ++ s.

(** schematic.rs:1286-1294 for a line other than the rotation *)
Definition comp_line_out (s : str) : list str :=
  if word_is s "L" || word_is s "U" || word_is s "P" || word_is s "F" || word_is s "AR" then [] else [say_comp s].
(** schematic.rs:1278-1298 (after the first [next]): the lines printed until the end or an
    error *)
Fixpoint component_out (p : list str) (d : component) : list str :=
  match p with
  | [] => []
  | s :: r =>
      if seq s "$EndComp" then []
      else if word_is s "1" || word_is s "0" then
        match r with
        | [] => []
        | s2 :: r2 =>
            match four s2 with
            | Ok (a, b, c, e) => component_out r2 (set_rotation d (mk_rotation a b c e))
            | _ => []
            end
        end
      else comp_line_out s ++ match component_line s d with Ok d' => component_out r d' | _ => [] end
  end.

(** schematic.rs:1376-1391 *)
Definition sheet_line_out (st : str) : list str :=
  match first_word st with
  | None => [say_sheet st]
  | Some w => if seq w "S" || seq w "U" || starts_with (lit "F") w then [] else [say_sheet st]
  end.
(** schematic.rs:1373-1394 *)
Fixpoint sheet_out (p : list str) (s : sheet) : list str :=
  match p with
  | [] => []
  | st :: r =>
      if seq st "$EndSheet" then []
      else sheet_line_out st ++ match sheet_line st s with Ok s' => sheet_out r s' | _ => [] end
  end.

(** schematic.rs:1524-1560: one round *)
Definition round_out (p : list str) : list str :=
  match p with
  | [] => []
  | s :: r =>
      match first_word s with
      | None => []
      | Some w =>
          if seq w "$Comp" then component_out r comp_default
          else if seq w "$Sheet" then sheet_out r sheet_default
          else []
      end
  end.
Fixpoint main_out (fuel : nat) (p : list str) (c : schematic) : list str :=
  match p with
  | [] => []
  | _ =>
      match fuel with
      | O => []
      | S n => round_out p ++ match round p c with Ok cp => main_out n (next (snd cp)) (fst cp) | _ => [] end
      end
  end.
(** schematic.rs:1501-1562 *)
Definition lines_out (fn : option str) (p : list str) : list str :=
  match assume_line p "EESchema Schematic File Version 2" with
  | Ok p =>
      let '(libs, p) := libs_loop p [] in
      match here p with
      | Ok e =>
          if negb (starts_with (lit "EELAYER ") e) then [] else
          match assume_line (next p) "EELAYER END" with
          | Ok p => main_out (length p) p (mk_sch fn libs descr_default [] [] e)
          | _ => []
          end
      | _ => []
      end
  | _ => []
  end.
Definition schematic_out (fn : option str) (s : str) : list str := lines_out fn (lines s).

(** lib.rs:138-177: the schematic reader runs when the module reader has failed and a
    module was not the one thing wanted. *)
Definition read_out (name data : str) (x : expected) : list str :=
  match parse_module data with
  | Err _ => if expected_eqb x XModule then [] else schematic_out (Some name) data
  | _ => []
  end.
(** What the program has printed when it ends or aborts; [x] is the kind it asks for. *)
Definition stdout (fs : files) (args : list str) (x : expected) (r : res ran) : str :=
  match arg args with
  | Ok name => match fs name with Some d => flat_map (fun l => l ++ nl) (read_out name d x) | None => [] end
  | _ => []
  end ++ match r with Ok v => r_out v | _ => [] end.
