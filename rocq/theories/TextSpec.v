(** Specification: how footprints, boards and library tables are laid out in lines
    (C66).  A table of line breaks and one function on trees, without state. *)
From Coq Require Import String.
From Verif Require Import Base Str Sexp.
Open Scope string_scope. Open Scope list_scope.

(** A list below a list of another name: number of line ends before it, closing
    parenthesis on a line of its own, line end after it. *)
Record brk := mk_brk { b_lines : nat; b_close : bool; b_after : bool }.
Definition line := mk_brk 1 false false.
Definition block := mk_brk 1 true false.
Definition para := mk_brk 2 false false.
Definition para_block := mk_brk 2 true false.
Definition para_block_gap := mk_brk 2 true true.

(** Names of parents, names of children (no name: any child), kind of break *)
Definition rule := (list string * list string * brk)%type.
Definition part_rules : list rule :=
  [ (["module"], ["at"; "attr"; "descr"; "fp_circle"; "fp_line"; "fp_poly"; "pad"; "path"], line);
    (["module"], ["fp_text"; "gr_text"; "model"], block);
    (["dimension"], ["gr_text"], block);
    (["fp_text"; "gr_text"], ["effects"], line);
    (["model"], ["at"; "rotate"; "scale"], line);
    (["pad"], ["net"], line) ].
(** Only inside a board *)
Definition board_rules : list rule :=
  [ (["kicad_pcb"], ["page"], para);
    (["kicad_pcb"], ["net"; "segment"; "via"; "gr_arc"; "gr_circle"; "gr_line"], line);
    (["kicad_pcb"], ["dimension"; "gr_text"; "layers"; "zone"], block);
    (["kicad_pcb"], ["setup"], para_block_gap);
    (["kicad_pcb"], ["general"; "module"; "net_class"], para_block);
    (["general"; "layers"; "net_class"; "pcbplotparams"; "setup"], [], line);
    (["dimension"], ["feature1"; "feature2"; "crossbar"; "arrow1a"; "arrow1b"; "arrow2a"; "arrow2b"], line);
    (["zone"], ["connect_pads"; "fill"; "keepout"; "min_thickness"; "priority"], line);
    (["zone"], ["filled_polygon"; "polygon"], block);
    (["filled_polygon"; "polygon"], [], block) ].

Definition one_of (l : list string) (s : str) : bool := existsb (fun k => str_eqb s (lit k)) l.
Definition applies (p c : str) (r : rule) : bool :=
  let '(ps, cs, _) := r in one_of ps p && (match cs with [] => true | _ => one_of cs c end).
Definition by_rules (rs : list rule) (p c : str) : option brk := option_map snd (find (applies p c) rs).
Definition inside (anc : list str) (names : list string) : bool := existsb (one_of names) anc.

(** The points of an outline: a new line after every fourth point in a footprint,
    after every fifth elsewhere; in zones also before the first.  [k]: number of
    points before this one. *)
Definition point_breaks (anc : list str) (k : nat) : bool :=
  match k with
  | O => inside anc ["polygon"; "filled_polygon"]
  | _ => Nat.eqb (k mod (if inside anc ["fp_poly"] then 4 else 5)) 0
  end.
(** [anc]: names of the lists around the child, innermost first. *)
Definition break_of (anc : list str) (c : str) (k : nat) : option brk :=
  match anc with
  | [] => None
  | p :: _ =>
      if one_of ["pts"] p && one_of ["xy"] c && point_breaks anc k then Some line else
      match by_rules part_rules p c with
      | Some b => Some b
      | None =>
          match (if inside anc ["kicad_pcb"] then by_rules board_rules p c else None) with
          | Some b => Some b
          | None =>
              if inside anc ["fp_lib_table"] then Some (if one_of ["fp_lib_table"] p then line else mk_brk 0 false false)
              else None
          end
      end
  end.

Definition blanks (d : Z) : str := repeat 32%N (2 * Z.to_nat d).
Definition new_lines (n : nat) (d : Z) : str := match n with O => [] | _ => repeat 10%N n ++ blanks d end.
Definition name_of (s : sexp) : option str := match s with SList (SStr h :: _) => Some h | _ => None end.
(** On the top level of a board: an empty line after a run of footprints, and one
    before the first track.  [before]: names of the earlier siblings, last first. *)
Definition gaps (p : str) (before : list str) (c : str) (d : Z) : str :=
  if one_of ["kicad_pcb"] p then
    (match before with b :: _ => if one_of ["module"] b && negb (one_of ["module"] c) then new_lines 1 d else [] | [] => [] end)
    ++ (if one_of ["segment"] c && negb (existsb (one_of ["segment"]) before) then new_lines 1 d else [])
  else [].
Definition atom (nq : str -> bool) (s : str) : str := if nq s then 34%N :: s ++ [34%N] else s.
Definition points (before : list str) : nat := length (filter (one_of ["xy"]) before).

(** The text of a tree whose list is at indentation [d], [close] standing before its
    closing parenthesis *)
Fixpoint lay (nq : str -> bool) (anc : list str) (d : Z) (close : str) (s : sexp) {struct s} : str :=
  match s with
  | SStr x => atom nq x
  | SList (SStr h :: l) =>
      let fix children (before : list str) (l : list sexp) {struct l} : str :=
        match l with
        | [] => []
        | y :: r =>
            match name_of y with
            | None => 32%N :: lay nq (h :: anc) d [] y ++ children before r
            | Some c =>
                match break_of (h :: anc) c (points before) with
                | None => 32%N :: gaps h before c d ++ lay nq (h :: anc) d [] y
                | Some b =>
                    gaps h before c d ++ new_lines (b_lines b) (d + 1)
                    ++ lay nq (h :: anc) (d + 1) (if b_close b then new_lines 1 (d + 1) else []) y
                    ++ (if b_after b then [10%N] else [])
                end ++ children (c :: before) r
            end
        end in
      40%N :: atom nq h ++ children [] l ++ close ++ [41%N]
  | _ => []
  end.
(** A whole document *)
Definition written (nq : str -> bool) (d : Z) (s : sexp) : str :=
  lay nq [] d (match name_of s with Some h => if one_of ["module"; "kicad_pcb"; "fp_lib_table"] h then [10%N] else [] | None => [] end) s.

(** The trees this is about: each list has a name; no footprints, tracks or boards
    in unusual places; no lists in the points of an outline. *)
Definition plain_name (h : str) : bool := negb (is_empty h) && negb (one_of ["module"; "segment"; "kicad_pcb"] h).
Definition is_atom (s : sexp) : bool := match s with SStr _ => true | _ => false end.
Definition flat (s : sexp) : bool :=
  match s with
  | SStr _ => true
  | SList (SStr h :: l) => plain_name h && negb (one_of ["pts"] h) && forallb is_atom l
  | _ => false
  end.
Fixpoint quiet (s : sexp) : bool :=
  match s with
  | SStr _ => true
  | SList (SStr h :: l) => plain_name h && (if one_of ["pts"] h then forallb flat l else forallb quiet l)
  | _ => false
  end.
Definition top (s : sexp) : bool :=
  match s with SList (SStr h :: l) => one_of ["module"; "segment"] h && forallb quiet l | _ => false end.
Definition regular (s : sexp) : bool :=
  match s with
  | SList (SStr h :: l) =>
      if one_of ["kicad_pcb"] h then forallb (fun c => quiet c || top c) l
      else if one_of ["module"] h then forallb quiet l else quiet s
  | _ => false
  end.
