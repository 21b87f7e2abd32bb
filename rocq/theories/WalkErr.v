(** Errors of operations on a schematic or board, with their texts. *)
From Coq Require Import String.
From Verif Require Import Base Str FpData FpOps LyData LyOps SchData SchParse SchOps Said SchErr FileErr.
Open Scope string_scope. Open Scope list_scope.

(** /repo/src/schematic.rs:1577-1588; the file system is the one of SchOps. *)
Definition filename_told (fs : fsys) (s : schematic) (h : sheet) : told str :=
  match sc_filename s with
  | None => TSays (lit "can't load sheet when there is no filename for the schematic")
  | Some p =>
      match fs_join fs p (sh_filename h) with
      | None => TSays (lit "can't load sheet when I don't know the dir of the schematic")
      | Some f => TFine f
      end
  end.
(** schematic.rs:1571-1574, 1591-1594 *)
Definition path_told (fs : fsys) (p : str) : told schematic :=
  tbind (of_res (fs_read fs p)) (fun t => of_said (schematic_said (Some p) t)).
Definition sheet_told (fs : fsys) (s : schematic) (h : sheet) : told schematic := tbind (filename_told fs s h) (path_told fs).
(** schematic.rs:153-171; [n] bounds the depth as in SchOps *)
Fixpoint all_told (fs : fsys) (n : nat) (s : schematic) : told (list component) :=
  match n with
  | O => TElse EFuel
  | S n =>
      (fix go (l : list sheet) (v : list component) : told (list component) :=
         match l with
         | [] => TFine v
         | h :: t => tbind (sheet_told fs s h) (fun s2 => tbind (all_told fs n s2) (fun v2 => go t (v ++ v2)))
         end) (sc_sheets s) (components s)
  end.
(** schematic.rs:174-197 *)
Fixpoint component_told (fs : fsys) (n : nat) (r : str) (s : schematic) : told component :=
  match n with
  | O => TElse EFuel
  | S n =>
      match find_comp r (sc_elements s) with
      | Some c => TFine c
      | None =>
          (fix go (l : list sheet) : told component :=
             match l with
             | [] => TSays (lit "could not find component " ++ r ++ lit " in schematic")
             | h :: t =>
                 tbind (sheet_told fs s h) (fun s2 =>
                   match component_told fs n r s2 with
                   | TFine c => TFine c
                   | TElse EFuel => TElse EFuel
                   | TSays _ | TElse _ => go t
                   | TStops => TStops
                   end)
             end) (sc_sheets s)
      end
  end.

(** /repo/src/layout/data.rs:731-754: the board afterwards and the result *)
Fixpoint change_first (r : str) (f : module -> module) (l : list ly_element) : list ly_element * told unit :=
  match l with
  | [] => ([], TSays (lit "did not find module with reference " ++ r))
  | YModule m :: t =>
      if is_reference_with_name m r then (YModule (f m) :: t, TFine tt)
      else let '(t', k) := change_first r f t in (YModule m :: t', k)
  | e :: t => let '(t', k) := change_first r f t in (e :: t', k)
  end.
Definition modify_told (l : layout) (r : str) (f : module -> module) : layout * told unit :=
  let '(es, k) := change_first r f (ly_elements l) in (LyOps.with_elements l es, k).
(** layout/data.rs:918-925 *)
Definition unnamed_told (new n : str) : str * told unit :=
  match is_unnamed_net n with
  | Some (_, pad) => (lit "Net-(" ++ new ++ lit "-" ++ pad ++ lit ")", TFine tt)
  | None => (n, TSays (lit "net is not an unnamed net: " ++ n))
  end.

(** /repo/src/error.rs:12-25; errors of the system and of other crates stand for their texts. *)
Inductive kicad_error := ErrParse (s : str) | ErrOther (s : str) | ErrIo (s : str) | ErrEnvVar (s : str) | ErrShellExpand (s : str) | ErrSexp (s : str).
(** error.rs:58-69 *)
Definition show_error (e : kicad_error) : str :=
  match e with
  | ErrParse s => lit "Kicad Parse Error: " ++ s
  | ErrOther s => lit "Kicad Other Error: " ++ s
  | ErrIo s => lit "Kicad IO Error: " ++ s
  | ErrEnvVar s => lit "Kicad Env Var Error: " ++ s
  | ErrShellExpand s => lit "Kicad Shell Expand Error: " ++ s
  | ErrSexp s => lit "Kicad Symbolic Expression Error: " ++ s
  end.
