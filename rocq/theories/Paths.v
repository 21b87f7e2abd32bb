(** Paths of sheet files (/repo/src/schematic.rs:1577-1588): [Path::parent] and
    [Path::join] of the standard library on Unix, on texts.  (Names that are not
    UTF-8, and Windows prefixes, are left out.) *)
From Coq Require Import String.
From Verif Require Import Base Str SchData SchOps.
Open Scope string_scope. Open Scope list_scope.

(** [has_physical_root] and [include_cur_dir] of std::path::Components *)
Definition rooted (p : str) : bool := starts_with (lit "/") p.
Definition leads_dot (p : str) : bool := str_eqb p (lit ".") || starts_with (lit "./") p.
(** [len_before_body]: the part of a path that is never split *)
Definition before_body (p : str) : nat := if rooted p || leads_dot p then 1 else 0.
(** The pieces between separators; empty ones and "." are no components. *)
Definition segments (s : str) : list str := split_on (fun c => (c =? 47)%N) s.
Definition dull (s : str) : bool := is_empty s || str_eqb s (lit ".").
Fixpoint slashed (l : list str) : str :=
  match l with
  | [] => []
  | [s] => s
  | s :: r => s ++ 47%N :: slashed r
  end.
(** [Components::trim_right]: drop pieces at the end that are no components *)
Fixpoint trim_back (l : list str) : list str :=
  match l with
  | [] => []
  | s :: r => match trim_back r with [] => if dull s then [] else [s] | r' => s :: r' end
  end.
(** [Path::parent]: [next_back] and [as_path]; nothing for the empty path and the root *)
Definition path_parent (p : str) : option str :=
  let n := before_body p in
  match trim_back (segments (skipn n p)) with
  | [] => if leads_dot p then Some [] else None
  | l => Some (firstn n p ++ slashed (trim_back (removelast l)))
  end.
(** [Path::join]: an absolute path replaces, otherwise a separator is put in between
    if there is none *)
Definition path_join (d f : str) : str :=
  if rooted f then f
  else if is_empty d || (last d 0 =? 47)%N then d ++ f else d ++ 47%N :: f.
(** schematic.rs:1582-1586, and a file system with these paths *)
Definition sheet_path (p f : str) : option str := match path_parent p with Some d => Some (path_join d f) | None => None end.
Definition unix_fs (read : str -> res str) : fsys := mk_fs sheet_path read.
