(** Specification for P_Auto.v (C127): histories of edits and saves. *)
From Coq Require Import String Relations.
From Verif Require Import Base Str StrFacts Num F64 Sexp FpData FpWf FpOps CheckFix FpCheck LyData LyWf LyOps FormatterSpec DocSpec DocText KeepSpec ResaveSpec ResaveLySpec SchData SchPrint SchParse
  SymData SymPrint SymParse SymWf SymOps.
(** New texts hold no quote, new parts can be saved. *)
Definition change_safe (ch : change) : bool :=
  match ch with
  | Flip | Rotate _ | Move _ _ => true
  | Reference _ new | Net _ new => no_quote new
  | Fix c => fgtb (cg_font_size c) fzero
  | Append e => element_saves e
  end.
Definition board_safe (ch : board_change) : Prop :=
  match ch with
  | BoardMove _ _ => True
  | BoardNames u => forall s, no_quote s = true -> no_quote (fst (u s)) = true
  | BoardModule _ l => forallb change_safe l = true
  | BoardNet num name => i64_ok num = true /\ no_quote name = true
  | BoardClass n => forallb no_quote (nc_name n :: nc_desc n :: LyData.nc_nets n) = true
  | BoardSetup n v => n <> lit "pcbplotparams"%string /\ no_quote n = true /\ no_quote v = true
  end.
(** An edit, or saving (at some level of indentation) and opening again *)
Inductive act (E : Type) := Edit (e : E) | Save (level : Z).
Arguments Edit {E}. Arguments Save {E}.
Definition edits_of {E} (l : list (act E)) : list E := flat_map (fun a => match a with Edit e => [e] | Save _ => [] end) l.
Fixpoint work_module nq (m : module) (l : list (act change)) : res module :=
  match l with
  | [] => Ok m
  | Edit ch :: r => do m' <- change_one m ch; work_module nq m' r
  | Save n :: r => do m' <- parse_module (module_to_string nq m n); work_module nq m' r
  end.
(** The board and the errors of the edits *)
Fixpoint work_board nq (l : layout) (cs : list (act board_change)) : res (layout * list (option ekind)) :=
  match cs with
  | [] => Ok (l, [])
  | Edit ch :: r => let (a, k) := board_one l ch in do x <- work_board nq a r; Ok (fst x, k :: snd x)
  | Save n :: r => do a <- parse_layout (layout_to_string nq l n); work_board nq a r
  end.
(** An edit of a schematic, or saving it and opening it again with any outcome *)
Inductive sch_work : schematic -> res schematic -> Prop :=
| sw_edit s s' : sch_edit s s' -> sch_work s (Ok s')
| sw_save s : sch_work s (parse_schematic (sc_filename s) (print_schematic s)).
(** What a history leads to; it ends at the first failure. *)
Inductive sch_history : schematic -> res schematic -> Prop :=
| sh_done s : sch_history s (Ok s)
| sh_next s s' r : sch_work s (Ok s') -> sch_history s' r -> sch_history s r
| sh_fail s r : sch_work s r -> is_ok r = false -> sch_history s r.
(** A symbol of a library gets another name, or the library is saved and opened again with any outcome. *)
Inductive lib_edit : list symbol -> list symbol -> Prop :=
| li_rename a s b name s' : mid_word name = true -> set_name name s = Ok s' -> lib_edit (a ++ s :: b) (a ++ s' :: b).
Inductive lib_work : list symbol -> res (list symbol) -> Prop :=
| lw_edit l l' : lib_edit l l' -> lib_work l (Ok l')
| lw_save l : lib_work l (do t <- print_symbol_lib l; parse_symbol_lib t).
Inductive lib_history : list symbol -> res (list symbol) -> Prop :=
| lh_done l : lib_history l (Ok l)
| lh_next l l' r : lib_work l (Ok l') -> lib_history l' r -> lib_history l r
| lh_fail l r : lib_work l r -> is_ok r = false -> lib_history l r.
