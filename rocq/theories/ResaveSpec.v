(** Specification for P_Resave.v (C126). *)
From Verif Require Import Base Str F64 FpData FpOps CheckFix FpCheck FpNew.
(** The two sizes of the font of a text are numbers, not below zero (-0 counts as zero). *)
Definition font_counts (t : fp_text) : bool :=
  let s := fo_size (ef_font (tx_effects t)) in fleb fzero (xy_x s) && fleb fzero (xy_y s).
(** The edits of a footprint: turn over, turn, move, rename the reference, rename a net, apply the fix, add an element. *)
Inductive change :=
| Flip | Rotate (d : f64) | Move (x y : f64) | Reference (old new : str) | Net (old new : str) | Fix (c : config) | Append (e : element).
Definition change_one (m : module) (ch : change) : res module :=
  match ch with
  | Flip => Ok (flip_module m)
  | Rotate d => Ok (rotate_module d m)
  | Move x y => Ok (adjust_module x y m)
  | Reference old new => Ok (set_reference old new m)
  | Net old new => Ok (module_rename_net old new m)
  | Fix c => fp_fix c m
  | Append e => Ok (module_append e m)
  end.
Fixpoint change_all (m : module) (l : list change) : res module :=
  match l with [] => Ok m | ch :: r => do m' <- change_one m ch; change_all m' r end.
