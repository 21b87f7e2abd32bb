(** Specification for P_Resave.v (C126): edits of boards. *)
From Verif Require Import Base Str F64 FpData FpOps LyData LyOps ResaveSpec.
(** The edits of a board: move it, change its net names by any function (up to the first error), edit the
    first footprint with a reference, add a net or net class, set a value of the setup. *)
Inductive board_change :=
| BoardMove (x y : f64) | BoardNames (u : name_update) | BoardModule (r : str) (l : list change)
| BoardNet (num : Z) (name : str) | BoardClass (n : net_class) | BoardSetup (name value : str).
Definition changed (l : list change) (m : module) : module := match change_all m l with Ok m' => m' | _ => m end.
(** The board afterwards and the error reported *)
Definition board_one (l : layout) (ch : board_change) : layout * option ekind :=
  match ch with
  | BoardMove x y => (adjust_layout x y l, None)
  | BoardNames u => update_net_names u l
  | BoardModule r cs => modify_module l r (changed cs)
  | BoardNet num name => (add_net num name l, None)
  | BoardClass n => (add_netclass n l, None)
  | BoardSetup n v => (mk_layout (ly_version l) (ly_host l) (ly_general l) (ly_page l) (setup_update n v (ly_setup l)) (ly_layers l) (ly_elements l), None)
  end.
(** The board after all edits and the error of each *)
Fixpoint board_all (l : layout) (cs : list board_change) : layout * list (option ekind) :=
  match cs with
  | [] => (l, [])
  | ch :: r => let (a, k) := board_one l ch in let (b, ks) := board_all a r in (b, k :: ks)
  end.
