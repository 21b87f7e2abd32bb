(** Property theorems: block names inside hierarchical net names (C51). *)
From Coq Require Import String.
From Verif Require Import Base Str StrFacts LyData LyOps NameSpec NameFacts.
Open Scope string_scope. Open Scope list_scope.

(** A net name is its parts joined by slashes; renaming a block replaces block names
    (parts with a slash on both sides) from left to right, never two neighbours at once. *)
Theorem C51_parts (s : str) : join (lit "/") (parts s) = s /\ forall p, In p (parts s) -> no_slash p = true.
Proof. exact (conj (parts_join s) (slash_free s)). Qed.
Print Assumptions C51_parts.
Theorem C51_replace (from to s w : str) (l : list str) : no_slash from = true -> no_slash to = true -> parts s = w :: l ->
  parts (replace_block from to s) = w :: rename_blocks from to l.
Proof. exact (replace_block_split from to s w l). Qed.
Print Assumptions C51_replace.
(** For any texts, with or without slashes: the places found from left to right are
    replaced, and nothing else. *)
Theorem C51_exact (from to s r : str) : replaced (lit "/" ++ from ++ lit "/") (lit "/" ++ to ++ lit "/") s r <-> replace_block from to s = r.
Proof. exact (replace_block_iff from to s r). Qed.
Print Assumptions C51_exact.
Example C51_exact_ex : replaced (lit "/a/") (lit "/b/c/") (lit "/a/a/x") (lit "/b/c/a/x").
Proof. exact (proj2 (C51_exact (lit "a") (lit "b/c") (lit "/a/a/x") (lit "/b/c/a/x")) eq_refl). Qed.
(** If the block name does not occur twice in a row, every occurrence is renamed, and
    nothing else. *)
Theorem C51_every (from to s w z : str) (m : list str) :
  no_slash from = true -> no_slash to = true -> parts s = w :: m ++ [z] -> no_pair from m = true ->
  parts (replace_block from to s) = w :: map (fun p => if str_eqb p from then to else p) m ++ [z].
Proof. exact (block_simple from to s w m z). Qed.
Print Assumptions C51_every.
(** A name without that block stays as it is; the first and last part never count. *)
Theorem C51_untouched (from to s w z : str) (l : list str) :
  no_slash from = true -> parts s = w :: l ++ [z] -> ~ In from l -> replace_block from to s = s.
Proof. exact (block_none from to s w l z). Qed.
Print Assumptions C51_untouched.
(** Renaming can be undone if the new name was not in use. *)
Theorem C51_undo (from to s : str) : no_slash from = true -> no_slash to = true -> ~ In to (parts s) ->
  replace_block to from (replace_block from to s) = s.
Proof. exact (block_back from to s). Qed.
Print Assumptions C51_undo.

Example C51_ex : parts (lit "/psu/ldo/psu/psu") = [[]; lit "psu"; lit "ldo"; lit "psu"; lit "psu"]
  /\ no_pair (lit "psu") [lit "psu"; lit "ldo"; lit "psu"] = true
  /\ replace_block (lit "psu") (lit "power") (lit "/psu/ldo/psu/psu") = lit "/power/ldo/power/psu"
  /\ replace_block (lit "power") (lit "psu") (lit "/power/ldo/power/psu") = lit "/psu/ldo/psu/psu"
  /\ replace_block (lit "ps") (lit "x") (lit "/psu/VCC") = lit "/psu/VCC"
  /\ existsb (str_eqb (lit "power")) (parts (lit "/psu/ldo/psu/psu")) = false.
Proof. vm_compute. repeat split. Qed.
(** Two equal neighbours: the second one keeps its name. *)
Theorem C51_neighbours_refuted : exists from to s w m z,
  no_slash from = true /\ no_slash to = true /\ parts s = w :: m ++ [z] /\
  parts (replace_block from to s) <> w :: map (fun p => if str_eqb p from then to else p) m ++ [z].
Proof.
  exists (lit "a"), (lit "b"), (lit "/a/a/n"), [], [lit "a"; lit "a"], (lit "n").
  split; [reflexivity|]. split; [reflexivity|]. split; [vm_compute; reflexivity|]. vm_compute. discriminate.
Qed.
Print Assumptions C51_neighbours_refuted.
(** Undoing fails if the new name was already there. *)
Theorem C51_undo_refuted : exists from to s, no_slash from = true /\ no_slash to = true /\
  replace_block to from (replace_block from to s) <> s.
Proof. exists (lit "a"), (lit "b"), (lit "/a/x/b/n"). split; [reflexivity|]. split; [reflexivity|]. vm_compute. discriminate. Qed.
Print Assumptions C51_undo_refuted.
