(** Property theorems: it does not matter how the lines of a file end (C102). *)
From Coq Require Import String.
From Verif Require Import Base Str StrFacts Sexp Formatter DocText SchData SchParse SchErr SchOut SchOps SymParse SymErr KicadFile Said FileErr WalkErr P_Err P_Save EolSpec EolFacts.
Open Scope string_scope. Open Scope list_scope.

(** ** C102 *)
(** Schematics and symbol libraries: the same value, the same error with the same text,
    or the same abort, and the same lines printed. *)
Theorem C102_lines : forall fn t u, same_but_ends t u ->
  (parse_schematic fn t = parse_schematic fn u /\ schematic_said fn t = schematic_said fn u /\ schematic_out fn t = schematic_out fn u) /\
  parse_symbol_lib t = parse_symbol_lib u /\ library_said t = library_said u.
Proof. exact (fun fn t u H => conj (schematic_ends fn t u H) (library_ends t u H)). Qed.
Print Assumptions C102_lines.
(** Trees: as long as no line ends inside quotes *)
Theorem C102_trees : forall t u, same_but_ends t u -> ends_unquoted t ->
  read_sexp t = read_sexp u /\ parse_module t = parse_module u /\ parse_layout t = parse_layout u /\ parse_table t = parse_table u.
Proof. exact (fun t u H Q => conj (read_ends t u H Q) (trees_ends t u H Q)). Qed.
Print Assumptions C102_trees.
(** A file is of the same kind and has the same content or the same error, whichever kind
    is asked for; a project is its own text. *)
Theorem C102_file : forall name t u x, same_but_ends t u -> ends_unquoted t ->
  read_data name u x = match read_data name t x with Ok f => Ok (but_project u f) | Err e => Err e | Panic => Panic end /\
  data_told name u x = match data_told name t x with TFine f => TFine (but_project u f) | TSays m => TSays m | TElse e => TElse e | TStops => TStops end.
Proof. exact data_ends. Qed.
Print Assumptions C102_file.
Theorem C102_opened : forall fs gs n, same_disk fs gs ->
  (read_module fs n = read_module gs n /\ read_schematic fs n = read_schematic gs n /\ read_layout fs n = read_layout gs n /\
   read_symbol_lib fs n = read_symbol_lib gs n /\ read_fp_lib_table fs n = read_fp_lib_table gs n) /\
  module_told fs n = module_told gs n /\ schematic_told fs n = schematic_told gs n /\ layout_told fs n = layout_told gs n /\
  symbol_lib_told fs n = symbol_lib_told gs n /\ table_told fs n = table_told gs n.
Proof. exact (fun fs gs n D => conj (readers_ends fs gs n D) (told_ends fs gs n D)). Qed.
Print Assumptions C102_opened.
(** The sheets of a design, to any depth *)
Theorem C102_sheets : forall fs gs n s, same_sheets fs gs ->
  (all_components fs n s = all_components gs n s /\ all_told fs n s = all_told gs n s) /\
  forall r, component_by_reference fs n r s = component_by_reference gs n r s /\ component_told fs n r s = component_told gs n r s.
Proof.
  exact (fun fs gs n s D => conj (conj (all_ends fs gs D n s) (all_told_ends fs gs D n s))
    (fun r => conj (component_ends fs gs D n r s) (component_told_ends fs gs D n r s))).
Qed.
Print Assumptions C102_sheets.
(** With a line end inside quotes the value read contains it. *)
Theorem C102_quoted_refuted : exists t u, same_but_ends t u /\ read_sexp t <> read_sexp u /\ (exists a, read_sexp t = Ok a) /\ (exists a, read_sexp u = Ok a).
Proof.
  exists (lit "(a " ++ [34%N; 98%N; 10%N; 34%N] ++ lit ")"), (lit "(a " ++ [34%N; 98%N; 13%N; 10%N; 34%N] ++ lit ")").
  split; [|split; [|split; eexists; vm_compute; reflexivity]]; [|vm_compute; discriminate].
  cbn. do 5 (apply se_char; [discriminate|discriminate|]). refine (se_end [10%N] [13%N; 10%N] _ _ (or_introl eq_refl) (or_intror eq_refl) _).
  do 2 (apply se_char; [discriminate|discriminate|]). exact se_nil.
Qed.
Print Assumptions C102_quoted_refuted.

(** A schematic and a footprint with mixed ends of lines *)
Fixpoint dos (alternate : bool) (t : str) : str :=
  match t with
  | [] => []
  | c :: r => if N.eqb c 10 then (if alternate then [13%N; 10%N] else [10%N]) ++ dos (negb alternate) r else c :: dos alternate r
  end.
Lemma dos_same t : ~ In 13%N t -> forall b, same_but_ends t (dos b t).
Proof.
  induction t as [|c t IH]; intros H b; [exact se_nil|]. cbn [dos].
  assert (K : ~ In 13%N t) by (intros I; apply H; now right).
  destruct (N.eqb c 10) eqn:E.
  - apply N.eqb_eq in E. subst c. refine (se_end [10%N] _ _ _ (or_introl eq_refl) _ (IH K _)). destruct b; [now right|now left].
  - apply se_char; [now apply N.eqb_neq|intros ->; apply H; now left|exact (IH K b)].
Qed.
Lemma no_cr t : forallb (fun c => negb (N.eqb c 13)) t = true -> ~ In 13%N t.
Proof. intros Z I. rewrite forallb_forall in Z. discriminate (Z 13%N I). Qed.
Definition ex_eol : str := text_of (sch_head ++ ["$Comp"; "L R R1"; "U 1 1 5"; "P 1 2"; "what"; "$EndComp"; "$EndSCHEMATC"]).
Definition ex_eol_m : str := text_m ++ [10%N].
Example C102_ex : same_but_ends ex_eol (dos true ex_eol) /\ ex_eol <> dos true ex_eol /\
  (exists s, parse_schematic None (dos true ex_eol) = Ok s) /\ schematic_out None (dos true ex_eol) = [lit "skipping unknown component line what"].
Proof.
  split; [apply dos_same; apply no_cr; vm_compute; reflexivity|]. split; [vm_compute; discriminate|].
  assert (K : is_ok (parse_schematic None (dos true ex_eol)) = true) by (vm_compute; reflexivity).
  split; [|vm_compute; reflexivity]. destruct (parse_schematic None (dos true ex_eol)) as [s|e|]; [now exists s|discriminate K|discriminate K].
Qed.
Example C102_ex_tree : same_but_ends ex_eol_m (dos true ex_eol_m) /\ ends_unquoted ex_eol_m /\ is_ok (parse_module (dos true ex_eol_m)) = true.
Proof.
  split; [apply dos_same; apply no_cr; vm_compute; reflexivity|]. split; [|vm_compute; reflexivity].
  assert (K : forall t, (forall c, In c t -> N.eqb c 10 = false) -> Nat.even (quotes t) = true -> ends_unquoted (t ++ [10%N])).
  { intros t H E a b X. assert (Y : b = [] \/ b <> []) by (destruct b; [now left|right; discriminate]). destruct Y as [-> |Y].
    - apply app_inj_tail in X as [-> _]. exact E.
    - destruct (exists_last Y) as (b1 & d & ->). change (a ++ 10%N :: b1 ++ [d]) with (a ++ (10%N :: b1) ++ [d]) in X.
      rewrite app_assoc in X. apply app_inj_tail in X as [-> _]. assert (Q : N.eqb 10 10 = false) by (apply H; apply in_or_app; right; now left). discriminate Q. }
  apply K; [|vm_compute; reflexivity].
  assert (Z : forallb (fun c => negb (N.eqb c 10)) text_m = true) by (vm_compute; reflexivity).
  intros c I. rewrite forallb_forall in Z. specialize (Z c I). now destruct (N.eqb c 10).
Qed.
