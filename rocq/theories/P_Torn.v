(** Property theorems: files cut short and saves that fail (C98, C99). *)
From Coq Require Import String.
From Verif Require Import Base Str StrFacts Sexp FpData FpDe FpExamples LyData LyDe FpLibTable Formatter FormatterSpec DocSpec DocText SchData SchParse SymData SymParse
  KicadFile SpellSpec FileErr Disk TornSpec DiskSpec TornFacts TornLines TornSch DiskFacts P_Formatter P_Save P_Err.
Open Scope string_scope. Open Scope list_scope.

(** ** C98 *)
(** A text that is one tree is not one without its end. *)
Theorem C98_tree : forall l t p, document (SList l) t -> torn p t -> forall s, ~ document s p.
Proof. exact torn_tree. Qed.
Print Assumptions C98_tree.
Theorem C98_module : forall t p m, parse_module t = Ok m -> torn p t -> parse_module p = Err ESexp.
Proof. exact (fun t p m H T => proj1 (tree_torn t p (module_tree t m H) T)). Qed.
Print Assumptions C98_module.
Theorem C98_layout : forall t p l, parse_layout t = Ok l -> torn p t -> parse_layout p = Err ESexp.
Proof. exact (fun t p l H T => proj1 (proj2 (tree_torn t p (layout_tree t l H) T))). Qed.
Print Assumptions C98_layout.
Theorem C98_table : forall t p l, parse_table t = Ok l -> torn p t -> parse_table p = Err ESexp.
Proof. exact (fun t p l H T => proj2 (proj2 (tree_torn t p (table_tree t l H) T))). Qed.
Print Assumptions C98_table.
(** Nor is it taken for a file of any other kind. *)
Theorem C98_file : forall n t p f x, file_is n t f -> match f with KModule _ | KLayout _ | KFpLibTable _ => True | _ => False end -> torn p t ->
  read_data n p x = match x with XModule | XLayout | XFpLibTable => Err ESexp | XSchematic | XSymbolLib | XProject => Err EOther | XAny => Ok (KUnknown n) end.
Proof. exact (fun n t p f x F K T => torn_kind n t p x (file_tree n t f F K) T). Qed.
Print Assumptions C98_file.
(** When only white space is missing nothing is lost. *)
Theorem C98_blank : forall l t p q, document (SList l) t -> t = p ++ q -> blank_text q ->
  parse_module p = parse_module t /\ parse_layout p = parse_layout t /\ parse_table p = parse_table t.
Proof. exact blank_tree. Qed.
Print Assumptions C98_blank.
(** What this program writes: a footprint without any of its last characters is refused. *)
Theorem C98_saved_module : forall nq m n p q, quote_contract nq -> forallb no_quote (module_strs m) = true -> module_to_string nq m n = p ++ q -> q <> [] ->
  parse_module p = Err ESexp.
Proof. exact module_cut. Qed.
Print Assumptions C98_saved_module.
Theorem C98_saved_layout : forall nq l n p, quote_contract nq -> forallb no_quote (layout_strs l) = true -> forallb doc_ok (layout_other l) = true ->
  torn p (layout_to_string nq l n) -> parse_layout p = Err ESexp.
Proof. exact layout_cut. Qed.
Print Assumptions C98_saved_layout.
Theorem C98_saved_table : forall nq t n p, quote_contract nq -> forallb no_quote (flat_map flib_strs t) = true -> torn p (table_to_string nq t n) -> parse_table p = Err ESexp.
Proof. exact table_cut. Qed.
Print Assumptions C98_saved_table.
(** Line by line formats: what is read is a beginning of what was there. *)
Theorem C98_library : forall t p l l', parse_symbol_lib t = Ok l -> beginning p t -> parse_symbol_lib p = Ok l' -> first_of l' l.
Proof. exact torn_library. Qed.
Print Assumptions C98_library.
Theorem C98_schematic : forall fn t p c c', parse_schematic fn t = Ok c -> beginning p t -> parse_schematic fn p = Ok c' -> schematic_left c' c.
Proof. exact torn_schematic. Qed.
Print Assumptions C98_schematic.
(** Cut at the end of a line, a schematic keeps its first elements and has no others. *)
Theorem C98_schematic_lines : forall fn x q c c', parse_schematic fn (x ++ 10%N :: q) = Ok c -> parse_schematic fn (x ++ [10%N]) = Ok c' -> schematic_first c' c.
Proof. exact whole_schematic. Qed.
Print Assumptions C98_schematic_lines.

Example C98_module_ex : exists p m, parse_module text_m = Ok m /\ torn p text_m /\ length p = 200%nat /\ parse_module p = Err ESexp.
Proof.
  destruct (parse_module text_m) as [m| |] eqn:E.
  - exists (firstn 200 text_m), m. split; [reflexivity|]. assert (T : torn (firstn 200 text_m) text_m).
    { exists (skipn 200 text_m). split; [symmetry; apply firstn_skipn|]. intros B. specialize (B 41%N). assert (I : is_ws 41%N = true); [apply B|discriminate I].
      apply (existsb_in 41%N). vm_compute. reflexivity. }
    split; [exact T|]. split; [vm_compute; reflexivity|]. exact (C98_module _ _ _ E T).
  - exfalso. assert (K : match parse_module text_m with Ok _ => true | _ => false end = true) by (vm_compute; reflexivity). rewrite E in K. discriminate K.
  - exfalso. assert (K : match parse_module text_m with Ok _ => true | _ => false end = true) by (vm_compute; reflexivity). rewrite E in K. discriminate K.
Qed.

Definition wire_text : str := text_of (sch_head ++ ["Wire Wire Line"; " 1 2 3 45"; "NoConn ~ 7 8"; "$EndSCHEMATC"]).
Definition elements_of (t : str) : option (list selement) := match parse_schematic None t with Ok c => Some (sc_elements c) | _ => None end.
Definition lib_2 : str := text_of (lib_top ++ a_def ++ ["DRAW"; "ENDDRAW"; "ENDDEF"; "#"] ++ a_def ++ ["DRAW"; "ENDDRAW"; "ENDDEF"; "#"; "#End Library"]).
Definition count_of (t : str) : option nat := match parse_symbol_lib t with Ok l => Some (length l) | _ => None end.
Example C98_lines_ex :
  elements_of wire_text = Some [SWire (mk_wire WWire 1 2 3 45); SNoConnect (mk_spoint 7 8)] /\
  elements_of (text_of (sch_head ++ ["Wire Wire Line"; " 1 2 3 45"])) = Some [SWire (mk_wire WWire 1 2 3 45)] /\
  elements_of (text_of (sch_head ++ ["Wire Wire Line"])) = None /\
  count_of lib_2 = Some 2%nat /\ count_of (text_of (lib_top ++ a_def ++ ["DRAW"; "ENDDRAW"; "ENDDEF"; "#"])) = Some 1%nat /\ count_of (text_of (lib_top ++ a_def)) = None.
Proof. repeat (apply conj; [vm_compute; reflexivity|]). vm_compute. reflexivity. Qed.
(** Files of this kind that were cut short are not always noticed: a library comes
    out smaller, and a wire ends in another place. *)
Theorem C98_library_refuted : exists t p l l', torn p t /\ parse_symbol_lib t = Ok l /\ parse_symbol_lib p = Ok l' /\ length l = 2%nat /\ length l' = 1%nat.
Proof.
  destruct (parse_symbol_lib lib_2) as [l| |] eqn:E; try (exfalso; assert (K : count_of lib_2 = Some 2%nat) by (vm_compute; reflexivity); unfold count_of in K; rewrite E in K; discriminate K).
  set (p := text_of (lib_top ++ a_def ++ ["DRAW"; "ENDDRAW"; "ENDDEF"; "#"])).
  destruct (parse_symbol_lib p) as [l'| |] eqn:E'; try (exfalso; assert (K : count_of p = Some 1%nat) by (vm_compute; reflexivity); unfold count_of in K; rewrite E' in K; discriminate K).
  exists lib_2, p, l, l'. split; [|split; [exact E|split; [exact E'|split]]].
  - exists (text_of (a_def ++ ["DRAW"; "ENDDRAW"; "ENDDEF"; "#"; "#End Library"])). split; [vm_compute; reflexivity|]. intros B. discriminate (B 35%N (or_introl eq_refl)).
  - assert (K : count_of lib_2 = Some 2%nat) by (vm_compute; reflexivity). unfold count_of in K. rewrite E in K. now injection K.
  - assert (K : count_of p = Some 1%nat) by (vm_compute; reflexivity). unfold count_of in K. rewrite E' in K. now injection K.
Qed.
Print Assumptions C98_library_refuted.
Theorem C98_wire_refuted : exists t p e e', torn p t /\ elements_of t = Some e /\ elements_of p = Some e' /\ ~ first_of e' e.
Proof.
  exists wire_text, (text_of (sch_head ++ ["Wire Wire Line"]) ++ lit " 1 2 3 4"), [SWire (mk_wire WWire 1 2 3 45); SNoConnect (mk_spoint 7 8)], [SWire (mk_wire WWire 1 2 3 4)].
  split; [|split; [vm_compute; reflexivity|split; [vm_compute; reflexivity|]]].
  - exists (lit "5" ++ [10%N] ++ text_of ["NoConn ~ 7 8"; "$EndSCHEMATC"]). split; [vm_compute; reflexivity|]. intros B. discriminate (B 53%N (or_introl eq_refl)).
  - intros [b B]. discriminate B.
Qed.
Print Assumptions C98_wire_refuted.

(** ** C99 *)
(** Whatever the system does, only the file named changes, and what is left in it
    agrees with the result. *)
Theorem C99_save : forall fs a n d fs' r, try_write fs a n d = (fs', r) -> only n fs fs' /\ save_ends fs fs' n d r.
Proof. exact try_ends. Qed.
Print Assumptions C99_save.
(** Each of these endings can happen. *)
Theorem C99_complete : forall fs n d fs' r, save_ends fs fs' n d r -> only n fs fs' -> exists a f, try_write fs a n d = (f, r) /\ forall k, f k = fs' k.
Proof. exact try_any. Qed.
Print Assumptions C99_complete.
(** A footprint or board that can be saved: the file then gives it, or what it gave
    before, or an error, and never another footprint or board. *)
Theorem C99_module : forall nq fs a m n fs' r, parse_module (module_to_string nq m 0) = Ok m -> try_write_module nq fs a m n = (fs', r) ->
  opens read_module fs fs' n m /\ (r = TFine tt -> read_module fs' n = Ok m).
Proof. exact saved_module. Qed.
Print Assumptions C99_module.
Theorem C99_layout : forall nq fs a l n fs' r, parse_layout (layout_to_string nq l 0) = Ok l -> try_write_layout nq fs a l n = (fs', r) ->
  opens read_layout fs fs' n l /\ (r = TFine tt -> read_layout fs' n = Ok l).
Proof. exact saved_layout. Qed.
Print Assumptions C99_layout.
Definition blank_m : module := mk_module (lit "R") [].
Definition old_disk : files := fun n => if str_eqb n (lit "a") then Some (lit "(module Old)") else if str_eqb n (lit "b") then Some (lit "x") else None.
Definition left_in (a : answer) (n : str) : option str * told unit := let (f, r) := try_write_module quote_special old_disk a blank_m (lit "a") in (f n, r).
Example C99_save_ex :
  left_in (Refuses (lit "no")) (lit "a") = (Some (lit "(module Old)"), TSays (lit "create error in file 'a': no")) /\
  left_in (Breaks 7 (lit "full")) (lit "a") = (Some (lit "(module"), TSays (lit "write error in file 'a': full")) /\
  left_in Stores (lit "a") = (Some (lit "(module R" ++ [10%N] ++ lit ")"), TFine tt) /\ left_in Stores (lit "b") = (Some (lit "x"), TFine tt).
Proof. repeat (apply conj; [vm_compute; reflexivity|]). vm_compute. reflexivity. Qed.
(** A save that fails can lose what was there. *)
Theorem C99_lost_refuted : exists nq fs a m m0 n fs' why, read_module fs n = Ok m0 /\ try_write_module nq fs a m n = (fs', TSays why) /\
  read_module fs' n = Err ESexp.
Proof.
  exists quote_special, old_disk, (Breaks 7 (lit "full")), blank_m, (mk_module (lit "Old") []), (lit "a"). eexists _, _.
  split; [vm_compute; reflexivity|]. split; [reflexivity|]. vm_compute. reflexivity.
Qed.
Print Assumptions C99_lost_refuted.
