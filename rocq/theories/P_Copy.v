(** Property theorems: a design works the same in another directory (C101). *)
From Coq Require Import String.
From Verif Require Import Base Str StrFacts SchData SchParse SchOps FileErr FileErrFacts Paths PathSpec PathFacts WalkErr WalkErrFacts CopySpec CopyFacts P_Err.
Open Scope string_scope. Open Scope list_scope.

(** ** C101 *)
(** Opening a schematic and collecting all its components gives the same list, or the
    same error with the same text, in a copy of the directory. *)
Theorem C101_all : forall b D b' D' read read' p p' n, copied b D b' D' read read' -> counterpart b D b' D' p p' ->
  tbind (path_told (unix_fs read) p) (all_told (unix_fs read) n) = tbind (path_told (unix_fs read') p') (all_told (unix_fs read') n).
Proof. exact (fun b D b' D' read read' p p' n C => copy_walk b D b' D' read read' C p p' n). Qed.
Print Assumptions C101_all.
Theorem C101_component : forall b D b' D' read read' p p' n r, copied b D b' D' read read' -> counterpart b D b' D' p p' ->
  tbind (path_told (unix_fs read) p) (component_told (unix_fs read) n r) = tbind (path_told (unix_fs read') p') (component_told (unix_fs read') n r).
Proof. exact (fun b D b' D' read read' p p' n r C => copy_search b D b' D' read read' C p p' n r). Qed.
Print Assumptions C101_component.
(** The same for a schematic at hand that was not read just now *)
Theorem C101_at_hand : forall b D b' D' read read' s s' p p', copied b D b' D' read read' -> same_content s s' ->
  sc_filename s = Some p -> sc_filename s' = Some p' -> counterpart b D b' D' p p' -> ~ leads p b D ->
  forall n, all_components (unix_fs read) n s = all_components (unix_fs read') n s' /\
    forall r, component_by_reference (unix_fs read) n r s = component_by_reference (unix_fs read') n r s'.
Proof.
  exact (fun b D b' D' read read' s s' p p' C S F F' X N n =>
    conj (eq_trans (eq_sym (untold_all _ n s)) (eq_trans (f_equal untold (copy_all b D b' D' read read' C s s' p p' n S F F' X N)) (untold_all _ n s')))
      (fun r => eq_trans (eq_sym (untold_component _ n r s)) (eq_trans (f_equal untold (copy_component b D b' D' read read' C s s' p p' n r S F F' X N)) (untold_component _ n r s')))).
Qed.
Print Assumptions C101_at_hand.

(** A design of two files in the directory a/b, copied to /c *)
Definition top_file : str := text_of (sch_head ++ ["$Sheet"; "S 1 2 3 4"; "U 5A"; "F0 ""n"" 60"; "F1 ""sub/x.sch"" 60"; "$EndSheet"; "$EndSCHEMATC"]).
Definition sub_file : str := text_of (sch_head ++ ["$Comp"; "L R R1"; "U 1 1 5A"; "P 1 2"; "F 0 ""R1"" H 1 2 50  0000 C CNN"; "F 1 ""R"" H 1 2 50  0000 C CNN"; " 1 1 2"; " 1 0 0 -1"; "$EndComp"; "$EndSCHEMATC"]).
Fixpoint strip (d n : list str) : option (list str) :=
  match d, n with
  | [], _ => Some n
  | x :: d, y :: n => if str_eqb x y then strip d n else None
  | _ :: _, [] => None
  end.
Definition content (l : list str) : res str :=
  match l with
  | [a] => if str_eqb a (lit "top.sch") then Ok top_file else Err EIo
  | [a; c] => if str_eqb a (lit "sub") && str_eqb c (lit "x.sch") then Ok sub_file else Err EIo
  | _ => Err EIo
  end.
Definition both (p : str) : res str :=
  match strip (if rooted p then [lit "c"] else [lit "a"; lit "b"]) (names p) with Some l => content l | None => Err EIo end.
Lemma strip_app d l : strip d (d ++ l) = Some l.
Proof. induction d as [|x d IH]; [reflexivity|]. cbn [app strip]. now rewrite str_eqb_refl. Qed.
Example C101_copied_ex : copied false [lit "a"; lit "b"] true [lit "c"] both both.
Proof.
  split.
  - intros p p' [q q' l A A'|q R]; [|reflexivity]. apply leads_iff in A as [A1 A2], A' as [B1 B2]. unfold both. rewrite <- A1, <- A2, <- B1, <- B2.
    replace (strip [lit "a"; lit "b"] ([lit "a"; lit "b"] ++ l)) with (Some l) by (symmetry; apply strip_app). replace (strip [lit "c"] ([lit "c"] ++ l)) with (Some l) by (symmetry; apply strip_app). reflexivity.
  - intros p t A. apply leads_iff in A as [A1 A2]. unfold both. rewrite <- A1, <- A2. vm_compute. discriminate.
Qed.
Definition refs_at (p : string) : told (list str) :=
  tbind (tbind (path_told (unix_fs both) (lit p)) (all_told (unix_fs both) 3)) (fun l => TFine (map co_reference l)).
Example C101_ex : refs_at "a/b/top.sch" = TFine [lit "R1"] /\ refs_at "/c/top.sch" = TFine [lit "R1"] /\ refs_at "a/./b//top.sch" = TFine [lit "R1"] /\ refs_at "/c/x.sch" = TElse EIo.
Proof. repeat (apply conj; [vm_compute; reflexivity|]). vm_compute. reflexivity. Qed.
Example C101_counterpart_ex : counterpart false [lit "a"; lit "b"] true [lit "c"] (lit "a/./b//top.sch") (lit "/c/top.sch").
Proof. apply (cp_in _ _ _ _ _ _ [lit "top.sch"]); apply leads_iff; split; vm_compute; reflexivity. Qed.
(** Copying only what is inside the directory is not enough: a sheet may be outside. *)
Definition inside (l : list str) : bool := forallb (fun s => negb (str_eqb s (lit ".."))) l.
Definition out_file : str := text_of (sch_head ++ ["$Sheet"; "S 1 2 3 4"; "U 5A"; "F0 ""n"" 60"; "F1 ""../x.sch"" 60"; "$EndSheet"; "$EndSCHEMATC"]).
Definition outer (p : str) : res str :=
  if rooted p then Err EIo else
  match strip [lit "a"] (names p) with
  | Some [x] => if str_eqb x (lit "top.sch") then Ok out_file else Err EIo
  | Some [x; y] => if str_eqb x (lit "..") && str_eqb y (lit "x.sch") then Ok sub_file else Err EIo
  | Some _ => Err EIo
  | None => match strip [lit "c"; lit "d"] (names p) with Some [x] => if str_eqb x (lit "top.sch") then Ok out_file else Err EIo | _ => Err EIo end
  end.
Definition outer_count (p : string) : told nat := tbind (tbind (path_told (unix_fs outer) (lit p)) (all_told (unix_fs outer) 3)) (fun l => TFine (length l)).
Theorem C101_outside_refuted : exists D D' read, 
  (forall p p' l, inside l = true -> leads p false (D ++ l) -> leads p' false (D' ++ l) -> read p = read p') /\ (forall p t, leads p false D -> read p <> Ok t) /\
  exists p p', counterpart false D false D' p p' /\
    tbind (path_told (unix_fs read) p) (all_told (unix_fs read) 3) <> tbind (path_told (unix_fs read) p') (all_told (unix_fs read) 3).
Proof.
  exists [lit "a"], [lit "c"; lit "d"], outer. split; [|split].
  - intros p p' l I A A'. apply leads_iff in A as [A1 A2], A' as [B1 B2]. unfold outer. rewrite <- A1, <- A2, <- B1, <- B2.
    replace (strip [lit "a"] ([lit "a"] ++ l)) with (Some l) by (symmetry; apply strip_app). replace (strip [lit "a"] ([lit "c"; lit "d"] ++ l)) with (@None (list str)) by reflexivity.
    replace (strip [lit "c"; lit "d"] ([lit "c"; lit "d"] ++ l)) with (Some l) by (symmetry; apply strip_app).
    destruct l as [|x [|y [|]]]; try reflexivity. cbn [inside forallb andb] in I. destruct (str_eqb x (lit "..")); [discriminate I|reflexivity].
  - intros p t A. apply leads_iff in A as [A1 A2]. unfold outer. rewrite <- A1, <- A2. vm_compute. discriminate.
  - exists (lit "a/top.sch"), (lit "c/d/top.sch"). split; [apply (cp_in _ _ _ _ _ _ [lit "top.sch"]); apply leads_iff; split; vm_compute; reflexivity|].
    intros E. apply (f_equal (fun r => tbind r (fun l => TFine (length l)))) in E. change (outer_count "a/top.sch" = outer_count "c/d/top.sch") in E.
    assert (X : outer_count "a/top.sch" = TFine 1%nat) by (vm_compute; reflexivity). assert (Y : outer_count "c/d/top.sch" = TElse EIo) by (vm_compute; reflexivity). rewrite X, Y in E. discriminate E.
Qed.
Print Assumptions C101_outside_refuted.
