(** Property theorems: the order of lines in a schematic (C110). *)
From Coq Require Import String.
From Verif Require Import Base Str Num CutSpec CutFacts LibSpec SchData SchParse SchReadSpec SchReadFacts JoinSpec JoinFacts P_Err P_Join MovedSpec MovedFacts.
Import ListNotations.
Open Scope string_scope. Open Scope list_scope.

(** ** C110 *)
(** Moving the lines of a component does not change what is read, as long as the fields
    keep their order, and so do the AR lines.  Unknown lines, and all but the last of
    several name, unit, position and orientation lines, do not count. *)
Theorem C110_component : forall fn t t' l l' s, differ "$Comp" "$EndComp" t t' l l' -> comp_moved l l' ->
  parse_schematic fn t = Ok s -> parse_schematic fn t' = Ok s.
Proof. exact component_moved. Qed.
Print Assumptions C110_component.
(** The same of the lines of a sheet, whose labels keep their order. *)
Theorem C110_sheet : forall fn t t' l l' s, differ "$Sheet" "$EndSheet" t t' l l' -> sheet_moved l l' ->
  parse_schematic fn t = Ok s -> parse_schematic fn t' = Ok s.
Proof. exact sheet_lines_moved. Qed.
Print Assumptions C110_sheet.
(** The same of whole sections: sheets, elements and the description do not disturb each
    other, a line $EndSCHEMATC may stand anywhere, and the last description counts. *)
Theorem C110_sections : forall fn t t' libs e l l' s, starts_with (lit "EELAYER ") e = true ->
  text_lines t (sch_heading libs e ++ l) -> text_lines t' (sch_heading libs e ++ l') -> sections_moved l l' ->
  parse_schematic fn t = Ok s -> parse_schematic fn t' = Ok s.
Proof. exact sections_moved_same. Qed.
Print Assumptions C110_sections.

(** *** Examples *)
Ltac begin := eexists; apply ws_iff; vm_compute; reflexivity.
Ltac no_begin := intros [? W]; apply ws_iff in W; vm_compute in W; discriminate W.
Definition c_pre : list string := ["NoConn ~ 7 8"].
Definition c_post : list string := ["Wire Wire Line"; " 1 2 3 4"; "$EndSCHEMATC"].
Definition with_comp (l : list string) : list string := sch_head ++ c_pre ++ "$Comp" :: l ++ "$EndComp" :: c_post.
Definition c_field : string := "F 0 ""R1"" H 10 20 50 0000 C CNN".
Definition c_one : list string := ["P 1 2"; "Q?"; "L R R1"; c_field; "P 100 200"; " 1 100 200"; " 1 0 0 -1"].
Definition c_two : list string := ["L R R1"; "P 100 200"; " 1 100 200"; " 1 0 0 -1"; c_field].
Lemma pre_section : section_text (map lit c_pre) (SecElement (SNoConnect (mk_spoint 7 8))).
Proof.
  apply st_single.
  apply (si_no_connect _ [lit "NoConn"; lit "~"; lit "7"; lit "8"]); [apply ws_iff; vm_compute; reflexivity|reflexivity|reflexivity| |]; eexists; split; try reflexivity; vm_compute; reflexivity.
Qed.
Lemma pre_sections : sections (map lit c_pre) [SecElement (SNoConnect (mk_spoint 7 8))].
Proof. apply (ss_cons (map lit c_pre) []); [exact pre_section|constructor]. Qed.
Lemma c_differ l l' : lines (text_of (with_comp l)) = map lit (with_comp l) -> lines (text_of (with_comp l')) = map lit (with_comp l') -> ~ In (lit "$EndComp") (map lit l) ->
  differ "$Comp" "$EndComp" (text_of (with_comp l)) (text_of (with_comp l')) (map lit l) (map lit l').
Proof.
  intros T T' N.
  assert (E : forall l, map lit (with_comp l) = sch_heading [lit "power"] (lit "EELAYER 25 0") ++ map lit c_pre ++ lit "$Comp" :: map lit l ++ lit "$EndComp" :: map lit c_post).
  { intros k. unfold with_comp. rewrite !map_app. cbn [map]. rewrite map_app. reflexivity. }
  apply (differ_intro _ _ _ _ _ _ [lit "power"] (lit "EELAYER 25 0") (map lit c_pre) [SecElement (SNoConnect (mk_spoint 7 8))] (lit "$Comp") (map lit c_post)).
  - rewrite <- E. now apply by_lines.
  - rewrite <- E. now apply by_lines.
  - reflexivity.
  - exact pre_sections.
  - begin.
  - exact N.
Qed.
Ltac not_in := let H := fresh in intros H; cbn [map In] in H; repeat (destruct H as [H|H]; [discriminate H|]); destruct H.
Lemma c_moved : comp_moved (map lit c_one) (map lit c_two).
Proof.
  assert (P1 : comp_entry "P" [lit "P 1 2"]) by (apply ce_line; [cbn; tauto|begin]).
  assert (P2 : comp_entry "P" [lit "P 100 200"]) by (apply ce_line; [cbn; tauto|begin]).
  assert (LE : comp_entry "L" [lit "L R R1"]) by (apply ce_line; [cbn; tauto|begin]).
  assert (FE : comp_entry "F" [lit c_field]) by (apply ce_line; [cbn; tauto|begin]).
  assert (TE : comp_entry "1" [lit " 1 100 200"; lit " 1 0 0 -1"]) by (apply ce_turn; left; begin).
  assert (OE : comp_entry "other" [lit "Q?"]). { apply ce_other. intros k K. repeat (destruct K as [<-|K]; [no_begin|]). destruct K. }
  assert (M1 : comp_entries [lit "Q?"; lit "L R R1"; lit c_field]).
  { apply (es_cons "other" [_] _ OE). apply (es_cons "L" [_] _ LE). apply (es_cons "F" [_] _ FE). constructor. }
  assert (M2 : comp_entries [lit "L R R1"]). { apply (es_cons "L" [_] _ LE). constructor. }
  assert (M3 : comp_entries [lit "L R R1"; lit "P 100 200"]). { apply (es_cons "L" [_] _ LE). apply (es_cons "P" [_] _ P2). constructor. }
  apply cm_then with (m := map lit ["Q?"; "L R R1"; c_field; "P 100 200"; " 1 100 200"; " 1 0 0 -1"]).
  { refine (cm_early [] [_] _ [_] _ "P" _ es_nil P1 M1 P2). cbn; tauto. }
  apply cm_then with (m := map lit ["L R R1"; c_field; "P 100 200"; " 1 100 200"; " 1 0 0 -1"]).
  { exact (cm_drop [] [_] _ es_nil OE). }
  apply cm_then with (m := map lit ["L R R1"; "P 100 200"; c_field; " 1 100 200"; " 1 0 0 -1"]).
  { refine (cm_swap [_] [_] [_] _ "F" "P" M2 FE P2 _). discriminate. }
  refine (cm_swap [_; _] [_] [_; _] [] "F" "1" M3 FE TE _). discriminate.
Qed.
Definition is_fine {A} (r : res A) : bool := match r with Ok _ => true | _ => false end.
Example C110_component_ex :
  is_fine (parse_schematic None (text_of (with_comp c_one))) = true /\ forall s, parse_schematic None (text_of (with_comp c_one)) = Ok s -> parse_schematic None (text_of (with_comp c_two)) = Ok s.
Proof.
  split; [vm_compute; reflexivity|]. intros s. apply (C110_component None _ _ (map lit c_one) (map lit c_two)); [|exact c_moved].
  apply c_differ; [vm_compute; reflexivity|vm_compute; reflexivity|not_in].
Qed.
(** The order of fields is seen. *)
Definition field_ids (s : schematic) : list (list Z) := flat_map (fun e => match e with SComponent c => [map cf_i (co_fields c)] | _ => [] end) (sc_elements s).
Definition ids_read (t : str) : res (list (list Z)) := do s <- parse_schematic None t; Ok (field_ids s).
Lemma ids_inv t v : ids_read t = Ok v -> exists s, parse_schematic None t = Ok s /\ field_ids s = v.
Proof. unfold ids_read. destruct (parse_schematic None t) as [s| |]; try discriminate. cbn [bind]. intros [= <-]. exists s. now split. Qed.
Definition c_field2 : string := "F 1 ""1k"" H 10 20 50 0000 C CNN".
Theorem C110_fields_refuted : exists x y t t' s s', begins_with x "F" /\ begins_with y "F" /\ differ "$Comp" "$EndComp" t t' [x; y] [y; x] /\
  parse_schematic None t = Ok s /\ parse_schematic None t' = Ok s' /\ s <> s'.
Proof.
  destruct (ids_inv (text_of (with_comp [c_field; c_field2])) [[0; 1]%Z]) as (s & S & I); [vm_compute; reflexivity|].
  destruct (ids_inv (text_of (with_comp [c_field2; c_field])) [[1; 0]%Z]) as (s' & S' & I'); [vm_compute; reflexivity|].
  exists (lit c_field), (lit c_field2), (text_of (with_comp [c_field; c_field2])), (text_of (with_comp [c_field2; c_field])), s, s'.
  split; [begin|]. split; [begin|]. split; [apply (c_differ [c_field; c_field2] [c_field2; c_field]); [vm_compute; reflexivity|vm_compute; reflexivity|not_in]|].
  split; [exact S|]. split; [exact S'|]. intros E. rewrite E, I' in I. discriminate I.
Qed.
Print Assumptions C110_fields_refuted.
(** A sheet whose name stands after its labels, with an unknown line and two files *)
Definition with_sheet (l : list string) : list string := sch_head ++ c_pre ++ "$Sheet" :: l ++ "$EndSheet" :: c_post.
Definition h_one : list string := ["F1 ""old.sch"" 60"; "S 1 2 3 4"; "F2 ""a"" I L 5 6 60"; "F0 ""top"" 60"; "?"; "F1 ""new.sch"" 60"].
Definition h_two : list string := ["F0 ""top"" 60"; "S 1 2 3 4"; "F2 ""a"" I L 5 6 60"; "F1 ""new.sch"" 60"].
Lemma h_moved : sheet_moved (map lit h_one) (map lit h_two).
Proof.
  assert (F1 : sheet_entry "F1" (lit "F1 ""old.sch"" 60")) by (apply se_file with (i := lit "1"); [begin|vm_compute; reflexivity]).
  assert (F1' : sheet_entry "F1" (lit "F1 ""new.sch"" 60")) by (apply se_file with (i := lit "1"); [begin|vm_compute; reflexivity]).
  assert (F0 : sheet_entry "F0" (lit "F0 ""top"" 60")) by (apply se_name with (i := lit "0"); [begin|vm_compute; reflexivity]).
  assert (F2 : sheet_entry "F" (lit "F2 ""a"" I L 5 6 60")) by (apply se_label with (i := lit "2") (k := 2%Z); [begin|vm_compute; reflexivity|discriminate|discriminate]).
  assert (SE : sheet_entry "S" (lit "S 1 2 3 4")) by (apply se_box; begin).
  assert (OE : sheet_entry "other" (lit "?")) by (apply se_other; [no_begin|no_begin|intros i; no_begin]).
  apply hm_then with (m := map lit ["S 1 2 3 4"; "F2 ""a"" I L 5 6 60"; "F0 ""top"" 60"; "?"; "F1 ""new.sch"" 60"]).
  { refine (hm_early [] _ (map lit ["S 1 2 3 4"; "F2 ""a"" I L 5 6 60"; "F0 ""top"" 60"; "?"]) _ [] "F1" _ F1 F1'). cbn; tauto. }
  apply hm_then with (m := map lit ["S 1 2 3 4"; "F2 ""a"" I L 5 6 60"; "F0 ""top"" 60"; "F1 ""new.sch"" 60"]).
  { exact (hm_drop (map lit ["S 1 2 3 4"; "F2 ""a"" I L 5 6 60"; "F0 ""top"" 60"]) _ [lit "F1 ""new.sch"" 60"] OE). }
  apply hm_then with (m := map lit ["S 1 2 3 4"; "F0 ""top"" 60"; "F2 ""a"" I L 5 6 60"; "F1 ""new.sch"" 60"]).
  { refine (hm_swap [lit "S 1 2 3 4"] _ _ [lit "F1 ""new.sch"" 60"] "F" "F0" F2 F0 _). discriminate. }
  refine (hm_swap [] _ _ (map lit ["F2 ""a"" I L 5 6 60"; "F1 ""new.sch"" 60"]) "S" "F0" SE F0 _). discriminate.
Qed.
Example C110_sheet_ex :
  is_fine (parse_schematic None (text_of (with_sheet h_one))) = true /\ forall s, parse_schematic None (text_of (with_sheet h_one)) = Ok s -> parse_schematic None (text_of (with_sheet h_two)) = Ok s.
Proof.
  split; [vm_compute; reflexivity|]. intros s. apply (C110_sheet None _ _ (map lit h_one) (map lit h_two)); [|exact h_moved].
  apply (differ_intro _ _ _ _ _ _ [lit "power"] (lit "EELAYER 25 0") (map lit c_pre) [SecElement (SNoConnect (mk_spoint 7 8))] (lit "$Sheet") (map lit c_post)).
  - apply (by_lines (with_sheet h_one)). vm_compute. reflexivity.
  - apply (by_lines (with_sheet h_two)). vm_compute. reflexivity.
  - reflexivity.
  - exact pre_sections.
  - begin.
  - not_in.
Qed.
(** An element after the end, moved before a sheet and the end *)
Definition s_sheet : list string := ["$Sheet"; "F0 ""top"" 60"; "$EndSheet"].
Definition s_one : list string := s_sheet ++ ["$EndSCHEMATC"] ++ c_pre.
Definition s_two : list string := c_pre ++ s_sheet ++ ["$EndSCHEMATC"].
Example C110_sections_ex :
  is_fine (parse_schematic None (text_of (sch_head ++ s_one))) = true /\ forall s, parse_schematic None (text_of (sch_head ++ s_one)) = Ok s -> parse_schematic None (text_of (sch_head ++ s_two)) = Ok s.
Proof.
  split; [vm_compute; reflexivity|]. intros s. apply (C110_sections None _ _ [lit "power"] (lit "EELAYER 25 0") (map lit s_one) (map lit s_two)).
  - reflexivity.
  - apply (by_lines (sch_head ++ s_one)). vm_compute. reflexivity.
  - apply (by_lines (sch_head ++ s_two)). vm_compute. reflexivity.
  - pose proof pre_section as N.
    assert (E : section_text [lit "$EndSCHEMATC"] SecNone) by (apply st_end; begin).
    assert (H : section_text (map lit s_sheet) (SecSheet (sheet_of [HName (lit "top") 60]))).
    { apply (st_sheet (lit "$Sheet") [lit "F0 ""top"" 60"]); [begin| |not_in]. constructor; [|constructor].
      apply (hl_name _ (lit "0") [lit "F0"; lit "top"; lit "60"]); [begin|vm_compute; reflexivity|apply words_iff; vm_compute; reflexivity|reflexivity|].
      exists (lit "60"). split; [reflexivity|vm_compute; reflexivity]. }
    apply sm_then with (m := map lit (s_sheet ++ c_pre ++ ["$EndSCHEMATC"])).
    + refine (sm_swap (map lit s_sheet) [_] [_] _ [_] _ [] _ E N _); [|discriminate]. rewrite <- (app_nil_r (map lit s_sheet)). apply ss_cons; [exact H|constructor].
    + refine (sm_swap [] [] (map lit s_sheet) _ [_] _ [_] ss_nil H N _). discriminate.
Qed.
