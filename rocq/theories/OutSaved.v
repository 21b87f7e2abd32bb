(** What is reported about a saved schematic (C92). *)
From Coq Require Import String Lia.
From Verif Require Import Base Str StrFacts Num F64 F64Text SexpFacts LibFns LibSpec CutSpec CutFacts SchData SchPrint SchParse SchWf SchLine SchFacts SchEnds SchReadSpec SchReadFacts SchOut OutSpec OutFacts.
Open Scope string_scope. Open Scope list_scope.

Definition unit_lost (c : component) : list str := if is_empty (co_u c) then [say_comp []] else [].
Lemma lead w x k : ws_word (lit w) = true -> w = k -> begins_with (lit w ++ 32%N :: x) k.
Proof. intros W <-. apply word_is_iff. rewrite (word_is_lead w x w W). apply str_eqb_refl. Qed.
Lemma first_is s w : first_word s = Some w -> begins s w.
Proof. apply begins_iff. Qed.

Lemma told_fields fs l n : forallb cfield_ok fs = true -> comp_told l n -> comp_told (map print_field fs ++ l) n.
Proof.
  induction fs as [|f fs IH]; intros H T; [exact T|]. cbn [forallb] in H. apply andb_prop in H as [F H]. cbn [map app].
  apply ct_quiet with "F"; [cbn; tauto|apply word_is_iff; now rewrite field_word|now apply IH].
Qed.
Lemma told_ars a l n : forallb (fun a => SchWf.begins "AR" a && line_ok a) a = true -> comp_told l n -> comp_told (a ++ l) n.
Proof.
  induction a as [|x a IH]; intros H T; [exact T|]. cbn [forallb] in H. apply andb_prop in H as [F H]. apply andb_prop in F as [F _]. cbn [app].
  apply ct_quiet with "AR"; [cbn; tauto| |now apply IH]. apply word_is_iff. unfold SchWf.begins in F. unfold word_is, first_word. destruct (split_ws x); [discriminate|exact F].
Qed.
Definition inner (c : component) : list str :=
  [lit "L " ++ co_name c ++ bl ++ co_reference c; co_u c; lit "P " ++ show_Z (co_x c) ++ bl ++ show_Z (co_y c)]
  ++ co_ar c ++ map print_field (co_fields c)
  ++ [tab ++ pad_right 4 (lit "1") ++ bl ++ pad_right 4 (show_Z (co_x c)) ++ bl ++ pad_right 4 (show_Z (co_y c));
      tab ++ pad_right 4 (show_Z (ro_a (co_rotation c))) ++ bl ++ pad_right 4 (show_Z (ro_b (co_rotation c))) ++ bl
        ++ pad_right 4 (show_Z (ro_c (co_rotation c))) ++ bl ++ pad_right 4 (show_Z (ro_d (co_rotation c)))].
Lemma inner_eq c : print_component c = lit "$Comp" :: inner c ++ [lit "$EndComp"].
Proof. unfold print_component, inner. rewrite <- !app_assoc. reflexivity. Qed.
Lemma told_comp c : component_ok c = true -> comp_told (inner c) (unit_lost c).
Proof.
  intros H. unfold component_ok in H. bsplit. unfold inner. cbn [app].
  apply ct_quiet with "L"; [cbn; tauto|apply (lead "L"); reflexivity|].
  assert (T : comp_told ((lit "P " ++ show_Z (co_x c) ++ bl ++ show_Z (co_y c)) :: co_ar c ++ map print_field (co_fields c) ++
     [tab ++ pad_right 4 (lit "1") ++ bl ++ pad_right 4 (show_Z (co_x c)) ++ bl ++ pad_right 4 (show_Z (co_y c));
      tab ++ pad_right 4 (show_Z (ro_a (co_rotation c))) ++ bl ++ pad_right 4 (show_Z (ro_b (co_rotation c))) ++ bl
        ++ pad_right 4 (show_Z (ro_c (co_rotation c))) ++ bl ++ pad_right 4 (show_Z (ro_d (co_rotation c)))]) []).
  { apply ct_quiet with "P"; [cbn; tauto|apply (lead "P"); reflexivity|]. apply told_ars; [assumption|]. apply told_fields; [assumption|].
    apply ct_turn; [left; apply word_is_iff; reflexivity|constructor]. }
  unfold unit_lost. destruct (co_u c) as [|x u] eqn:U; cbn [is_empty].
  - apply ct_said; [|exact T]. intros k I B. apply word_is_iff in B. discriminate B.
  - apply ct_quiet with "U"; [cbn; tauto| |exact T]. match goal with H : is_empty _ || _ = true |- _ => cbn [is_empty orb] in H; rename H into B end.
    apply word_is_iff. unfold SchWf.begins in B. unfold word_is, first_word. destruct (split_ws (x :: u)); [discriminate|exact B].
Qed.

Lemma told_labels ls : forall i, sheet_told (print_labels i ls) [].
Proof.
  induction ls as [|l ls IH]; intros i; cbn [print_labels]; [constructor|]. apply ht_quiet; [|apply IH]. right. right. exists (show_Z i).
  apply first_is. change (lit "F" ++ show_Z i ++ bl ++ print_label l) with ((70%N :: show_Z i) ++ 32%N :: print_label l). apply first_word_cons. apply fword_ws.
Qed.
Lemma told_app a b : sheet_told a [] -> sheet_told b [] -> sheet_told (a ++ b) [].
Proof. intros H. remember (@nil str) as n eqn:E. revert E. induction H; intros E K; [exact K|discriminate E|]. cbn [app]. apply ht_quiet; [assumption|now apply IHsheet_told]. Qed.
Lemma sheet_sec s : sec_told (print_sheet s) [].
Proof.
  unfold print_sheet. rewrite app_assoc. rewrite <- app_comm_cons. change (print_labels 2 (sh_labels s)) with (print_labels 2 (sh_labels s)).
  match goal with |- sec_told ((lit "$Sheet" :: ?a ++ ?b) ++ _) _ => apply (sct_sheet (lit "$Sheet") (a ++ b)) end; [apply word_is_iff; reflexivity|].
  apply told_app; [|apply told_labels].
  apply ht_quiet; [left; apply (lead "S"); reflexivity|]. apply ht_quiet; [right; left; apply (lead "U"); reflexivity|].
  apply ht_quiet; [right; right; exists (lit "0"); apply (first_is _ (lit "F0")); exact (first_word_cons (lit "F0") _ eq_refl)|].
  apply ht_quiet; [right; right; exists (lit "1"); apply (first_is _ (lit "F1")); exact (first_word_cons (lit "F1") _ eq_refl)|]. constructor.
Qed.

Lemma sec_of p a r c c' l : round p c = Ok (c', l :: r) -> p = a ++ r -> exists s, section_text a s.
Proof.
  intros R ->. apply round_fw in R as (b & s & E & _ & S & _). cbn [next tl] in E. apply app_inv_tail in E. subst. eauto.
Qed.
Definition about (e : selement) : list str := match e with SComponent c => unit_lost c | _ => [] end.
Lemma not_first s w k : begins s w -> w <> lit k -> ~ begins_with s k.
Proof. intros A N B. apply N. exact (begins_fun _ _ _ A B). Qed.
Lemma elem_sec e : selement_ok e = true -> sec_told (print_selement e) (about e).
Proof.
  destruct e as [c|w|p|p|t|s]; cbn [selement_ok print_selement about]; intros H.
  - rewrite inner_eq. apply sct_comp; [apply word_is_iff; reflexivity|now apply told_comp].
  - unfold print_wire. assert (B : begins (lit "Wire " ++ show_wire_type (wi_t w) ++ lit " Line") (lit "Wire")) by (apply (lead "Wire"); reflexivity).
    apply sct_other; eapply not_first; try exact B; discriminate.
  - unfold print_connection. assert (B : begins (lit "Connection ~ " ++ show_Z (cn_x p) ++ bl ++ show_Z (cn_y p)) (lit "Connection")) by (apply (lead "Connection"); reflexivity).
    apply sct_other; eapply not_first; try exact B; discriminate.
  - unfold print_no_connect. assert (B : begins (lit "NoConn ~ " ++ show_Z (cn_x p) ++ bl ++ show_Z (cn_y p)) (lit "NoConn")) by (apply (lead "NoConn"); reflexivity).
    apply sct_other; eapply not_first; try exact B; discriminate.
  - unfold print_text. match goal with |- sec_told (?x :: _) _ => assert (B : begins x (lit "Text")) by (apply (lead "Text"); reflexivity) end.
    apply sct_other; eapply not_first; try exact B; discriminate.
  - destruct (first_word s) as [w|] eqn:E.
    + destruct (other_word s w E H) as (_ & C & S & _). apply begins_iff in E. apply seq_no in C, S. apply sct_other; eapply not_first; eassumption.
    + assert (N : forall w, ~ begins s w) by (intros w B; apply begins_iff in B; congruence). apply sct_other; apply N.
Qed.
Lemma elem_secs es l n : forallb selement_ok es = true -> secs_told l n -> secs_told (flat_map print_selement es ++ l) (flat_map about es ++ n).
Proof.
  induction es as [|e es IH]; intros H T; [exact T|]. cbn [forallb] in H. apply andb_prop in H as [E H]. cbn [flat_map]. rewrite <- !app_assoc.
  destruct (rt_element e sch_default [] E) as [x R]. destruct (sec_of _ _ _ _ _ _ R eq_refl) as [s S].
  apply sst_cons with s; [exact S|now apply elem_sec|now apply IH].
Qed.
Lemma sheet_secs hs l n : forallb sheet_ok hs = true -> secs_told l n -> secs_told (flat_map print_sheet hs ++ l) n.
Proof.
  induction hs as [|h hs IH]; intros H T; [exact T|]. cbn [forallb] in H. apply andb_prop in H as [E H]. cbn [flat_map]. rewrite <- !app_assoc.
  destruct (rt_sheet_round h sch_default [] E) as [x R]. destruct (sec_of _ _ _ _ _ _ R eq_refl) as [s S].
  change n with ([] ++ n). apply sst_cons with s; [exact S|apply sheet_sec|now apply IH].
Qed.
Theorem out_saved s : sch_ok s = true -> schematic_out (sc_filename s) (print_schematic s) = flat_map about (sc_elements s).
Proof.
  intros H. pose proof (rt_schematic s H) as R. 
  assert (L : lines (print_schematic s) = sch_lines s) by (unfold print_schematic; rewrite unlines_concat; apply lines_concat; now apply ends_sch).
  apply out_whole. unfold sch_ok in H. bsplit.
  exists (sch_lines s), (print_description (sc_description s) ++ flat_map print_selement (sc_elements s) ++ flat_map print_sheet (sc_sheets s) ++ [lit "$EndSCHEMATC"]).
  split; [now apply lines_iff|split].
  - exists (sc_libraries s), (sc_eelayer s). split; [|assumption]. unfold heading, sch_lines. cbn [app]. rewrite <- !app_assoc. reflexivity.
  - destruct (rt_descr_round (sc_description s) sch_default [] ltac:(assumption)) as [x D]. destruct (sec_of _ _ _ _ _ _ D eq_refl) as [y S].
    change (flat_map about (sc_elements s)) with ([] ++ flat_map about (sc_elements s)). apply sst_cons with y; [exact S| |].
    + unfold print_description. match goal with |- sec_told (?x :: _) _ => assert (B : begins x (lit "$Descr")) by (apply (lead "$Descr"); reflexivity) end.
      apply sct_other; eapply not_first; try exact B; discriminate.
    + rewrite <- (app_nil_r (flat_map about (sc_elements s))). apply elem_secs; [assumption|]. apply sheet_secs; [assumption|].
      change (@nil str) with (@nil str ++ []) at 2. rewrite <- (app_nil_r [lit "$EndSCHEMATC"]). apply sst_cons with SecNone; [|apply sct_other|constructor].
      * apply st_end. apply word_is_iff. reflexivity.
      * apply word_is_no. reflexivity.
      * apply word_is_no. reflexivity.
Qed.
