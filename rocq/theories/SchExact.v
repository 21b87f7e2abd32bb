(** Exactly which schematics survive being written and read back (lemmas for C82). *)
From Coq Require Import String Lia.
From Verif Require Import Base Str StrFacts Num NumFacts F64 F64Text F64Facts LibFns LibSpec LibFacts SchData SchPrint SchParse SchWf SchLine SchFacts SchEnds SchReread SettleSch SettleText.
Open Scope string_scope. Open Scope list_scope.

(** ** Dropping a carriage return *)
Lemma strip_cases s : strip_cr s = s /\ no_cr s = true \/ s = strip_cr s ++ [13%N].
Proof.
  destruct (last s 0%N =? 13)%N eqn:E.
  - right. destruct s as [|c s] using rev_ind; [discriminate|]. rewrite last_last in E. apply N.eqb_eq in E. subst c. now rewrite strip_cr_last.
  - left. split; [now apply strip_cr_id|]. unfold no_cr. now rewrite E.
Qed.
Lemma strip_same s : strip_cr s = s -> no_cr s = true.
Proof.
  destruct (strip_cases s) as [[_ H]|H]; [auto|]. intros E. rewrite E in H. apply (f_equal (@length N)) in H. rewrite app_length in H. cbn in H. lia.
Qed.
Lemma strip_after a s : no_cr a = true -> strip_cr (a ++ s) = a ++ strip_cr s.
Proof.
  intros H. destruct s as [|c s] using rev_ind.
  - rewrite app_nil_r. cbn [strip_cr]. rewrite app_nil_r. apply strip_cr_id. unfold no_cr in H. now apply negb_true_iff in H.
  - clear IHs. destruct (N.eqb c 13) eqn:E.
    + apply N.eqb_eq in E. subst c. now rewrite app_assoc, !strip_cr_last.
    + rewrite !strip_cr_id; [reflexivity|now rewrite last_last|rewrite app_assoc; now rewrite last_last].
Qed.
Lemma strip_line s : line_ok s = true -> strip_cr s = s.
Proof. unfold line_ok. intros H. apply andb_prop in H as [_ H]. apply strip_cr_id. now apply negb_true_iff in H. Qed.
Lemma strip_all ls : forallb line_ok ls = true -> map strip_cr ls = ls.
Proof. induction ls as [|x l IH]; [reflexivity|]. cbn [forallb map]. intros H. apply andb_prop in H as [H1 H2]. now rewrite strip_line, IH. Qed.
Lemma strip_map ls : map strip_cr ls = ls -> forallb no_cr ls = true.
Proof. induction ls as [|x l IH]; [reflexivity|]. cbn [forallb map]. intros [= H1 H2]. now rewrite (strip_same _ H1), IH. Qed.
Lemma strip_nl s : no_nl s = true -> no_nl (strip_cr s) = true.
Proof. apply no_nl_incl, strip_cr_incl. Qed.
Lemma strip_q s : quotable s = true -> quotable (strip_cr s) = true.
Proof.
  unfold quotable. intros H. apply andb_prop in H as [H1 H2]. rewrite (strip_nl _ H2), andb_true_r.
  rewrite forallb_forall in *. intros c Hc. apply H1. now apply strip_cr_incl.
Qed.
Lemma split_on_ne f s : split_on f s <> [].
Proof. destruct s as [|c s]; cbn; [discriminate|]. destruct (f c); [discriminate|]. destruct (split_on f s); discriminate. Qed.
Lemma split_on_end s : split_on is_ws (s ++ [13%N]) = split_on is_ws s ++ [[]].
Proof.
  induction s as [|c s IH]; [reflexivity|]. cbn [app split_on]. rewrite IH. destruct (is_ws c); [reflexivity|].
  destruct (split_on is_ws s) eqn:E; [now apply split_on_ne in E|reflexivity].
Qed.
Lemma split_ws_strip s : split_ws (strip_cr s) = split_ws s.
Proof.
  destruct (strip_cases s) as [[-> _]|H]; [reflexivity|]. rewrite H at 2. unfold split_ws. rewrite split_on_end, filter_app. cbn. now rewrite app_nil_r.
Qed.
Lemma begins_strip k s : begins k (strip_cr s) = begins k s.
Proof. unfold begins. now rewrite split_ws_strip. Qed.

(** ** Components *)
Lemma field_line f : cfield_pre f = true -> line_ok (print_field f) = true.
Proof.
  intros H. unfold cfield_pre in H. bsplit. unfold print_field. ends.
  all: repeat match goal with |- context [if ?b then _ else _] => destruct b end; ends.
  all: try (destruct (cf_orient f); reflexivity); try (destruct (cf_hjust f); reflexivity); try (destruct (cf_vjust f); reflexivity).
  all: try reflexivity.
Qed.
Lemma norm_same f : norm_field f = f -> (3 <? cf_i f)%Z || str_eqb (cf_name f) (field_name (cf_i f)) = true.
Proof.
  intros H. apply (f_equal cf_name) in H. unfold norm_field in H. cbn [cf_name] in H. destruct (3 <? cf_i f)%Z; [reflexivity|].
  rewrite H, str_eqb_refl. reflexivity.
Qed.
Lemma ar_lines l d r : forallb (fun a => begins "AR" a && no_nl a) l = true ->
  component_loop (l ++ r) d = component_loop r (mk_comp (co_name d) (co_reference d) (co_u d) (co_x d) (co_y d) (co_ar d ++ l) (co_fields d) (co_rotation d)).
Proof.
  revert d. induction l as [|a l IH]; intros d H; cbn [app].
  - rewrite app_nil_r. destruct d; reflexivity.
  - cbn [forallb] in H. apply andb_prop in H as [H1 H2]. apply andb_prop in H1 as [H1 _]. cbn [component_loop].
    assert (W : forall k, word_is a k = str_eqb (lit "AR") (lit k)).
    { intros k. unfold begins in H1. unfold word_is, first_word. destruct (split_ws a); [discriminate|].
      apply str_eqb_eq in H1. subst. reflexivity. }
    unfold seq. destruct (str_eqb_spec a (lit "$EndComp")) as [->|_]; [discriminate|].
    unfold component_line. rewrite !W. cbn -[component_loop]. rewrite IH by assumption. cbn. now rewrite <- app_assoc.
Qed.
(** What is read from the lines of a component. *)
Lemma comp_frame c r x : component_pre c = true -> parse_component (print_component c ++ r) = Ok x ->
  exists v n re, split_quote_aware_n 3 (lit "L " ++ co_name c ++ bl ++ co_reference c) = Ok v /\ idx v 1 = Ok n /\ idx v 2 = Ok re
    /\ forallb (fun f => (0 <=? cf_i f)%Z) (co_fields c) = true
    /\ x = (mk_comp n re (co_u c) (co_x c) (co_y c) (co_ar c) (map norm_field (co_fields c)) (co_rotation c), lit "$EndComp" :: r).
Proof.
  intros Hp H. destruct (pre_comp_inv c Hp) as (P1 & P2 & P3 & P4 & P5 & P6 & P7 & P8 & P9). cbn [forallb] in P9. bsplit.
  unfold parse_component, print_component, next in H. rewrite <- !app_assoc in H. cbn [app tl] in H.
  set (L := lit "L " ++ co_name c ++ bl ++ co_reference c) in *.
  assert (WL : forall k, word_is L k = str_eqb (lit "L") (lit k)) by (intros k; exact (word_is_lead "L" (co_name c ++ bl ++ co_reference c) k eq_refl)).
  rewrite loop_line' in H; [|reflexivity|now rewrite WL|now rewrite WL].
  assert (EL : component_line L comp_default = do v <- split_quote_aware_n 3 L; do n <- idx v 1; do r <- idx v 2; Ok (set_l comp_default n r)).
  { unfold component_line. rewrite WL. reflexivity. }
  rewrite EL in H. clear EL. destruct (split_quote_aware_n 3 L) as [v| |] eqn:Ev; try discriminate. cbn [bind] in H.
  destruct (idx v 1) as [n| |] eqn:En; try discriminate. cbn [bind] in H. destruct (idx v 2) as [re| |] eqn:Er; try discriminate. cbn [bind] in H.
  exists v, n, re. split; [reflexivity|]. split; [exact En|]. split; [exact Er|].
  destruct (cl_u _ (set_l comp_default n re) P3) as (U1 & U2 & U3 & U4).
  rewrite (loop_line _ _ _ _ U1 U2 U3 U4) in H.
  replace (match co_u c with [] => set_l comp_default n re | _ => set_u (set_l comp_default n re) (co_u c) end)
    with (set_u (set_l comp_default n re) (co_u c)) in H by (destruct (co_u c); reflexivity).
  rewrite (loop_line (lit "P " ++ _) _ _ _ eq_refl (word_is_lead "P" _ _ eq_refl) (word_is_lead "P" _ _ eq_refl)
      (cl_p (co_x c) (co_y c) _ ltac:(assumption) ltac:(assumption))) in H.
  rewrite ar_lines in H by assumption. pose proof (fields_nonneg _ _ _ _ P8 H) as N0. split; [exact N0|].
  assert (Ok' : forallb cfield_ok (map norm_field (co_fields c)) = true).
  { rewrite forallb_forall in *. intros g Hg. apply in_map_iff in Hg as (f & <- & Hf). apply norm_ok; auto. }
  rewrite <- (map_ext _ _ norm_print) in H. rewrite <- (map_map norm_field print_field) in H. rewrite line_fields in H by assumption.
  cbn [component_loop] in H.
  match type of H with context [seq (tab ++ ?x) "$EndComp"] => change (seq (tab ++ x) "$EndComp") with false in H end.
  replace (word_is (tab ++ pad_right 4 (lit "1") ++ bl ++ pad_right 4 (show_Z (co_x c)) ++ bl ++ pad_right 4 (show_Z (co_y c))) "1")
    with true in H.
  cbn [orb] in H. rewrite four_pad in H by assumption. cbn [bind] in H.
  change (seq (lit "$EndComp") "$EndComp") with true in H. cbn in H. injection H as <-.
  destruct c as [? ? ? ? ? ? ? [? ? ? ?]]; reflexivity.
Qed.

Lemma word_strip b : word_str b = true -> strip_cr b <> [] -> word_str (strip_cr b) = true.
Proof.
  unfold word_str. intros H Hn. apply andb_prop in H as [_ H]. apply andb_true_intro; split; [destruct (strip_cr b); [contradiction|reflexivity]|].
  rewrite forallb_forall in *. intros c Hc. apply H. now apply strip_cr_incl.
Qed.
Lemma shorter (b : str) : b = strip_cr b ++ [13%N] -> strip_cr b = b -> False.
Proof. intros E H. rewrite H in E. apply (f_equal (@length N)) in E. rewrite app_length in E. cbn in E. lia. Qed.
Lemma short_line a v : word_str a = true -> split_quote_aware_n 3 (lit "L " ++ a ++ bl) = Ok v -> False.
Proof.
  intros Ha H. assert (Q := Ha). unfold word_str in Q. apply andb_prop in Q as [Qn Qa]. unfold split_quote_aware_n, split_quote_aware_int in H. rewrite !fold_left_app in H.
  change (fold_left (sp_step (Some 3%nat)) (lit "L ") (mk_sp 0 [] false false [])) with (mk_sp 1 [lit "L"] false false []) in H.
  rewrite (step_plain (Some 3%nat) 1 _ false [] a eq_refl Qa) in H. cbn [app] in H.
  change (fold_left (sp_step (Some 3%nat)) bl ?x) with (sp_step (Some 3%nat) x 32%N) in H.
  rewrite step_flush in H; [|reflexivity|now rewrite Qn]. cbn in H. discriminate.
Qed.
Lemma ref_end a b v : word_str a = true -> word_str b = true -> split_quote_aware_n 3 (lit "L " ++ a ++ bl ++ strip_cr b) = Ok v -> idx v 2 = Ok b -> no_cr b = true.
Proof.
  intros Ha Hb H Hi. destruct (strip_cases b) as [[_ E]|E]; [exact E|]. exfalso.
  destruct (strip_cr b) as [|c s] eqn:Es; [rewrite app_nil_r in H; now apply short_line in H|]. rewrite <- Es in *.
  rewrite spl_l in H; [|assumption|apply word_strip; [assumption|now rewrite Es]]. injection H as <-. cbn [idx nth_error] in Hi. injection Hi as Hi.
  now apply (shorter b).
Qed.
Lemma uni_end b v : word_str b = true -> split_quote_aware_n 2 (lit "U " ++ strip_cr b) = Ok v -> idx v 1 = Ok b -> no_cr b = true.
Proof.
  intros Hb H Hi. destruct (strip_cases b) as [[_ E]|E]; [exact E|]. exfalso.
  destruct (strip_cr b) as [|c s] eqn:Es; [discriminate H|]. rewrite <- Es in *.
  rewrite spl_u in H by (apply word_strip; [assumption|now rewrite Es]). injection H as <-. cbn [idx nth_error] in Hi. injection Hi as Hi.
  now apply (shorter b).
Qed.
Lemma all_true s : Forall (fun _ : N => True) s.
Proof. apply Forall_forall. auto. Qed.

Definition cut_component (c : component) : component :=
  mk_comp (co_name c) (strip_cr (co_reference c)) (strip_cr (co_u c)) (co_x c) (co_y c) (map strip_cr (co_ar c)) (co_fields c) (co_rotation c).
Lemma cut_comp_pre c : component_pre c = true -> component_pre (cut_component c) = true.
Proof.
  intros H. destruct (pre_comp_inv c H) as (P1 & P2 & P3 & P4 & P5 & P6 & P7 & P8 & P9).
  unfold component_pre, cut_component. cbn [co_name co_reference co_u co_x co_y co_ar co_fields co_rotation].
  rewrite P1, (strip_q _ P2), (strip_nl _ P4), P5, P6, P8, P9. cbn [andb]. rewrite !andb_true_r. apply andb_true_intro; split.
  - rewrite begins_strip. destruct (co_u c) as [|x u]; [reflexivity|]. cbn [is_empty orb] in P3. rewrite P3. now rewrite orb_true_r.
  - rewrite forallb_forall in *. intros a Ha. apply in_map_iff in Ha as (b & <- & Hb). specialize (P7 b Hb). apply andb_prop in P7 as [Q1 Q2].
    now rewrite begins_strip, Q1, strip_nl.
Qed.
Lemma cut_comp_lines c : component_pre c = true -> map strip_cr (print_component c) = print_component (cut_component c).
Proof.
  intros H. destruct (pre_comp_inv c H) as (P1 & P2 & P3 & P4 & P5 & P6 & P7 & P8 & P9).
  unfold print_component, cut_component. cbn [co_name co_reference co_u co_x co_y co_ar co_fields co_rotation].
  cbn [map app]. rewrite !map_app. rewrite (strip_all (map print_field _)).
  2:{ rewrite forallb_forall in *. intros g Hg. apply in_map_iff in Hg as (f & <- & Hf). apply field_line. auto. }
  cbn [map]. rewrite !(strip_line (tab ++ _)) by ends. rewrite (strip_line (lit "P " ++ _)) by ends. rewrite !(strip_line (lit "$Comp")), !(strip_line (lit "$EndComp")) by reflexivity.
  replace (strip_cr (lit "L " ++ co_name c ++ bl ++ co_reference c)) with (lit "L " ++ co_name c ++ bl ++ strip_cr (co_reference c)); [reflexivity|].
  assert (E : no_cr (lit "L " ++ co_name c ++ bl) = true) by (unfold no_cr, bl; rewrite app_assoc; now rewrite last_last).
  apply (strip_after _ (co_reference c)) in E. rewrite <- !app_assoc in E. now rewrite E.
Qed.
Lemma comp_exact c r x : component_pre c = true -> parse_component (map strip_cr (print_component c) ++ r) = Ok x ->
  exists c', x = (c', lit "$EndComp" :: r) /\ (c' = c -> component_ok c = true).
Proof.
  intros Hp H. rewrite cut_comp_lines in H by assumption. destruct (comp_frame _ _ _ (cut_comp_pre c Hp) H) as (v & n & re & Hv & Hn & Hr & N0 & ->).
  eexists. split; [reflexivity|]. unfold cut_component in *. cbn [co_name co_reference co_u co_x co_y co_ar co_fields co_rotation] in *. intros E.
  destruct (pre_comp_inv c Hp) as (P1 & P2 & P3 & P4 & P5 & P6 & P7 & P8 & P9).
  assert (E1 := f_equal co_name E). assert (E2 := f_equal co_reference E). assert (E3 := f_equal co_u E). assert (E4 := f_equal co_ar E). assert (E5 := f_equal co_fields E).
  cbn [co_name co_reference co_u co_x co_y co_ar co_fields co_rotation] in E1, E2, E3, E4, E5. clear E. subst n re.
  assert (L34 : no34 (lit "L " ++ co_name c ++ bl ++ strip_cr (co_reference c)) = true)
    by (apply no34_app; [reflexivity|apply no34_app; [now apply no34_q|apply no34_app; [reflexivity|now apply no34_q, strip_q]]]).
  destruct (split_words_plain _ 3 _ v 1 _ L34 (all_true _) Hv (proj1 (Nat.ltb_lt 1 3) eq_refl) Hn) as [Wn _].
  destruct (split_words_plain _ 3 _ v 2 _ L34 (all_true _) Hv (proj1 (Nat.ltb_lt 2 3) eq_refl) Hr) as [Wr _].
  apply component_finish; [assumption|]. unfold component_clean. rewrite Wn, Wr, (ref_end _ _ _ Wn Wr Hv Hr), (strip_same _ E3), (strip_map _ E4). cbn [andb].
  rewrite forallb_forall in *. intros f Hf. unfold cfield_clean. rewrite (N0 f Hf). cbn [andb]. apply norm_same.
  clear - E5 Hf. induction (co_fields c) as [|g l IH]; [destruct Hf|]. cbn [map] in E5. injection E5 as A B. destruct Hf as [->|Hf]; auto.
Qed.

(** ** Sheets *)
Definition cut_sheet (s : sheet) : sheet :=
  mk_sheet (sh_x s) (sh_y s) (sh_dimx s) (sh_dimy s) (strip_cr (sh_unique s)) (sh_name s) (sh_name_size s) (sh_filename s) (sh_filename_size s) (sh_labels s).
Lemma label_line_ok l i : forallb label_ok l = true -> map strip_cr (print_labels i l) = print_labels i l.
Proof. intros H. apply strip_all, ends_labels, H. Qed.
Lemma cut_sheet_lines s : sheet_pre s = true -> map strip_cr (print_sheet s) = print_sheet (cut_sheet s).
Proof.
  intros H. unfold sheet_pre in H. cbn [forallb] in H. bsplit. unfold print_sheet, cut_sheet.
  cbn [sh_x sh_y sh_dimx sh_dimy sh_unique sh_name sh_name_size sh_filename sh_filename_size sh_labels].
  rewrite !map_app. rewrite label_line_ok by assumption. cbn [map].
  rewrite !(strip_line (lit "$Sheet")), !(strip_line (lit "$EndSheet")) by reflexivity.
  rewrite (strip_line (lit "S " ++ _)), (strip_line (lit "F0 " ++ _)), (strip_line (lit "F1 " ++ _)) by ends.
  now rewrite (strip_after (lit "U ")) by reflexivity.
Qed.
Lemma cut_sheet_pre s : sheet_pre s = true -> sheet_pre (cut_sheet s) = true.
Proof.
  intros H. unfold sheet_pre, cut_sheet in *. cbn [sh_x sh_y sh_dimx sh_dimy sh_unique sh_name sh_name_size sh_filename sh_filename_size sh_labels].
  bsplit. rewrite strip_q by assumption. repeat match goal with H : ?x = true |- context [?x] => rewrite H end. reflexivity.
Qed.
Lemma sheet_frame s r x : sheet_pre s = true -> few_labels s = true -> parse_sheet (print_sheet s ++ r) = Ok x ->
  exists v u, split_quote_aware_n 2 (lit "U " ++ sh_unique s) = Ok v /\ idx v 1 = Ok u
    /\ x = (mk_sheet (sh_x s) (sh_y s) (sh_dimx s) (sh_dimy s) u (sh_name s) (sh_name_size s) (sh_filename s) (sh_filename_size s) (sh_labels s), lit "$EndSheet" :: r).
Proof.
  intros Hp Hf H. unfold sheet_pre in Hp. cbn [forallb] in Hp. bsplit.
  unfold parse_sheet, print_sheet, next in H. rewrite <- !app_assoc in H. cbn [app tl] in H.
  erewrite sheet_loop_line in H; [|reflexivity|apply sheet_s; assumption].
  rewrite sheet_loop_line' in H by reflexivity.
  set (s0 := mk_sheet (sh_x s) (sh_y s) (sh_dimx s) (sh_dimy s) _ _ _ _ _ _) in H.
  set (U := lit "U " ++ sh_unique s) in *.
  assert (EU : sheet_line U s0 = do v <- split_quote_aware_n 2 U; do u <- idx v 1;
      Ok (mk_sheet (sh_x s0) (sh_y s0) (sh_dimx s0) (sh_dimy s0) u (sh_name s0) (sh_name_size s0) (sh_filename s0) (sh_filename_size s0) (sh_labels s0))).
  { unfold sheet_line. replace (first_word U) with (Some (lit "U")) by (symmetry; exact (first_word_cons (lit "U") (sh_unique s) eq_refl)). reflexivity. }
  rewrite EU in H. clear EU. destruct (split_quote_aware_n 2 U) as [v| |] eqn:Ev; try discriminate. cbn [bind] in H.
  destruct (idx v 1) as [u| |] eqn:Eu; try discriminate. cbn [bind] in H.
  exists v, u. split; [reflexivity|]. split; [exact Eu|].
  erewrite sheet_loop_line in H; [|reflexivity|apply sheet_f0; assumption].
  erewrite sheet_loop_line in H; [|reflexivity|apply sheet_f1; assumption].
  rewrite label_lines in H; [|discriminate|unfold few_labels in Hf; apply Z.leb_le in Hf; clear - Hf; lia|assumption].
  cbn in H. now injection H as <-.
Qed.
Lemma sheet_exact s r x : sheet_pre s = true -> few_labels s = true -> parse_sheet (map strip_cr (print_sheet s) ++ r) = Ok x ->
  exists s', x = (s', lit "$EndSheet" :: r) /\ (s' = s -> sheet_ok s = true).
Proof.
  intros Hp Hf H. rewrite cut_sheet_lines in H by assumption.
  destruct (sheet_frame _ _ _ (cut_sheet_pre s Hp) Hf H) as (v & u & Hv & Hu & ->).
  eexists. split; [reflexivity|]. unfold cut_sheet in *. cbn [sh_unique] in *. intros E. apply (f_equal sh_unique) in E. cbn [sh_unique] in E. subst u.
  apply sheet_finish; [assumption|].
  assert (U34 : no34 (lit "U " ++ strip_cr (sh_unique s)) = true).
  { apply no34_app; [reflexivity|]. unfold sheet_pre in Hp. bsplit. now apply no34_q, strip_q. }
  destruct (split_words_plain _ 2 _ v 1 _ U34 (all_true _) Hv (proj1 (Nat.ltb_lt 1 2) eq_refl) Hu) as [Wu _].
  unfold sheet_clean. rewrite Wu, (uni_end _ _ Wu Hv Hu). exact Hf.
Qed.

(** ** The description *)
Lemma descr_lines d : descr_pre d = true -> map strip_cr (print_description d) = print_description d.
Proof. intros H. apply strip_all. unfold descr_pre in H. cbn [forallb] in H. bsplit. assert (no_nl (ds_size d) = true) by (now apply quotable_nl). unfold print_description. ends. Qed.
Lemma descr_exact d r x : descr_pre d = true -> parse_description (map strip_cr (print_description d) ++ r) = Ok x ->
  exists d', x = (d', lit "$EndDescr" :: r) /\ (d' = d -> descr_ok d = true).
Proof.
  intros Hp H. rewrite descr_lines in H by assumption. pose proof Hp as Hp'. unfold descr_pre in Hp. cbn [forallb] in Hp. bsplit.
  set (D := lit "$Descr " ++ ds_size d ++ bl ++ show_Z (ds_dimx d) ++ bl ++ show_Z (ds_dimy d)) in *.
  unfold parse_description in H. change (here (print_description d ++ r)) with (Ok D) in H. cbn [bind] in H.
  destruct (split_quote_aware_n 4 D) as [v| |] eqn:Ev; try discriminate. cbn [bind] in H.
  destruct (idx v 1) as [z| |] eqn:Ez; try discriminate. cbn [bind] in H.
  destruct (idx v 2) as [w2| |] eqn:E2; try discriminate. cbn [bind] in H. destruct (i64_from_string w2) as [dx| |] eqn:Ex; try discriminate. cbn [bind] in H.
  destruct (idx v 3) as [w3| |] eqn:E3; try discriminate. cbn [bind] in H. destruct (i64_from_string w3) as [dy| |] eqn:Ey; try discriminate. cbn [bind] in H.
  assert (D34 : no34 D = true).
  { unfold D. apply no34_app; [reflexivity|]. apply no34_app; [now apply no34_q|]. apply no34_app; [reflexivity|].
    apply no34_app; [apply no34_num|]. apply no34_app; [reflexivity|apply no34_num]. }
  destruct (split_words_plain _ 4 D v 1 z D34 (all_true _) Ev (proj1 (Nat.ltb_lt 1 4) eq_refl) Ez) as [Wz _].
  set (d0 := mk_descr (lit "A") dx dy (ds_title d) (ds_date d) (ds_rev d) (ds_comp d) (ds_comment1 d) (ds_comment2 d) (ds_comment3 d) (ds_comment4 d) (ds_sheet d) (ds_count d)).
  exists (mk_descr z dx dy (ds_title d) (ds_date d) (ds_rev d) (ds_comp d) (ds_comment1 d) (ds_comment2 d) (ds_comment3 d) (ds_comment4 d) (ds_sheet d) (ds_count d)).
  split.
  - assert (Dok : descr_ok d0 = true).
    { unfold descr_ok, d0. cbn [ds_size ds_dimx ds_dimy ds_sheet ds_count ds_title ds_date ds_rev ds_comp ds_comment1 ds_comment2 ds_comment3 ds_comment4 forallb].
      rewrite (i64_from_ok _ _ Ex), (i64_from_ok _ _ Ey). repeat match goal with H : ?x = true |- context [?x] => rewrite H end. reflexivity. }
    pose proof (rt_description d0 r Dok) as RT. unfold parse_description in RT.
    change (here (print_description d0 ++ r)) with (Ok (lit "$Descr " ++ lit "A" ++ bl ++ show_Z dx ++ bl ++ show_Z dy)) in RT. cbn [bind] in RT.
    rewrite spl_descr in RT by (reflexivity || apply word_num). cbn [bind idx nth_error] in RT.
    rewrite (i64_show dx), (i64_show dy) in RT by (eapply i64_from_ok; eassumption). cbn [bind] in RT.
    change (next (next (print_description d0 ++ r))) with (next (next (print_description d ++ r))) in RT.
    revert RT H. generalize (next (next (print_description d ++ r))). intros q.
    repeat match goal with
      | |- bind ?e _ = _ -> _ => destruct e; cbn [bind]; try discriminate
      | |- (if ?b then _ else _) = _ -> _ => destruct b; try discriminate
      end.
    unfold d0. intros RT H. injection RT as ? ? ? ? ? ? ? ? ? ? ?. subst. injection H as <-. match goal with E : next _ = _ |- _ => rewrite E end. reflexivity.
  - intros E. apply (f_equal ds_size) in E. cbn [ds_size] in E. subst z.
    unfold descr_ok. rewrite Wz, quotable_nl by assumption. unfold descr_pre in Hp'. bsplit.
    repeat match goal with H : forallb _ _ = true |- _ => rewrite H end. reflexivity.
Qed.

(** ** The elements *)
Definition with_text (t : stext) (b : str) : stext :=
  mk_stext (te_t t) (te_x t) (te_y t) (te_orient t) (te_size t) (te_shape t) (te_italic t) (te_thickness t) b.
Lemma text_swap h a b r t q : parse_text (h :: a :: r) = Ok (t, q) -> parse_text (h :: b :: r) = Ok (with_text t b, b :: r).
Proof.
  unfold parse_text, next. cbn [here bind tl].
  repeat match goal with
    | |- bind ?e _ = _ -> _ => destruct e; cbn [bind]; try discriminate
    | |- (if ?b then _ else _) = _ -> _ => destruct b; try discriminate
    end.
  intros H. injection H as <- <-. reflexivity.
Qed.
Lemma text_frame t r : forallb i64_ok [te_x t; te_y t; te_orient t; te_size t; te_thickness t]
    && match te_t t, te_shape t with (TNote | TLabel), None => true | (TGlobal | THier), Some s => ws_word s | _, _ => false end = true ->
  parse_text (print_text t ++ r) = Ok (t, te_text t :: r).
Proof.
  intros H. assert (O : stext_ok (with_text t []) = true).
  { unfold stext_ok, with_text. cbn [te_t te_x te_y te_orient te_size te_shape te_italic te_thickness te_text]. rewrite H. reflexivity. }
  pose proof (rt_text _ r O) as RT. unfold print_text, with_text in RT. cbn [te_t te_x te_y te_orient te_size te_shape te_italic te_thickness te_text app] in RT.
  apply (text_swap _ _ (te_text t)) in RT. unfold print_text. cbn [app]. rewrite RT. destruct t; reflexivity.
Qed.
Lemma elem_exact e c r x : selement_pre e = true -> round (map strip_cr (print_selement e) ++ r) c = Ok x ->
  exists e' l, x = (with_element c e', l :: r) /\ (e' = e -> selement_ok e = true).
Proof.
  intros Hp H.
  assert (Same : selement_ok e = true -> exists e' l, x = (with_element c e', l :: r) /\ (e' = e -> selement_ok e = true)).
  { intros O. rewrite strip_all in H by now apply ends_element. destruct (rt_element e c r O) as (l & E). exists e, l. split; [|now intros _]. rewrite E in H. now injection H as <-. }
  destruct e as [k|w|k|k|t|s]; cbn [selement_pre selement_ok] in *; try (apply Same; exact Hp); clear Same; cbn [print_selement] in H.
  - unfold round in H. replace (here (map strip_cr (print_component k) ++ r)) with (Ok (lit "$Comp")) in H by reflexivity. cbn [bind] in H.
    change (first_word (lit "$Comp")) with (Some (lit "$Comp")) in H. cbv iota in H.
    change (seq (lit "$Comp") "$Descr") with false in H. change (seq (lit "$Comp") "$Comp") with true in H. cbv iota in H.
    destruct (parse_component (map strip_cr (print_component k) ++ r)) as [y| |] eqn:E; try discriminate. cbn [bind] in H.
    destruct (comp_exact k r y Hp E) as (k' & -> & O). exists (SComponent k'). eexists. split; [now injection H as <-|]. intros [= ->]. now apply O.
  - apply andb_prop in Hp as [Hp Hn]. set (t1 := with_text t (strip_cr (te_text t))).
    assert (E : map strip_cr (print_text t) = print_text t1).
    { unfold print_text, t1, with_text. cbn [te_t te_x te_y te_orient te_size te_shape te_italic te_thickness te_text map]. rewrite strip_line; [reflexivity|].
      assert (Q : stext_ok (with_text t []) = true).
      { unfold stext_ok, with_text. cbn [te_t te_x te_y te_orient te_size te_shape te_italic te_thickness te_text]. rewrite Hp. reflexivity. }
      pose proof (ends_element (SText (with_text t [])) Q) as L. cbn [print_selement] in L. unfold print_text, with_text in L.
      cbn [te_t te_x te_y te_orient te_size te_shape te_italic te_thickness te_text forallb] in L. now apply andb_prop in L as [L _]. }
    rewrite E in H. unfold round in H.
    set (X := show_text_type (te_t t1) ++ bl ++ pad_right 4 (show_Z (te_x t1)) ++ bl ++ pad_right 4 (show_Z (te_y t1)) ++ bl
   ++ pad_right 4 (show_Z (te_orient t1)) ++ bl ++ pad_right 4 (show_Z (te_size t1)) ++ bl
   ++ match te_shape t1 with Some s => s ++ bl | None => [] end
   ++ lit (if te_italic t1 then "Italic" else "~") ++ bl ++ show_Z (te_thickness t1)).
    replace (here (print_text t1 ++ r)) with (Ok (lit "Text " ++ X)) in H by reflexivity. cbn [bind] in H.
    replace (first_word (lit "Text " ++ X)) with (Some (lit "Text")) in H by (symmetry; exact (first_word_cons (lit "Text") X eq_refl)).
    match type of H with ?l = _ => assert (F : l = do dp <- parse_text (print_text t1 ++ r); Ok (with_element c (SText (fst dp)), snd dp)) by reflexivity end.
    rewrite F, text_frame in H by exact Hp. clear F. cbn [bind fst snd] in H. exists (SText t1), (te_text t1). split; [now injection H as <-|].
    intros [= E']. unfold stext_ok. rewrite Hp. cbn [andb]. apply line_ok_split; [assumption|]. apply strip_same.
    apply (f_equal te_text) in E'. exact E'.
  - apply andb_prop in Hp as [Hn Hw]. cbn [map app] in H.
    assert (E : round (strip_cr s :: r) c = Ok (with_element c (SOther (strip_cr s)), strip_cr s :: r)).
    { assert (R : exists w, first_word (strip_cr s) = Some w /\ forallb (fun k => negb (str_eqb w (lit k))) keywords = true).
      { unfold first_word. rewrite split_ws_strip. destruct (split_ws s) as [|w l]; [discriminate|]. now exists w. }
      destruct R as (w & R1 & R2). unfold round. cbn [here bind]. rewrite R1. unfold keywords in R2. cbn [forallb] in R2. bsplit.
      unfold seq. repeat match goal with Q : negb ?b = true |- _ => apply negb_true_iff in Q; rewrite Q end. reflexivity. }
    rewrite E in H. injection H as <-. exists (SOther (strip_cr s)). eexists. split; [reflexivity|]. intros [= E']. unfold other_ok.
    rewrite line_ok_split; [|assumption|now apply strip_same]. exact Hw.
Qed.

(** ** The whole file *)
Lemma all_ok {A} (ok : A -> bool) es : Forall2 (fun e e' => e' = e -> ok e = true) es es -> forallb ok es = true.
Proof. induction es as [|e es IH]; intros H; [reflexivity|]. inversion H; subst. cbn [forallb]. rewrite IH by assumption. now rewrite andb_true_r; auto. Qed.
Lemma strip_ne (l : list str) : l <> [] -> map strip_cr l <> [].
Proof. destruct l; [auto|discriminate]. Qed.
Lemma exact_elements es : forall n c r s, forallb selement_pre es = true ->
  (length (map strip_cr (flat_map print_selement es) ++ r) <= n)%nat -> main_loop n (map strip_cr (flat_map print_selement es) ++ r) c = Ok s ->
  exists m es', Forall2 (fun e e' => e' = e -> selement_ok e = true) es es' /\ (length r <= m)%nat /\
    main_loop m r (mk_sch (sc_filename c) (sc_libraries c) (sc_description c) (sc_elements c ++ es') (sc_sheets c) (sc_eelayer c)) = Ok s.
Proof.
  induction es as [|e es IH]; intros n c r s H Hn Hs; cbn [flat_map map app] in *.
  - exists n, []. split; [constructor|]. split; [assumption|]. rewrite app_nil_r. destruct c; exact Hs.
  - cbn [forallb] in H. apply andb_prop in H as [H1 H2].
    rewrite map_app, <- app_assoc in Hn, Hs. pose proof (strip_ne _ (print_ne e)) as Ne. rewrite app_length in Hn.
    destruct n as [|n]; [destruct (map strip_cr (print_selement e)); [contradiction|cbn in Hn; lia]|].
    set (p := map strip_cr (flat_map print_selement es) ++ r) in *.
    destruct (round (map strip_cr (print_selement e) ++ p) c) as [y| |] eqn:E;
      [|destruct (map strip_cr (print_selement e)) as [|a l]; [contradiction|cbn [app main_loop] in Hs, E; rewrite E in Hs; discriminate]..].
    destruct (elem_exact e c p y H1 E) as (e' & l & -> & O).
    rewrite (loop_step n (map strip_cr (print_selement e)) _ c (with_element c e') l p eq_refl Ne E) in Hs.
    destruct (IH n (with_element c e') r s H2) as (m & es' & O' & Hm & E2); [destruct (map strip_cr (print_selement e)); [contradiction|cbn in Hn; fold p; lia]|exact Hs|].
    exists m, (e' :: es'). split; [now constructor|]. split; [assumption|]. rewrite <- E2. cbn. now rewrite <- app_assoc.
Qed.
Lemma exact_sheets es : forall n c r s, forallb sheet_pre es = true -> forallb few_labels es = true ->
  (length (map strip_cr (flat_map print_sheet es) ++ r) <= n)%nat -> main_loop n (map strip_cr (flat_map print_sheet es) ++ r) c = Ok s ->
  exists m es', Forall2 (fun e e' => e' = e -> sheet_ok e = true) es es' /\ (length r <= m)%nat /\
    main_loop m r (mk_sch (sc_filename c) (sc_libraries c) (sc_description c) (sc_elements c) (sc_sheets c ++ es') (sc_eelayer c)) = Ok s.
Proof.
  induction es as [|e es IH]; intros n c r s H HF Hn Hs; cbn [flat_map map app] in *.
  - exists n, []. split; [constructor|]. split; [assumption|]. rewrite app_nil_r. destruct c; exact Hs.
  - cbn [forallb] in H, HF. apply andb_prop in H as [H1 H2]. apply andb_prop in HF as [F1 F2].
    rewrite map_app, <- app_assoc in Hn, Hs. assert (Ne : map strip_cr (print_sheet e) <> []) by discriminate. rewrite app_length in Hn.
    destruct n as [|n]; [cbn in Hn; lia|].
    set (p := map strip_cr (flat_map print_sheet es) ++ r) in *.
    destruct (round (map strip_cr (print_sheet e) ++ p) c) as [y| |] eqn:E;
      [|destruct (map strip_cr (print_sheet e)) as [|a l]; [contradiction|cbn [app main_loop] in Hs, E; rewrite E in Hs; discriminate]..].
    assert (A : exists e' l, y = (with_sheet c e', l :: p) /\ (e' = e -> sheet_ok e = true)).
    { unfold round in E. replace (here (map strip_cr (print_sheet e) ++ p)) with (Ok (lit "$Sheet")) in E by reflexivity. cbn [bind] in E.
      change (first_word (lit "$Sheet")) with (Some (lit "$Sheet")) in E. cbv iota in E.
      change (seq (lit "$Sheet") "$Descr") with false in E. change (seq (lit "$Sheet") "$Comp") with false in E. change (seq (lit "$Sheet") "$Sheet") with true in E. cbv iota in E.
      destruct (parse_sheet (map strip_cr (print_sheet e) ++ p)) as [z| |] eqn:Ez; try discriminate. cbn [bind] in E.
      destruct (sheet_exact e p z H1 F1 Ez) as (e' & -> & O). exists e'. eexists. split; [now injection E as <-|exact O]. }
    destruct A as (e' & l & -> & O).
    rewrite (loop_step n (map strip_cr (print_sheet e)) _ c (with_sheet c e') l p eq_refl Ne E) in Hs.
    destruct (IH n (with_sheet c e') r s H2 F2) as (m & es' & O' & Hm & E2); [cbn in Hn; fold p; lia|exact Hs|].
    exists m, (e' :: es'). split; [now constructor|]. split; [assumption|]. rewrite <- E2. cbn. now rewrite <- app_assoc.
Qed.
Lemma strip_libs l : map strip_cr (map (fun v => lit "LIBS:" ++ v) l) = map (fun v => lit "LIBS:" ++ v) (map strip_cr l).
Proof. rewrite !map_map. apply map_ext. intros v. now apply strip_after. Qed.
Lemma exact_lines s : sch_pre s = true -> forallb few_labels (sc_sheets s) = true ->
  parse_lines (sc_filename s) (map strip_cr (sch_lines s)) = Ok s -> sch_ok s = true.
Proof.
  intros Hp HF H. unfold sch_pre in Hp. bsplit.
  assert (HE : starts_with (lit "EELAYER ") (strip_cr (sc_eelayer s)) = true).
  { match goal with E : starts_with _ _ = true |- _ => apply starts_with_iff in E as (e & ->) end.
    rewrite strip_after by reflexivity. apply starts_with_iff. eauto. }
  unfold parse_lines, sch_lines in H. rewrite !map_app, strip_libs in H. cbn [app map assume_line] in H.
  change (strip_cr (lit "EESchema Schematic File Version 2")) with (lit "EESchema Schematic File Version 2") in H.
  change (strip_cr (lit "EELAYER END")) with (lit "EELAYER END") in H. change (strip_cr (lit "$EndSCHEMATC")) with (lit "$EndSCHEMATC") in H.
  change (seq (lit "EESchema Schematic File Version 2") "EESchema Schematic File Version 2") with true in H. cbn [bind] in H.
  rewrite libs_rt in H by assumption. cbn [here bind] in H. rewrite HE in H. cbn [negb next tl assume_line] in H.
  change (seq (lit "EELAYER END") "EELAYER END") with true in H. cbn [bind] in H.
  match type of H with main_loop (length ?P) ?P ?c = _ => set (p := P) in H; remember (length p) as n eqn:En; set (c0 := c) in H end.
  destruct n as [|n]; [discriminate|].
  set (R := map strip_cr (flat_map print_selement (sc_elements s)) ++ map strip_cr (flat_map print_sheet (sc_sheets s)) ++ [lit "$EndSCHEMATC"]) in p.
  assert (Ne : map strip_cr (print_description (sc_description s)) <> []) by discriminate.
  destruct (round p c0) as [y| |] eqn:E; [|unfold p, print_description in H, E; cbn [app map main_loop] in H, E; rewrite E in H; discriminate..].
  assert (A : exists d' l, y = (with_description c0 d', l :: R) /\ (d' = sc_description s -> descr_ok (sc_description s) = true)).
  { unfold p in E. pose proof E as E'. rewrite descr_lines in E' by assumption. unfold round in E'. set (X := ds_size (sc_description s) ++ bl ++ show_Z (ds_dimx (sc_description s)) ++ bl ++ show_Z (ds_dimy (sc_description s))).
    replace (here (print_description (sc_description s) ++ R)) with (Ok (lit "$Descr " ++ X)) in E' by reflexivity. cbn [bind] in E'.
    replace (first_word (lit "$Descr " ++ X)) with (Some (lit "$Descr")) in E' by (symmetry; exact (first_word_cons (lit "$Descr") X eq_refl)).
    change (seq (lit "$Descr") "$Descr") with true in E'. cbv iota in E'.
    destruct (parse_description (print_description (sc_description s) ++ R)) as [z| |] eqn:Ez; try discriminate; cbn [bind] in E'.
    rewrite <- (descr_lines (sc_description s)) in Ez by assumption.
    destruct (descr_exact (sc_description s) R z ltac:(assumption) Ez) as (d' & -> & O).
    exists d'. eexists. split; [now injection E' as <-|exact O]. }
  destruct A as (d' & l & -> & Od).
  rewrite (loop_step n _ p _ _ l R eq_refl Ne E) in H. unfold R in H.
  destruct (exact_elements (sc_elements s) n (with_description c0 d') (map strip_cr (flat_map print_sheet (sc_sheets s)) ++ [lit "$EndSCHEMATC"]) s
    ltac:(assumption)) as (m & es' & Oe & Hm & E2); [|exact H|].
  { unfold p, R in En. rewrite app_length in En. cbn [print_description length map] in En. clear - En. lia. }
  match type of E2 with main_loop m _ ?c = _ => destruct (exact_sheets (sc_sheets s) m c [lit "$EndSCHEMATC"] s ltac:(assumption) HF Hm E2)
    as (m' & ss' & Os & Hm' & E3) end.
  destruct m' as [|m']; [clear - Hm'; cbn in Hm'; lia|]. cbn [main_loop] in E3.
  unfold round in E3. cbn [here bind] in E3. change (first_word (lit "$EndSCHEMATC")) with (Some (lit "$EndSCHEMATC")) in E3. cbv iota in E3.
  change (seq (lit "$EndSCHEMATC") "$Descr") with false in E3. change (seq (lit "$EndSCHEMATC") "$Comp") with false in E3.
  change (seq (lit "$EndSCHEMATC") "$Sheet") with false in E3. change (seq (lit "$EndSCHEMATC") "$EndSCHEMATC") with true in E3. cbv iota in E3.
  cbn [bind fst snd next tl] in E3.
  assert (E4 : mk_sch (sc_filename s) (map strip_cr (sc_libraries s)) d' es' ss' (strip_cr (sc_eelayer s)) = s).
  { destruct m'; cbn in E3; now injection E3 as E3. }
  assert (G1 := f_equal sc_libraries E4). assert (G2 := f_equal sc_description E4). assert (G3 := f_equal sc_elements E4).
  assert (G4 := f_equal sc_sheets E4). assert (G5 := f_equal sc_eelayer E4). cbn [sc_libraries sc_description sc_elements sc_sheets sc_eelayer] in G1, G2, G3, G4, G5.
  clear E4 E3 E2 H. subst es' ss'. apply all_ok in Oe, Os. unfold sch_ok. rewrite Oe, Os, (Od G2), !andb_true_r. apply strip_map in G1. apply strip_same in G5.
  apply andb_true_intro; split; [apply andb_true_intro; split|]; [|assumption|now apply line_ok_split].
  rewrite forallb_forall in *. intros v Hv. apply line_ok_split; auto.
Qed.
Theorem survive_schematic s : forallb few_labels (sc_sheets s) = true ->
  parse_schematic (sc_filename s) (print_schematic s) = Ok s <-> sch_ok s = true.
Proof.
  intros HF. split; [|apply rt_schematic]. intros H. pose proof (parse_pre _ _ _ H) as [Hp _].
  unfold parse_schematic, print_schematic in H. rewrite unlines_concat, lines_strip in H by now apply nl_sch. now apply exact_lines.
Qed.
