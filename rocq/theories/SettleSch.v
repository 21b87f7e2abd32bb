(** Saving a schematic twice settles it (lemmas for C63). *)
From Coq Require Import String Lia.
From Verif Require Import Base Str StrFacts Num NumFacts F64 F64Text F64Facts LibFns LibSpec LibFacts SchData SchPrint SchParse SchWf SchLine SchFacts SchEnds SchReread.
Open Scope string_scope. Open Scope list_scope.

Definition no13 (s : str) : bool := forallb (fun c => negb (c =? 13)%N) s.
Definition no34 (s : str) : bool := forallb (fun c => negb (c =? 34)%N) s.

(** ** Words of a line without quotes *)
Definition plain_s (s : str) : bool := forallb (fun c => negb (N.eqb c 34 || N.eqb c 32)) s.
Definition pl_inv (P : N -> Prop) (n : option nat) (st : sp) : Prop :=
  sp_i st = length (sp_v st) /\ Forall (fun w => word_str w = true /\ Forall P w) (sp_v st) /\ Forall P (sp_s st)
  /\ sp_inside st = false /\ sp_seen st = false /\ (limit n (sp_i st) -> plain_s (sp_s st) = true)
  /\ (match n with Some k => (sp_i st <= k)%nat | None => True end).
Lemma pl_step P n st c : pl_inv P n st -> c <> 34%N -> P c -> pl_inv P n (sp_step n st c).
Proof.
  destruct st as [i v ins seen s]. intros (H1 & H2 & H3 & H4 & H5 & H6 & H7) Hc HP. cbn [sp_i sp_v sp_s sp_inside sp_seen] in *. subst ins seen.
  assert (F : Forall P (s ++ [c])) by (apply Forall_app; split; [assumption|constructor; [assumption|constructor]]).
  unfold sp_step. destruct (match n with Some k => Nat.eqb i k | None => false end) eqn:E.
  - destruct n as [k|]; [|discriminate]. apply Nat.eqb_eq in E. subst k.
    refine (conj H1 (conj H2 (conj F (conj eq_refl (conj eq_refl (conj _ H7)))))). cbn [limit sp_i]. lia.
  - assert (L : limit n i).
    { destruct n as [k|]; [|exact I]. apply Nat.eqb_neq in E. cbn [limit]. lia. }
    specialize (H6 L). apply N.eqb_neq in Hc. rewrite Hc. cbn [negb andb].
    destruct (c =? 32)%N eqn:E32.
    + destruct s as [|x s]; cbn [is_empty negb orb].
      * unfold pl_inv. cbn [sp_i sp_v sp_s sp_inside sp_seen]. auto 10.
      * unfold pl_inv. cbn [sp_i sp_v sp_s sp_inside sp_seen].
        split; [rewrite app_length; cbn; lia|]. split; [apply Forall_app; split; [assumption|constructor; [split; [exact H6|exact H3]|constructor]]|].
        split; [constructor|]. split; [reflexivity|]. split; [reflexivity|]. split; [reflexivity|].
        destruct n; [cbn [limit] in L; lia|exact I].
    + unfold pl_inv. cbn [sp_i sp_v sp_s sp_inside sp_seen].
      refine (conj H1 (conj H2 (conj F (conj eq_refl (conj eq_refl (conj _ H7)))))).
      intros _. unfold plain_s in *. rewrite forallb_app, H6. cbn [forallb]. now rewrite Hc, E32.
Qed.
Lemma pl_fold P n s : forall st, no34 s = true -> Forall P s -> pl_inv P n st -> pl_inv P n (fold_left (sp_step n) s st).
Proof.
  induction s as [|c s IH]; intros st Hs HP Hi; [exact Hi|]. cbn [fold_left]. unfold no34 in Hs. cbn [forallb] in Hs.
  apply andb_prop in Hs as [Hc Hs]. apply negb_true_iff, N.eqb_neq in Hc. inversion HP; subst. apply IH; [assumption..|]. now apply pl_step.
Qed.
Lemma split_plain_int P n s v k w : no34 s = true -> Forall P s -> split_quote_aware_int n s = Ok v -> limit n k -> idx v k = Ok w ->
  word_str w = true /\ Forall P w.
Proof.
  intros Hs HP H Hk Hw. unfold split_quote_aware_int in H.
  assert (I0 : pl_inv P n (mk_sp 0 [] false false [])).
  { unfold pl_inv. cbn [sp_i sp_v sp_s sp_inside sp_seen length]. repeat split; try constructor. destruct n; [lia|exact I]. }
  pose proof (pl_fold P n s _ Hs HP I0) as I. set (st := fold_left _ _ _) in *.
  destruct I as (I1 & I2 & I3 & I4 & I5 & I6 & I7). rewrite I5, orb_false_r in H.
  set (u := if negb (is_empty (sp_s st)) then _ else _) in H.
  assert (Hu : u = v) by (destruct n; [destruct (Nat.ltb _ _); [discriminate|]|]; now injection H). subst v. unfold u in Hw. clear u H.
  unfold idx in Hw. destruct (nth_error _ k) eqn:E in Hw; [|discriminate]. injection Hw as ->.
  destruct (sp_s st) as [|x t] eqn:Es; cbn [is_empty negb] in E.
  - apply nth_error_In in E. rewrite Forall_forall in I2. auto.
  - destruct (Nat.lt_ge_cases k (length (sp_v st))) as [L|L].
    + rewrite nth_error_app1 in E by assumption. apply nth_error_In in E. rewrite Forall_forall in I2. auto.
    + rewrite nth_error_app2 in E by assumption. destruct (k - length (sp_v st))%nat as [|q] eqn:Eq; [|destruct q; discriminate].
      injection E as <-. split; [|assumption]. unfold word_str. cbn [is_empty negb andb]. apply I6.
      assert (k = sp_i st) by lia. now subst k.
Qed.
Lemma split_words_plain P n s v k w : no34 s = true -> Forall P s -> split_quote_aware_n n s = Ok v -> (k < n)%nat -> idx v k = Ok w ->
  word_str w = true /\ Forall P w.
Proof. intros Hs HP H Hk Hw. exact (split_plain_int P (Some n) s v k w Hs HP H Hk Hw). Qed.
Lemma split_all_plain P s v : no34 s = true -> Forall P s -> split_quote_aware s = Ok v -> Forall (fun w => word_str w = true /\ Forall P w) v.
Proof.
  intros Hs HP H. apply Forall_forall. intros w Hw. apply In_nth_error in Hw as (k & E).
  apply (split_plain_int P None s v k w Hs HP H Logic.I). unfold idx. now rewrite E.
Qed.

(** Characters that may stand in a line that is written and read back *)
Definition lc (c : N) : Prop := c <> 10%N /\ c <> 13%N.
Lemma lc_of s : no_nl s = true -> no13 s = true -> Forall lc s.
Proof.
  unfold no_nl, no13. rewrite !forallb_forall. intros H1 H2. apply Forall_forall. intros c Hc. specialize (H1 c Hc). specialize (H2 c Hc).
  apply negb_true_iff, N.eqb_neq in H1, H2. now split.
Qed.
Lemma lc_line s : Forall lc s -> line_ok s = true.
Proof.
  intros H. rewrite Forall_forall in H. unfold line_ok. apply andb_true_intro; split.
  - unfold no_nl. rewrite forallb_forall. intros c Hc. apply negb_true_iff, N.eqb_neq. now apply H.
  - apply negb_true_iff, N.eqb_neq. destruct s as [|c s]; [discriminate|]. apply H, last_in. discriminate.
Qed.
Lemma line13 s : no_nl s = true -> no13 s = true -> line_ok s = true.
Proof. intros. now apply lc_line, lc_of. Qed.
Lemma no34_app a b : no34 a = true -> no34 b = true -> no34 (a ++ b) = true.
Proof. unfold no34. rewrite forallb_app. now intros -> ->. Qed.
Lemma no34_q a : quotable a = true -> no34 a = true.
Proof. unfold quotable. intros H. now apply andb_prop in H as [H _]. Qed.
Lemma no34_num z : no34 (show_Z z) = true.
Proof. pose proof (word_num z) as H. unfold word_str in H. apply andb_prop in H as [_ H]. unfold no34. rewrite forallb_forall in *.
  intros c Hc. specialize (H c Hc). apply negb_true_iff, orb_false_elim in H as [H _]. now rewrite H. Qed.

(** ** Components *)
Definition norm_field (f : cfield) : cfield :=
  mk_cfield (cf_i f) (cf_value f) (cf_orient f) (cf_x f) (cf_y f) (cf_size f) (cf_visible f) (cf_hjust f) (cf_vjust f) (cf_italic f) (cf_bold f)
    (if (3 <? cf_i f)%Z then cf_name f else field_name (cf_i f)).
Lemma norm_print f : print_field (norm_field f) = print_field f.
Proof. unfold print_field, norm_field. cbn [cf_i cf_value cf_orient cf_x cf_y cf_size cf_visible cf_hjust cf_vjust cf_italic cf_bold cf_name]. destruct (3 <? cf_i f)%Z; reflexivity. Qed.
Lemma field_name_q i : quotable (field_name i) = true.
Proof. unfold field_name. destruct i as [|p|p]; try reflexivity. destruct p as [p|p|]; try reflexivity; destruct p; reflexivity. Qed.
Lemma norm_ok f : cfield_pre f = true -> (0 <=? cf_i f)%Z = true -> cfield_ok (norm_field f) = true.
Proof.
  unfold cfield_pre, cfield_ok, norm_field. cbn [cf_i cf_value cf_size cf_name]. intros H H0. bsplit. rewrite H0.
  repeat match goal with H : ?x = true |- context [?x] => rewrite H end.
  destruct (3 <? cf_i f)%Z; cbn [andb orb]; [now rewrite andb_true_r|]. now rewrite field_name_q, str_eqb_refl.
Qed.
Lemma fields_nonneg fs r : forall d x, forallb cfield_pre fs = true -> component_loop (map print_field fs ++ r) d = Ok x ->
  forallb (fun f => (0 <=? cf_i f)%Z) fs = true.
Proof.
  induction fs as [|f fs IH]; intros d x H Hx; [reflexivity|]. cbn [forallb map app] in *. apply andb_prop in H as [H1 H2].
  cbn [component_loop] in Hx. change (seq (print_field f) "$EndComp") with false in Hx.
  assert (W : forall k, word_is (print_field f) k = str_eqb (lit "F") (lit k)) by (intros k; apply (word_is_lead "F"); reflexivity).
  unfold component_line in Hx. rewrite !W in Hx.
  change (str_eqb (lit "F") (lit "1") || str_eqb (lit "F") (lit "0")) with false in Hx.
  change (str_eqb (lit "F") (lit "L")) with false in Hx. change (str_eqb (lit "F") (lit "U")) with false in Hx.
  change (str_eqb (lit "F") (lit "P")) with false in Hx. change (str_eqb (lit "F") (lit "F")) with true in Hx. cbn [orb] in Hx.
  unfold cfield_pre in H1. bsplit. rewrite field_split in Hx by assumption. cbn [bind] in Hx.
  destruct (cfield_new _) as [g| |] eqn:E in Hx; try discriminate. cbn [bind] in Hx. rewrite (IH _ _ H2 Hx), andb_true_r.
  unfold cfield_new in E. destruct (3 <? cf_i f)%Z eqn:E3; [apply Z.ltb_lt in E3; apply Z.leb_le; lia|].
  cbn [app length Nat.eqb negb andb idx nth_error bind] in E. rewrite i64_show in E by assumption. cbn [bind] in E.
  destruct (cf_i f); [reflexivity|reflexivity|discriminate].
Qed.
Lemma loop_line' s r d : seq s "$EndComp" = false -> word_is s "1" = false -> word_is s "0" = false ->
  component_loop (s :: r) d = do d' <- component_line s d; component_loop r d'.
Proof. intros H1 H2 H3. cbn [component_loop]. rewrite H1, H2, H3. reflexivity. Qed.

Lemma again_component c r x : component_pre c = true -> forallb no13 (print_component c) = true ->
  parse_component (print_component c ++ r) = Ok x -> exists c', component_ok c' = true /\ x = (c', lit "$EndComp" :: r).
Proof.
  intros Hp H13 H. destruct (pre_comp_inv c Hp) as (P1 & P2 & P3 & P4 & P5 & P6 & P7 & P8 & P9).
  unfold print_component in H13. rewrite !forallb_app in H13. cbn [forallb] in H13. bsplit.
  assert (Har : forallb (fun a => begins "AR" a && line_ok a) (co_ar c) = true).
  { rewrite forallb_forall in *. intros a Ha. specialize (P7 a Ha). apply andb_prop in P7 as [Q1 Q2]. rewrite Q1. apply line13; auto. }
  unfold parse_component, print_component, next in H. rewrite <- !app_assoc in H. cbn [app tl] in H.
  set (L := lit "L " ++ co_name c ++ bl ++ co_reference c) in *.
  assert (WL : forall k, word_is L k = str_eqb (lit "L") (lit k)) by (intros k; exact (word_is_lead "L" (co_name c ++ bl ++ co_reference c) k eq_refl)).
  rewrite loop_line' in H; [|reflexivity|now rewrite WL|now rewrite WL].
  assert (EL : component_line L comp_default = do v <- split_quote_aware_n 3 L; do n <- idx v 1; do r <- idx v 2; Ok (set_l comp_default n r)).
  { unfold component_line. rewrite WL. reflexivity. }
  rewrite EL in H. clear EL. destruct (split_quote_aware_n 3 L) as [v| |] eqn:Ev; try discriminate. cbn [bind] in H.
  destruct (idx v 1) as [n| |] eqn:En; try discriminate. cbn [bind] in H. destruct (idx v 2) as [re| |] eqn:Er; try discriminate. cbn [bind] in H.
  assert (L34 : no34 L = true) by (apply no34_app; [reflexivity|apply no34_app; [now apply no34_q|apply no34_app; [reflexivity|now apply no34_q]]]).
  assert (Llc : Forall lc L).
  { apply lc_of; [|assumption]. apply nl_app; [reflexivity|]. apply nl_app; [now apply quotable_nl|]. apply nl_app; [reflexivity|now apply quotable_nl]. }
  destruct (split_words_plain lc 3 L v 1 n L34 Llc Ev (proj1 (Nat.ltb_lt 1 3) eq_refl) En) as [Wn Fn].
  destruct (split_words_plain lc 3 L v 2 re L34 Llc Ev (proj1 (Nat.ltb_lt 2 3) eq_refl) Er) as [Wr Fr].
  set (c' := mk_comp n re (co_u c) (co_x c) (co_y c) (co_ar c) (map norm_field (co_fields c)) (co_rotation c)).
  exists c'.
  assert (Ok' : forallb cfield_ok (map norm_field (co_fields c)) = true).
  { pose proof H as H'. destruct (cl_u _ (set_l comp_default n re) P3) as (U1 & U2 & U3 & U4).
    rewrite (loop_line _ _ _ _ U1 U2 U3 U4) in H'.
    rewrite (loop_line (lit "P " ++ _) _ _ _ eq_refl (word_is_lead "P" _ _ eq_refl) (word_is_lead "P" _ _ eq_refl)
      (cl_p (co_x c) (co_y c) _ ltac:(assumption) ltac:(assumption))) in H'.
    rewrite line_ars in H' by assumption. apply fields_nonneg in H'; [|assumption].
    rewrite forallb_forall in *. intros g Hg. apply in_map_iff in Hg as (f & <- & Hf). apply norm_ok; auto. }
  assert (Cok : component_ok c' = true).
  { unfold component_ok, c', end_word. cbn [co_name co_reference co_u co_x co_y co_ar co_fields co_rotation].
    rewrite Wn, Wr, (line_no_nl n), (lc_line re), P3, (line13 (co_u c)), P5, P6, Har, Ok', P9 by (assumption || now apply lc_line). reflexivity. }
  split; [exact Cok|]. pose proof (rt_component c' r Cok) as RT. unfold parse_component, print_component, next in RT. rewrite <- !app_assoc in RT. cbn [app tl] in RT.
  set (L' := lit "L " ++ co_name c' ++ bl ++ co_reference c') in RT.
  assert (WL' : forall k, word_is L' k = str_eqb (lit "L") (lit k)) by (intros k; exact (word_is_lead "L" (n ++ bl ++ re) k eq_refl)).
  rewrite loop_line' in RT; [|reflexivity|now rewrite WL'|now rewrite WL'].
  unfold L' in RT. rewrite cl_l in RT by assumption. cbn [bind c' co_name co_reference co_u co_x co_y co_ar co_fields co_rotation] in RT.
  rewrite map_map in RT. rewrite (map_ext _ _ norm_print) in RT. rewrite RT in H. now injection H as <-.
Qed.

(** ** Sheets *)
Definition few_labels (s : sheet) : bool := (Z.of_nat (length (sh_labels s)) <=? 2 ^ 31 - 3)%Z.
Lemma sheet_loop_line' s r d : seq s "$EndSheet" = false -> sheet_loop (s :: r) d = do d' <- sheet_line s d; sheet_loop r d'.
Proof. intros H. cbn [sheet_loop]. now rewrite H. Qed.
Lemma again_sheet s r x : sheet_pre s = true -> few_labels s = true -> forallb no13 (print_sheet s) = true ->
  parse_sheet (print_sheet s ++ r) = Ok x -> exists s', sheet_ok s' = true /\ x = (s', lit "$EndSheet" :: r).
Proof.
  intros Hp Hf H13 H. unfold sheet_pre in Hp. cbn [forallb] in Hp. bsplit.
  unfold print_sheet in H13. rewrite !forallb_app in H13. cbn [forallb] in H13. bsplit.
  unfold parse_sheet, print_sheet, next in H. rewrite <- !app_assoc in H. cbn [app tl] in H.
  erewrite sheet_loop_line in H; [|reflexivity|apply sheet_s; assumption].
  rewrite sheet_loop_line' in H by reflexivity.
  set (s0 := mk_sheet (sh_x s) (sh_y s) (sh_dimx s) (sh_dimy s) _ _ _ _ _ _) in H.
  set (U := lit "U " ++ sh_unique s) in *.
  assert (EU : sheet_line U s0 = do v <- split_quote_aware_n 2 U; do u <- idx v 1;
      Ok (mk_sheet (sh_x s0) (sh_y s0) (sh_dimx s0) (sh_dimy s0) u (sh_name s0) (sh_name_size s0) (sh_filename s0) (sh_filename_size s0) (sh_labels s0))).
  { unfold sheet_line. replace (first_word U) with (Some (lit "U")) by (symmetry; exact (first_word_cons (lit "U") (sh_unique s) eq_refl)). reflexivity. }
  rewrite EU in H. clear EU. destruct (split_quote_aware_n 2 U) as [v| |] eqn:Ev; try discriminate. cbn [bind] in H.
  destruct (idx v 1) as [u| |] eqn:Eu; try discriminate. cbn [bind] in H.
  assert (U34 : no34 U = true) by (apply no34_app; [reflexivity|now apply no34_q]).
  assert (Ulc : Forall lc U) by (apply lc_of; [apply nl_app; [reflexivity|now apply quotable_nl]|assumption]).
  destruct (split_words_plain lc 2 U v 1 u U34 Ulc Ev (proj1 (Nat.ltb_lt 1 2) eq_refl) Eu) as [Wu Fu].
  set (s' := mk_sheet (sh_x s) (sh_y s) (sh_dimx s) (sh_dimy s) u (sh_name s) (sh_name_size s) (sh_filename s) (sh_filename_size s) (sh_labels s)).
  exists s'. assert (Sok : sheet_ok s' = true).
  { unfold sheet_ok, s', end_word. cbn [sh_x sh_y sh_dimx sh_dimy sh_unique sh_name sh_name_size sh_filename sh_filename_size sh_labels forallb].
    unfold few_labels in Hf. rewrite Wu, (lc_line u Fu), Hf.
    repeat match goal with H : ?x = true |- context [?x] => rewrite H end. reflexivity. }
  split; [exact Sok|]. pose proof (rt_sheet s' r Sok) as RT. unfold parse_sheet, print_sheet, next in RT. rewrite <- !app_assoc in RT. cbn [app tl] in RT.
  erewrite sheet_loop_line in RT; [|reflexivity|apply sheet_s; assumption].
  erewrite sheet_loop_line in RT; [|reflexivity|apply sheet_u; assumption].
  cbn [s0 s' sh_x sh_y sh_dimx sh_dimy sh_unique sh_name sh_name_size sh_filename sh_filename_size sh_labels] in RT, H.
  rewrite RT in H. now injection H as <-.
Qed.

(** ** The description *)
Lemma again_description d r x : descr_pre d = true -> forallb no13 (print_description d) = true ->
  parse_description (print_description d ++ r) = Ok x -> exists d', descr_ok d' = true /\ x = (d', lit "$EndDescr" :: r).
Proof.
  intros Hp H13 H. unfold descr_pre in Hp. cbn [forallb] in Hp. bsplit.
  unfold print_description in H13. cbn [forallb] in H13. apply andb_prop in H13 as [D13 _].
  set (D := lit "$Descr " ++ ds_size d ++ bl ++ show_Z (ds_dimx d) ++ bl ++ show_Z (ds_dimy d)) in *.
  assert (SP : exists p, print_description d ++ r = D :: p /\ print_description d = D :: tl (print_description d)) by (eexists; split; reflexivity).
  unfold parse_description in H. change (here (print_description d ++ r)) with (Ok D) in H. cbn [bind] in H.
  destruct (split_quote_aware_n 4 D) as [v| |] eqn:Ev; try discriminate. cbn [bind] in H.
  destruct (idx v 1) as [z| |] eqn:Ez; try discriminate. cbn [bind] in H.
  destruct (idx v 2) as [w2| |] eqn:E2; try discriminate. cbn [bind] in H. destruct (i64_from_string w2) as [dx| |] eqn:Ex; try discriminate. cbn [bind] in H.
  destruct (idx v 3) as [w3| |] eqn:E3; try discriminate. cbn [bind] in H. destruct (i64_from_string w3) as [dy| |] eqn:Ey; try discriminate. cbn [bind] in H.
  assert (D34 : no34 D = true).
  { unfold D. apply no34_app; [reflexivity|]. apply no34_app; [now apply no34_q|]. apply no34_app; [reflexivity|].
    apply no34_app; [apply no34_num|]. apply no34_app; [reflexivity|apply no34_num]. }
  assert (Dlc : Forall lc D).
  { apply lc_of; [|assumption]. unfold D. apply nl_app; [reflexivity|]. apply nl_app; [now apply quotable_nl|]. apply nl_app; [reflexivity|].
    apply nl_app; [apply line_no_nl, line_num|]. apply nl_app; [reflexivity|apply line_no_nl, line_num]. }
  destruct (split_words_plain lc 4 D v 1 z D34 Dlc Ev (proj1 (Nat.ltb_lt 1 4) eq_refl) Ez) as [Wz Fz].
  set (d' := mk_descr z dx dy (ds_title d) (ds_date d) (ds_rev d) (ds_comp d) (ds_comment1 d) (ds_comment2 d) (ds_comment3 d) (ds_comment4 d) (ds_sheet d) (ds_count d)).
  exists d'. assert (Dok : descr_ok d' = true).
  { unfold descr_ok, d'. cbn [ds_size ds_dimx ds_dimy ds_sheet ds_count ds_title ds_date ds_rev ds_comp ds_comment1 ds_comment2 ds_comment3 ds_comment4 forallb].
    rewrite Wz, (line_no_nl z (lc_line z Fz)), (i64_from_ok _ _ Ex), (i64_from_ok _ _ Ey).
    repeat match goal with H : ?x = true |- context [?x] => rewrite H end. reflexivity. }
  split; [exact Dok|]. pose proof (rt_description d' r Dok) as RT. unfold parse_description in RT.
  change (here (print_description d' ++ r)) with (Ok (lit "$Descr " ++ z ++ bl ++ show_Z dx ++ bl ++ show_Z dy)) in RT. cbn [bind] in RT.
  rewrite spl_descr in RT by (assumption || apply word_num). cbn [bind idx nth_error] in RT.
  rewrite (i64_show dx), (i64_show dy) in RT by (eapply i64_from_ok; eassumption). cbn [bind] in RT.
  change (next (next (print_description d' ++ r))) with (next (next (print_description d ++ r))) in RT.
  rewrite RT in H. now injection H as <-.
Qed.

(** ** The whole file *)
Lemma again_element e c r x : selement_pre e = true -> forallb no13 (print_selement e) = true ->
  round (print_selement e ++ r) c = Ok x -> exists e' l, selement_ok e' = true /\ x = (with_element c e', l :: r).
Proof.
  intros Hp H13 H.
  assert (Same : selement_ok e = true -> exists e' l, selement_ok e' = true /\ x = (with_element c e', l :: r)).
  { intros O. destruct (rt_element e c r O) as (l & E). exists e, l. split; [exact O|]. rewrite E in H. now injection H as <-. }
  destruct e as [k|w|k|k|t|s]; cbn [selement_pre selement_ok] in *; try (apply Same; exact Hp).
  - unfold round in H. cbn [print_selement] in H. unfold print_component at 1 in H. cbn [app here bind] in H.
    change (first_word (lit "$Comp")) with (Some (lit "$Comp")) in H. cbv iota in H.
    change (seq (lit "$Comp") "$Descr") with false in H. change (seq (lit "$Comp") "$Comp") with true in H. cbv iota in H.
    destruct (parse_component (print_component k ++ r)) as [y| |] eqn:E; try discriminate. cbn [bind] in H.
    destruct (again_component k r y Hp H13 E) as (k' & O & ->). exists (SComponent k'). eexists. split; [exact O|]. now injection H as <-.
  - apply Same. unfold stext_ok. bsplit. cbn [print_selement print_text forallb] in H13. bsplit.
    repeat match goal with H : ?x = true |- context [?x] => rewrite H end. cbn [andb]. now apply line13.
  - apply Same. unfold other_ok. bsplit. cbn [print_selement forallb] in H13. bsplit. rewrite line13 by assumption. assumption.
Qed.
Lemma again_elements es : forall n c r s, forallb selement_pre es = true -> forallb no13 (flat_map print_selement es) = true ->
  (length (flat_map print_selement es ++ r) <= n)%nat -> main_loop n (flat_map print_selement es ++ r) c = Ok s ->
  exists m es', forallb selement_ok es' = true /\ (length r <= m)%nat /\
    main_loop m r (mk_sch (sc_filename c) (sc_libraries c) (sc_description c) (sc_elements c ++ es') (sc_sheets c) (sc_eelayer c)) = Ok s.
Proof.
  induction es as [|e es IH]; intros n c r s H H13 Hn Hs; cbn [flat_map app] in *.
  - exists n, []. split; [reflexivity|]. split; [assumption|]. rewrite app_nil_r. destruct c; exact Hs.
  - cbn [forallb] in H. apply andb_prop in H as [H1 H2]. rewrite forallb_app in H13. apply andb_prop in H13 as [T1 T2].
    rewrite <- app_assoc in Hn, Hs. pose proof (print_ne e) as Ne. rewrite app_length in Hn.
    destruct n as [|n]; [destruct (print_selement e); [contradiction|cbn in Hn; lia]|].
    set (p := flat_map print_selement es ++ r) in *.
    destruct (round (print_selement e ++ p) c) as [y| |] eqn:E;
      [|destruct (print_selement e) as [|a l]; [contradiction|cbn [app main_loop] in Hs, E; rewrite E in Hs; discriminate]..].
    destruct (again_element e c p y H1 T1 E) as (e' & l & O & ->).
    rewrite (loop_step n (print_selement e) _ c (with_element c e') l p eq_refl Ne E) in Hs.
    destruct (IH n (with_element c e') r s H2 T2) as (m & es' & O' & Hm & E2); [destruct (print_selement e); [contradiction|cbn in Hn; fold p; lia]|exact Hs|].
    exists m, (e' :: es'). split; [cbn [forallb]; now rewrite O, O'|]. split; [assumption|]. rewrite <- E2. cbn. now rewrite <- app_assoc.
Qed.
Lemma again_sheets es : forall n c r s, forallb sheet_pre es = true -> forallb few_labels es = true -> forallb no13 (flat_map print_sheet es) = true ->
  (length (flat_map print_sheet es ++ r) <= n)%nat -> main_loop n (flat_map print_sheet es ++ r) c = Ok s ->
  exists m es', forallb sheet_ok es' = true /\ (length r <= m)%nat /\
    main_loop m r (mk_sch (sc_filename c) (sc_libraries c) (sc_description c) (sc_elements c) (sc_sheets c ++ es') (sc_eelayer c)) = Ok s.
Proof.
  induction es as [|e es IH]; intros n c r s H HF H13 Hn Hs; cbn [flat_map app] in *.
  - exists n, []. split; [reflexivity|]. split; [assumption|]. rewrite app_nil_r. destruct c; exact Hs.
  - cbn [forallb] in H, HF. apply andb_prop in H as [H1 H2]. apply andb_prop in HF as [F1 F2]. rewrite forallb_app in H13. apply andb_prop in H13 as [T1 T2].
    rewrite <- app_assoc in Hn, Hs. assert (Ne : print_sheet e <> []) by discriminate. rewrite app_length in Hn.
    destruct n as [|n]; [cbn in Hn; lia|].
    set (p := flat_map print_sheet es ++ r) in *.
    destruct (round (print_sheet e ++ p) c) as [y| |] eqn:E;
      [|destruct (print_sheet e) as [|a l]; [contradiction|cbn [app main_loop] in Hs, E; rewrite E in Hs; discriminate]..].
    assert (A : exists e' l, sheet_ok e' = true /\ y = (with_sheet c e', l :: p)).
    { unfold round in E. unfold print_sheet at 1 in E. cbn [app here bind] in E.
      change (first_word (lit "$Sheet")) with (Some (lit "$Sheet")) in E. cbv iota in E.
      change (seq (lit "$Sheet") "$Descr") with false in E. change (seq (lit "$Sheet") "$Comp") with false in E. change (seq (lit "$Sheet") "$Sheet") with true in E. cbv iota in E.
      destruct (parse_sheet (print_sheet e ++ p)) as [z| |] eqn:Ez; try discriminate. cbn [bind] in E.
      destruct (again_sheet e p z H1 F1 T1 Ez) as (e' & O & ->). exists e'. eexists. split; [exact O|]. now injection E as <-. }
    destruct A as (e' & l & O & ->).
    rewrite (loop_step n (print_sheet e) _ c (with_sheet c e') l p eq_refl Ne E) in Hs.
    destruct (IH n (with_sheet c e') r s H2 F2 T2) as (m & es' & O' & Hm & E2); [cbn in Hn; fold p; lia|exact Hs|].
    exists m, (e' :: es'). split; [cbn [forallb]; now rewrite O, O'|]. split; [assumption|]. rewrite <- E2. cbn. now rewrite <- app_assoc.
Qed.
Lemma again_lines s s2 : sch_pre s = true -> forallb few_labels (sc_sheets s) = true -> forallb no13 (sch_lines s) = true ->
  parse_lines (sc_filename s) (sch_lines s) = Ok s2 -> sch_ok s2 = true /\ sc_filename s2 = sc_filename s.
Proof.
  intros Hp HF H13 H. unfold sch_pre in Hp. bsplit. unfold sch_lines in H13. rewrite !forallb_app in H13. cbn [forallb] in H13. bsplit.
  unfold parse_lines, sch_lines in H. cbn [app assume_line] in H.
  change (seq (lit "EESchema Schematic File Version 2") "EESchema Schematic File Version 2") with true in H. cbn [bind] in H.
  rewrite libs_rt in H by assumption. cbn [here bind] in H.
  match goal with E : starts_with _ _ = true |- _ => rewrite E in H; pose proof E as HE end. cbn [negb next tl assume_line] in H.
  change (seq (lit "EELAYER END") "EELAYER END") with true in H. cbn [bind] in H.
  match type of H with main_loop (length ?P) ?P ?c = _ => set (p := P) in H; remember (length p) as n eqn:En; set (c0 := c) in H end.
  destruct n as [|n]; [discriminate|].
  set (R := flat_map print_selement (sc_elements s) ++ flat_map print_sheet (sc_sheets s) ++ [lit "$EndSCHEMATC"]) in p.
  assert (Ne : print_description (sc_description s) <> []) by discriminate.
  destruct (round p c0) as [y| |] eqn:E; [|unfold p, print_description in H, E; cbn [app main_loop] in H, E; rewrite E in H; discriminate..].
  assert (A : exists d' l, descr_ok d' = true /\ y = (with_description c0 d', l :: R)).
  { unfold round in E. set (X := ds_size (sc_description s) ++ bl ++ show_Z (ds_dimx (sc_description s)) ++ bl ++ show_Z (ds_dimy (sc_description s))).
    replace (here p) with (Ok (lit "$Descr " ++ X)) in E by reflexivity. cbn [bind] in E.
    replace (first_word (lit "$Descr " ++ X)) with (Some (lit "$Descr")) in E by (symmetry; exact (first_word_cons (lit "$Descr") X eq_refl)).
    change (seq (lit "$Descr") "$Descr") with true in E. cbv iota in E.
    destruct (parse_description p) as [z| |] eqn:Ez; try discriminate; cbn [bind] in E. unfold p in Ez.
    destruct (again_description (sc_description s) R z ltac:(assumption) ltac:(assumption) Ez) as (d' & O & ->).
    exists d'. eexists. split; [exact O|]. now injection E as <-. }
  destruct A as (d' & l & Od & ->).
  rewrite (loop_step n _ p _ _ l R eq_refl Ne E) in H. unfold R in H.
  destruct (again_elements (sc_elements s) n (with_description c0 d') (flat_map print_sheet (sc_sheets s) ++ [lit "$EndSCHEMATC"]) s2
    ltac:(assumption) ltac:(assumption)) as (m & es' & Oe & Hm & E2); [|exact H|].
  { unfold p, R in En. rewrite app_length in En. cbn [print_description length] in En. clear - En. lia. }
  match type of E2 with main_loop m _ ?c = _ => destruct (again_sheets (sc_sheets s) m c [lit "$EndSCHEMATC"] s2 ltac:(assumption) HF ltac:(assumption) Hm E2)
    as (m' & ss' & Os & Hm' & E3) end.
  destruct m' as [|m']; [clear - Hm'; cbn in Hm'; lia|]. cbn [main_loop] in E3.
  unfold round in E3. cbn [here bind] in E3. change (first_word (lit "$EndSCHEMATC")) with (Some (lit "$EndSCHEMATC")) in E3. cbv iota in E3.
  change (seq (lit "$EndSCHEMATC") "$Descr") with false in E3. change (seq (lit "$EndSCHEMATC") "$Comp") with false in E3.
  change (seq (lit "$EndSCHEMATC") "$Sheet") with false in E3. change (seq (lit "$EndSCHEMATC") "$EndSCHEMATC") with true in E3. cbv iota in E3.
  cbn [bind fst snd next tl] in E3.
  assert (E4 : s2 = mk_sch (sc_filename s) (sc_libraries s) d' es' ss' (sc_eelayer s)) .
  { destruct m'; cbn in E3; now injection E3 as <-. }
  subst s2. split; [|reflexivity]. unfold sch_ok. cbn [sc_libraries sc_eelayer sc_description sc_elements sc_sheets].
  rewrite HE, Od, Oe, Os, (line13 (sc_eelayer s)) by assumption. rewrite !andb_true_r.
  rewrite forallb_forall in *. intros v Hv. apply line13; [auto|].
  match goal with Q : forall x, In x (map _ _) -> no13 x = true |- _ => specialize (Q (lit "LIBS:" ++ v) (in_map _ _ _ Hv)) end.
  match goal with Q : no13 (lit "LIBS:" ++ v) = true |- _ => unfold no13 in Q; rewrite forallb_app in Q; now apply andb_prop in Q as [_ Q] end.
Qed.

(** ** Lines *)
Ltac nls := repeat match goal with
  | |- forallb _ [] = true => reflexivity
  | |- forallb _ (_ :: _) = true => cbn [forallb]; apply andb_true_intro; split
  | |- forallb _ (_ ++ _) = true => rewrite forallb_app; apply andb_true_intro; split
  | |- no_nl (_ ++ _) = true => apply nl_app
  | |- _ && true = true => rewrite andb_true_r
  | |- _ && _ = true => apply andb_true_intro; split
  | |- true = true => reflexivity
  | |- no_nl (lit _) = true => reflexivity
  | |- no_nl bl = true => reflexivity
  | |- no_nl tab = true => reflexivity
  | |- no_nl (show_Z _) = true => apply line_no_nl, line_num
  | |- no_nl (f64_to_str _) = true => apply line_no_nl, line_f
  | |- no_nl (pad_right _ _) = true => apply line_no_nl, line_pad
  | |- line_ok (lit _) = true => reflexivity
  | |- line_ok (show_Z _) = true => apply line_num
  | |- line_ok (f64_to_str _) = true => apply line_f
  | |- no_nl (quoted _) = true => apply line_no_nl, line_quoted
  | H : quotable ?s = true |- no_nl ?s = true => now apply quotable_nl
  | H : no_nl ?s = true |- no_nl ?s = true => exact H
  end.
Lemma nl_description d : descr_pre d = true -> forallb no_nl (print_description d) = true.
Proof. intros H. unfold descr_pre in H. cbn [forallb] in H. bsplit. unfold print_description. nls. Qed.
Lemma nl_field f : cfield_pre f = true -> no_nl (print_field f) = true.
Proof.
  intros H. unfold cfield_pre in H. bsplit. unfold print_field. nls.
  all: repeat match goal with |- context [if ?b then _ else _] => destruct b end; nls.
  all: try (destruct (cf_orient f); reflexivity); try (destruct (cf_hjust f); reflexivity); try (destruct (cf_vjust f); reflexivity).
Qed.
Lemma nl_component c : component_pre c = true -> forallb no_nl (print_component c) = true.
Proof.
  intros H. destruct (pre_comp_inv c H) as (P1 & P2 & P3 & P4 & P5 & P6 & P7 & P8 & P9). unfold print_component. nls.
  - rewrite forallb_forall in *. intros x Hx. specialize (P7 x Hx). now apply andb_prop in P7 as [_ P7].
  - rewrite forallb_forall in *. intros x Hx. apply in_map_iff in Hx as (f & <- & Hf). apply nl_field. auto.
Qed.
Lemma nl_labels l i : forallb label_ok l = true -> forallb no_nl (print_labels i l) = true.
Proof.
  revert i. induction l as [|x l IH]; intros i H; [reflexivity|]. cbn [print_labels forallb] in *.
  apply andb_prop in H as [H1 H2]. rewrite IH by assumption. rewrite andb_true_r.
  unfold label_ok in H1. bsplit. unfold print_label. nls; [destruct (sl_form x)|destruct (sl_side x)]; reflexivity.
Qed.
Lemma nl_sheet s : sheet_pre s = true -> forallb no_nl (print_sheet s) = true.
Proof. intros H. unfold sheet_pre in H. bsplit. unfold print_sheet. nls. now apply nl_labels. Qed.
Lemma nl_element e : selement_pre e = true -> forallb no_nl (print_selement e) = true.
Proof.
  intros H. destruct e as [c|w|c|c|t|s]; cbn [selement_pre print_selement] in *.
  - now apply nl_component.
  - unfold print_wire. nls. destruct (wi_t w); reflexivity.
  - unfold print_connection. nls.
  - unfold print_no_connect. nls.
  - bsplit. unfold print_text. nls.
    + destruct (te_t t); reflexivity.
    + destruct (te_shape t); nls; try reflexivity. apply line_no_nl, ws_word_line. destruct (te_t t); (discriminate || assumption).
    + destruct (te_italic t); reflexivity.
  - bsplit. cbn [forallb]. rewrite andb_true_r. assumption.
Qed.
Lemma nl_sch s : sch_pre s = true -> forallb no_nl (sch_lines s) = true.
Proof.
  intros H. unfold sch_pre in H. bsplit. unfold sch_lines. nls.
  - rewrite forallb_forall in *. intros x Hx. apply in_map_iff in Hx as (v & <- & Hv). nls. auto.
  - now apply nl_description.
  - rewrite forallb_forall in *. intros x Hx. apply in_flat_map in Hx as (e & He & Hx).
    assert (E : forallb no_nl (print_selement e) = true) by (apply nl_element; auto). rewrite forallb_forall in E. auto.
  - rewrite forallb_forall in *. intros x Hx. apply in_flat_map in Hx as (e & He & Hx).
    assert (E : forallb no_nl (print_sheet e) = true) by (apply nl_sheet; auto). rewrite forallb_forall in E. auto.
Qed.
Lemma no13_lines ls : no13 (unlines ls) = true -> forallb no13 ls = true.
Proof.
  induction ls as [|l ls IH]; [reflexivity|]. unfold unlines. cbn [flat_map forallb]. unfold no13 at 1. rewrite forallb_app.
  intros H. apply andb_prop in H as [H1 H2]. apply andb_true_intro; split; [|now apply IH].
  unfold ln in H1. rewrite forallb_app in H1. now apply andb_prop in H1 as [H1 _].
Qed.
Theorem settle_schematic fn t s s2 : parse_schematic fn t = Ok s -> ~ In 13%N (print_schematic s) -> forallb few_labels (sc_sheets s) = true ->
  parse_schematic fn (print_schematic s) = Ok s2 -> parse_schematic fn (print_schematic s2) = Ok s2.
Proof.
  intros H H13 HF H2. apply parse_pre in H as [Hp Hf]. subst fn.
  assert (T : forallb no13 (sch_lines s) = true).
  { apply no13_lines. unfold no13. rewrite forallb_forall. intros c Hc. apply negb_true_iff, N.eqb_neq. intros ->. now apply H13. }
  unfold parse_schematic in H2. unfold print_schematic at 1 in H2. rewrite unlines_concat, lines_concat in H2.
  - destruct (again_lines s s2 Hp HF T H2) as [O E]. rewrite <- E. now apply rt_schematic.
  - pose proof (nl_sch s Hp) as NL. rewrite forallb_forall in *. intros l Hl. apply line13; auto.
Qed.
