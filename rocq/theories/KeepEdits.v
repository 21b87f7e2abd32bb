(** Lemmas for C60 and C61: edits keep footprints, layouts and schematics saveable. *)
From Coq Require Import String Relations Lia.
From Verif Require Import Base Str StrFacts Num NumFacts F64 F64Text Sexp SexpFacts FpData FpWf FpOps FpNew FpDe FpFacts FpCheck FixFacts CheckFix LyData LyWf LyDe LyReread LyOps FormatterSpec DocSpec DocText
  SchData SchPrint SchParse SchWf SchFacts SchReread SchOps SymData SymPrint SymParse SymWf SymFacts SymOps SxText KeepSpec KeepFacts.
Open Scope string_scope. Open Scope list_scope.

(** ** Footprints *)
Lemma fix_text_saves c v lt t : fgtb (cg_font_size c) fzero = true -> no_quote v = true -> layer_strs (mk_layer SFront lt) = [] -> layer_ok (mk_layer SFront lt) = true ->
  text_ok t = true -> forallb no_quote (element_strs (EFpText t)) = true ->
  text_ok (fix_text c v lt t) = true /\ forallb no_quote (element_strs (EFpText (fix_text c v lt t))) = true.
Proof.
  intros G V L Lo K Q. unfold text_ok, effects_ok, font_ok in *. apply andb_prop in K as [K K3]. apply andb_prop in K as [K1 K2].
  apply andb_prop in K3 as [K3 _]. split.
  - cbn [fix_text tx_at tx_layer tx_effects ef_font fo_size xy_t xy_x xy_y]. rewrite K1. unfold tx_size. rewrite K3, G.
    change (layer_ok (mk_layer (la_side (tx_layer t)) lt)) with (layer_ok (mk_layer SFront lt)). now rewrite Lo.
  - cbn [element_strs forallb fix_text tx_name tx_value tx_layer] in *. apply andb_prop in Q as [Q1 _]. rewrite Q1, V.
    change (layer_strs (mk_layer (la_side (tx_layer t)) lt)) with (layer_strs (mk_layer SFront lt)). now rewrite L.
Qed.
Lemma keep_push es m : (forall e, In e es -> element_saves e = true) -> module_saves m = true -> module_saves (push es m) = true.
Proof.
  intros H S. apply saves_iff in S as [N S]. apply saves_iff. split; [exact N|]. unfold push; cbn [m_elements]. intros e I.
  apply in_app_iff in I as [I|I]; [now apply S|]. apply H in I. now apply andb_prop in I.
Qed.
Lemma keep_or_same which f m : (forall t, text_ok t = true -> forallb no_quote (element_strs (EFpText t)) = true ->
    text_ok (f t) = true /\ forallb no_quote (element_strs (EFpText (f t))) = true) ->
  module_saves m = true -> module_saves (or_same m (modify_text m which f)) = true.
Proof. intros H S. destruct (modify_text m which f) as [m'|] eqn:E; cbn [or_same]; [|exact S]. exact (keep_text _ _ _ _ H E S). Qed.
Lemma keep_fix c m m' : fgtb (cg_font_size c) fzero = true -> fp_fix c m = Ok m' -> module_saves m = true -> module_saves m' = true.
Proof.
  intros G E S. unfold fp_fix in E. apply bind_inv in E as (m3 & E & [= <-]).
  assert (N : no_quote (m_name m) = true) by (apply saves_iff in S; tauto).
  assert (S1 : module_saves (fix_value c (m_name m) (fix_reference c m)) = true).
  { apply keep_or_same; [intros; apply fix_text_saves; auto|]. apply keep_or_same; [intros; apply fix_text_saves; auto|exact S]. }
  set (m1 := fix_value c (m_name m) (fix_reference c m)) in *. clearbody m1.
  assert (S3 : module_saves m3 = true).
  { unfold fix_reference2 in E. set (m2 := match get_text m1 (lit "user") with Some _ => m1 | None => push [EFpText (new_ref2 c)] m1 end) in E.
    assert (S2 : module_saves m2 = true).
    { subst m2. destruct (get_text m1 (lit "user")); [exact S1|]. apply keep_push; [|exact S1]. intros e [<-|[]].
      unfold element_saves, new_ref2. cbn [element_ok element_strs tx_name tx_value tx_layer].
      unfold text_ok, effects_ok, font_ok. cbn [tx_layer tx_effects tx_at ef_font fo_size xy_t xy_x xy_y]. rewrite G. vm_compute. reflexivity. }
    clearbody m2. destruct (modify_text m2 (lit "user") _) as [x|] eqn:M; [|discriminate E]. injection E as ->.
    eapply keep_text; [|exact M|exact S2]. intros; apply fix_text_saves; auto. }
  assert (S4 : module_saves (fix_attr m3) = true).
  { unfold fix_attr. destruct (_ && _); [|exact S3]. apply keep_push; [|exact S3]. intros e [<-|[]]. vm_compute. reflexivity. }
  unfold fix_courtyard. destruct (Nat.ltb _ 4); [|exact S4]. apply keep_push; [|exact S4].
  intros e I. apply in_map_iff in I as (l & <- & I). unfold courtyard in I. destruct (module_at (fix_attr m3)) as [x y].
  destruct I as [<-|[<-|[<-|[<-|[]]]]]; reflexivity.
Qed.
Lemma keep_append e m : element_saves e = true -> module_saves m = true -> module_saves (module_append e m) = true.
Proof. intros H. apply (keep_push [e] m). intros x [<-|[]]. exact H. Qed.
Lemma text_saves_iff t : text_saves t = true <-> text_ok t = true /\ forallb no_quote (element_strs (EFpText t)) = true.
Proof. unfold text_saves, element_saves. apply andb_true_iff. Qed.
Lemma fp_edit_keeps m m' : fp_edit m m' -> module_saves m = true -> module_saves m' = true.
Proof.
  intros []; intros S.
  - now apply keep_flip.
  - now apply keep_rotate.
  - now apply keep_adjust.
  - now apply keep_reference.
  - now apply keep_rename.
  - eapply keep_text; [|eassumption|eassumption]. intros t0 A B. apply text_saves_iff. apply H. now apply text_saves_iff.
  - eapply keep_fix; eassumption.
  - now apply keep_append.
Qed.
Lemma edits_keep {A} (R : A -> A -> Prop) (P : A -> Prop) : (forall a b, R a b -> P a -> P b) -> forall a b, clos_refl_trans A R a b -> P a -> P b.
Proof. intros H a b C. induction C; eauto. Qed.
Lemma fp_edits_keep m m' : clos_refl_trans _ fp_edit m m' -> module_saves m = true -> module_saves m' = true.
Proof. apply (edits_keep fp_edit (fun m => module_saves m = true) fp_edit_keeps). Qed.

(** ** Layouts *)
Lemma replace_q from to s : no_quote to = true -> forall k, no_quote s = true -> no_quote (replace_aux k from to s) = true.
Proof.
  intros T. induction s as [|c s IH]; intros k Q; [reflexivity|]. cbn [replace_aux]. unfold no_quote in *. cbn [forallb] in Q. apply andb_prop in Q as [Qc Q].
  destruct k as [|k]; [|auto]. destruct (starts_with from (c :: s)).
  - rewrite forallb_app, T. apply (IH _ Q).
  - cbn [forallb]. rewrite Qc. apply (IH _ Q).
Qed.
Lemma split_q p s : no_quote s = true -> Forall (fun w => no_quote w = true) (split_on p s).
Proof.
  unfold no_quote. induction s as [|c s IH]; intros Q; [repeat constructor|]. cbn [forallb] in Q. apply andb_prop in Q as [Qc Q]. specialize (IH Q).
  cbn [split_on]. destruct (p c); [now constructor|]. destruct (split_on p s) as [|w ws].
  - repeat constructor. cbn [forallb]. now rewrite Qc.
  - inversion IH; subst. constructor; [|assumption]. cbn [forallb]. rewrite Qc. assumption.
Qed.
Lemma unnamed_q new s : no_quote new = true -> no_quote s = true -> no_quote (fst (set_unnamed_net new s)) = true.
Proof.
  intros N Q. unfold set_unnamed_net, is_unnamed_net. destruct (starts_with _ s); [|exact Q].
  pose proof (split_q is_net_sep s Q) as F.
  destruct (split_on is_net_sep s) as [|w1 [|w2 [|w3 [|w4 [|w5 [|]]]]]]; try exact Q. cbn [fst].
  inversion F as [|? ? _ F1]; subst. inversion F1 as [|? ? _ F2]; subst. inversion F2 as [|? ? _ F3]; subst. inversion F3 as [|? ? Q4 _]; subst.
  unfold no_quote in *. rewrite !forallb_app, N, Q4. reflexivity.
Qed.
Lemma block_q from to s : no_quote to = true -> no_quote s = true -> no_quote (replace_block from to s) = true.
Proof.
  intros T Q. unfold replace_block, replace. apply replace_q; [|exact Q]. unfold no_quote in *. rewrite !forallb_app, T. reflexivity.
Qed.
Lemma lkeep_module_in l r f l' k : (forall m, In (YModule m) (ly_elements l) -> module_saves m = true -> module_saves (f m) = true) -> modify_module l r f = (l', k) ->
  layout_saves l = true -> layout_saves l' = true.
Proof.
  intros H E S. apply lsaves_iff in S as [Hd S]. unfold modify_module in E. destruct (LyOps.modify_first r f (ly_elements l)) as [es q] eqn:F.
  injection E as <- _. apply lsaves_iff. split; [exact Hd|]. cbn [ly_elements LyOps.with_elements]. clear Hd. revert es q F S H. generalize (ly_elements l).
  induction l0 as [|e t IH]; intros es q F S H; [injection F as <- <-; exact S|].
  assert (Se : lok e) by (apply S; now left). assert (St : forall x, In x t -> lok x) by (intros; apply S; now right).
  destruct (LyOps.modify_first r f t) as [t' k'] eqn:Ft. specialize (IH t' k' eq_refl St (fun m I => H m (or_intror I))).
  assert (D : forall x, In x (e :: t') -> lok x) by (intros x [<-|I]; auto).
  destruct e; cbn [LyOps.modify_first] in F; rewrite ?Ft in F; try (injection F as <- <-; exact D).
  destruct (is_reference_with_name m r); [|injection F as <- <-; exact D]. injection F as <- <-.
  intros x [<-|I]; [|auto]. apply lok_module. apply H; [now left|]. now apply lok_module.
Qed.
Lemma ly_edit_keeps l l' : ly_edit l l' -> layout_saves l = true -> layout_saves l' = true.
Proof.
  intros []; intros S.
  - now apply lkeep_adjust.
  - eapply lkeep_rename; eassumption.
  - eapply lkeep_names; eassumption.
  - eapply lkeep_names; [|eassumption|eassumption]. intros s Q. now apply block_q.
  - eapply lkeep_names; [|eassumption|eassumption]. intros s Q. now apply unnamed_q.
  - eapply lkeep_module_in; [|eassumption|eassumption]. intros m I. apply fp_edits_keep. auto.
  - now apply lkeep_net.
  - now apply lkeep_class.
  - now apply lkeep_setup.
Qed.
Lemma ly_edits_keep l l' : clos_refl_trans _ ly_edit l l' -> layout_saves l = true -> layout_saves l' = true.
Proof. apply (edits_keep ly_edit (fun m => layout_saves m = true) ly_edit_keeps). Qed.

(** What was opened can be saved. *)
Lemma opened_saves s m : parse_module s = Ok m -> module_clean m = true -> module_saves m = true.
Proof.
  intros H C. unfold parse_module in H. apply bind_inv in H as (t & Ht & H). apply read_doc_ok in Ht.
  apply andb_true_intro. split; [eapply de_module_ok; eassumption|exact (cv_module _ _ Ht H)].
Qed.
Lemma lopened_saves s l : parse_layout s = Ok l -> layout_clean l = true -> layout_saves l = true.
Proof.
  intros H C. unfold parse_layout in H. apply bind_inv in H as (t & Ht & H). apply read_doc_ok in Ht.
  destruct (cv_layout _ _ Ht H) as [N D]. unfold layout_saves. rewrite (de_layout_ok _ _ H C). apply andb_true_intro. split; [exact N|exact D].
Qed.

(** ** Schematics *)
Lemma word_quotable s : word_str s = true -> no_nl s = true -> quotable s = true.
Proof.
  unfold word_str, quotable. intros W N. apply andb_prop in W as [_ W]. rewrite N, andb_true_r. rewrite forallb_forall in *. intros c I.
  specialize (W c I). now destruct (N.eqb c 34).
Qed.
Lemma cfield_value f v : cfield_ok f = true -> quotable v = true -> cfield_ok (with_value f v) = true.
Proof. unfold cfield_ok. cbn [with_value cf_i cf_size cf_value cf_name]. rewrite !andb_true_iff. tauto. Qed.
Lemma cfield_visible f b : cfield_ok f = true -> cfield_ok (with_visible f b) = true.
Proof. intros H. exact H. Qed.
Lemma map_keep {A} (P : A -> bool) f (l : list A) : (forall a, P a = true -> P (f a) = true) -> forallb P l = true -> forallb P (map f l) = true.
Proof. intros H. rewrite !forallb_forall. intros K x I. apply in_map_iff in I as (a & <- & I). auto. Qed.
Definition c_head (c : component) : bool :=
  (is_empty (co_u c) || begins "U" (co_u c)) && line_ok (co_u c)
  && i64_ok (co_x c) && i64_ok (co_y c)
  && forallb (fun a => begins "AR" a && line_ok a) (co_ar c)
  && forallb i64_ok [ro_a (co_rotation c); ro_b (co_rotation c); ro_c (co_rotation c); ro_d (co_rotation c)].
Lemma comp_iff c : component_ok c = true <->
  word_str (co_name c) = true /\ no_nl (co_name c) = true /\ end_word (co_reference c) = true /\ c_head c = true /\ forallb cfield_ok (co_fields c) = true.
Proof. unfold component_ok, c_head. rewrite !andb_true_iff. tauto. Qed.
Lemma end_quotable r : end_word r = true -> quotable r = true.
Proof. unfold end_word, line_ok. intros H. apply andb_prop in H as [W H]. apply andb_prop in H as [N _]. now apply word_quotable. Qed.
Lemma update_one_ok name v f : quotable v = true -> cfield_ok f = true -> cfield_ok (update_one name v f) = true.
Proof.
  intros V H. unfold update_one. set (g := if str_eqb (cf_name f) name then with_value f v else f).
  assert (G : cfield_ok g = true) by (subst g; destruct (str_eqb _ _); [now apply cfield_value|exact H]).
  destruct (1 <? cf_i g)%Z; [|exact G]. now apply cfield_visible.
Qed.
Lemma max_ge l : forall a, (a <= fold_left (fun i f => if (i <? cf_i f)%Z then cf_i f else i) l a)%Z /\
  forall f, In f l -> (cf_i f <= fold_left (fun i f => if (i <? cf_i f)%Z then cf_i f else i) l a)%Z.
Proof.
  induction l as [|g l IH]; intros a; [split; [cbn; lia|intros ? []]|]. cbn [fold_left].
  set (b := if (a <? cf_i g)%Z then cf_i g else a). assert (B : (a <= b /\ cf_i g <= b)%Z) by (subst b; destruct (Z.ltb_spec a (cf_i g)); lia).
  destruct (IH b) as [I1 I2]. split; [lia|]. intros f [<-|I]; [lia|]. now apply I2.
Qed.
Lemma comp_edit_keeps c c' : comp_edit c c' -> component_ok c = true -> component_ok c' = true.
Proof.
  intros []; rewrite !comp_iff.
  - intros (A & B & C & D & E). unfold update_reference; cbn [co_name co_reference co_fields]. repeat split; try assumption.
    apply map_keep; [|exact E]. intros f F. destruct (Z.eqb _ 0); [|exact F]. apply cfield_value; [exact F|now apply end_quotable].
  - intros (A & B & C & D & E). unfold update_name; cbn [co_name co_reference co_fields]. repeat split; try assumption.
    apply map_keep; [|exact E]. intros f F. destruct (Z.eqb _ 1); [|exact F]. apply cfield_value; [exact F|now apply word_quotable].
  - intros (A & B & C & D & E). unfold update_field; cbn [set_fields co_name co_reference co_fields]. repeat split; try assumption.
    apply map_keep; [|exact E]. intros f F. now apply update_one_ok.
  - intros (A & B & C & D & E). unfold add_or_update_field in H2. destruct (get_field_value c0 name) as [old|].
    + destruct (str_eqb old v); injection H2 as <- _; [tauto|]. unfold update_field; cbn [set_fields co_name co_reference co_fields]. repeat split; try assumption.
      apply map_keep; [|exact E]. intros f F. now apply update_one_ok.
    + apply bind_inv in H2 as (c1 & H2 & [= <- _]). unfold add_new_field in H2. apply bind_inv in H2 as (i & Hi & [= <-]).
      unfold set_fields; cbn [co_name co_reference co_fields]. repeat split; try assumption. rewrite forallb_app, E. cbn [andb forallb].
      unfold get_available_field_num, chk in Hi. destruct H1 as (f & I & If).
      destruct (max_ge (co_fields c0) 0%Z) as [_ M]. specialize (M f I).
      destruct (i64_ok _) eqn:O in Hi; [|discriminate Hi]. injection Hi as <-.
      unfold cfield_ok. cbn [with_visible field_new_from cf_i cf_size cf_value cf_name]. rewrite O, H, H0.
      assert (X : (4 <= fold_left (fun i f => if (i <? cf_i f)%Z then cf_i f else i) (co_fields c0) 0 + 1)%Z) by lia.
      rewrite (proj2 (Z.leb_le 0 _)) by lia. rewrite (proj2 (Z.ltb_lt 3 _)) by lia. reflexivity.
Qed.
Lemma comp_edits_keep c c' : clos_refl_trans _ comp_edit c c' -> component_ok c = true -> component_ok c' = true.
Proof. apply (edits_keep comp_edit (fun m => component_ok m = true) comp_edit_keeps). Qed.
Lemma sch_elements_keep s l : (forallb selement_ok (sc_elements s) = true -> forallb selement_ok l = true) -> sch_ok s = true -> sch_ok (SchOps.with_elements s l) = true.
Proof. unfold sch_ok. cbn [SchOps.with_elements sc_libraries sc_eelayer sc_description sc_elements sc_sheets]. rewrite !andb_true_iff. tauto. Qed.
Lemma sch_edit_keeps s s' : sch_edit s s' -> sch_ok s = true -> sch_ok s' = true.
Proof.
  intros [s0 r f H|s0 f H|s0 s1 H].
  - apply sch_elements_keep. revert H. generalize (sc_elements s0). induction l as [|e l IH]; intros H K; [exact K|].
    cbn [forallb] in K. apply andb_prop in K as [Ke K]. specialize (IH (fun c I => H c (or_intror I)) K).
    destruct e as [c| | | | |]; cbn [SchOps.modify_first forallb]; try (rewrite Ke, IH; reflexivity).
    destruct (str_eqb _ r); cbn [forallb]; [|now rewrite Ke, IH]. rewrite K, andb_true_r. cbn [selement_ok] in *.
    eapply comp_edits_keep; [apply H; now left|exact Ke].
  - apply sch_elements_keep. rewrite !forallb_forall. intros K x I. apply in_map_iff in I as (e & <- & I). specialize (K e I).
    destruct e as [c| | | | |]; try exact K. cbn [selement_ok] in *. eapply comp_edits_keep; [apply H; exact I|exact K].
  - unfold increment_sheet_count, chk in H. apply bind_inv in H as (n & Hn & [= <-]).
    destruct (i64_ok _) eqn:O in Hn; [|discriminate Hn]. injection Hn as <-.
    unfold sch_ok. cbn [with_description sc_libraries sc_eelayer sc_description sc_elements sc_sheets]. rewrite !andb_true_iff.
    intros ((((A & B) & C) & D) & E). repeat split; try tauto. unfold descr_ok in *.
    cbn [ds_size ds_dimx ds_dimy ds_sheet ds_count ds_title ds_date ds_rev ds_comp ds_comment1 ds_comment2 ds_comment3 ds_comment4 forallb] in *.
    rewrite O. rewrite !andb_true_iff in *. tauto.
Qed.
Lemma sch_edits_keep s s' : clos_refl_trans _ sch_edit s s' -> sch_ok s = true -> sch_ok s' = true.
Proof. apply (edits_keep sch_edit (fun m => sch_ok m = true) sch_edit_keeps). Qed.

(** ** Symbols *)
Lemma symbol_keeps name s s' : mid_word name = true -> set_name name s = Ok s' -> symbol_ok s = true -> symbol_ok s' = true.
Proof.
  intros W E S. unfold set_name in E. apply bind_inv in E as (c & Hc & E).
  cbv zeta in E. destruct (sy_fields s) as [|f0 [|f1 fs]] eqn:F; try discriminate E.
  set (n := if N.eqb c 126 then lit "~" ++ name else name) in E. assert (X : s' = sy_set n (f0 :: sf_set_value name f1 :: fs) s) by (symmetry; exact (f_equal (fun r => match r with Ok x => x | _ => s end) E)).
  clear E. subst s'. assert (Wn : mid_word n = true).
  { subst n. destruct (N.eqb c 126); [|exact W]. unfold mid_word, word_str in *. rewrite !andb_true_iff in *. destruct W as ((A & B) & C).
    split; [split; [reflexivity|]|]; cbn [forallb lit list_ascii_of_string map app no_nl]; [exact B|exact C]. }
  unfold symbol_ok in *. cbn [sy_set sy_name sy_reference sy_unit_count sy_fields sy_aliases sy_draw]. rewrite F in S. cbn [length forallb] in *.
  apply andb_prop in S as [S S8]. apply andb_prop in S as [S S7]. apply andb_prop in S as [S S6]. apply andb_prop in S as [S S5].
  apply andb_prop in S as [S S4]. apply andb_prop in S as [S S3]. apply andb_prop in S as [_ S2].
  apply andb_prop in S5 as [F0 S5]. apply andb_prop in S5 as [F1 S5].
  assert (Q : quotable name = true) by (apply andb_prop in W as [W1 W2]; now apply word_quotable).
  assert (F1' : sfield_ok (sf_set_value name f1) = true).
  { unfold sfield_ok in *. cbn [sf_set_value sf_i sf_dim sf_value sf_name sf_bold]. rewrite !andb_true_iff in *. tauto. }
  rewrite Wn, S2, S3, S4, F0, F1', S5, S6, S7, S8. reflexivity.
Qed.
Lemma renamed_saves a s b name s' : symbol_lib_ok (a ++ s :: b) = true -> mid_word name = true -> set_name name s = Ok s' ->
  exists t, print_symbol_lib (a ++ s' :: b) = Ok t /\ parse_symbol_lib t = Ok (a ++ s' :: b).
Proof.
  intros K W E. apply rt_library. unfold symbol_lib_ok in *. rewrite forallb_app in *. cbn [forallb] in *. rewrite !andb_true_iff in *.
  destruct K as (A & S & B). split; [exact A|]. split; [|exact B]. eapply symbol_keeps; eassumption.
Qed.

Lemma opened_sch fn t s : parse_schematic fn t = Ok s -> sch_clean s = true -> sch_ok s = true.
Proof. intros H C. apply parse_pre in H as [Hp _]. now apply sch_finish. Qed.

(** ** New parts *)
Lemma text_new_saves name v : no_quote name = true -> no_quote v = true -> text_saves (text_new name v) = true.
Proof. intros A B. apply text_saves_iff. split; [reflexivity|]. cbn [element_strs text_new tx_name tx_value tx_layer forallb]. rewrite A, B. reflexivity. Qed.
Lemma set_effects_saves e t : effects_ok e = true -> text_saves t = true -> text_saves (text_set_effects e t) = true.
Proof.
  rewrite !text_saves_iff. unfold text_ok. cbn [text_set_effects tx_at tx_layer tx_effects element_strs tx_name tx_value]. intros E [A B]. split; [|exact B].
  apply andb_prop in A as [A _]. now rewrite A, E.
Qed.
Lemma set_layer_saves l t : layer_ok l = true -> forallb no_quote (layer_strs l) = true -> text_saves t = true -> text_saves (text_set_layer l t) = true.
Proof.
  rewrite !text_saves_iff. unfold text_ok. cbn [text_set_layer tx_at tx_layer tx_effects element_strs tx_name tx_value forallb].
  rewrite !andb_true_iff. tauto.
Qed.
Lemma pad_new_saves n t sh : no_quote n = true -> pad_saves (pad_new n t sh) = true.
Proof. intros N. unfold pad_saves, element_saves. cbn [element_strs pad_new pa_name pa_layers pa_net pa_drill flat_map app forallb]. rewrite N. reflexivity. Qed.
Lemma pad_net_saves n p : i64_ok (fn_num n) = true -> no_quote (fn_name n) = true -> pad_saves p = true -> pad_saves (pad_set_net n p) = true.
Proof.
  intros N Q S. unfold pad_saves, element_saves in *. apply andb_prop in S as [A B]. apply andb_true_intro. split.
  - cbn [element_ok] in *. unfold pad_ok in *. cbn [pad_set_net pa_size pa_rect_delta pa_at pa_layers pa_net pa_zone_connect pa_drill opt_ok]. unfold fnet_ok at 1. rewrite N.
    rewrite !andb_true_iff in *. tauto.
  - cbn [element_strs pad_set_net pa_name pa_layers pa_net pa_drill forallb] in *. rewrite !forallb_app in *. cbn [forallb]. rewrite Q. rewrite !andb_true_iff in *. tauto.
Qed.
Lemma pad_drill_saves d p : drill_ok d = true -> pad_saves p = true -> pad_saves (pad_set_drill d p) = true.
Proof.
  intros N S. unfold pad_saves, element_saves in *. apply andb_prop in S as [A B]. apply andb_true_intro. split.
  - cbn [element_ok] in *. unfold pad_ok in *. cbn [pad_set_drill pa_size pa_rect_delta pa_at pa_layers pa_net pa_zone_connect pa_drill opt_ok]. rewrite N.
    rewrite !andb_true_iff in *. tauto.
  - assert (Q : forallb no_quote (opt_strs (dr_shape d)) = true).
    { unfold drill_ok in N. rewrite !andb_true_iff in N. destruct N as (((N & _) & _) & _). destruct (dr_shape d) as [x|]; [|reflexivity].
      apply str_eqb_eq in N. subst x. reflexivity. }
    cbn [element_strs pad_set_drill pa_name pa_layers pa_net pa_drill forallb] in *. rewrite !forallb_app in *. rewrite Q. rewrite !andb_true_iff in *. tauto.
Qed.
Lemma pad_layer_saves l p : layer_ok l = true -> forallb no_quote (layer_strs l) = true -> pad_saves p = true ->
  pad_saves (mk_pad (pa_name p) (pa_t p) (pa_shape p) (pa_size p) (pa_rect_delta p) (pa_at p) (layers_append l (pa_layers p)) (pa_net p) (pa_zone_connect p)
    (pa_drill p) (pa_paste_margin p) (pa_mask_margin p) (pa_clearance p) (pa_thermal_gap p)) = true.
Proof.
  intros N Q S. unfold pad_saves, element_saves in *. apply andb_prop in S as [A B]. apply andb_true_intro. split.
  - cbn [element_ok] in *. unfold pad_ok in *. cbn [pa_size pa_rect_delta pa_at pa_layers pa_net pa_zone_connect pa_drill]. unfold layers_append. rewrite forallb_app. cbn [forallb]. rewrite N.
    rewrite !andb_true_iff in *. tauto.
  - cbn [element_strs pa_name pa_layers pa_net pa_drill forallb] in *. unfold layers_append. rewrite !forallb_app in *. rewrite flat_map_app, forallb_app.
    cbn [flat_map]. rewrite app_nil_r, Q. rewrite !andb_true_iff in *. tauto.
Qed.
Lemma module_new_saves name : no_quote name = true -> module_saves (module_new name) = true.
Proof. intros N. apply saves_iff. split; [exact N|]. intros e []. Qed.
Lemma layout_default_saves : layout_saves layout_default = true.
Proof. vm_compute. reflexivity. Qed.
Lemma setters e l n d t p :
  tx_effects (text_set_effects e t) = e /\ tx_layer (text_set_effects e t) = tx_layer t /\
  tx_layer (text_set_layer l t) = l /\ tx_effects (text_set_layer l t) = tx_effects t /\
  (forall u, u = text_set_effects e t \/ u = text_set_layer l t -> tx_name u = tx_name t /\ tx_value u = tx_value t /\ tx_at u = tx_at t /\ tx_hide u = tx_hide t) /\
  pa_net (pad_set_net n p) = Some n /\ pa_drill (pad_set_net n p) = pa_drill p /\
  pa_drill (pad_set_drill d p) = Some d /\ pa_net (pad_set_drill d p) = pa_net p /\
  (forall u, u = pad_set_net n p \/ u = pad_set_drill d p -> pa_name u = pa_name p /\ pa_t u = pa_t p /\ pa_shape u = pa_shape p /\ pa_size u = pa_size p
     /\ pa_at u = pa_at p /\ pa_layers u = pa_layers p /\ pa_rect_delta u = pa_rect_delta p).
Proof.
  do 4 (split; [reflexivity|]). split; [intros u [->| ->]; repeat (split; [reflexivity|]); reflexivity|].
  do 4 (split; [reflexivity|]). intros u [->| ->]; repeat (split; [reflexivity|]); reflexivity.
Qed.
