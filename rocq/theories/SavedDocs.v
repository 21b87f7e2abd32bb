(** Every line of a saved schematic or symbol library (C73, C74). *)
From Coq Require Import String Lia.
From Verif Require Import Base Str StrFacts Num F64 F64Text SexpFacts SchData SchPrint SymData SymPrint SchReadSpec SymReadSpec SavedSpec SavedFacts.
Open Scope string_scope. Open Scope list_scope.

Lemma fix_eq p a b : fixes p a -> a = b -> fixes p b.
Proof. intros H <-. exact H. Qed.
Ltac leaf := first [apply pin_numeral | apply pin_text | apply pin_word | apply pin_float | apply pin_quotes | apply pin_orient | apply pin_just | apply pin_lform
  | apply pin_lside | apply pin_wtype | apply pin_ttype | apply pin_fill | apply pin_po | apply pin_pt | apply pin_ps | apply pin_yes | apply pin_on | apply pin_vis | apply pin_ital
  | apply pin_then; leaf | apply pin_wide; leaf].
Ltac cells := cbn [map app when]; repeat (apply Forall2_cons; [leaf|]); apply Forall2_nil.
Ltac same := unfold quoted; cbn [spaced1 app]; rewrite <- ?app_assoc, ?app_nil_r; cbn [app]; reflexivity.
Ltac line := first [leaf | eapply fix_eq; [apply pin_row; [cells|discriminate]|same] | apply pin_then; [leaf|eapply fix_eq; [apply pin_row; [cells|discriminate]|same]]].
Ltac lines_ := repeat (apply Forall2_cons; [line|]); apply Forall2_nil.

Lemma fix_descr d : Forall2 fixes (descr_form d) (print_description d).
Proof. unfold descr_form, print_description. cbn [map app]. lines_. Qed.
Lemma fix_map {A} (f : A -> form) (g : A -> str) l : (forall x, fixes (f x) (g x)) -> Forall2 fixes (map f l) (map g l).
Proof. intros H. induction l; cbn [map]; constructor; auto. Qed.
Lemma fix_flat {A} (f : A -> list form) (g : A -> list str) l : (forall x, Forall2 fixes (f x) (g x)) -> Forall2 fixes (concat (map f l)) (flat_map g l).
Proof. intros H. induction l as [|x l IH]; cbn [map concat flat_map]; [constructor|]. apply Forall2_app; auto. Qed.
Lemma four_le z : (4 <=? z)%Z = (3 <? z)%Z.
Proof. destruct (Z.leb_spec 4 z), (Z.ltb_spec 3 z); lia. Qed.
Lemma fix_field f : fixes (field_form f) (print_field f).
Proof.
  unfold field_form, print_field. rewrite four_le. destruct (3 <? cf_i f)%Z; (eapply fix_eq; [apply pin_row; [cells|discriminate]|]); destruct (cf_italic f), (cf_bold f); same.
Qed.
Lemma fix_comp c : Forall2 fixes (comp_form c) (print_component c).
Proof.
  unfold comp_form, print_component. repeat apply Forall2_app.
  - lines_.
  - rewrite <- (map_id (co_ar c)) at 2. apply fix_map. intros x. leaf.
  - apply fix_map, fix_field.
  - lines_.
Qed.
Lemma fix_labels l : forall i, Forall2 fixes (map (fun '(i, l) => label_row i l) (combine (seq i (length l)) l)) (print_labels (Z.of_nat i) l).
Proof.
  induction l as [|x l IH]; intros i; cbn [length seq combine map print_labels]; [constructor|]. constructor.
  - unfold label_row, print_label. line.
  - replace (Z.of_nat i + 1)%Z with (Z.of_nat (S i)) by lia. apply IH.
Qed.
Lemma fix_sheet s : Forall2 fixes (sheet_form s) (print_sheet s).
Proof.
  unfold sheet_form, print_sheet. repeat apply Forall2_app.
  - lines_.
  - exact (fix_labels (sh_labels s) 2).
  - lines_.
Qed.
Lemma fix_element e : Forall2 fixes (element_form e) (print_selement e).
Proof.
  destruct e as [c|w|p|p|t|s]; cbn [element_form print_selement].
  - apply fix_comp.
  - unfold print_wire. lines_.
  - unfold print_connection. lines_.
  - unfold print_no_connect. lines_.
  - unfold print_text. destruct (te_shape t); lines_.
  - lines_.
Qed.
Lemma fix_schematic s : Forall2 fixes (schematic_form s) (sch_lines s).
Proof.
  unfold schematic_form, sch_lines. apply Forall2_app; [lines_|]. apply Forall2_app; [apply fix_map; intros x; line|]. apply Forall2_app; [lines_|].
  apply Forall2_app; [apply fix_descr|]. apply Forall2_app; [apply fix_flat, fix_element|]. apply Forall2_app; [apply fix_flat, fix_sheet|]. lines_.
Qed.
Lemma saved_schematic_iff s t : print_schematic s = t <-> saved_schematic s t.
Proof. unfold saved_schematic, print_schematic. rewrite (in_lines_iff _ _ _ (fix_schematic s)). split; intros; now symmetry. Qed.

(** ** Symbol libraries *)
Lemma fix_sfield f : fixes (sfield_form f) (print_sfield f).
Proof.
  unfold sfield_form, print_sfield. rewrite four_le. destruct (3 <? sf_i f)%Z; (eapply fix_eq; [apply pin_row; [cells|discriminate]|]); destruct (sf_italic f), (sf_bold f); same.
Qed.
Lemma fix_pin p : fixes (pin_form p) (print_pin p).
Proof. unfold pin_form, print_pin. destruct (pn_visible p), (pn_shape p); line. Qed.
Lemma fix_draw d : fixes (draw_form d) (print_draw d).
Proof. destruct d; cbn [draw_form print_draw]; first [apply fix_pin|leaf|unfold print_rect; line]. Qed.
Lemma alias_row l : l <> [] -> spaced1 (lit "ALIAS" :: l) = lit "ALIAS" ++ flat_map (fun a => bl ++ a) l.
Proof.
  generalize (lit "ALIAS"). induction l as [|x l IH]; intros w N; [contradiction|]. change (spaced1 (w :: x :: l)) with (w ++ 32%N :: spaced1 (x :: l)). cbn [flat_map]. f_equal. cbn [bl app]. f_equal.
  destruct l as [|y l]; [cbn [flat_map]; now rewrite app_nil_r|]. apply IH. discriminate.
Qed.
Lemma fix_alias l : Forall2 fixes (match l with [] => [] | x :: r => [row (word "ALIAS" :: map text (x :: r))] end) (if is_empty l then [] else [lit "ALIAS" ++ flat_map (fun a => bl ++ a) l]).
Proof.
  destruct l as [|x l]; [constructor|]. cbn [is_empty]. constructor; [|constructor]. eapply fix_eq; [apply pin_row; [apply Forall2_cons; [leaf|apply fix_map with (g := fun s => s); intros; leaf]|discriminate]|].
  rewrite map_id. apply alias_row. discriminate.
Qed.
Lemma fix_symbol y f0 f1 r : sy_fields y = f0 :: f1 :: r -> exists v, print_symbol y = Ok v /\ Forall2 fixes (symbol_form y (sf_value f1)) v.
Proof.
  intros E. unfold print_symbol. replace (idx (sy_fields y) 1) with (@Ok sfield f1) by (now rewrite E). cbn [bind]. eexists. split; [reflexivity|]. unfold symbol_form.
  apply Forall2_app; [lines_|]. apply Forall2_app; [apply fix_map, fix_sfield|]. apply Forall2_app; [apply fix_alias|]. apply Forall2_app; [lines_|].
  apply Forall2_app; [apply fix_map, fix_draw|]. lines_.
Qed.
Definition two (y : symbol) : Prop := (2 <= length (sy_fields y))%nat.
Lemma two_iff y : two y <-> exists f0 f1 r, sy_fields y = f0 :: f1 :: r.
Proof.
  unfold two. destruct (sy_fields y) as [|f0 [|f1 r]]; cbn [length]; split; try lia; try (intros (? & ? & ? & ?); discriminate); intros _; now exists f0, f1, r.
Qed.
Lemma short_symbol y : ~ two y -> print_symbol y = Panic.
Proof. unfold two, print_symbol. intros H. destruct (sy_fields y) as [|f0 [|f1 r]]; [reflexivity|reflexivity|]. cbn [length] in H. lia. Qed.
Lemma fix_symbols l : Forall two l -> exists fs v, symbols_form l fs /\ mapM print_symbol l = Ok v /\ Forall2 fixes fs (concat v).
Proof.
  induction 1 as [|y l T _ (fs & v & S & M & F)]; [exists [], []; repeat split; constructor|].
  apply two_iff in T as (f0 & f1 & r & E). destruct (fix_symbol y f0 f1 r E) as (w & W & G). exists (symbol_form y (sf_value f1) ++ fs), (w :: v).
  split; [econstructor; eassumption|]. cbn [mapM]. rewrite W. cbn [bind]. rewrite M. cbn [bind concat]. split; [reflexivity|]. now apply Forall2_app.
Qed.
Lemma symbols_form_two l fs : symbols_form l fs -> Forall two l.
Proof. induction 1 as [|y f0 f1 r ys l E _ IH]; constructor; [apply two_iff; now exists f0, f1, r|exact IH]. Qed.
Lemma symbols_form_fun l fs : symbols_form l fs -> forall gs, symbols_form l gs -> gs = fs.
Proof.
  induction 1 as [|y f0 f1 r ys l E _ IH]; intros gs G; inversion G as [|? g0 g1 r' ? l' E' G']; subst; [reflexivity|]. rewrite E in E'. injection E' as <- <- <-. now rewrite (IH _ G').
Qed.
Lemma symbols_panic l : ~ Forall two l -> mapM print_symbol l = Panic.
Proof.
  induction l as [|y l IH]; intros H; [destruct H; constructor|]. cbn [mapM]. destruct (print_symbol y) as [v|e|] eqn:E; cbn [bind].
  - rewrite IH; [reflexivity|]. intros F. apply H. constructor; [|exact F]. destruct (Nat.le_gt_cases 2 (length (sy_fields y))) as [L|L]; [exact L|]. rewrite short_symbol in E; [discriminate|unfold two; lia].
  - exfalso. unfold print_symbol in E. destruct (idx (sy_fields y) 1) eqn:I; try discriminate. unfold idx in I. now destruct (nth_error (sy_fields y) 1).
  - reflexivity.
Qed.
Lemma two_dec l : Forall two l \/ ~ Forall two l.
Proof. destruct (Forall_dec two (fun y => le_dec 2 (length (sy_fields y))) l); auto. Qed.
Lemma saved_library_iff l t : print_symbol_lib l = Ok t <-> saved_library l t.
Proof.
  unfold print_symbol_lib, saved_library. destruct (two_dec l) as [T|T].
  - destruct (fix_symbols l T) as (fs & v & S & M & F). rewrite M. cbn [bind].
    assert (G : Forall2 fixes (map word ["EESchema-LIBRARY Version 2.3"; "#encoding utf-8"; "#"] ++ fs ++ [word "#End Library"])
       ([lit "EESchema-LIBRARY Version 2.3"; lit "#encoding utf-8"; lit "#"] ++ concat v ++ [lit "#End Library"])).
    { apply Forall2_app; [cbn [map]; lines_|]. apply Forall2_app; [exact F|]. lines_. }
    split.
    + intros [= <-]. exists fs. split; [exact S|]. now apply (in_lines_iff _ _ _ G).
    + intros (gs & S' & L). rewrite (symbols_form_fun _ _ S _ S') in L. apply (in_lines_iff _ _ _ G) in L. now subst t.
  - rewrite (symbols_panic _ T). split; [discriminate|]. intros (gs & S & _). destruct T. exact (symbols_form_two _ _ S).
Qed.
Lemma library_panic_iff l : print_symbol_lib l = Panic <-> exists y, In y l /\ (length (sy_fields y) < 2)%nat.
Proof.
  unfold print_symbol_lib. destruct (two_dec l) as [T|T].
  - destruct (fix_symbols l T) as (fs & v & _ & M & _). rewrite M. cbn [bind]. split; [discriminate|]. intros (y & I & L). rewrite Forall_forall in T. specialize (T y I). unfold two in T. lia.
  - rewrite (symbols_panic _ T). split; [intros _|reflexivity]. apply Exists_exists. apply neg_Forall_Exists_neg in T; [|intros y; apply le_dec].
    eapply Exists_impl; [|exact T]. intros y H. unfold two in H. cbn beta. lia.
Qed.
