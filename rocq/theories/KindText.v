(** Which error the schematic and symbol library readers report (lemmas for C83). *)
From Coq Require Import String Lia.
From Verif Require Import Base Str StrFacts Num F64 F64Text LibFns SchData SchPrint SchParse SchTotal SymData SymPrint SymParse SymTotal.
Open Scope string_scope. Open Scope list_scope.

Definition oe {A} (r : res A) : Prop := forall e, r = Err e -> e = EOther \/ e = EFuel.
Lemma oe_ok {A} (a : A) : oe (Ok a). Proof. intros e; discriminate. Qed.
Lemma oe_panic {A} : oe (@Panic A). Proof. intros e; discriminate. Qed.
Lemma oe_other {A} : oe (@Err A EOther). Proof. intros e E. injection E as <-. now left. Qed.
Lemma oe_fuel {A} : oe (@Err A EFuel). Proof. intros e E. injection E as <-. now right. Qed.
Lemma oe_bind {A B} (r : res A) (f : A -> res B) : oe r -> (forall a, oe (f a)) -> oe (bind r f).
Proof. intros H K. destruct r as [a|e|]; cbn; [apply K| |apply oe_panic]. intros e' E. injection E as <-. now apply H. Qed.
Lemma oe_idx {A} (l : list A) i : oe (idx l i). Proof. unfold idx. destruct (nth_error l i); [apply oe_ok|apply oe_panic]. Qed.
Lemma oe_opt {A} (o : option A) : oe (of_option EOther o). Proof. destruct o; [apply oe_ok|apply oe_other]. Qed.
Lemma oe_here p : oe (here p). Proof. destruct p; cbn; first [apply oe_ok|apply oe_panic|apply oe_other]. Qed.
Lemma oe_int n s : oe (split_quote_aware_int n s).
Proof. unfold split_quote_aware_int. destruct n; [destruct (Nat.ltb _ _)|]; first [apply oe_ok|apply oe_other]. Qed.
Lemma oe_char s i : oe (char_at s i).
Proof. apply oe_idx. Qed.
Ltac oe_step :=
  first
  [ apply oe_ok | apply oe_panic | apply oe_other | apply oe_idx | apply oe_opt | apply oe_here | apply oe_int | apply oe_char
  | assumption
  | apply oe_bind; [|intros]
  | match goal with |- oe (if ?b then _ else _) => destruct b end
  | match goal with |- oe (let '(_, _) := ?p in _) => destruct p end
  | match goal with |- oe (match ?p with _ => _ end) => destruct p end ].
Ltac oes := repeat oe_step.

Lemma oe_word n s : oe (word_and_qstring n s). Proof. unfold word_and_qstring, assume_string. oes. Qed.
Lemma oe_description p : oe (parse_description p).
Proof. unfold parse_description, i64_from_string, assume_string. repeat (first [apply oe_word|oe_step]). Qed.
Lemma oe_four s : oe (four s). Proof. unfold four, i64_from_string. oes. Qed.
Lemma oe_cfield v : oe (cfield_new v).
Proof. unfold cfield_new, i64_from_string, f64_from_string, orientation_new, bool_from_string, bool_from, sjustify_new. oes. Qed.
Lemma oe_component_line s d : oe (component_line s d).
Proof. unfold component_line, i64_from_string. repeat (first [apply oe_cfield|oe_step]). Qed.
Lemma oe_component_loop n : forall p d, (length p <= n)%nat -> oe (component_loop p d).
Proof.
  induction n as [|n IH]; intros p d L.
  - destruct p; [first [apply oe_ok|apply oe_panic|apply oe_other]|cbn in L; lia].
  - destruct p as [|s r]; cbn [component_loop]; [first [apply oe_ok|apply oe_panic|apply oe_other]|]. cbn in L.
    destruct (seq s "$EndComp"); [first [apply oe_ok|apply oe_panic|apply oe_other]|]. destruct (word_is s "1" || word_is s "0").
    + destruct r as [|s2 r2]; [first [apply oe_ok|apply oe_panic|apply oe_other]|]. cbn in L. apply oe_bind; [apply oe_four|]. intros [[[a b] c] e]. apply IH. lia.
    + apply oe_bind; [apply oe_component_line|]. intros d'. apply IH. lia.
Qed.
Lemma oe_sheet_line s d : oe (sheet_line s d).
Proof. unfold sheet_line, parse_sheet_label, parse_label_form, parse_label_side, i64_from_string. oes. Qed.
Lemma oe_sheet_loop p : forall d, oe (sheet_loop p d).
Proof.
  induction p as [|s r IH]; intros d; cbn [sheet_loop]; [first [apply oe_ok|apply oe_panic|apply oe_other]|].
  destruct (seq s "$EndSheet"); [first [apply oe_ok|apply oe_panic|apply oe_other]|]. apply oe_bind; [apply oe_sheet_line|]. intros d'. apply IH.
Qed.
Lemma oe_wire p : oe (parse_wire p). Proof. unfold parse_wire. repeat (first [apply oe_four|oe_step]). Qed.
Lemma oe_point p : oe (parse_point p). Proof. unfold parse_point, i64_from_string. oes. Qed.
Lemma oe_text p : oe (parse_text p). Proof. unfold parse_text, i64_from_string. oes. Qed.
Lemma oe_round p c : oe (round p c).
Proof.
  unfold round, parse_component, parse_sheet.
  repeat (first [apply oe_description|eapply oe_component_loop; reflexivity|apply oe_sheet_loop|apply oe_wire|apply oe_point|apply oe_text|oe_step]).
Qed.

Lemma oe_main n : forall p c, oe (main_loop n p c).
Proof.
  induction n as [|n IH]; intros p c; destruct p as [|s t]; cbn [main_loop]; try apply oe_ok; try apply oe_fuel; [].
  apply oe_bind; [apply oe_round|]. intros cp. apply IH.
Qed.
Lemma oe_parse fn t : oe (parse_schematic fn t).
Proof.
  unfold parse_schematic, parse_lines. apply oe_bind; [unfold assume_line; oes|]. intros p.
  destruct (libs_loop p []) as [libs q]. apply oe_bind; [apply oe_here|]. intros e.
  destruct (negb _); [apply oe_other|]. apply oe_bind; [unfold assume_line; oes|]. intros r. apply oe_main.
Qed.
Lemma oe_sfield s : oe (parse_sfield s).
Proof. unfold parse_sfield, i64_from_string, f64_from_string, orientation_new, bool_from_string, bool_from, sjustify_new. oes. Qed.
Lemma oe_draw s : oe (draw_line s).
Proof. unfold draw_line, parse_pin, parse_rect, i64_from_string, pin_orientation_make, pin_type_make, pin_shape_make, fill_make. oes. Qed.
Lemma oe_sfields p : forall acc, oe (sfields_loop p acc).
Proof.
  induction p as [|s p IH]; intros acc; cbn [sfields_loop]; [first [apply oe_ok|apply oe_panic|apply oe_other]|]. apply oe_bind; [apply oe_char|]. intros c.
  destruct (N.eqb c 70); [|first [apply oe_ok|apply oe_other]]. apply oe_bind; [apply oe_sfield|]. intros f. apply IH.
Qed.
Lemma oe_draws p : forall acc, oe (draw_loop p acc).
Proof.
  induction p as [|s p IH]; intros acc; cbn [draw_loop]; [first [apply oe_ok|apply oe_panic|apply oe_other]|]. destruct (seq _ _); [first [apply oe_ok|apply oe_panic|apply oe_other]|].
  apply oe_bind; [apply oe_draw|]. intros d. apply IH.
Qed.
Lemma oe_assume p e : oe (assume_line p e). Proof. unfold assume_line. oes. Qed.
Lemma oe_symbol p : oe (parse_symbol p).
Proof.
  unfold parse_symbol, parse_aliases, assume_string, f64_from_string, i64_from_string, bool_from_string. cbv zeta.
  repeat (first [apply oe_sfields|apply oe_draws|apply oe_assume|oe_step]).
Qed.

Lemma oe_symbols n : forall p acc, oe (symbols_loop n p acc).
Proof.
  induction n as [|n IH]; intros p acc; destruct p as [|s p]; cbn [symbols_loop];
    try (destruct (seq _ _)); try apply oe_ok; try apply oe_other; try apply oe_panic; try apply oe_fuel; [].
  apply oe_bind; [apply oe_symbol|]. intros [y q]. apply IH.
Qed.
Lemma oe_library t : oe (parse_symbol_lib t).
Proof.
  unfold parse_symbol_lib, parse_symbol_lines. repeat (apply oe_bind; [apply oe_assume|intros ?]). apply oe_symbols.
Qed.
Lemma sch_other fn t e : parse_schematic fn t = Err e -> e = EOther.
Proof. intros H. destruct (oe_parse fn t e H) as [E|E]; [exact E|]. subst e. destruct (nf_parse fn t H). Qed.
Lemma lib_other t e : parse_symbol_lib t = Err e -> e = EOther.
Proof. intros H. destruct (oe_library t e H) as [E|E]; [exact E|]. subst e. destruct (nf_library t H). Qed.
