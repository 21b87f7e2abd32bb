(** The models with error texts are those without when the texts are forgotten. *)
From Coq Require Import String.
From Verif Require Import Base Str StrFacts Num F64 F64Text LibFns SchData SchPrint SchParse SymData SymParse Said SchErr SymErr.
Open Scope string_scope. Open Scope list_scope.

Lemma plain_bind {A B} (a : said A) (b : res A) (f : A -> said B) (g : A -> res B) :
  plain a = b -> (forall x, plain (f x) = g x) -> plain (sbind a f) = bind b g.
Proof. intros <- H. destruct a; cbn; auto. Qed.
Lemma plain_idx {A} (l : list A) i : plain (sidx l i) = idx l i.
Proof. unfold sidx, idx. destruct (nth_error l i); reflexivity. Qed.
Lemma plain_char s i : plain (schar s i) = char_at s i.
Proof. apply plain_idx. Qed.
Lemma plain_split n s : plain (split_said n s) = split_quote_aware_n n s.
Proof.
  unfold split_said, split_quote_aware_n, split_quote_aware_int. cbv zeta. destruct (Nat.ltb _ n); reflexivity.
Qed.
Lemma plain_all s : plain (split_all s) = split_quote_aware s.
Proof. reflexivity. Qed.
Lemma plain_int l s : plain (int_said l s) = i64_from_string s.
Proof. unfold int_said, i64_from_string. destruct (i64_of_str s); reflexivity. Qed.
Lemma plain_float l s : plain (float_said l s) = f64_from_string s.
Proof. unfold float_said, f64_from_string. destruct (f64_of_str s); reflexivity. Qed.
Lemma plain_bool s t f : plain (bool_said s t f) = bool_from_string s t f.
Proof. unfold bool_said, bool_from_string, seq. destruct (str_eqb s (lit t)); [reflexivity|]. destruct (str_eqb s (lit f)); reflexivity. Qed.
Lemma plain_flag c t f : plain (flag_said c t f) = bool_from c t f.
Proof. unfold flag_said, bool_from. destruct (N.eqb c t); [reflexivity|]. destruct (N.eqb c f); reflexivity. Qed.
Lemma plain_assume e s : plain (assume_said e s) = assume_string e s.
Proof. unfold assume_said, assume_string, seq. destruct (str_eqb _ _); reflexivity. Qed.
Lemma plain_line p e : plain (line_said p e) = assume_line p e.
Proof. destruct p as [|s r]; [reflexivity|]. unfold line_said, assume_line, seq. destruct (str_eqb _ _); reflexivity. Qed.
Lemma plain_here p : plain (here_said p) = here p.
Proof. destruct p; reflexivity. Qed.
(** A table whose only error is [EOther] *)
Lemma plain_table {A} (r : res A) m : (forall e, r = Err e -> e = EOther) -> r <> Panic ->
  plain (match r with Ok a => Fine a | _ => Says m end) = r.
Proof. intros H N. destruct r as [a|e|]; [reflexivity| |destruct (N eq_refl)]. rewrite (H e eq_refl). reflexivity. Qed.
Ltac table := apply plain_table; [let e := fresh in let H := fresh in intros e H; repeat match type of H with (if ?b then _ else _) = _ => destruct b; [discriminate H|] end; injection H as <-; reflexivity
  | repeat match goal with |- (if ?b then _ else _) <> _ => destruct b; [discriminate|] end; discriminate].
Lemma plain_orient c : plain (orientation_said c) = orientation_new c.
Proof. unfold orientation_said, orientation_new. table. Qed.
Lemma plain_sjustify c : plain (sjustify_said c) = sjustify_new c.
Proof. unfold sjustify_said, sjustify_new. table. Qed.
Lemma plain_form c : plain (label_form_said c) = parse_label_form c.
Proof. unfold label_form_said, parse_label_form. table. Qed.
Lemma plain_side c : plain (label_side_said c) = parse_label_side c.
Proof. unfold label_side_said, parse_label_side. table. Qed.
Lemma plain_fill c : plain (fill_said c) = fill_make c.
Proof. unfold fill_said, fill_make. table. Qed.
Lemma plain_porient c : plain (pin_orientation_said c) = pin_orientation_make c.
Proof. unfold pin_orientation_said, pin_orientation_make. table. Qed.
Lemma plain_ptype c : plain (pin_type_said c) = pin_type_make c.
Proof. unfold pin_type_said, pin_type_make. table. Qed.
Lemma plain_shape c : plain (pin_shape_said c) = pin_shape_make c.
Proof. unfold pin_shape_said, pin_shape_make. cbv zeta. table. Qed.
Lemma plain_name i : plain (match default_field_name i with Some k => Fine k | None => Says (lit "expecting name for componentfield > 3") end)
  = of_option EOther (default_field_name i).
Proof. destruct (default_field_name i); reflexivity. Qed.
Hint Resolve plain_idx plain_char plain_split plain_all plain_int plain_float plain_bool plain_flag plain_assume plain_line plain_here plain_orient
  plain_sjustify plain_form plain_side plain_fill plain_porient plain_ptype plain_shape plain_name : erase.
Ltac erase := repeat first
  [ solve [eauto 1 with erase nocore]
  | match goal with
    | |- plain (sbind _ _) = bind _ _ => apply plain_bind; [|intros ?]
    | |- plain (if ?b then _ else _) = (if ?b then _ else _) => destruct b
    | |- plain (Fine _) = Ok _ => reflexivity
    | |- plain (Says _) = Err EOther => reflexivity
    end ].
Lemma plain_named n s : plain (named_said n s) = word_and_qstring n s.
Proof. unfold named_said, word_and_qstring. erase. Qed.
Hint Resolve plain_named : erase.
Lemma plain_descr p : plain (descr_said p) = parse_description p.
Proof. unfold descr_said, parse_description. cbv zeta. erase. Qed.
Lemma plain_cfield s v : plain (cfield_said s v) = cfield_new v.
Proof. unfold cfield_said, cfield_new. cbv zeta. erase. Qed.
Hint Resolve plain_cfield plain_descr : erase.
Lemma plain_comp_line s d : plain (comp_line_said s d) = component_line s d.
Proof. unfold comp_line_said, component_line. erase. Qed.
Lemma plain_four s : plain (four_said s) = four s.
Proof. unfold four_said, four. destruct (split_ws s) as [|a [|b [|c [|d [|e r]]]]]; try reflexivity. erase. Qed.
Hint Resolve plain_comp_line plain_four : erase.
Lemma plain_comp p : forall d, plain (comp_said p d) = component_loop p d.
Proof.
  induction p as [p IH] using (well_founded_induction (Wf_nat.well_founded_ltof _ (@length str))). intros d. destruct p as [|s r]; [reflexivity|].
  cbn [comp_said component_loop]. destruct (seq s _); [reflexivity|]. destruct (word_is s "1" || word_is s "0").
  - destruct r as [|s2 r2]; [reflexivity|]. apply plain_bind; [apply plain_four|]. intros [[[a b] c] e]. apply IH. unfold Wf_nat.ltof. cbn. auto.
  - apply plain_bind; [apply plain_comp_line|]. intros d'. apply IH. unfold Wf_nat.ltof. cbn. auto.
Qed.
Lemma plain_label s : plain (label_said s) = parse_sheet_label s.
Proof. unfold label_said, parse_sheet_label. erase. Qed.
Hint Resolve plain_comp plain_label : erase.
Lemma plain_sheet_line st s : plain (sheet_line_said st s) = sheet_line st s.
Proof. unfold sheet_line_said, sheet_line. destruct (first_word st); [|reflexivity]. erase. Qed.
Lemma plain_sheet p : forall s, plain (sheet_said p s) = sheet_loop p s.
Proof.
  induction p as [|st r IH]; intros s; [reflexivity|]. cbn [sheet_said sheet_loop]. destruct (seq st _); [reflexivity|].
  apply plain_bind; [apply plain_sheet_line|]. intros x. apply IH.
Qed.
Lemma plain_wire p : plain (wire_said p) = parse_wire p.
Proof.
  unfold wire_said, parse_wire. apply plain_bind; [apply plain_here|]. intros t. destruct (split_ws t) as [|a [|b [|c [|d r]]]]; try reflexivity. cbv zeta.
  apply plain_bind; [apply plain_here|]. intros s. apply plain_bind; [apply plain_four|]. intros [[[x y] z] w]. reflexivity.
Qed.
Lemma plain_point p : plain (point_said p) = parse_point p.
Proof.
  unfold point_said, parse_point. apply plain_bind; [apply plain_here|]. intros t. destruct (split_ws t) as [|a [|b [|c [|d [|e r]]]]]; try reflexivity. erase.
Qed.
Lemma plain_text p : plain (text_said p) = parse_text p.
Proof.
  unfold text_said, parse_text. apply plain_bind; [apply plain_here|]. intros t. cbv zeta. destruct (Nat.ltb _ 8); [reflexivity|].
  apply plain_bind; [apply plain_idx|]. intros k. apply plain_bind.
  { unfold text_kind_said. repeat (match goal with |- plain (if ?b then _ else _) = _ => destruct b; [reflexivity|] end). reflexivity. }
  intros ty. erase.
Qed.
Hint Resolve plain_sheet plain_wire plain_point plain_text : erase.
Lemma plain_round p c : plain (round_said p c) = round p c.
Proof.
  unfold round_said, round, parse_component, parse_sheet. apply plain_bind; [apply plain_here|]. intros s. destruct (first_word s); [|reflexivity]. erase.
Qed.
Lemma plain_main n : forall p c, plain (main_said n p c) = main_loop n p c.
Proof.
  induction n as [|n IH]; intros [|s r] c; try reflexivity. cbn [main_said main_loop]. apply plain_bind; [apply plain_round|]. intros x. apply IH.
Qed.
Lemma plain_schematic fn s : plain (schematic_said fn s) = parse_schematic fn s.
Proof.
  unfold schematic_said, parse_schematic, lines_said, parse_lines. apply plain_bind; [apply plain_line|]. intros p. destruct (libs_loop p []) as [libs q].
  apply plain_bind; [apply plain_here|]. intros e. destruct (negb _); [reflexivity|]. apply plain_bind; [apply plain_line|]. intros r. apply plain_main.
Qed.

(** ** Symbol libraries *)
Lemma plain_sfield s : plain (sfield_said s) = parse_sfield s.
Proof. unfold sfield_said, parse_sfield. cbv zeta. erase. Qed.
Lemma plain_pin s : plain (pin_said s) = parse_pin s.
Proof. unfold pin_said, parse_pin. cbv zeta. erase. Qed.
Lemma plain_rect s : plain (rect_said s) = parse_rect s.
Proof. unfold rect_said, parse_rect. erase. Qed.
Hint Resolve plain_sfield plain_pin plain_rect : erase.
Lemma plain_sfields p : forall acc, plain (sfields_said p acc) = sfields_loop p acc.
Proof.
  induction p as [|s r IH]; intros acc; [reflexivity|]. cbn [sfields_said sfields_loop]. apply plain_bind; [apply plain_char|]. intros c.
  destruct (N.eqb c 70); [|reflexivity]. apply plain_bind; [apply plain_sfield|]. intros f. apply IH.
Qed.
Lemma plain_aliases p : plain (aliases_said p) = parse_aliases p.
Proof. unfold aliases_said, parse_aliases. erase. Qed.
Lemma plain_draw_line s : plain (draw_line_said s) = draw_line s.
Proof. unfold draw_line_said, draw_line. erase. Qed.
Lemma plain_draw p : forall acc, plain (draw_said p acc) = draw_loop p acc.
Proof.
  induction p as [|s r IH]; intros acc; [reflexivity|]. cbn [draw_said draw_loop]. destruct (seq s _); [reflexivity|].
  apply plain_bind; [apply plain_draw_line|]. intros d. apply IH.
Qed.
Lemma plain_bind2 {A B C} (a : said A) (b : A -> said B) (f : B -> said C) (r : res C) :
  plain (try x <- a; sbind (b x) f) = r -> plain (sbind (sbind a b) f) = r.
Proof. destruct a; exact (fun H => H). Qed.
Lemma plain_symbol p : plain (symbol_said p) = parse_symbol p.
Proof.
  unfold symbol_said, parse_symbol, def_said. apply plain_bind; [apply plain_line|]. clear p. intros p. apply plain_bind; [apply plain_here|]. intros s.
  apply plain_bind2. apply plain_bind; [apply plain_all|]. intros v. destruct (negb _); [reflexivity|].
  repeat (apply plain_bind2; apply plain_bind; [solve [eauto 1 with erase nocore]|intros ?]). cbn [sbind].
  apply plain_bind; [apply plain_sfields|]. intros [fields q]. unfold rest_said. apply plain_bind; [apply plain_here|]. intros s'. cbv zeta.
  apply plain_bind; [apply plain_aliases|]. intros [al q2]. apply plain_bind; [apply plain_line|]. intros q3.
  apply plain_bind; [apply plain_draw|]. intros [dr q4]. erase.
Qed.
Lemma plain_symbols n : forall p acc, plain (symbols_said n p acc) = symbols_loop n p acc.
Proof.
  induction n as [|n IH]; intros [|s r] acc; try reflexivity; cbn [symbols_said symbols_loop]; (destruct (seq s _); [reflexivity|]); [reflexivity|].
  apply plain_bind; [apply plain_symbol|]. intros [y q]. apply IH.
Qed.
Lemma plain_library s : plain (library_said s) = parse_symbol_lib s.
Proof.
  unfold library_said, parse_symbol_lib, parse_symbol_lines. do 3 (apply plain_bind; [apply plain_line|]; intros ?). apply plain_symbols.
Qed.
