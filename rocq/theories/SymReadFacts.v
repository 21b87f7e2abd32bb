(** The symbol library reader accepts exactly the texts of [library_text] (C71). *)
From Coq Require Import String Lia.
From Verif Require Import Base Str StrFacts Num F64 F64Text SexpFacts LibFns LibSpec CutSpec CutFacts SchData SchPrint SchParse SchReadSpec SchReadFacts SymData SymParse SymReadSpec.
Open Scope string_scope. Open Scope list_scope.

(** ** The first word *)
Lemma word_head w c s t : word_ok w = true -> word_text w ++ t = c :: s -> c <> 34%N -> exists r, word_value w = c :: r.
Proof.
  destruct w as [|p w]; [discriminate|]. intros H E N. unfold word_ok in H. cbn [forallb] in H. apply Bool.andb_true_iff in H as [P _].
  unfold word_text in E. unfold word_value. cbn [flat_map] in *. destruct p as [[|x q]|q]; cbn [piece_ok piece_text piece_value] in *; [discriminate P| |].
  - cbn [app] in *. injection E as -> _. eexists. reflexivity.
  - cbn [app] in E. injection E as E _. now contradiction N.
Qed.
Lemma line_head c s v : line_words (c :: s) v -> c <> 32%N -> c <> 34%N -> exists r v', v = (c :: r) :: v'.
Proof.
  intros (n & l & t & e & E & L & T & ->) B Q. destruct n as [|n]; [|cbn [blanks repeat app] in E; injection E as E _; contradiction]. cbn [blanks repeat app] in E.
  destruct l as [|[w m] l].
  - cbn [spaced flat_map app values map] in *. destruct T as [|w W|w q W U].
    + discriminate E.
    + destruct (word_head w c s [] W) as [r R]; [now rewrite app_nil_r|exact Q|]. rewrite R. eauto.
    + destruct w as [|p w]; [cbn [word_text flat_map app] in E; injection E as E _; contradiction|].
      destruct (word_head (p :: w) c s _ W (eq_sym E) Q) as [r R]. rewrite R. cbn [app]. eauto.
  - unfold spaced_ok in L. cbn [forallb fst] in L. apply Bool.andb_true_iff in L as [W _]. unfold spaced in E. cbn [flat_map fst snd] in E. rewrite <- !app_assoc in E.
    destruct (word_head w c s _ W (eq_sym E) Q) as [r R]. unfold values. cbn [map fst]. rewrite R. cbn [app]. eauto.
Qed.

(** ** Names *)
Ltac names := split; [intros H; table; eexists; (split; [reflexivity|cbn [In]; tauto])|intros (k & -> & H); cbn [In] in H; repeat (destruct H as [H|H]; [injection H as <- <-; reflexivity|]); contradiction].
Lemma fill_iff w f : fill_make w = Ok f <-> exists k, w = lit k /\ In (k, f) fills.
Proof. unfold fill_make, fills. names. Qed.
Lemma pin_orient_iff w f : pin_orientation_make w = Ok f <-> exists k, w = lit k /\ In (k, f) pin_orientations.
Proof. unfold pin_orientation_make, pin_orientations. names. Qed.
Lemma pin_type_iff w f : pin_type_make w = Ok f <-> exists k, w = lit k /\ In (k, f) pin_types.
Proof. unfold pin_type_make, pin_types. names. Qed.
Lemma yes_no_iff t f w b : t <> f -> bool_from_string w t f = Ok b <-> exists k, w = lit k /\ In (k, b) (yes_no t f).
Proof.
  intros D. unfold bool_from_string, yes_no. split.
  - intros H. table; eexists; (split; [reflexivity|cbn [In]; auto]).
  - intros (k & -> & [H|[H|[]]]); injection H as <- <-; [now rewrite (proj2 (seq_iff _ _) eq_refl)|]. rewrite (proj2 (seq_iff (lit f) f) eq_refl).
    destruct (seq (lit f) t) eqn:E; [|reflexivity]. apply seq_iff, lit_inj in E. now contradiction D.
Qed.
Lemma shape_iff w b sh : (pin_shape_make w = Ok sh /\ visible_from_str w = b) <-> shape_word w b sh.
Proof.
  split.
  - intros [H <-]. unfold pin_shape_make in H. destruct w as [|c r].
    { cbn [is_empty] in H. injection H as <-. exists "". split; [now left|left; now split]. }
    cbn [is_empty] in H. destruct (starts_with (lit "N") (c :: r)) eqn:S.
    + unfold visible_from_str. rewrite S. cbn [is_empty negb tl] in *. apply starts_iff in S as [t T]. change (lit "N") with [78%N] in T. injection T as -> ->.
      table; (eexists; split; [|right; split; reflexivity]); cbn [In pin_shapes]; tauto.
    + unfold visible_from_str. rewrite S. cbn [is_empty negb].
      table; try discriminate; (eexists; split; [|left; split; [eassumption || (symmetry; eassumption) || reflexivity|reflexivity]]); cbn [In pin_shapes]; tauto.
  - intros (k & I & [[-> ->]|[-> ->]]); unfold pin_shapes in I; cbn [In] in I; repeat (destruct I as [I|I]; [injection I as <- <-; split; reflexivity|]); contradiction.
Qed.

(** ** Lines *)
Lemma same_words s v v' : line_words s v -> line_words s v' -> v = v'.
Proof. intros A B. apply words_fw in A, B. rewrite A in B. now injection B. Qed.
Ltac read := repeat match goal with
  | H : char_at _ _ = Ok _ |- _ => apply char_iff in H
  | H : orientation_new _ = Ok _ |- _ => apply orientation_iff in H
  | H : sjustify_new _ = Ok _ |- _ => apply sjustify_iff in H
  | H : fill_make _ = Ok _ |- _ => apply fill_iff in H as (? & -> & H)
  | H : pin_orientation_make _ = Ok _ |- _ => apply pin_orient_iff in H as (? & -> & H)
  | H : pin_type_make _ = Ok _ |- _ => apply pin_type_iff in H as (? & -> & H)
  | H : bool_from _ _ _ = Ok _ |- _ => apply bool_from_iff in H; [|discriminate]
  | H : bool_from_string _ _ _ = Ok _ |- _ => apply yes_no_iff in H as (? & -> & H); [|discriminate]
  end.
Lemma field_fw s f : parse_sfield s = Ok f -> starts_with (lit "F") s = true -> sfield_line s f.
Proof.
  unfold parse_sfield. intros H F. inv. known_words. read. unfold sfield_line.
  cbn [sf_i sf_value sf_x sf_y sf_dim sf_orient sf_visible sf_hjust sf_vjust sf_italic sf_bold sf_name]. unfold at_char, at_name, at_int, at_num, at_word.
  pose proof (proj1 (starts_F s) F) as [r R]. rewrite R in *. match goal with W : line_words (70%N :: r) ?v |- _ => destruct (line_head _ _ _ W) as (i & v' & V); [discriminate|discriminate|]; exists v, i; split; [exact F|split; [exact W|]] end.
  assert (Z : nth_error x 0 = Some (70%N :: i)) by (rewrite V; reflexivity).
  match goal with H : nth_error x 0 = Some ?a |- _ => rewrite Z in H; injection H as <- end. cbn [tl] in *.
  split; [exact Z|]. repeat (split; [solve [eauto 8]|]).
  match goal with H : (if Nat.eqb _ 10 then _ else _) = Ok _ |- _ => revert H end. match goal with H : negb _ && negb _ = false |- _ => revert H end.
  destruct (Nat.eqb_spec (length x) 10) as [L|L].
  - intros _ H. apply idx_iff in H. left. now split.
  - destruct (Nat.eqb_spec (length x) 9) as [M|M]; [|discriminate]. intros _ H. right. split; [exact M|].
    apply usual_iff. destruct (default_field_name _); cbn in H; [now injection H as ->|discriminate H].
Qed.
Lemma field_bw s f : sfield_line s f -> parse_sfield s = Ok f.
Proof.
  intros (v & i & F & W & H). destruct f as [n value x y dim orient vis hj vj it bo name].
  cbn [sf_i sf_value sf_x sf_y sf_dim sf_orient sf_visible sf_hjust sf_vjust sf_italic sf_bold sf_name] in H.
  destruct H as (A0 & AI & A1 & A2 & A3 & A4 & (w5 & c5 & A5 & C5 & I5) & (k6 & A6 & I6) & (w7 & c7 & A7 & C7 & I7) & (w8 & c8 & A8 & C8 & I8) & (w8' & c9 & A9 & C9 & I9) & (w8'' & c10 & A10 & C10 & I10) & D).
  unfold parse_sfield. opened. rewrite A8 in A9, A10. injection A9 as <-. injection A10 as <-.
  assert (N : negb (Nat.eqb (length v) 9) && negb (Nat.eqb (length v) 10) = false) by (destruct D as [(L & _)|(L & _)]; rewrite L; reflexivity).
  run. rewrite N. clear N. run. change (tl (lit "F" ++ i)) with i. run.
  assert (M : (if Nat.eqb (length v) 10 then match nth_error v 9 with Some x => Ok x | None => Panic end else of_option EOther (default_field_name n)) = Ok name).
  { destruct D as [(L & M)|(L & M)]; rewrite L; cbn [Nat.eqb]; [now rewrite M|]. apply usual_iff in M. now rewrite M. }
  unfold idx. rewrite M. run. apply char_iff in C5, C7, C8, C9, C10. apply orientation_iff in I5. apply sjustify_iff in I7, I8.
  apply bool_from_iff in I9; [|discriminate]. apply bool_from_iff in I10; [|discriminate].
  assert (V : bool_from_string (lit k6) "V" "I" = Ok vis) by (apply yes_no_iff; [discriminate|eauto]).
  rewrite C5. run. rewrite I5. run. rewrite V. run. rewrite C7. run. rewrite I7. run. rewrite C8. run. rewrite I8. run. rewrite C9. run. rewrite I9. run. rewrite C10. run. rewrite I10. run. reflexivity.
Qed.
Lemma pin_iff s p : parse_pin s = Ok p <-> pin_line s p.
Proof.
  unfold parse_pin, pin_line. split.
  - intros H. inv. known_words. read.
    match goal with W : line_words s ?v |- _ => exists v; split; [exact W|]; destruct (Nat.eqb_spec (length v) 13) as [L|L] end; inv.
    + cbn [pn_name pn_number pn_x pn_y pn_len pn_orient pn_num_size pn_name_size pn_unit pn_convert pn_type pn_visible pn_shape]. unfold at_name, at_int, at_word.
      repeat (split; [solve [eauto 8]|]). left. split; [exact L|]. match goal with H : pin_shape_make ?w = Ok _ |- _ => exists w end. split; [assumption|]. apply shape_iff. split; [assumption|reflexivity].
    + cbn [pn_name pn_number pn_x pn_y pn_len pn_orient pn_num_size pn_name_size pn_unit pn_convert pn_type pn_visible pn_shape]. unfold at_name, at_int, at_word.
      repeat (split; [solve [eauto 8]|]). right. match goal with H : negb _ && negb _ = false |- _ => revert H end.
      match goal with W : line_words s ?v |- _ => destruct (Nat.eqb_spec (length v) 12) as [M|M]; [|destruct (Nat.eqb_spec (length v) 13); [contradiction|discriminate]] end.
      intros _. split; [exact M|split; reflexivity].
  - intros (v & W & H). destruct p as [name number x y len orient ns ms unit conv ty vis sh].
    cbn [pn_name pn_number pn_x pn_y pn_len pn_orient pn_num_size pn_name_size pn_unit pn_convert pn_type pn_visible pn_shape] in H.
    destruct H as (A1 & A2 & A3 & A4 & A5 & (k6 & A6 & I6) & A7 & A8 & A9 & A10 & (k11 & A11 & I11) & D). opened.
    assert (N : negb (Nat.eqb (length v) 12) && negb (Nat.eqb (length v) 13) = false) by (destruct D as [(L & _)|(L & _)]; rewrite L; reflexivity).
    assert (O : pin_orientation_make (lit k6) = Ok orient) by (apply pin_orient_iff; eauto). assert (T : pin_type_make (lit k11) = Ok ty) by (apply pin_type_iff; eauto).
    run. rewrite N. run. rewrite O. run. rewrite T. run. destruct D as [(L & w & A12 & D)|(L & -> & ->)]; rewrite L; cbn [Nat.eqb].
    + unfold at_word in A12. apply shape_iff in D as [D <-]. run. rewrite D. reflexivity.
    + reflexivity.
Qed.
Lemma rect_iff s r : parse_rect s = Ok r <-> rect_line s r.
Proof.
  unfold parse_rect, rect_line. split.
  - intros H. inv. known_words. read. match goal with H : negb _ = false |- _ => apply Bool.negb_false_iff, Nat.eqb_eq in H; rename H into L end.
    cbn [rc_x1 rc_y1 rc_x2 rc_y2 rc_unit rc_convert rc_thickness rc_fill]. unfold at_name, at_int, at_word.
    match goal with W : line_words s ?v |- _ => exists v; split; [exact W|] end. split; [exact L|]. repeat (split; [solve [eauto 8]|]). eauto.
  - intros (v & W & L & H). destruct r as [x1 y1 x2 y2 unit conv th fi]. cbn [rc_x1 rc_y1 rc_x2 rc_y2 rc_unit rc_convert rc_thickness rc_fill] in H.
    destruct H as (A1 & A2 & A3 & A4 & A5 & A6 & A7 & (k8 & A8 & I8)). opened. assert (F : fill_make (lit k8) = Ok fi) by (apply fill_iff; eauto).
    run. rewrite L. cbn [Nat.eqb negb]. run. rewrite F. reflexivity.
Qed.
Lemma draw_iff s d : draw_line s = Ok d <-> drawing s d.
Proof.
  unfold draw_line. split.
  - destruct (starts_with (lit "X ") s) eqn:X; [|destruct (starts_with (lit "S ") s) eqn:S]; intros H; inv.
    + apply dr_pin; [exact X|now apply pin_iff].
    + apply dr_rect; [exact S|now apply rect_iff].
    + now apply dr_other.
  - intros H. destruct H as [s p X P|s r S R|s X S].
    + rewrite X. apply pin_iff in P. now rewrite P.
    + assert (X : starts_with (lit "X ") s = false) by (apply starts_iff in S as [t ->]; reflexivity). rewrite X, S. apply rect_iff in R. now rewrite R.
    + now rewrite X, S.
Qed.

(** ** Symbols *)
Lemma fields_fw p acc l q : sfields_loop p acc = Ok (l, q) -> exists fl fs, p = fl ++ q /\ l = acc ++ fs /\ Forall2 sfield_line fl fs.
Proof.
  revert acc. induction p as [|s r IH]; intros acc H; [discriminate H|]. cbn [sfields_loop] in H. apply bind_inv in H as (c & C & H). apply char_iff in C.
  destruct s as [|c' t]; [discriminate C|injection C as C; subst c']. destruct (N.eqb_spec c 70) as [E|N]; [subst c|].
  - apply bind_inv in H as (f & F & H). apply field_fw in F; [|apply starts_F; eauto]. apply IH in H as (fl & fs & -> & -> & P). exists ((70%N :: t) :: fl), (f :: fs).
    split; [reflexivity|split; [now rewrite <- app_assoc|now constructor]].
  - injection H as <- <-. exists [], []. rewrite app_nil_r. repeat split. constructor.
Qed.
Lemma fields_bw fl fs acc c t q : Forall2 sfield_line fl fs -> c <> 70%N -> sfields_loop (fl ++ (c :: t) :: q) acc = Ok (acc ++ fs, (c :: t) :: q).
Proof.
  intros H N. revert acc. induction H as [|s f fl fs S H IH]; intros acc; cbn [app sfields_loop].
  - change (char_at (c :: t) 0) with (Ok c). cbn [bind]. destruct (N.eqb_spec c 70); [contradiction|]. now rewrite app_nil_r.
  - pose proof S as (v & i & F & _). apply starts_F in F as [r R]. assert (C : char_at s 0 = Ok 70%N) by (now rewrite R). rewrite C. cbn [bind N.eqb Pos.eqb].
    rewrite (field_bw _ _ S). cbn [bind]. rewrite IH, <- app_assoc. reflexivity.
Qed.
Lemma skip_bw m q : ~ In (lit "$ENDFPLIST") m -> skip_fplist (m ++ lit "$ENDFPLIST" :: q) = q.
Proof.
  induction m as [|s m IH]; intros N; cbn [app skip_fplist].
  - now rewrite (proj2 (seq_iff _ _) eq_refl).
  - rewrite (proj2 (seq_no s _)) by (intros ->; apply N; now left). apply IH. intros I. apply N. now right.
Qed.
Lemma skip_fw p q : skip_fplist p = q -> q <> [] -> exists m, p = m ++ lit "$ENDFPLIST" :: q /\ ~ In (lit "$ENDFPLIST") m.
Proof.
  revert q. induction p as [|s r IH]; intros q H Q; cbn [skip_fplist] in H; [now subst|]. destruct (seq s "$ENDFPLIST") eqn:E.
  - apply seq_iff in E. subst. exists []. split; [reflexivity|intros []].
  - apply IH in H as (m & -> & N); [|exact Q]. apply seq_no in E. exists (s :: m). split; [reflexivity|intros [A|A]; [now subst|contradiction]].
Qed.
Lemma draws_fw p acc l q : draw_loop p acc = Ok (l, q) -> q <> [] -> exists dl ds, p = dl ++ lit "ENDDRAW" :: q /\ l = acc ++ ds /\ Forall2 drawing dl ds /\ ~ In (lit "ENDDRAW") dl.
Proof.
  intros H Q. revert acc H. induction p as [|s r IH]; intros acc H; cbn [draw_loop] in H; [injection H as <- <-; contradiction|]. destruct (seq s "ENDDRAW") eqn:E.
  - injection H as <- <-. apply seq_iff in E. subst. exists [], []. rewrite app_nil_r. repeat split; [constructor|intros []].
  - apply bind_inv in H as (d & D & H). apply draw_iff in D. apply IH in H as (dl & ds & -> & -> & P & N). apply seq_no in E. exists (s :: dl), (d :: ds).
    split; [reflexivity|split; [now rewrite <- app_assoc|split; [now constructor|intros [A|A]; [now subst|contradiction]]]].
Qed.
Lemma draws_bw dl ds acc q : Forall2 drawing dl ds -> ~ In (lit "ENDDRAW") dl -> draw_loop (dl ++ lit "ENDDRAW" :: q) acc = Ok (acc ++ ds, q).
Proof.
  intros H. revert acc. induction H as [|s d dl ds S H IH]; intros acc N; cbn [app draw_loop].
  - rewrite (proj2 (seq_iff _ _) eq_refl). now rewrite app_nil_r.
  - rewrite (proj2 (seq_no s _)) by (intros ->; apply N; now left). apply draw_iff in S. rewrite S. cbn [bind]. rewrite IH by (intros I; apply N; now right). now rewrite <- app_assoc.
Qed.
Lemma aliases_fw p l q : parse_aliases p = Ok (l, q) -> exists al, p = al ++ q /\ alias_lines al l.
Proof.
  unfold parse_aliases. destruct p as [|s r]; [discriminate|]. cbn [here bind next tl]. destruct (starts_with (lit "ALIAS") s) eqn:A; intros H; inv.
  - known_words. exists [s]. split; [reflexivity|]. pose proof (proj1 (starts_iff _ _) A) as [t T]. rewrite T in *.
    match goal with W : line_words _ ?v |- _ => destruct (line_head _ _ _ W) as (i & v' & V); [discriminate|discriminate|]; rewrite V in W; apply al_line in W; [|exact A]; rewrite V; exact W end.
  - exists []. split; [reflexivity|constructor].
Qed.
Lemma aliases_bw al l q : alias_lines al l -> parse_aliases (al ++ lit "DRAW" :: q) = Ok (l, lit "DRAW" :: q).
Proof.
  intros [|s w v A W]; [reflexivity|]. unfold parse_aliases. cbn [app here bind next tl]. rewrite A, (words_fw _ _ W). reflexivity.
Qed.
Lemma symbol_fw p y q : parse_symbol p = Ok (y, q) -> exists l, p = l ++ q /\ symbol_text l y /\ l <> [].
Proof.
  unfold parse_symbol. intros H. apply bind_inv in H as (p1 & A & H). apply assume_line_iff in A. destruct p as [|a p]; [discriminate A|]. cbn [next tl] in A. subst p.
  apply bind_inv in H as (d & D & H). destruct p1 as [|d' p1]; [discriminate D|injection D as ->]. cbn [next tl] in H. inv.
  match goal with H : (let '(_, _) := ?x in _) = Ok _ |- _ => destruct x as [fs p2] end.
  match goal with H : sfields_loop _ _ = Ok _ |- _ => apply fields_fw in H as (fl & fs' & -> & -> & F) end. cbn [app] in H.
  apply bind_inv in H as (s2 & S2 & H). apply bind_inv in H as ([aliases p3] & AL & H). apply aliases_fw in AL as (al & AL & AT).
  apply bind_inv in H as (p4 & P4 & H). apply assume_line_iff in P4. subst p3. apply bind_inv in H as ([dr p5] & DL & H).
  apply bind_inv in H as (p6 & P6 & H). apply assume_line_iff in P6. apply bind_inv in H as (p7 & P7 & H). apply assume_line_iff in P7. subst p5 p6. injection H as <- <-.
  apply draws_fw in DL as (dl & ds & -> & -> & DD & DN); [|discriminate]. cbn [app].
  assert (FP : exists fp, p2 = fp ++ al ++ lit "DRAW" :: dl ++ lit "ENDDRAW" :: lit "ENDDEF" :: lit "#" :: p7 /\ fplist fp).
  { destruct p2 as [|s2' p2]; [discriminate S2|injection S2 as ->]. cbn [next tl] in AL. destruct (seq s2 "$FPLIST") eqn:EQ.
    - apply seq_iff in EQ. subst s2. apply skip_fw in AL as (m & -> & N); [|intros Z; destruct al; discriminate Z].
      exists (lit "$FPLIST" :: m ++ [lit "$ENDFPLIST"]). split; [cbn [app]; now rewrite <- app_assoc|now constructor].
    - exists []. split; [exact AL|constructor]. }
  destruct FP as (fp & -> & FP). clear AL S2. known_words. read.
  repeat match goal with u : unit |- _ => destruct u end.
  match goal with H : assume_string _ _ = Ok _ |- _ => apply assume_iff in H; subst end.
  match goal with H : negb _ = false |- _ => apply Bool.negb_false_iff, Nat.eqb_eq in H; rename H into L end.
  match goal with W : line_words d ?v |- _ => exists (a :: lit "#" :: d :: fl ++ fp ++ al ++ lit "DRAW" :: dl ++ [lit "ENDDRAW"; lit "ENDDEF"; lit "#"]) end.
  split; [|split; [|discriminate]].
  - cbn [app]. f_equal. f_equal. f_equal. rewrite <- !app_assoc. cbn [app]. rewrite <- app_assoc. reflexivity.
  - eapply sym_lines; cbn [sy_name sy_reference sy_text_offset sy_pinnumber sy_pinname sy_unit_count sy_unit_locked sy_is_power sy_fields sy_aliases sy_draw];
      unfold at_name, at_int, at_num, at_word; eauto.
Qed.
Lemma draw_head al l q : alias_lines al l -> exists c t r, al ++ lit "DRAW" :: q = (c :: t) :: r /\ c <> 70%N /\ c :: t <> lit "$FPLIST".
Proof.
  intros [|s w v A W].
  - eexists _, _, _. split; [reflexivity|split; [discriminate|]]. change (lit "DRAW" <> lit "$FPLIST"). intros E. apply lit_inj in E. discriminate E.
  - apply starts_iff in A as [t ->]. eexists _, _, _. split; [reflexivity|split; [discriminate|]]. discriminate.
Qed.
Lemma symbol_bw l y q : symbol_text l y -> parse_symbol (l ++ q) = Ok (y, q).
Proof.
  intros H. destruct H as [a d v fl fp al dl y W L A0 A1 A2 A4 (k5 & A5 & I5) (k6 & A6 & I6) A7 (k8 & A8 & I8) (k9 & A9 & I9) F FP AL DD DN].
  assert (E : (a :: lit "#" :: d :: fl ++ fp ++ al ++ lit "DRAW" :: dl ++ [lit "ENDDRAW"; lit "ENDDEF"; lit "#"]) ++ q =
    a :: lit "#" :: d :: fl ++ fp ++ al ++ lit "DRAW" :: dl ++ lit "ENDDRAW" :: lit "ENDDEF" :: lit "#" :: q).
  { cbn [app]. f_equal. f_equal. f_equal. rewrite <- !app_assoc. cbn [app]. rewrite <- app_assoc. reflexivity. }
  rewrite E. clear E. unfold parse_symbol. cbn [next tl]. rewrite (proj2 (assume_line_iff _ _ _) eq_refl). cbn [bind here next tl]. opened.
  assert (B5 : bool_from_string (lit k5) "Y" "N" = Ok (sy_pinnumber y)) by (apply yes_no_iff; [discriminate|eauto]).
  assert (B6 : bool_from_string (lit k6) "Y" "N" = Ok (sy_pinname y)) by (apply yes_no_iff; [discriminate|eauto]).
  assert (B8 : bool_from_string (lit k8) "L" "F" = Ok (sy_unit_locked y)) by (apply yes_no_iff; [discriminate|eauto]).
  assert (B9 : bool_from_string (lit k9) "P" "N" = Ok (sy_is_power y)) by (apply yes_no_iff; [discriminate|eauto]).
  run. rewrite L. cbn [Nat.eqb negb]. run. rewrite (proj2 (assume_iff _ _) eq_refl). run. rewrite B5. run. rewrite B6. run. rewrite B8. run. rewrite B9. run.
  set (tail := al ++ lit "DRAW" :: dl ++ lit "ENDDRAW" :: lit "ENDDEF" :: lit "#" :: q).
  assert (G : exists c t r, fp ++ tail = (c :: t) :: r /\ c <> 70%N /\
    (if seq (c :: t) "$FPLIST" then skip_fplist r else (c :: t) :: r) = tail).
  { destruct FP as [|m N].
    - destruct (draw_head _ _ (dl ++ lit "ENDDRAW" :: lit "ENDDEF" :: lit "#" :: q) AL) as (c & t & r & E & C & T). fold tail in E. exists c, t, r. cbn [app].
      split; [exact E|split; [exact C|]]. rewrite (proj2 (seq_no _ _) T). now rewrite E.
    - exists 36%N, (lit "FPLIST"), (m ++ lit "$ENDFPLIST" :: tail). split; [cbn [app]; now rewrite <- app_assoc|split; [discriminate|]].
      change (36%N :: lit "FPLIST") with (lit "$FPLIST"). rewrite (proj2 (seq_iff _ _) eq_refl). now apply skip_bw. }
  destruct G as (c & t & r & E & C & G). rewrite E. rewrite (fields_bw _ _ _ _ _ _ F C). cbn [bind app here next tl]. rewrite G.
  unfold tail. rewrite (aliases_bw _ _ _ AL). cbn [bind]. rewrite (proj2 (assume_line_iff _ _ _) eq_refl). cbn [bind].
  rewrite (draws_bw _ _ _ _ DD DN). cbn [bind app]. rewrite (proj2 (assume_line_iff _ _ _) eq_refl). cbn [bind]. rewrite (proj2 (assume_line_iff _ _ _) eq_refl). cbn [bind]. now destruct y.
Qed.
Lemma symbols_fw n p acc l : symbols_loop n p acc = Ok l -> exists ys, l = acc ++ ys /\ symbols_text p ys.
Proof.
  revert p acc. induction n as [|n IH]; intros [|s r] acc H; cbn [symbols_loop] in H;
    try (injection H as <-; exists []; rewrite app_nil_r; split; [reflexivity|constructor]);
    (destruct (seq s "#End Library") eqn:E; [apply seq_iff in E; subst; injection H as <-; exists []; rewrite app_nil_r; split; [reflexivity|constructor]|]).
  - discriminate H.
  - apply bind_inv in H as ([y q] & Y & H). apply symbol_fw in Y as (lx & E2 & Y & NE). apply IH in H as (ys & -> & S). exists (y :: ys). split; [now rewrite <- app_assoc|].
    rewrite E2. apply sy_more; [exact Y| |exact S]. destruct lx as [|x lx]; [contradiction|]. cbn [app] in E2. injection E2 as <- _. cbn [hd_error]. intros Z. injection Z as ->. now apply seq_no in E.
Qed.
Lemma symbols_bw p ys n acc : symbols_text p ys -> (length p <= n)%nat -> symbols_loop n p acc = Ok (acc ++ ys).
Proof.
  intros H. revert n acc. induction H as [|r|l y r ys Y E S IH]; intros n acc L.
  - destruct n; cbn [symbols_loop]; now rewrite app_nil_r.
  - destruct n; cbn [symbols_loop]; rewrite (proj2 (seq_iff _ _) eq_refl); now rewrite app_nil_r.
  - pose proof (symbol_bw _ _ r Y) as P. destruct l as [|x l]; [inversion Y|]. cbn [app length hd_error] in *. destruct n as [|n]; [lia|]. cbn [symbols_loop].
    rewrite (proj2 (seq_no x _)) by (intros ->; now apply E). rewrite P. cbn [bind]. rewrite IH by (rewrite app_length in L; lia). now rewrite <- app_assoc.
Qed.
Lemma library_ls ls l : parse_symbol_lines ls = Ok l <-> library_text ls l.
Proof.
  unfold library_text, parse_symbol_lines. split.
  - intros H. apply bind_inv in H as (p1 & A & H). apply assume_line_iff in A. apply bind_inv in H as (p2 & B & H). apply assume_line_iff in B.
    apply bind_inv in H as (p3 & C & H). apply assume_line_iff in C. apply symbols_fw in H as (ys & -> & S). exists p3. split; [now rewrite A, B, C|exact S].
  - intros (r & -> & S). rewrite (proj2 (assume_line_iff _ _ _) eq_refl). cbn [bind]. rewrite (proj2 (assume_line_iff _ _ _) eq_refl). cbn [bind].
    rewrite (proj2 (assume_line_iff _ _ _) eq_refl). cbn [bind]. now rewrite (symbols_bw _ _ _ _ S).
Qed.
Theorem library_iff s l : parse_symbol_lib s = Ok l <-> exists ls, text_lines s ls /\ library_text ls l.
Proof.
  unfold parse_symbol_lib. rewrite library_ls. split; [intros H; exists (lines s); split; [now apply lines_iff|exact H]|]. intros (ls & L & H). apply lines_iff in L. now subst.
Qed.
Lemma library_fun ls c d : library_text ls c -> library_text ls d -> c = d.
Proof. intros A B. apply library_ls in A, B. rewrite A in B. now injection B. Qed.
Lemma lib_by ls (t : list symbol -> bool) : match parse_symbol_lines ls with Ok c => t c | _ => false end = true -> exists c, library_text ls c /\ t c = true.
Proof. destruct (parse_symbol_lines ls) as [c| |] eqn:E; try discriminate. intros H. exists c. split; [now apply library_ls|exact H]. Qed.
