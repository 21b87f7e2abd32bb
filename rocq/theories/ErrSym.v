(** What the symbol library reader says when it refuses a text *)
From Coq Require Import String Lia.
From Verif Require Import Base Str StrFacts Num F64 F64Text LibFns LibSpec CutSpec CutFacts SchData SchPrint SchParse SchReadSpec SchReadFacts SymData SymParse SymReadSpec SymReadFacts
  OutSpec Said SchErr SymErr ErrErase ErrSpec ErrFacts ErrLines ErrSch.
Open Scope string_scope. Open Scope list_scope.

(** ** Lines *)
Lemma two_lengths n k v : negb (Nat.eqb (length (v : list str)) n) && negb (Nat.eqb (length v) k) = true <-> ~ (length v = n \/ length v = k).
Proof. destruct (Nat.eqb_spec (length v) n), (Nat.eqb_spec (length v) k); cbn; intuition discriminate. Qed.
Lemma orient_name_reads : reads_names pin_orientations "unknown pin orientation " [] pin_orientation_said.
Proof. apply (names_table _ "unknown pin orientation " [] _ (fun w => lit "unknown pin orientation " ++ w) pin_orient_iff). intros w. rewrite app_nil_r. reflexivity. Qed.
Lemma type_reads : reads_names pin_types "unknown pin type " [] pin_type_said.
Proof. apply (names_table _ "unknown pin type " [] _ (fun w => lit "unknown pin type " ++ w) pin_type_iff). intros w. rewrite app_nil_r. reflexivity. Qed.
Lemma fill_reads : reads_names fills "unknown fill type " [] fill_said.
Proof. apply (names_table _ "unknown fill type " [] _ (fun w => lit "unknown fill type " ++ w) fill_iff). intros w. rewrite app_nil_r. reflexivity. Qed.
Lemma sfield_checked s : checks sfield_checks s (sfield_said s).
Proof.
  destruct (has_words s) as [v W]. unfold sfield_said. rewrite (split_all_is s v _ W). apply (checks_quotes _ s v _ W). cbv zeta.
  destruct (negb (Nat.eqb (length v) 9) && negb (Nat.eqb (length v) 10)) eqn:N; [apply two_lengths in N; apply agree_no; [exact N|reflexivity]|].
  assert (L : (length v = 9 \/ length v = 10)%nat).
  { destruct (Nat.eqb_spec (length v) 9); [auto|]. destruct (Nat.eqb_spec (length v) 10); [auto|]. discriminate N. }
  apply agree_yes; [exact L|]. unfold m_number. destruct (nth_error v 0) as [w|] eqn:E0; [|apply nth_error_None in E0; lia]. rewrite (word_at v 0 w E0).
  unfold sidx at 1. rewrite E0. cbn [sbind]. unfold int_said at 1. destruct (i64_of_str (tl w)) as [i|] eqn:I; cbn [sbind].
  2:{ apply agree_no; [|reflexivity]. intros [i X]. congruence. }
  apply agree_yes; [exists i; reflexivity|]. apply (agree_field_name 9 v (tl w) i 10); [exact I|exact L|reflexivity|]. intros name.
  apply (skip_word v v 1); [lia|reflexivity|]. intros value _. cbn [app].
  apply (agree_num s v v 2); [lia|reflexivity|]. intros x. apply (agree_num s v v 3); [lia|reflexivity|]. intros y.
  apply (agree_int s v v 4); [lia|reflexivity|]. intros z _.
  apply (skip_word v v 5); [lia|reflexivity|]. intros w5 E5.
  apply (agree_letter orientations "unknown orientation " v w5 5 0 [] _ _ orientation_said); [exact E5|apply orient_reads|]. intros o.
  cbn [app]. apply (agree_name (yes_no "V" "I") "unknown boolean " v v 6 _ _ _ (fun w => bool_said w "V" "I")); [lia|reflexivity|apply bool_reads|]. intros b _.
  apply (skip_word v v 7); [lia|reflexivity|]. intros w7 E7.
  apply (agree_letter justifications "unexpected justify: " v w7 7 0 [] _ _ sjustify_said); [exact E7|apply justify_reads|]. intros h.
  apply (skip_word v v 8); [lia|reflexivity|]. intros w8 E8.
  apply (agree_style v w8 8 _ (fun vj it bo => Fine (mk_sfield i value x y z o b h vj it bo name))); [exact E8|]. intros a b0 c. eexists. reflexivity.
Qed.
Lemma shown_is w : (if starts_with (lit "N") w then tl w else w) = shown_shape w.
Proof.
  destruct w as [|c w]; [reflexivity|]. cbn [starts_with lit]. change (lit "N") with [78%N]. cbn [starts_with]. destruct (N.eqb_spec 78 c) as [<-|E]; [reflexivity|]. cbn.
  destruct c as [|[q|q|]]; try reflexivity. repeat (destruct q as [q|q|]; try reflexivity).
Qed.
Lemma pin_checked s : checks pin_checks s (pin_said s).
Proof.
  destruct (has_words s) as [v W]. unfold pin_said. rewrite (split_all_is s v _ W). apply (checks_quotes _ s v _ W). cbv zeta.
  destruct (negb (Nat.eqb (length v) 12) && negb (Nat.eqb (length v) 13)) eqn:N; [apply two_lengths in N; apply agree_no; [exact N|reflexivity]|].
  assert (L : (length v = 12 \/ length v = 13)%nat).
  { destruct (Nat.eqb_spec (length v) 12); [auto|]. destruct (Nat.eqb_spec (length v) 13); [auto|]. discriminate N. }
  apply agree_yes; [exact L|]. cbn [ints map app]. apply (skip_word v v 1); [lia|reflexivity|]. intros n _. apply (skip_word v v 2); [lia|reflexivity|]. intros n2 _.
  apply (agree_int s v v 3); [lia|reflexivity|]. intros x _. apply (agree_int s v v 4); [lia|reflexivity|]. intros y _. apply (agree_int s v v 5); [lia|reflexivity|]. intros len _.
  apply (agree_name pin_orientations "unknown pin orientation " v v 6 [] _ _ pin_orientation_said); [lia|reflexivity|apply orient_name_reads|]. intros o _.
  apply (agree_int s v v 7); [lia|reflexivity|]. intros z7 _. apply (agree_int s v v 8); [lia|reflexivity|]. intros z8 _. apply (agree_int s v v 9); [lia|reflexivity|]. intros z9 _.
  apply (agree_int s v v 10); [lia|reflexivity|]. intros z10 _.
  apply (agree_name pin_types "unknown pin type " v v 11 [] _ _ pin_type_said); [lia|reflexivity|apply type_reads|]. intros ty _.
  unfold m_shape. destruct (Nat.eqb_spec (length v) 13) as [E|E].
  - destruct (nth_error v 12) as [w|] eqn:E12; [|apply nth_error_None in E12; lia]. rewrite (word_at v 12 w E12). unfold sidx. rewrite E12. cbn [sbind].
    unfold pin_shape_said. destruct (pin_shape_make w) as [sh|e|] eqn:M; cbn [sbind].
    + apply agree_yes; [|apply agree_nil; eexists; reflexivity]. intros _. exists (visible_from_str w), sh. apply shape_iff. auto.
    + apply agree_no; [|unfold ends; rewrite shown_is; reflexivity]. intros X. destruct (X E) as (b & k & S). apply shape_iff in S. destruct S as [S _]. congruence.
    + apply agree_no; [|unfold ends; rewrite shown_is; reflexivity]. intros X. destruct (X E) as (b & k & S). apply shape_iff in S. destruct S as [S _]. congruence.
  - apply agree_yes; [intros X; contradiction|]. apply agree_nil. eexists. reflexivity.
Qed.
Lemma rect_checked s : checks rect_checks s (rect_said s).
Proof.
  destruct (has_words s) as [v W]. unfold rect_said. rewrite (split_all_is s v _ W). apply (checks_quotes _ s v _ W).
  destruct (Nat.eqb_spec (length v) 9) as [L|L]; cbn [negb]; [|apply agree_no; [exact L|reflexivity]]. apply agree_yes; [exact L|]. cbn [ints map app].
  apply (agree_int s v v 1); [lia|reflexivity|]. intros z1 _. apply (agree_int s v v 2); [lia|reflexivity|]. intros z2 _. apply (agree_int s v v 3); [lia|reflexivity|]. intros z3 _.
  apply (agree_int s v v 4); [lia|reflexivity|]. intros z4 _. apply (agree_int s v v 5); [lia|reflexivity|]. intros z5 _. apply (agree_int s v v 6); [lia|reflexivity|]. intros z6 _.
  apply (agree_int s v v 7); [lia|reflexivity|]. intros z7 _.
  apply (agree_name fills "unknown fill type " v v 8 [] _ _ fill_said); [lia|reflexivity|apply fill_reads|]. intros f _. apply agree_nil. eexists. reflexivity.
Qed.
Lemma def_checked s : checks def_checks s (def_said s).
Proof.
  destruct (has_words s) as [v W]. unfold def_said. rewrite (split_all_is s v _ W). apply (checks_quotes _ s v _ W).
  destruct (Nat.eqb_spec (length v) 10) as [L|L]; cbn [negb]; [|apply agree_no; [exact L|reflexivity]]. apply agree_yes; [exact L|].
  destruct (nth_error v 0) as [w|] eqn:E; [|apply nth_error_None in E; lia]. unfold sidx at 1. rewrite E. cbn [sbind]. rewrite (word_at v 0 w E). unfold assume_said.
  destruct (str_eqb w (lit "DEF")) eqn:Q; cbn [sbind].
  2:{ apply agree_no; [|reflexivity]. intros X. unfold at_word in X. assert (w = lit "DEF") by congruence. subst w. rewrite str_eqb_refl in Q. discriminate. }
  apply str_eqb_eq in Q. apply agree_yes; [unfold at_word; congruence|].
  apply (skip_word v v 1); [lia|reflexivity|]. intros n _. apply (skip_word v v 2); [lia|reflexivity|]. intros n2 _.
  apply (agree_num s v v 4); [lia|reflexivity|]. intros x.
  apply (agree_name (yes_no "Y" "N") "unknown boolean " v v 5 _ _ _ (fun w => bool_said w "Y" "N")); [lia|reflexivity|apply bool_reads|]. intros b5 _.
  apply (agree_name (yes_no "Y" "N") "unknown boolean " v v 6 _ _ _ (fun w => bool_said w "Y" "N")); [lia|reflexivity|apply bool_reads|]. intros b6 _.
  apply (agree_int s v v 7); [lia|reflexivity|]. intros z7 _.
  apply (agree_name (yes_no "L" "F") "unknown boolean " v v 8 _ _ _ (fun w => bool_said w "L" "F")); [lia|reflexivity|apply bool_reads|]. intros b8 _.
  apply (agree_name (yes_no "P" "N") "unknown boolean " v v 9 _ _ _ (fun w => bool_said w "P" "N")); [lia|reflexivity|apply bool_reads|]. intros b9 _.
  apply agree_nil. eexists. reflexivity.
Qed.

(** ** Fields *)
Lemma starts_letter c t : starts_with (lit "F") (c :: t) = N.eqb c 70.
Proof. change (lit "F") with [70%N]. cbn [starts_with]. rewrite N.eqb_sym. destruct (N.eqb c 70); reflexivity. Qed.
Lemma sfield_fine s f : starts_with (lit "F") s = true -> sfield_said s = Fine f <-> sfield_line s f.
Proof.
  intros S. split.
  - intros E. apply field_fw; [|exact S]. rewrite <- plain_sfield, E. reflexivity.
  - intros H. apply plain_ok. rewrite plain_sfield. apply field_bw. exact H.
Qed.
Lemma sfields_ends p : forall acc m, ends m (sfields_said p acc) <-> exists fl fs r, p = fl ++ r /\ Forall2 sfield_line fl fs /\ fields_stop r m.
Proof.
  induction p as [|s p IH]; intros acc m; cbn [sfields_said].
  - split.
    + intros E. unfold ends in E. destruct m; [discriminate|]. exists [], [], []. repeat split; constructor.
    + intros (fl & fs & r & P & H & S). symmetry in P. apply app_eq_nil in P. destruct P as [-> ->]. inversion S. reflexivity.
  - destruct s as [|c t]; cbn [schar sidx nth_error sbind].
    + split.
      * intros E. unfold ends in E. destruct m; [discriminate|]. exists [], [], ([] :: p). repeat split; constructor.
      * intros (fl & fs & r & P & H & S). destruct H as [|x f fl fs X H]; cbn [app] in P.
        -- subst r. inversion S; subst; [reflexivity|discriminate].
        -- injection P as <- _. destruct X as (v & i & S0 & _). discriminate S0.
    + pose proof (starts_letter c t) as Q. unfold schar, sidx. cbn [nth_error sbind]. destruct (N.eqb c 70) eqn:C.
      * rewrite ends_bind. split.
        -- intros [E|(f & F & E)].
           ++ exists [], [], ((c :: t) :: p). split; [reflexivity|]. split; [constructor|]. apply fs_line; [exact Q|]. apply (checks_fails _ _ _ m (sfield_checked (c :: t))). exact E.
           ++ apply IH in E. destruct E as (fl & fs & r & -> & H & S). exists ((c :: t) :: fl), (f :: fs), r. split; [reflexivity|]. split; [|exact S]. constructor; [|exact H].
              apply sfield_fine; assumption.
        -- intros (fl & fs & r & P & H & S). destruct H as [|x f fl fs X H]; cbn [app] in P.
           ++ subst r. inversion S; subst. left. apply (checks_fails _ _ _ m (sfield_checked (c :: t))). assumption.
           ++ injection P as <- ->. right. exists f. split; [apply sfield_fine; assumption|]. apply IH. eauto 6.
      * split; [intros E; destruct (ends_fine _ _ E)|]. intros (fl & fs & r & P & H & S). exfalso. destruct H as [|x f fl fs X H]; cbn [app] in P.
        -- subst r. inversion S; subst. congruence.
        -- injection P as <- _. destruct X as (v & i & S0 & _). congruence.
Qed.
Lemma sfields_fine p : forall acc l q, sfields_said p acc = Fine (l, q) -> exists fl fs s r, p = fl ++ q /\ Forall2 sfield_line fl fs /\ q = s :: r /\ s <> [] /\ starts_with (lit "F") s = false.
Proof.
  induction p as [|s p IH]; intros acc l q E; cbn [sfields_said] in E; [discriminate|]. destruct s as [|c t]; [discriminate|]. unfold schar, sidx in E. cbn [nth_error sbind] in E.
  pose proof (starts_letter c t) as Q. destruct (N.eqb c 70) eqn:C.
  - destruct (sfield_said (c :: t)) as [f|k| |] eqn:F; try discriminate. cbn [sbind] in E. destruct (IH _ _ _ E) as (fl & fs & s & r & -> & H & -> & N & S).
    exists ((c :: t) :: fl), (f :: fs), s, r. split; [reflexivity|]. split; [constructor; [apply sfield_fine; assumption|exact H]|]. auto.
  - injection E as _ <-. exists [], [], (c :: t), p. split; [reflexivity|]. split; [constructor|]. split; [reflexivity|]. split; [discriminate|exact Q].
Qed.
Lemma sfields_go fl fs s r acc : Forall2 sfield_line fl fs -> s <> [] -> starts_with (lit "F") s = false -> sfields_said (fl ++ s :: r) acc = Fine (acc ++ fs, s :: r).
Proof.
  intros H N S. apply plain_ok. rewrite plain_sfields. destruct s as [|c t]; [destruct (N eq_refl)|]. apply fields_bw; [exact H|]. rewrite starts_letter in S.
  apply N.eqb_neq. exact S.
Qed.

(** ** Drawings *)
Lemma draw_line_ends s m : ends m (draw_line_said s) <-> drawing_fails s m.
Proof.
  unfold draw_line_said. destruct (starts_with (lit "X ") s) eqn:X; [|destruct (starts_with (lit "S ") s) eqn:S].
  - rewrite ends_map, <- (checks_fails _ _ _ m (pin_checked s)). split; [apply df_pin; exact X|]. intros D; inversion D; subst; [assumption|].
    exfalso. apply starts_iff in X as [r ->]. match goal with H : starts_with _ (lit "X " ++ r) = true |- _ => discriminate H end.
  - rewrite ends_map, <- (checks_fails _ _ _ m (rect_checked s)). split; [apply df_rect; exact S|]. intros D; inversion D; subst; [congruence|assumption].
  - split; [intros E; destruct (ends_fine _ _ E)|]. intros D; inversion D; subst; congruence.
Qed.
Lemma draw_fine s d : draw_line_said s = Fine d <-> drawing s d.
Proof. rewrite <- draw_iff, <- plain_draw_line. split; [intros ->; reflexivity|apply plain_ok]. Qed.
Lemma end_fails m : ~ drawing_fails (lit "ENDDRAW") m.
Proof. intros D. inversion D as [s k S|s k S]; discriminate S. Qed.
Lemma draws_ends p : forall acc m, ends m (draw_said p acc) <-> exists dl ds s r, p = dl ++ s :: r /\ Forall2 drawing dl ds /\ ~ In (lit "ENDDRAW") dl /\ drawing_fails s m.
Proof.
  induction p as [|s p IH]; intros acc m; cbn [draw_said].
  - split; [intros E; destruct (ends_fine _ _ E)|]. intros (dl & ds & x & r & P & _). destruct dl; discriminate.
  - destruct (seq s "ENDDRAW") eqn:Q.
    + apply seq_iff in Q. subst s. split; [intros E; destruct (ends_fine _ _ E)|]. intros (dl & ds & x & r & P & H & N & D). exfalso. destruct dl as [|y dl]; cbn [app] in P.
      * injection P as <- _. exact (end_fails m D).
      * injection P as <- _. apply N. left. reflexivity.
    + apply seq_no in Q. rewrite ends_bind. split.
      * intros [E|(d & F & E)].
        -- exists [], [], s, p. split; [reflexivity|]. split; [constructor|]. split; [intros []|]. apply draw_line_ends. exact E.
        -- apply IH in E. destruct E as (dl & ds & x & r & -> & H & N & D). exists (s :: dl), (d :: ds), x, r. split; [reflexivity|]. split; [constructor; [apply draw_fine; exact F|exact H]|].
           split; [|exact D]. intros [X|X]; [congruence|exact (N X)].
      * intros (dl & ds & x & r & P & H & N & D). destruct H as [|y d dl ds Y H]; cbn [app] in P.
        -- injection P as <- <-. left. apply draw_line_ends. exact D.
        -- injection P as <- ->. right. exists d. split; [apply draw_fine; exact Y|]. apply IH. exists dl, ds, x, r. split; [reflexivity|]. split; [exact H|].
           split; [|exact D]. intros X. apply N. right. exact X.
Qed.
Lemma draws_fine p : forall acc l q, draw_said p acc = Fine (l, q) -> exists dl ds, Forall2 drawing dl ds /\ ~ In (lit "ENDDRAW") dl /\ (p = dl ++ lit "ENDDRAW" :: q \/ (p = dl /\ q = [])).
Proof.
  induction p as [|s p IH]; intros acc l q E; cbn [draw_said] in E.
  - injection E as _ <-. exists [], []. split; [constructor|]. split; [intros []|]. right. auto.
  - destruct (seq s "ENDDRAW") eqn:Q.
    + apply seq_iff in Q. subst s. injection E as _ <-. exists [], []. split; [constructor|]. split; [intros []|]. left. reflexivity.
    + apply seq_no in Q. destruct (draw_line_said s) as [d|k| |] eqn:F; try discriminate. cbn [sbind] in E. destruct (IH _ _ _ E) as (dl & ds & H & N & C).
      exists (s :: dl), (d :: ds). split; [constructor; [apply draw_fine; exact F|exact H]|]. split; [intros [X|X]; [congruence|exact (N X)]|].
      destruct C as [->|[-> ->]]; [left; reflexivity|right; auto].
Qed.
Lemma draws_go dl ds acc q : Forall2 drawing dl ds -> ~ In (lit "ENDDRAW") dl -> draw_said (dl ++ lit "ENDDRAW" :: q) acc = Fine (acc ++ ds, q).
Proof. intros H N. apply plain_ok. rewrite plain_draw. apply draws_bw; assumption. Qed.
Lemma draws_open dl ds : Forall2 drawing dl ds -> ~ In (lit "ENDDRAW") dl -> forall acc, draw_said dl acc = Fine (acc ++ ds, []).
Proof.
  induction 1 as [|s d dl ds X H IH]; intros N acc; cbn [draw_said]; [rewrite app_nil_r; reflexivity|].
  rewrite (proj2 (seq_no s "ENDDRAW")); [|intros ->; apply N; left; reflexivity]. rewrite (proj2 (draw_fine s d) X). cbn [sbind]. rewrite IH by (intros I; apply N; right; exact I).
  rewrite <- app_assoc. reflexivity.
Qed.

(** ** Behind the fields *)
Lemma wants_two k k' p m : wants [k; k'] p m <-> wants [k] p m \/ exists q, p = lit k :: q /\ wants [k'] q m.
Proof.
  split.
  - intros W. inversion W; subst; [left; constructor|left; constructor; assumption|right; eauto].
  - intros [W|(q & -> & W)]; [|constructor; exact W]. inversion W; subst; [constructor|constructor; assumption|]. match goal with H : wants [] _ _ |- _ => inversion H end.
Qed.
Lemma alias_at s : starts_with (lit "ALIAS") s = true -> exists l, alias_lines [s] l /\ split_all s = Fine (hd [] (match split_all s with Fine v => v | _ => [] end) :: l).
Proof.
  intros S. destruct (has_words s) as [v W]. apply starts_iff in S as [r ->]. destruct (line_head 65 (lit "LIAS" ++ r) v W ltac:(discriminate) ltac:(discriminate)) as (x & v' & ->).
  exists v'. split; [eapply al_line; [reflexivity|exact W]|]. unfold split_all. rewrite (words_fw _ _ W). reflexivity.
Qed.
Definition body_said (p : list str) (y : symbol) (fields : list sfield) : said (symbol * list str) :=
  try ap <- aliases_said p;
  let '(aliases, p) := ap in
  try p <- line_said p "DRAW";
  try dp <- draw_said p [];
  let '(dr, p) := dp in
  try p <- line_said p "ENDDEF";
  try p <- line_said p "#";
  Fine (mk_symbol (sy_name y) (sy_reference y) (sy_text_offset y) (sy_pinnumber y) (sy_pinname y) (sy_unit_count y) (sy_unit_locked y) (sy_is_power y)
          fields aliases dr, p).
Lemma line_some p k m : wants [k] p m <-> ends (Some m) (line_said p k).
Proof. rewrite line_ends. split; [eauto|]. intros (x & [= <-] & W). exact W. Qed.
Lemma tail_ends al l p y fields aliases m : alias_lines al l ->
  ends m (try p <- line_said p "DRAW"; try dp <- draw_said p []; let '(dr, p) := dp in try p <- line_said p "ENDDEF"; try p <- line_said p "#";
    Fine (mk_symbol (sy_name y) (sy_reference y) (sy_text_offset y) (sy_pinnumber y) (sy_pinname y) (sy_unit_count y) (sy_unit_locked y) (sy_is_power y) fields aliases dr, p)) ->
  (exists k, m = Some k /\ wants ["DRAW"] p k) \/ body_fails (al ++ p) m.
Proof.
  intros A E. apply ends_bind in E. destruct E as [E|(q & F & E)].
  - apply line_ends in E. destruct E as (k & -> & W). left. eauto.
  - right. apply line_fine in F. subst p. apply ends_bind in E. destruct E as [E|([dr q'] & F & E)].
    + apply draws_ends in E. destruct E as (dl & ds & s & r & -> & H & N & D). exact (bf_line al l dl ds s r m A H N D).
    + destruct (draws_fine _ _ _ _ F) as (dl & ds & H & N & [->|[-> ->]]).
      * assert (W : exists k, m = Some k /\ wants ["ENDDEF"; "#"] q' k).
        { apply ends_bind in E. destruct E as [E|(u & G & E)].
          - apply line_ends in E. destruct E as (k & -> & W). exists k. split; [reflexivity|]. apply wants_two. left. exact W.
          - apply line_fine in G. apply ends_bind in E. destruct E as [E|(u' & G' & E)]; [|destruct (ends_fine _ _ E)].
            apply line_ends in E. destruct E as (k & -> & W). exists k. split; [reflexivity|]. apply wants_two. right. eauto. }
        destruct W as (k & -> & W). exact (bf_close al l dl ds q' k A H N W).
      * cbn [line_said sbind] in E. unfold ends in E. destruct m as [m|]; [|discriminate]. injection E as <-. exact (bf_open al l dl ds A H N).
Qed.
Lemma body_fw s r y fields m : ends m (body_said (s :: r) y fields) -> body_fails (s :: r) m.
Proof.
  unfold body_said, aliases_said. cbn [here_said sbind next tl]. destruct (starts_with (lit "ALIAS") s) eqn:S.
  - destruct (alias_at s S) as (l & A & W). rewrite W. cbn [sbind tl]. intros E. destruct (tail_ends [s] l r y fields l m A E) as [(k & -> & X)|X]; [|exact X].
    apply bf_alias; assumption.
  - cbn [sbind]. intros E. destruct (tail_ends [] [] (s :: r) y fields [] m al_none E) as [(k & -> & X)|X]; [|exact X]. apply bf_draw; assumption.
Qed.
Lemma aliases_go al l q : alias_lines al l -> aliases_said (al ++ lit "DRAW" :: q) = Fine (l, lit "DRAW" :: q).
Proof. intros A. apply plain_ok. rewrite plain_aliases. apply aliases_bw. exact A. Qed.
Lemma body_bw p y fields m : body_fails p m -> ends m (body_said p y fields).
Proof.
  intros B. unfold body_said. inversion B as [s r k S W|s r k S W|al l dl ds s r k A H N D|al l dl ds A H N|al l dl ds r k A H N W]; subst.
  - unfold aliases_said. cbn [here_said sbind]. rewrite S. cbn [sbind]. apply ends_bind. left. apply line_some. exact W.
  - unfold aliases_said. cbn [here_said sbind next tl]. rewrite S. destruct (alias_at s S) as (l & A & E). rewrite E. cbn [sbind tl]. apply ends_bind. left. apply line_some. exact W.
  - rewrite (aliases_go al l _ A). cbn [sbind line_said]. rewrite str_eqb_refl. cbn [sbind]. apply ends_bind. left. apply draws_ends. exists dl, ds, s, r. auto.
  - rewrite (aliases_go al l _ A). cbn [sbind line_said]. rewrite str_eqb_refl. cbn [sbind]. rewrite (draws_open dl ds H N). reflexivity.
  - rewrite (aliases_go al l _ A). cbn [sbind line_said]. rewrite str_eqb_refl. cbn [sbind]. rewrite (draws_go dl ds [] r H N). cbn [sbind]. apply wants_two in W. apply ends_bind.
    destruct W as [W|(q & -> & W)]; [left; apply line_some; exact W|]. right. exists q. split; [apply line_fine; reflexivity|]. apply ends_bind. left. apply line_some. exact W.
Qed.
Lemma body_ne p m : body_fails p m -> p <> [].
Proof. intros B. inversion B as [s r k S W|s r k S W|al l dl ds s r k A H N D|al l dl ds A H N|al l dl ds r k A H N W]; try discriminate; destruct al; discriminate. Qed.
Lemma skip_cases r : (~ In (lit "$ENDFPLIST") r /\ skip_fplist r = []) \/ exists x q, r = x ++ lit "$ENDFPLIST" :: q /\ ~ In (lit "$ENDFPLIST") x /\ skip_fplist r = q.
Proof.
  induction r as [|s r IH]; [left; split; [intros []|reflexivity]|]. cbn [skip_fplist]. destruct (seq s "$ENDFPLIST") eqn:Q.
  - apply seq_iff in Q. subst s. right. exists [], r. split; [reflexivity|]. split; [intros []|reflexivity].
  - apply seq_no in Q. destruct IH as [[N E]|(x & q & -> & N & E)].
    + left. split; [|exact E]. intros [X|X]; [congruence|exact (N X)].
    + right. exists (s :: x), q. split; [reflexivity|]. split; [|exact E]. intros [X|X]; [congruence|exact (N X)].
Qed.
Lemma skip_none r : ~ In (lit "$ENDFPLIST") r -> skip_fplist r = [].
Proof. intros N. destruct (skip_cases r) as [[_ E]|(x & q & -> & _)]; [exact E|]. exfalso. apply N. apply in_or_app. right. left. reflexivity. Qed.
Lemma rest_is y fields s r : rest_said y fields (s :: r) = body_said (if seq s "$FPLIST" then skip_fplist r else s :: r) y fields.
Proof. reflexivity. Qed.

(** ** Symbols *)
Ltac fields_at X := let Y := fresh in pose proof X as Y; match type of Y with _ = ?v => match goal with |- context[sfields_said ?p []] => replace (sfields_said p []) with v by (symmetry; exact Y) end end; clear Y.
Theorem symbol_ends a r m : ends m (symbol_said (a :: r)) <-> symbol_fails (a :: r) m.
Proof.
  unfold symbol_said. cbn [next tl]. rewrite ends_bind. split.
  - intros [E|(p & F & E)].
    + apply line_ends in E. destruct E as (k & -> & W). apply yf_mark. exact W.
    + apply line_fine in F. subst r. apply ends_bind in E. destruct p as [|d p]; cbn [here_said] in E.
      * destruct E as [E|(d & [=] & _)]. unfold ends in E. destruct m; [discriminate|]. apply yf_ends.
      * destruct E as [E|(d' & [= <-] & E)]; [destruct (ends_fine _ _ E)|]. apply ends_bind in E. destruct E as [E|(y & F & E)].
        -- apply yf_def. apply (checks_fails _ _ _ m (def_checked d)). exact E.
        -- assert (D : passes def_checks d) by (apply (checks_passes _ _ _ (def_checked d)); exists y; exact F).
           cbn [next tl] in E. apply ends_bind in E. destruct E as [E|([fields q] & G & E)].
           ++ apply sfields_ends in E. destruct E as (fl & fs & r & -> & H & S). exact (yf_fields a d fl fs r m D H S).
           ++ destruct (sfields_fine _ _ _ _ G) as (fl & fs & s & r & -> & H & -> & N & S). rewrite rest_is in E. destruct (seq s "$FPLIST") eqn:Q.
              ** apply seq_iff in Q. subst s. destruct (skip_cases r) as [[X Y]|(x & q & -> & X & Y)]; rewrite Y in E.
                 --- unfold ends in E. destruct m; [discriminate|]. exact (yf_open a d fl fs r D H X).
                 --- destruct q as [|z q].
                     +++ unfold ends in E. destruct m; [discriminate|]. exact (yf_last a d fl fs x D H X).
                     +++ apply (yf_listed a d fl fs x (z :: q) m D H X). exact (body_fw z q y fields m E).
              ** apply seq_no in Q. apply (yf_body a d fl fs s r m D H N S Q). exact (body_fw s r y fields m E).
  - intros Y. assert (O : forall d, passes def_checks d -> exists y, def_said d = Fine y).
    { intros d D. apply (checks_passes _ _ _ (def_checked d)) in D. exact D. }
    inversion Y as [a' r' k W|a'|a' d r' k Fd|a' d fl fs r' k D H S|a' d fl fs r' D H N|a' d fl fs r' D H N|a' d fl fs x r' k D H N B|a' d fl fs s r' k D H NE S Q B]; subst.
    + left. apply line_some. exact W.
    + right. exists []. split; [apply line_fine; reflexivity|reflexivity].
    + right. eexists. split; [apply line_fine; reflexivity|]. cbn [here_said sbind]. apply ends_bind. left. apply (checks_fails _ _ _ m (def_checked d)). exact Fd.
    + right. eexists. split; [apply line_fine; reflexivity|]. cbn [here_said sbind]. destruct (O d D) as [y ->]. cbn [sbind next tl]. apply ends_bind. left. apply sfields_ends. eauto 6.
    + right. eexists. split; [apply line_fine; reflexivity|]. cbn [here_said sbind]. destruct (O d D) as [y ->]. cbn [sbind next tl].
      fields_at (sfields_go fl fs (lit "$FPLIST") r' [] H ltac:(discriminate) eq_refl). cbn [sbind]. rewrite rest_is. replace (seq (lit "$FPLIST") "$FPLIST") with true by reflexivity.
      rewrite (skip_none r' N). reflexivity.
    + right. eexists. split; [apply line_fine; reflexivity|]. cbn [here_said sbind]. destruct (O d D) as [y ->]. cbn [sbind next tl].
      fields_at (sfields_go fl fs (lit "$FPLIST") (r' ++ [lit "$ENDFPLIST"]) [] H ltac:(discriminate) eq_refl). cbn [sbind]. rewrite rest_is. replace (seq (lit "$FPLIST") "$FPLIST") with true by reflexivity.
      rewrite (skip_bw r' [] N). reflexivity.
    + right. eexists. split; [apply line_fine; reflexivity|]. cbn [here_said sbind]. destruct (O d D) as [y ->]. cbn [sbind next tl].
      fields_at (sfields_go fl fs (lit "$FPLIST") (x ++ lit "$ENDFPLIST" :: r') [] H ltac:(discriminate) eq_refl). cbn [sbind]. rewrite rest_is. replace (seq (lit "$FPLIST") "$FPLIST") with true by reflexivity.
      rewrite (skip_bw x r' N). apply body_bw. exact B.
    + right. eexists. split; [apply line_fine; reflexivity|]. cbn [here_said sbind]. destruct (O d D) as [y ->]. cbn [sbind next tl].
      fields_at (sfields_go fl fs s r' [] H NE S). cbn [sbind]. rewrite rest_is. rewrite (proj2 (seq_no s "$FPLIST") Q). apply body_bw. exact B.
Qed.
Lemma symbols_fw' n : forall p acc m, ends m (symbols_said n p acc) -> exists a ys b, p = a ++ b /\ whole a ys /\ symbol_fails b m /\ hd_error b <> Some (lit "#End Library").
Proof.
  induction n as [|n IH]; intros [|s r] acc m E; cbn [symbols_said] in E; try (destruct (ends_fine _ _ E)); (destruct (seq s "#End Library") eqn:Q; [destruct (ends_fine _ _ E)|]).
  - unfold ends in E. destruct m; discriminate.
  - apply seq_no in Q. apply ends_bind in E. destruct E as [E|([y q] & F & E)].
    + exists [], [], (s :: r). split; [reflexivity|]. split; [constructor|]. split; [apply symbol_ends; exact E|]. intros X. injection X as X. contradiction.
    + destruct (IH _ _ _ E) as (a & ys & b & -> & W & S & H). destruct (symbol_fw (s :: r) y (a ++ b)) as (l & P & T & NE); [rewrite <- plain_symbol, F; reflexivity|].
      exists (l ++ a), (y :: ys), b. split; [rewrite P, app_assoc; reflexivity|]. split; [|auto]. apply wh_more; [exact T| |exact W].
      destruct l as [|z l]; [destruct (NE eq_refl)|]. cbn [app] in P. injection P as <- _. intros X. injection X as X. contradiction.
Qed.
Lemma symbols_bw' a ys b m : whole a ys -> symbol_fails b m -> hd_error b <> Some (lit "#End Library") -> forall n acc, (length (a ++ b) <= n)%nat -> ends m (symbols_said n (a ++ b) acc).
Proof.
  intros W S H. induction W as [|l y r ys T Hd W IH]; intros n acc L.
  - destruct b as [|s r]; [inversion S|]. destruct n as [|n]; [cbn in L; lia|]. cbn [app symbols_said]. rewrite (proj2 (seq_no s "#End Library")).
    + apply ends_bind. left. apply symbol_ends. exact S.
    + intros ->. apply H. reflexivity.
  - pose proof (symbol_bw l y (r ++ b) T) as E. rewrite <- plain_symbol in E. apply plain_ok in E. rewrite <- app_assoc in *.
    destruct l as [|s l]; [inversion T|]. destruct n as [|n]; [cbn in L; lia|]. cbn [app symbols_said] in *. rewrite (proj2 (seq_no s "#End Library")).
    + rewrite E. cbn [sbind]. apply IH. cbn [length] in L. rewrite app_length in L. lia.
    + intros ->. apply Hd. reflexivity.
Qed.
Lemma library_ends ls m : ends m (try p <- line_said ls "EESchema-LIBRARY Version 2.3"; try p <- line_said p "#encoding utf-8"; try p <- line_said p "#"; symbols_said (length p) p [])
  <-> lib_refused ls m.
Proof.
  assert (W3 : forall k, wants library_head ls k <-> wants ["EESchema-LIBRARY Version 2.3"] ls k \/ exists q, ls = lit "EESchema-LIBRARY Version 2.3" :: q /\ wants ["#encoding utf-8"; "#"] q k).
  { intros k. unfold library_head. split.
    - intros W. inversion W; subst; [left; constructor|left; constructor; assumption|right; eauto].
    - intros [W|(q & -> & W)]; [|constructor; exact W]. inversion W; subst; [constructor|constructor; assumption|]. match goal with H : wants [] _ _ |- _ => inversion H end. }
  split.
  - intros E. apply ends_bind in E. destruct E as [E|(p & F & E)]; [apply line_ends in E; destruct E as (k & -> & W); apply lr_head; apply W3; auto|].
    apply line_fine in F. apply ends_bind in E.
    destruct E as [E|(p2 & F2 & E)]; [apply line_ends in E; destruct E as (k & -> & W); apply lr_head; apply W3; right; exists p; split; [exact F|]; apply wants_two; auto|].
    apply line_fine in F2. apply ends_bind in E.
    destruct E as [E|(p3 & F3 & E)]; [apply line_ends in E; destruct E as (k & -> & W); apply lr_head; apply W3; right; exists p; split; [exact F|]; apply wants_two; eauto|].
    apply line_fine in F3. subst ls p p2. destruct (symbols_fw' _ _ _ _ E) as (a & ys & b & -> & W & S & H). exact (lr_symbol a ys b m W S H).
  - intros R. inversion R as [ls' k W|a ys b k W S H]; subst.
    + apply W3 in W. apply ends_bind. destruct W as [W|(q & -> & W)]; [left; apply line_some; exact W|]. right. exists q. split; [apply line_fine; reflexivity|].
      apply wants_two in W. apply ends_bind. destruct W as [W|(q' & -> & W)]; [left; apply line_some; exact W|]. right. exists q'. split; [apply line_fine; reflexivity|].
      apply ends_bind. left. apply line_some. exact W.
    + unfold library_head. cbn [map app line_said]. rewrite str_eqb_refl. cbn [sbind line_said]. rewrite str_eqb_refl. cbn [sbind line_said]. rewrite str_eqb_refl. cbn [sbind].
      apply (symbols_bw' a ys b m W S H). lia.
Qed.
Theorem lib_ends t m : ends m (library_said t) <-> exists ls, text_lines t ls /\ lib_refused ls m.
Proof.
  unfold library_said. rewrite library_ends. split.
  - intros R. exists (lines t). split; [apply lines_iff; reflexivity|exact R].
  - intros (ls & T & R). apply lines_iff in T. rewrite T. exact R.
Qed.
