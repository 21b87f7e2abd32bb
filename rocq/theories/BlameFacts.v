(** Facts for C105: which line of a file an error is about. *)
From Coq Require Import String Lia.
From Verif Require Import Base Str StrFacts Num F64 F64Text LibFns LibSpec CutSpec CutFacts SchData SchPrint SchParse SchReadSpec SchReadFacts SymData SymParse SymReadSpec SymReadFacts
  OutSpec Said SchErr SymErr ErrErase ErrSpec ErrFacts ErrSch ErrSym ErrWhole JoinSpec JoinFacts BlameSpec.
Open Scope string_scope. Open Scope list_scope.

(** ** No complaint about a line is the one about a text that is too short *)
Definition fit (d : list must) : Prop := Forall (fun m => snd m <> Some too_short) d.
Lemma blamed_in d m : blamed d m -> exists P, In (P, m) d.
Proof. induction 1 as [P m r _|P m r x _ _ [Q I]]; [exists P; now left|exists Q; now right]. Qed.
Definition fits (c : checker) : Prop := forall s d, c s d -> fit d.
Lemma fits_not c s m : fits c -> fails c s m -> m <> Some too_short.
Proof. intros F (d & C & B). apply blamed_in in B as [P I]. exact (proj1 (Forall_forall _ _) (F s d C) _ I). Qed.
Lemma fits_quotes f : (forall s v, fit (f s v)) -> fits (by_quotes f).
Proof. intros F s d (v & _ & ->). apply F. Qed.
Lemma fits_blanks f : (forall s v, fit (f s v)) -> fits (by_blanks f).
Proof. intros F s d (v & _ & ->). apply F. Qed.
Ltac fitc := first [apply fits_quotes | apply fits_blanks]; intros ? ?; unfold fit, ints, m_thickness, m_letter, m_flag, m_orientation, m_justify, m_bool; cbn [map app];
  unfold m_letter, m_flag, m_orientation, m_justify, m_bool, or_else; cbn [map app]; repeat (apply Forall_cons; [discriminate|]); apply Forall_nil.
Lemma fits_four : fits four_line. Proof. fitc. Qed.
Lemma fits_named k : fits (named_checks k). Proof. fitc. Qed.
Lemma fits_free : fits free. Proof. intros s d ->. apply Forall_nil. Qed.
Lemma fits_single k cs : In (k, cs) single_kinds -> Forall fits cs.
Proof.
  intros [[= <- <-]|[[= <- <-]|[[= <- <-]|[[= <- <-]|[[= <- <-]|[]]]]]].
  - unfold descr_lines_of. apply Forall_cons; [fitc|]. apply Forall_cons; [exact fits_free|]. apply Forall_cons; [fitc|]. do 8 (apply Forall_cons; [apply fits_named|]). apply Forall_cons; [|apply Forall_nil].
    intros s d ->. apply Forall_cons; [discriminate|apply Forall_nil].
  - unfold wire_lines. apply Forall_cons; [fitc|]. apply Forall_cons; [exact fits_four|apply Forall_nil].
  - apply Forall_cons; [fitc|apply Forall_nil].
  - apply Forall_cons; [fitc|apply Forall_nil].
  - unfold text_lines_of. apply Forall_cons; [fitc|]. apply Forall_cons; [exact fits_free|apply Forall_nil].
Qed.
Lemma fits_field : fits field_checks. Proof. fitc. Qed.
Lemma comp_line_fit s m : comp_line_fails s m -> m <> Some too_short.
Proof. intros [? ? _ F|? ? _ F|? ? _ F]; refine (fits_not _ _ _ _ F); [fitc|fitc|exact fits_field]. Qed.
Lemma sheet_line_fit s m : sheet_line_fails s m -> m <> Some too_short.
Proof. intros [? ? _ F|? ? _ F|? ? _ _|? ? ? ? _ _ _ F|? ? ? ? _ _ _ _ F]; try (refine (fits_not _ _ _ _ F); fitc). discriminate. Qed.

(** ** Lines that can be completed *)
Definition can (c : checker) : Prop := exists s, passes c s.
Lemma runs_or cs ls o : runs cs ls o -> Forall can cs -> Forall fits cs -> (o <> Some too_short /\ forall r, runs cs (ls ++ r) o) \/ (forall m, o = Some m -> m = too_short) /\ exists r, Forall2 passes cs (ls ++ r).
Proof.
  induction 1 as [c cs|c cs s q o F|c cs s q o P _ I]; intros C G.
  - right. split; [discriminate|]. clear G. induction C as [|c' cs' (s & S') C [r R]]; [exists []; apply Forall2_nil|]. exists (s :: r). cbn [app] in *. now apply Forall2_cons.
  - left. split; [exact (fits_not _ _ _ (Forall_inv G) F)|]. intros r. exact (rn_here _ _ _ _ _ F).
  - destruct (I (Forall_inv_tail C) (Forall_inv_tail G)) as [[E L]|[E [r R]]].
    + left. split; [exact E|]. intros r. exact (rn_later _ _ _ _ _ P (L r)).
    + right. split; [exact E|]. exists r. cbn [app]. now apply Forall2_cons.
Qed.
Lemma runs_next c cs s ls o : runs (c :: cs) (s :: ls) o -> Forall can cs -> Forall fits (c :: cs) ->
  (o <> Some too_short /\ forall r, runs (c :: cs) (s :: ls ++ r) o) \/ (forall m, o = Some m -> m = too_short) /\ exists r, Forall2 passes (c :: cs) (s :: ls ++ r).
Proof.
  intros R C G. inversion R as [|c' cs' s' q o' F|c' cs' s' q o' P R']; subst.
  - left. split; [exact (fits_not _ _ _ (Forall_inv G) F)|]. intros r. exact (rn_here _ _ _ _ _ F).
  - destruct (runs_or _ _ _ R' C (Forall_inv_tail G)) as [[E L]|[E [r X]]].
    + left. split; [exact E|]. intros r. exact (rn_later _ _ _ _ _ P (L r)).
    + right. split; [exact E|]. exists r. now apply Forall2_cons.
Qed.
Lemma wants_or ks ls m : wants ks ls m -> (m <> too_short /\ forall r, wants ks (ls ++ r) m) \/ (m = too_short /\ exists r, ls ++ r = map lit ks).
Proof.
  induction 1 as [k ks|k ks s q N|k ks q m _ I].
  - right. split; [reflexivity|]. now exists (map lit (k :: ks)).
  - left. split; [discriminate|]. intros r. exact (wt_other _ _ _ _ N).
  - destruct I as [[E L]|[E [r R]]]; [left|right]; (split; [exact E|]).
    + intros r. exact (wt_next _ _ _ _ (L r)).
    + exists r. cbn [app map]. now f_equal.
Qed.
(** *** Lines that pass *)
Ltac met_int := match goal with |- exists z, at_int ?v ?i z => let z := eval vm_compute in (match nth_error v i with Some w => match i64_of_str w with Some z => z | None => 0%Z end | None => 0%Z end) in
  exists z; eexists; split; [reflexivity|vm_compute; reflexivity] end.
Lemma can_blanks f s : Forall met (f s (split_ws s)) -> can (by_blanks f).
Proof. intros M. exists s, (f s (split_ws s)). split; [apply blanks_one|exact M]. Qed.
Lemma can_quotes f s v : split_quote_aware s = Ok v -> Forall met (f s v) -> can (by_quotes f).
Proof. intros W M. exists s, (f s v). split; [exists v; split; [now apply words_iff|reflexivity]|exact M]. Qed.
Lemma can_four : can four_line.
Proof.
  apply (can_blanks _ (lit "1 0 0 -1")). change (split_ws (lit "1 0 0 -1")) with (map lit ["1"; "0"; "0"; "-1"]). cbn [ints map]. apply Forall_cons; [reflexivity|].
  repeat (apply Forall_cons; [unfold met, m_int; cbn [fst]; met_int|]). apply Forall_nil.
Qed.
Lemma can_named k v : split_quote_aware (lit k ++ lit " x") = Ok v -> v = [lit k; lit "x"] -> can (named_checks k).
Proof. intros W ->. apply (can_quotes _ _ _ W). unfold m_count. apply Forall_cons; [cbn; lia|]. apply Forall_cons; [reflexivity|apply Forall_nil]. Qed.
Lemma can_free : can free.
Proof. exists [], []. split; [reflexivity|apply Forall_nil]. Qed.
Lemma can_single k cs : In (k, cs) single_kinds -> Forall can (tl cs).
Proof.
  intros [[= <- <-]|[[= <- <-]|[[= <- <-]|[[= <- <-]|[[= <- <-]|[]]]]]]; cbn [descr_lines_of wire_lines point_lines text_lines_of tl].
  - apply Forall_cons; [exact can_free|]. apply Forall_cons.
    { apply (can_quotes _ (lit "Sheet 1 1") (map lit ["Sheet"; "1"; "1"])); [vm_compute; reflexivity|]. cbn [ints map]. apply Forall_cons; [cbn; lia|]. apply Forall_cons; [reflexivity|].
      repeat (apply Forall_cons; [unfold met, m_int; cbn [fst]; met_int|]). apply Forall_nil. }
    do 8 (apply Forall_cons; [eapply can_named; [vm_compute; reflexivity|reflexivity]|]). apply Forall_cons; [|apply Forall_nil].
    eexists (lit "$EndDescr"), _. split; [reflexivity|]. apply Forall_cons; [reflexivity|apply Forall_nil].
  - apply Forall_cons; [exact can_four|apply Forall_nil].
  - apply Forall_nil.
  - apply Forall_nil.
  - apply Forall_cons; [exact can_free|apply Forall_nil].
Qed.
(** *** Lines that pass can be read *)
Lemma met_cons x r : Forall met (x :: r) -> fst x /\ Forall met r.
Proof. intros M. exact (conj (Forall_inv M) (Forall_inv_tail M)). Qed.
Lemma four_read s : passes four_line s -> exists a b c d, four_ints s a b c d.
Proof.
  intros (d & (v & V & ->) & M). destruct (met_cons _ _ M) as [L M1]. destruct (met_cons _ _ M1) as [[a A] M2]. destruct (met_cons _ _ M2) as [[b B] M3]. destruct (met_cons _ _ M3) as [[c C] M4]. destruct (met_cons _ _ M4) as [[e E] _].
  exists a, b, c, e, v. repeat (apply conj; [assumption|]). assumption.
Qed.
Lemma named_read k s : passes (named_checks k) s -> exists t, named_line k s t.
Proof.
  intros (d & (v & V & ->) & M). destruct (met_cons _ _ M) as [L M1]. destruct (met_cons _ _ M1) as [A _]. cbn [met fst m_count] in L. unfold met in A. cbn [fst] in A.
  destruct v as [|w [|x v]]; [cbn in L; lia|cbn in L; lia|]. exists x, (w :: x :: v). repeat (apply conj; [assumption|]). reflexivity.
Qed.
Lemma begins_words s k v : begins_with s k -> ws_words s v -> exists u, v = lit k :: u.
Proof. intros [u U] V. apply ws_iff in U, V. exists u. congruence. Qed.
Lemma all_cons cs c ls : Forall2 passes (c :: cs) ls -> exists s r, ls = s :: r /\ passes c s /\ Forall2 passes cs r.
Proof. intros P. inversion P as [|? s ? r X Y]; subst. now exists s, r. Qed.
Lemma single_read k cs s ls : begins_with s k -> In (k, cs) single_kinds -> Forall2 passes cs (s :: ls) -> exists x, section_text (s :: ls) x.
Proof.
  intros B [[= <- <-]|[[= <- <-]|[[= <- <-]|[[= <- <-]|[[= <- <-]|[]]]]]] P.
  - destruct (all_cons _ _ _ P) as (s0 & r0 & E0 & (d & (v & V & ->) & M) & P1); injection E0 as <- <-; clear P. destruct (all_cons _ _ _ P1) as (x & ? & -> & _ & P2); clear P1. destruct (all_cons _ _ _ P2) as (b & ? & -> & (d & (vb & Vb & ->) & Mb) & P3); clear P2.
    destruct (all_cons _ _ _ P3) as (b1 & ? & -> & N1 & P4); clear P3. destruct (all_cons _ _ _ P4) as (b2 & ? & -> & N2 & P5); clear P4. destruct (all_cons _ _ _ P5) as (b3 & ? & -> & N3 & P6); clear P5. destruct (all_cons _ _ _ P6) as (b4 & ? & -> & N4 & P7); clear P6.
    destruct (all_cons _ _ _ P7) as (b5 & ? & -> & N5 & P8); clear P7. destruct (all_cons _ _ _ P8) as (b6 & ? & -> & N6 & P9); clear P8. destruct (all_cons _ _ _ P9) as (b7 & ? & -> & N7 & P10); clear P9. destruct (all_cons _ _ _ P10) as (b8 & ? & -> & N8 & P11); clear P10.
    destruct (all_cons _ _ _ P11) as (e & ? & -> & (d & -> & Me) & P12); clear P11. inversion P12; subst; clear P12. destruct (met_cons _ _ Me) as [Ee _]. unfold met in Ee. cbn [fst] in Ee. subst e.
    apply named_read in N1 as [t1 N1], N2 as [t2 N2], N3 as [t3 N3], N4 as [t4 N4], N5 as [t5 N5], N6 as [t6 N6], N7 as [t7 N7], N8 as [t8 N8].
    destruct (met_cons _ _ M) as [L M1]. destruct (met_cons _ _ M1) as [[dx X] M2]. destruct (met_cons _ _ M2) as [[dy Y] _]. unfold met, m_count in L. cbn [fst] in L.
    destruct (met_cons _ _ Mb) as [Lb Mb1]. destruct (met_cons _ _ Mb1) as [S0 Mb2]. destruct (met_cons _ _ Mb2) as [[n1 X1] Mb3]. destruct (met_cons _ _ Mb3) as [[n2 X2] _]. unfold met in S0. cbn [fst] in S0.
    destruct (nth_error v 1) as [size|] eqn:Z; [|apply nth_error_None in Z; lia].
    eexists. apply st_descr. eapply descr_lines; eassumption.
  - destruct (all_cons _ _ _ P) as (s0 & r0 & E0 & (d & (v & V & ->) & M) & P1); injection E0 as <- <-; clear P. destruct (all_cons _ _ _ P1) as (c & ? & -> & F & P2); clear P1. inversion P2; subst; clear P2. destruct (met_cons _ _ M) as [L _]. unfold met in L. cbn [fst] in L.
    destruct (begins_words _ _ _ B V) as [u ->]. destruct u as [|w1 [|w2 [|w3 u]]]; try discriminate L. apply four_read in F as (x1 & y1 & x2 & y2 & F).
    assert (T : exists ty, wire_kind w1 ty).
    { destruct (list_eq_dec N.eq_dec w1 (lit "Notes")) as [E|E]; [exists WNotes; now left|]. destruct (list_eq_dec N.eq_dec w1 (lit "Bus")) as [E'|E']; [exists WBus; right; now left|]. exists WWire. right. right. auto. }
    destruct T as [ty T]. eexists. apply st_single. eapply si_wire; eassumption.
  - destruct (all_cons _ _ _ P) as (s0 & r0 & E0 & (d & (v & V & ->) & M) & P1); injection E0 as <- <-; clear P. inversion P1; subst; clear P1. destruct (met_cons _ _ M) as [L M1]. destruct (met_cons _ _ M1) as [[x X] M2]. destruct (met_cons _ _ M2) as [[y Y] _].
    destruct (begins_words _ _ _ B V) as [u ->]. eexists. apply st_single. eapply si_connection; [exact V|reflexivity|exact L|exact X|exact Y].
  - destruct (all_cons _ _ _ P) as (s0 & r0 & E0 & (d & (v & V & ->) & M) & P1); injection E0 as <- <-; clear P. inversion P1; subst; clear P1. destruct (met_cons _ _ M) as [L M1]. destruct (met_cons _ _ M1) as [[x X] M2]. destruct (met_cons _ _ M2) as [[y Y] _].
    destruct (begins_words _ _ _ B V) as [u ->]. eexists. apply st_single. eapply si_no_connect; [exact V|reflexivity|exact L|exact X|exact Y].
  - destruct (all_cons _ _ _ P) as (s0 & r0 & E0 & (d & (v & V & ->) & M) & P1); injection E0 as <- <-; clear P. destruct (all_cons _ _ _ P1) as (c & ? & -> & _ & P2); clear P1. inversion P2; subst; clear P2. destruct (met_cons _ _ M) as [L M1]. destruct (met_cons _ _ M1) as [[ty T] M2].
    destruct (met_cons _ _ M2) as [[z2 X2] M3]. destruct (met_cons _ _ M3) as [[z3 X3] M4]. destruct (met_cons _ _ M4) as [[z4 X4] M5]. destruct (met_cons _ _ M5) as [[z5 X5] M6]. destruct (met_cons _ _ M6) as [H8 M7]. destruct (met_cons _ _ M7) as [[H1 H2] _].
    unfold met in L, H8. cbn [fst] in L, H8. destruct (begins_words _ _ _ B V) as [u ->].
    assert (W : forall i, (i < 8)%nat -> exists w, at_word (lit "Text" :: u) i w).
    { intros i I. unfold at_word. destruct (nth_error (lit "Text" :: u) i) as [w|] eqn:E; [now exists w|]. apply nth_error_None in E. lia. }
    assert (Y : exists sh it th, text_style (lit "Text" :: u) ty sh it th).
    { destruct T as (k & K & I). destruct (W 6%nat ltac:(lia)) as [w6 W6]. destruct (W 7%nat ltac:(lia)) as [w7 W7].
      destruct I as [[= <- <-]|[[= <- <-]|[[= <- <-]|[[= <- <-]|[]]]]].
      - destruct (H1 (or_introl K)) as [z Z]. exists None, (str_eqb w6 (lit "Italic")), z. split; [reflexivity|]. split; [now exists w6|exact Z].
      - destruct (H1 (or_intror K)) as [z Z]. exists None, (str_eqb w6 (lit "Italic")), z. split; [reflexivity|]. split; [now exists w6|exact Z].
      - destruct (H2 (or_introl K)) as [z Z]. exists (Some w6), (str_eqb w7 (lit "Italic")), z. split; [now exists w6|]. split; [now exists w7|exact Z].
      - destruct (H2 (or_intror K)) as [z Z]. exists (Some w6), (str_eqb w7 (lit "Italic")), z. split; [now exists w6|]. split; [now exists w7|exact Z]. }
    destruct Y as (sh & it & th & Y). eexists. apply st_single. eapply si_text; [exact V|reflexivity|exact T|exact X2|exact X3|exact X4|exact X5|exact Y].
Qed.

(** ** Schematics *)
Definition short (o : option str) : Prop := forall m, o = Some m -> m = too_short.
Definition done {A} (p : list str -> A -> Prop) (ls : list str) : Prop := exists r x, p (ls ++ r) x.
Lemma short_none : short None. Proof. discriminate. Qed.
Lemma comp_or l p r o : comp_parts l p -> comp_stops r o -> (o <> Some too_short /\ forall q, comp_stops (r ++ q) o) \/ short o /\ exists q k, comp_parts (l ++ r ++ q) k.
Proof.
  intros P X. inversion X as [|s q' m' F|s q' m' B R]; subst.
  - right. split; [exact short_none|]. exists [], p. rewrite !app_nil_r. exact P.
  - left. split; [exact (comp_line_fit _ _ F)|]. intros q. exact (cs_line _ _ _ F).
  - destruct (runs_or _ _ _ R (Forall_cons _ can_four (Forall_nil _)) (Forall_cons _ fits_four (Forall_nil _))) as [[E L]|[E [q Q]]].
    + left. split; [exact E|]. intros q. exact (cs_turn _ _ _ B (L q)).
    + right. split; [exact E|]. exists q. inversion Q as [|? m ? ? F Q1 Q2 Q3]; subst. inversion Q1; subst. cbn [app]. rewrite <- Q3. apply four_read in F as (a & b & c & d & F).
      clear - P B F. induction P as [|s' l' x k N L _ [k' IH]|s' m' l' a' b' c' d' k T F' _ [k' IH]].
      * eexists. exact (cp_turn _ _ _ _ _ _ _ _ B F cp_nil).
      * eexists. exact (cp_line _ _ _ _ N L IH).
      * eexists. exact (cp_turn _ _ _ _ _ _ _ _ T F' IH).
Qed.
Lemma section_or b o : section_fails b o -> (o <> Some too_short /\ forall q, section_fails (b ++ q) o) \/ short o /\ done section_text b.
Proof.
  intros X. destruct X as [s r W|s r k cs m B I R|s l p r m B P R|s l p r m B P N R].
  - left. split; [discriminate|]. intros q. exact (sf_blank _ _ W).
  - destruct cs as [|c cs]; [inversion R|]. destruct (runs_next _ _ _ _ _ R (can_single _ _ I) (fits_single _ _ I)) as [[E L]|[E [q Q]]].
    + left. split; [exact E|]. intros q. exact (sf_lines _ _ _ _ _ B I (L q)).
    + right. split; [exact E|]. destruct (single_read _ _ _ _ B I Q) as [x X]. now exists q, x.
  - destruct (comp_or _ _ _ _ P R) as [[E L]|[E (q & k & K)]].
    + left. split; [exact E|]. intros q. cbn [app]. rewrite <- app_assoc. exact (sf_comp _ _ _ _ _ B P (L q)).
    + right. split; [exact E|]. exists (q ++ [lit "$EndComp"]). eexists. cbn [app]. rewrite <- app_assoc. replace (l ++ r ++ q ++ [lit "$EndComp"]) with ((l ++ r ++ q) ++ [lit "$EndComp"]) by (now rewrite <- !app_assoc).
      exact (st_comp _ _ _ B K).
  - inversion R as [|s' q' m' F]; subst.
    + right. split; [exact short_none|]. exists [lit "$EndSheet"]. eexists. cbn [app]. rewrite app_nil_r. exact (st_sheet _ _ _ B P N).
    + left. split; [exact (sheet_line_fit _ _ F)|]. intros q. cbn [app]. rewrite <- app_assoc. exact (sf_sheet _ _ _ _ _ B P N (hs_line _ _ _ F)).
Qed.
Lemma head_read libs e a secs : starts_with (lit "EELAYER ") e = true -> sections a secs -> exists fn c, schematic_text fn (heading libs e ++ a) c.
Proof.
  intros E S'. exists None. eexists. exists libs, e, a, secs. unfold heading. cbn [app]. rewrite <- app_assoc. split; [reflexivity|]. split; [exact E|]. split; [exact S'|reflexivity].
Qed.
Lemma refused_or ls o : refused ls o -> (o <> Some too_short /\ lost ls o) \/ short o /\ may_go_on ls.
Proof.
  intros X. destruct X as [ls m W|libs|libs s r A B|libs e r m A W|libs e a secs b m A S' F].
  - destruct (wants_or _ _ _ W) as [[E L]|[-> [r R]]].
    + left. split; [congruence|]. intros r. exact (rf_first _ _ (L r)).
    + right. split; [now intros ? [= <-]|]. exists (r ++ [lit "EELAYER 25 0"; lit "EELAYER END"]). rewrite app_assoc, R. exact (head_read [] (lit "EELAYER 25 0") [] [] eq_refl ss_nil).
  - right. split; [exact short_none|]. exists [lit "EELAYER 25 0"; lit "EELAYER END"]. destruct (head_read libs (lit "EELAYER 25 0") [] [] eq_refl ss_nil) as (fn & c & C). rewrite app_nil_r in C. now exists fn, c.
  - left. split; [discriminate|]. intros q. rewrite <- app_assoc. exact (rf_layer libs s (r ++ q) A B).
  - destruct (wants_or _ _ _ W) as [[E L]|[-> [q Q]]].
    + left. split; [congruence|]. intros q. rewrite <- app_assoc. exact (rf_layers libs e (r ++ q) m A (L q)).
    + right. split; [now intros ? [= <-]|]. exists q. rewrite <- app_assoc. cbn [app]. rewrite Q. destruct (head_read libs e [] [] A ss_nil) as (fn & c & C). rewrite app_nil_r in C. now exists fn, c.
  - destruct (section_or _ _ F) as [[E L]|[E (q & x & Q)]].
    + left. split; [exact E|]. intros q. rewrite <- !app_assoc. exact (rf_section libs e a secs (b ++ q) _ A S' (L q)).
    + right. split; [exact E|]. exists q. rewrite <- !app_assoc. refine (head_read libs e (a ++ b ++ q) (secs ++ [x]) A _). apply (sections_join a secs S'). exists [x]. split; [|reflexivity].
      rewrite <- (app_nil_r (b ++ q)). exact (ss_cons _ _ _ _ Q ss_nil).
Qed.
Lemma goes_or_lost ls : may_go_on ls \/ exists o, lost ls o.
Proof.
  destruct (lines_said None ls) as [c|m| |] eqn:E.
  - left. exists [], None, c. rewrite app_nil_r. now apply lines_fine.
  - assert (R : refused ls (Some m)) by (apply (lines_ends None); exact E). destruct (refused_or _ _ R) as [[_ L]|[_ G]]; [right; now exists (Some m)|now left].
  - assert (R : refused ls None) by (apply (lines_ends None); exact E). destruct (refused_or _ _ R) as [[_ L]|[_ G]]; [right; now exists None|now left].
  - destruct (lines_said_unspent None ls E).
Qed.
Lemma not_both ls o : may_go_on ls -> ~ lost ls o.
Proof. intros (r & fn & c & C) L. apply (proj1 (refused_or_read fn (ls ++ r))); [now exists c|]. exists o. apply L. Qed.
Lemma lost_more ls o r : lost ls o -> lost (ls ++ r) o.
Proof. intros L q. rewrite <- app_assoc. apply L. Qed.
Lemma lost_one ls o o' : lost ls o -> lost ls o' -> o = o'.
Proof. intros L L'. exact (refused_fun _ _ _ (L []) (L' [])). Qed.
Lemma goes_less ls r : may_go_on (ls ++ r) -> may_go_on ls.
Proof. intros (q & fn & c & C). exists (r ++ q), fn, c. now rewrite app_assoc. Qed.
(** The first line that cannot be mended *)
Lemma lost_at ls o : lost ls o -> exists p s r, ls = p ++ s :: r /\ may_go_on p /\ lost (p ++ [s]) o.
Proof.
  induction ls as [|s ls IH] using rev_ind; intros L.
  - exfalso. apply (not_both [] o); [|exact L]. destruct (head_read [] (lit "EELAYER 25 0") [] [] eq_refl ss_nil) as (fn & c & C). exists (heading [] (lit "EELAYER 25 0") ++ []), fn, c. exact C.
  - destruct (goes_or_lost ls) as [G|[o' L']].
    + exists ls, s, []. auto.
    + rewrite (lost_one _ _ _ L (lost_more _ _ [s] L')) in *. destruct (IH L') as (p & s' & r & -> & G & D). exists p, s', (r ++ [s]). split; [now rewrite <- app_assoc|]. auto.
Qed.
