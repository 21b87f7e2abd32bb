(** Facts for C105: which line of a symbol library an error is about, and errors in texts
    put together. *)
From Coq Require Import String Lia.
From Verif Require Import Base Str StrFacts Num F64 F64Text LibFns LibSpec CutSpec CutFacts SchData SchPrint SchParse SchReadSpec SchReadFacts SymData SymParse SymReadSpec SymReadFacts
  OutSpec Said SchErr SymErr ErrErase ErrSpec ErrFacts ErrSch ErrSym ErrWhole JoinSpec JoinFacts BlameSpec BlameFacts.
Open Scope string_scope. Open Scope list_scope.

Lemma fits_sfield : fits sfield_checks. Proof. fitc. Qed.
Lemma fits_def : fits def_checks. Proof. fitc. Qed.
Lemma drawing_fit s m : drawing_fails s m -> m <> Some too_short.
Proof. intros [? ? _ F|? ? _ F]; refine (fits_not _ _ _ _ F); fitc. Qed.
Definition a_def_line : str := lit "DEF R R 0 40 Y N 1 F N".
(** A line that begins a symbol has what the symbol begins with. *)
Lemma def_read d : passes def_checks d -> exists v n ref off pn pm uc ul ip, line_words d v /\ length v = 10%nat /\ at_word v 0 (lit "DEF") /\ at_word v 1 n /\ at_word v 2 ref /\ at_num v 4 off /\
  at_name v 5 (yes_no "Y" "N") pn /\ at_name v 6 (yes_no "Y" "N") pm /\ at_int v 7 uc /\ at_name v 8 (yes_no "L" "F") ul /\ at_name v 9 (yes_no "P" "N") ip.
Proof.
  intros (d' & (v & V & ->) & M). destruct (met_cons _ _ M) as [L M1]. destruct (met_cons _ _ M1) as [D M2]. destruct (met_cons _ _ M2) as [[off O] M3]. destruct (met_cons _ _ M3) as [[pn PN] M4].
  destruct (met_cons _ _ M4) as [[pm PM] M5]. destruct (met_cons _ _ M5) as [[uc UC] M6]. destruct (met_cons _ _ M6) as [[ul UL] M7]. destruct (met_cons _ _ M7) as [[ip IP] _]. cbn [fst m_parts] in L, D.
  destruct (nth_error v 1) as [n|] eqn:E1; [|apply nth_error_None in E1; lia]. destruct (nth_error v 2) as [ref|] eqn:E2; [|apply nth_error_None in E2; lia].
  exists v, n, ref, off, pn, pm, uc, ul, ip. repeat (apply conj; [assumption|]). assumption.
Qed.
Lemma a_def_passes : passes def_checks a_def_line.
Proof.
  apply (checks_passes _ _ _ (def_checked a_def_line)). assert (X : match def_said a_def_line with Fine _ => true | _ => false end = true) by (vm_compute; reflexivity).
  destruct (def_said a_def_line) as [y| | |]; try discriminate X. now exists y.
Qed.
Definition a_rest : list str := [lit "ENDDRAW"; lit "ENDDEF"; lit "#"].
Lemma sym_read a d fl fs fp al l dl ds : passes def_checks d -> Forall2 sfield_line fl fs -> fplist fp -> alias_lines al l -> Forall2 drawing dl ds -> ~ In (lit "ENDDRAW") dl ->
  exists y, symbol_text (a :: lit "#" :: d :: fl ++ fp ++ al ++ lit "DRAW" :: dl ++ a_rest) y.
Proof.
  intros D F P A W N. destruct (def_read d D) as (v & n & ref & off & pn & pm & uc & ul & ip & V & L & W0 & W1 & W2 & W4 & W5 & W6 & W7 & W8 & W9).
  exists (mk_symbol n ref off pn pm uc ul ip fs l ds). exact (sym_lines a d v fl fp al dl (mk_symbol n ref off pn pm uc ul ip fs l ds) V L W0 W1 W2 W4 W5 W6 W7 W8 W9 F P A W N).
Qed.
Lemma body_or q o : body_fails q o -> (o <> Some too_short /\ forall r, body_fails (q ++ r) o) \/
  short o /\ exists r al l dl ds, q ++ r = al ++ lit "DRAW" :: dl ++ a_rest /\ alias_lines al l /\ Forall2 drawing dl ds /\ ~ In (lit "ENDDRAW") dl.
Proof.
  intros X. destruct X as [s r m B W|s r m B W|al l dl ds s r m A D N F|al l dl ds A D N|al l dl ds r m A D N W].
  - destruct (wants_or _ _ _ W) as [[E L]|[-> [q Q]]].
    + left. split; [congruence|]. intros q. exact (bf_draw _ _ _ B (L q)).
    + exfalso. inversion W as [|k ks s' r' N|k ks r' m' W']; subst. inversion W'.
  - destruct (wants_or _ _ _ W) as [[E L]|[-> [q Q]]].
    + left. split; [congruence|]. intros q. exact (bf_alias _ _ _ B (L q)).
    + right. split; [now intros ? [= <-]|]. destruct (alias_at s B) as (l & A & _). exists (q ++ a_rest), [s], l, [], []. split; [|split; [exact A|split; [apply Forall2_nil|exact (fun x => x)]]].
      cbn [app]. rewrite app_assoc, Q. reflexivity.
  - left. split; [exact (drawing_fit _ _ F)|]. intros q. rewrite <- app_assoc. cbn [app]. rewrite <- app_assoc. exact (bf_line _ _ _ _ _ _ _ A D N F).
  - right. split; [now intros ? [= <-]|]. exists a_rest, al, l, dl, ds. split; [|auto]. rewrite <- app_assoc. reflexivity.
  - destruct (wants_or _ _ _ W) as [[E L]|[-> [q Q]]].
    + left. split; [congruence|]. intros q. rewrite <- app_assoc. cbn [app]. rewrite <- app_assoc. exact (bf_close _ _ _ _ _ _ A D N (L q)).
    + right. split; [now intros ? [= <-]|]. exists q, al, l, dl, ds. split; [|auto]. rewrite <- app_assoc. cbn [app]. rewrite <- app_assoc. cbn [app]. rewrite Q. reflexivity.
Qed.
Ltac app_norm Y := cbn [app]; repeat (rewrite <- app_assoc; cbn [app]); cbn [app] in Y; repeat (rewrite <- app_assoc in Y; cbn [app] in Y).
Lemma symbol_or b o : symbol_fails b o -> (o <> Some too_short /\ forall q, symbol_fails (b ++ q) o) \/ short o /\ done symbol_text b.
Proof.
  intros X. destruct X as [a r m W|a|a d r m F|a d fl fs r m P L F|a d fl fs r P L N|a d fl fs r P L N|a d fl fs x r m P L N B|a d fl fs s r m P L N1 N2 N3 B].
  - destruct (wants_or _ _ _ W) as [[E L]|[-> [q Q]]].
    + left. split; [congruence|]. intros q. exact (yf_mark _ _ _ (L q)).
    + right. split; [now intros ? [= <-]|]. exists (q ++ a_def_line :: lit "DRAW" :: a_rest). cbn [app]. rewrite app_assoc, Q.
      exact (sym_read a a_def_line [] [] [] [] [] [] [] a_def_passes (Forall2_nil _) fp_none al_none (Forall2_nil _) (fun x => x)).
  - right. split; [exact short_none|]. exists (a_def_line :: lit "DRAW" :: a_rest). exact (sym_read a a_def_line [] [] [] [] [] [] [] a_def_passes (Forall2_nil _) fp_none al_none (Forall2_nil _) (fun x => x)).
  - left. split; [exact (fits_not _ _ _ fits_def F)|]. intros q. exact (yf_def _ _ _ _ F).
  - inversion F as [|r'|s r' m' B F']; subst.
    + right. split; [exact short_none|]. exists (lit "DRAW" :: a_rest). rewrite app_nil_r. exact (sym_read a d fl fs [] [] [] [] [] P L fp_none al_none (Forall2_nil _) (fun x => x)).
    + left. split; [discriminate|]. intros q. cbn [app]. rewrite <- app_assoc. exact (yf_fields a d fl fs (([] : str) :: r' ++ q) None P L (fs_empty _)).
    + left. split; [exact (fits_not _ _ _ fits_sfield F')|]. intros q. cbn [app]. rewrite <- app_assoc. exact (yf_fields _ _ _ _ _ _ P L (fs_line _ _ _ B F')).
  - right. split; [exact short_none|]. exists (lit "$ENDFPLIST" :: lit "DRAW" :: a_rest). destruct (sym_read a d fl fs _ [] [] [] [] P L (fp_lines r N) al_none (Forall2_nil _) (fun x => x)) as [y Y]. exists y.
    app_norm Y. exact Y.
  - right. split; [exact short_none|]. exists (lit "DRAW" :: a_rest). destruct (sym_read a d fl fs _ [] [] [] [] P L (fp_lines r N) al_none (Forall2_nil _) (fun x => x)) as [y Y]. exists y.
    app_norm Y. exact Y.
  - destruct (body_or _ _ B) as [[E K]|[E (q & al & l & dl & ds & Q & A & D & M)]].
    + left. split; [exact E|]. intros q. cbn [app]. rewrite <- app_assoc. cbn [app]. rewrite <- app_assoc. exact (yf_listed _ _ _ _ _ _ _ P L N (K q)).
    + right. split; [exact E|]. exists q. destruct (sym_read a d fl fs _ al l dl ds P L (fp_lines x N) A D M) as [y Y]. exists y. rewrite <- Q in Y.
      app_norm Y. exact Y.
  - destruct (body_or _ _ B) as [[E K]|[E (q & al & l & dl & ds & Q & A & D & M)]].
    + left. split; [exact E|]. intros q. cbn [app]. rewrite <- app_assoc. exact (yf_body _ _ _ _ _ _ _ P L N1 N2 N3 (K q)).
    + right. split; [exact E|]. exists q. destruct (sym_read a d fl fs _ al l dl ds P L fp_none A D M) as [y Y]. exists y. cbn [app] in Y. rewrite <- Q in Y. app_norm Y. exact Y.
Qed.
Lemma whole_text a ys b : whole a ys -> forall zs, symbols_text b zs -> symbols_text (a ++ b) (ys ++ zs).
Proof. induction 1 as [|l y r ys Y N _ IH]; intros zs Z; [exact Z|]. rewrite <- app_assoc. cbn [app]. exact (sy_more _ _ _ _ Y N (IH zs Z)). Qed.
Lemma lib_refused_or ls o : lib_refused ls o -> (o <> Some too_short /\ lib_lost ls o) \/ short o /\ lib_may_go_on ls.
Proof.
  intros X. destruct X as [ls m W|a ys b m A F N].
  - destruct (wants_or _ _ _ W) as [[E L]|[-> [r R]]].
    + left. split; [congruence|]. intros r. exact (lr_head _ _ (L r)).
    + right. split; [now intros ? [= <-]|]. exists r, []. rewrite R. exists []. split; [reflexivity|exact sy_eof].
  - assert (B : b <> []) by (destruct b; [inversion F|discriminate]). destruct (symbol_or _ _ F) as [[E L]|[E (q & y & Y)]].
    + left. split; [exact E|]. intros q. rewrite <- !app_assoc. apply (lr_symbol a ys (b ++ q) _ A (L q)). destruct b; [now destruct B|exact N].
    + right. split; [exact E|]. exists q, (ys ++ [y]). rewrite <- !app_assoc. exists (a ++ b ++ q). split; [reflexivity|]. apply (whole_text _ _ _ A). rewrite <- (app_nil_r (b ++ q)).
      apply sy_more; [exact Y|destruct b; [now destruct B|exact N]|exact sy_eof].
Qed.
Lemma lib_goes_or_lost ls : lib_may_go_on ls \/ exists o, lib_lost ls o.
Proof.
  destruct (lib_said ls) as [c|m| |] eqn:E.
  - left. exists [], c. rewrite app_nil_r. now apply lib_fine.
  - assert (R : lib_refused ls (Some m)) by (apply library_ends; exact E). destruct (lib_refused_or _ _ R) as [[_ L]|[_ G]]; [right; now exists (Some m)|now left].
  - assert (R : lib_refused ls None) by (apply library_ends; exact E). destruct (lib_refused_or _ _ R) as [[_ L]|[_ G]]; [right; now exists None|now left].
  - destruct (lib_unspent ls E).
Qed.
Lemma lib_not_both ls o : lib_may_go_on ls -> ~ lib_lost ls o.
Proof. intros (r & c & C) L. apply (proj1 (lib_refused_or_read (ls ++ r))); [now exists c|]. exists o. apply L. Qed.
Lemma lib_lost_more ls o r : lib_lost ls o -> lib_lost (ls ++ r) o.
Proof. intros L q. rewrite <- app_assoc. apply L. Qed.
Lemma lib_lost_at ls o : lib_lost ls o -> exists p s r, ls = p ++ s :: r /\ lib_may_go_on p /\ lib_lost (p ++ [s]) o.
Proof.
  induction ls as [|s ls IH] using rev_ind; intros L.
  - exfalso. apply (lib_not_both [] o); [|exact L]. exists lib_heading, [], []. split; [reflexivity|exact sy_eof].
  - destruct (lib_goes_or_lost ls) as [G|[o' L']].
    + exists ls, s, []. auto.
    + rewrite (lib_refused_fun _ _ _ (L []) (lib_lost_more _ _ [s] L' [])) in *. destruct (IH L') as (p & s' & r & -> & G & D). exists p, s', (r ++ [s]). split; [now rewrite <- app_assoc|]. auto.
Qed.

(** ** Texts *)
Lemma lines_of t ls ls' : text_lines t ls -> text_lines t ls' -> ls = ls'.
Proof. intros L L'. apply lines_iff in L, L'. congruence. Qed.
Lemma says_refused fn t ls m : text_lines t ls -> schematic_said fn t = Says m <-> refused ls (Some m).
Proof. intros T. rewrite schematic_says. split; [|intros R; now exists ls]. intros (ls' & T' & R). now rewrite (lines_of _ _ _ T T'). Qed.
Lemma stops_refused fn t ls : text_lines t ls -> schematic_said fn t = Stops <-> refused ls None.
Proof. intros T. rewrite schematic_stops. split; [|intros R; now exists ls]. intros (ls' & T' & R). now rewrite (lines_of _ _ _ T T'). Qed.
Lemma lib_says_refused t ls m : text_lines t ls -> library_said t = Says m <-> lib_refused ls (Some m).
Proof. intros T. rewrite library_says. split; [|intros R; now exists ls]. intros (ls' & T' & R). now rewrite (lines_of _ _ _ T T'). Qed.
Lemma lib_stops_refused t ls : text_lines t ls -> library_said t = Stops <-> lib_refused ls None.
Proof. intros T. rewrite library_stops. split; [|intros R; now exists ls]. intros (ls' & T' & R). now rewrite (lines_of _ _ _ T T'). Qed.
Theorem says_line fn t ls m : text_lines t ls -> schematic_said fn t = Says m -> m <> too_short ->
  exists p s r, ls = p ++ s :: r /\ may_go_on p /\ forall t' q, text_lines t' (p ++ s :: q) -> schematic_said fn t' = Says m.
Proof.
  intros T E N. apply (says_refused fn t ls m T) in E. destruct (refused_or _ _ E) as [[_ L]|[Z _]]; [|destruct (N (Z m eq_refl))].
  destruct (lost_at _ _ L) as (p & s & r & -> & G & D). exists p, s, r. split; [reflexivity|]. split; [exact G|]. intros t' q T'. apply (says_refused fn _ _ m T'). specialize (D q). rewrite <- app_assoc in D. exact D.
Qed.
Theorem says_short fn t ls : text_lines t ls -> schematic_said fn t = Says too_short -> may_go_on ls.
Proof. intros T E. apply (says_refused fn _ _ _ T) in E. destruct (refused_or _ _ E) as [[N _]|[_ G]]; [now destruct N|exact G]. Qed.
Theorem stops_line fn t ls : text_lines t ls -> schematic_said fn t = Stops ->
  may_go_on ls \/ exists p s r, ls = p ++ s :: r /\ may_go_on p /\ forall t' q, text_lines t' (p ++ s :: q) -> schematic_said fn t' = Stops.
Proof.
  intros T E. apply (stops_refused fn t ls T) in E. destruct (refused_or _ _ E) as [[_ L]|[_ G]]; [right|now left].
  destruct (lost_at _ _ L) as (p & s & r & -> & G & D). exists p, s, r. split; [reflexivity|]. split; [exact G|]. intros t' q T'. apply (stops_refused fn _ _ T'). specialize (D q). rewrite <- app_assoc in D. exact D.
Qed.
Theorem lib_says_line t ls m : text_lines t ls -> library_said t = Says m -> m <> too_short ->
  exists p s r, ls = p ++ s :: r /\ lib_may_go_on p /\ forall t' q, text_lines t' (p ++ s :: q) -> library_said t' = Says m.
Proof.
  intros T E N. apply (lib_says_refused t ls m T) in E. destruct (lib_refused_or _ _ E) as [[_ L]|[Z _]]; [|destruct (N (Z m eq_refl))].
  destruct (lib_lost_at _ _ L) as (p & s & r & -> & G & D). exists p, s, r. split; [reflexivity|]. split; [exact G|]. intros t' q T'. apply (lib_says_refused _ _ m T'). specialize (D q). rewrite <- app_assoc in D. exact D.
Qed.
Theorem lib_says_short t ls : text_lines t ls -> library_said t = Says too_short -> lib_may_go_on ls.
Proof. intros T E. apply (lib_says_refused _ _ _ T) in E. destruct (lib_refused_or _ _ E) as [[N _]|[_ G]]; [now destruct N|exact G]. Qed.
Theorem lib_stops_line t ls : text_lines t ls -> library_said t = Stops ->
  lib_may_go_on ls \/ exists p s r, ls = p ++ s :: r /\ lib_may_go_on p /\ forall t' q, text_lines t' (p ++ s :: q) -> library_said t' = Stops.
Proof.
  intros T E. apply (lib_stops_refused t ls T) in E. destruct (lib_refused_or _ _ E) as [[_ L]|[_ G]]; [right|now left].
  destruct (lib_lost_at _ _ L) as (p & s & r & -> & G & D). exists p, s, r. split; [reflexivity|]. split; [exact G|]. intros t' q T'. apply (lib_stops_refused _ _ T'). specialize (D q). rewrite <- app_assoc in D. exact D.
Qed.

(** ** The error of a text put together is that of the part *)
Lemma refused_heading libs e b o : starts_with (lit "EELAYER ") e = true ->
  refused (sch_heading libs e ++ b) o <-> exists x secs y, b = x ++ y /\ sections x secs /\ section_fails y o.
Proof.
  intros E. split.
  - intros R. apply (lines_ends None) in R. revert R. unfold lines_said, sch_heading. rewrite <- app_comm_cons, <- app_assoc. cbn [line_said]. rewrite str_eqb_refl. cbn [sbind]. cbn [app].
    libs_at (libs_bw libs [] e (lit "EELAYER END" :: b) (layer_lib e E)). cbn [here_said sbind]. rewrite E. cbn [negb next tl line_said]. rewrite str_eqb_refl. cbn [sbind]. intros R.
    destruct (main_fw' _ _ _ _ R) as (x & secs & y & -> & S' & F). now exists x, secs, y.
  - intros (x & secs & y & -> & S' & F). exact (rf_section libs e x secs y o E S' F).
Qed.
Lemma heading_body fn libs e a s1 : starts_with (lit "EELAYER ") e = true -> schematic_text fn (sch_heading libs e ++ a) s1 -> exists secs, sections a secs.
Proof.
  intros E (libs' & e' & a' & secs & Q & E' & S' & _). exists secs. unfold sch_heading in Q. cbn [app] in Q. injection Q as H. rewrite <- app_assoc in H. cbn [app] in H.
  revert libs' H. induction libs as [|x libs IH]; intros [|x' libs'] H; cbn [map app] in H.
  - injection H as _ ->. exact S'.
  - exfalso. assert (X : e = lit "LIBS:" ++ x') by exact (f_equal (hd []) H). rewrite X in E. discriminate E.
  - exfalso. assert (X : e' = lit "LIBS:" ++ x) by exact (eq_sym (f_equal (hd []) H)). rewrite X in E'. discriminate E'.
  - apply (IH libs'). exact (f_equal (@tl str) H).
Qed.
Theorem refused_rest fn libs e a b s1 : starts_with (lit "EELAYER ") e = true -> schematic_text fn (sch_heading libs e ++ a) s1 ->
  forall o, refused (sch_heading libs e ++ a ++ b) o <-> refused (sch_heading libs e ++ b) o.
Proof.
  intros E T. destruct (heading_body _ _ _ _ _ E T) as [secs S'].
  assert (Z : forall o, refused (sch_heading libs e ++ b) o -> refused (sch_heading libs e ++ a ++ b) o).
  { intros o R. apply (proj2 (refused_heading libs e _ _ E)). destruct (proj1 (refused_heading libs e b o E) R) as (x & sx & y & -> & X & F). exists (a ++ x), (secs ++ sx), y. split; [apply app_assoc|]. split; [|exact F].
    apply (sections_join a secs S'). now exists sx. }
  intros o. split; [|apply Z]. intros R. destruct (lines_said None (sch_heading libs e ++ b)) as [c|m| |] eqn:X.
  - exfalso. apply lines_fine in X. destruct (heading_body _ _ _ _ _ E X) as [sb B].
    assert (J : sections (a ++ b) (secs ++ sb)) by (apply (sections_join a secs S'); now exists sb). destruct (head_read libs e _ _ E J) as (fn' & c' & C).
    apply (proj1 (refused_or_read fn' _) (ex_intro _ c' C)). now exists o.
  - assert (R' : refused (sch_heading libs e ++ b) (Some m)) by (apply (lines_ends None); exact X). rewrite (refused_fun _ _ _ R (Z _ R')). exact R'.
  - assert (R' : refused (sch_heading libs e ++ b) None) by (apply (lines_ends None); exact X). rewrite (refused_fun _ _ _ R (Z _ R')). exact R'.
  - destruct (lines_said_unspent _ _ X).
Qed.
Theorem sch_rest fn libs e a b t t1 t2 s1 : starts_with (lit "EELAYER ") e = true ->
  text_lines t (sch_heading libs e ++ a ++ b) -> text_lines t1 (sch_heading libs e ++ a) -> text_lines t2 (sch_heading libs e ++ b) -> schematic_said fn t1 = Fine s1 ->
  (forall m, schematic_said fn t = Says m <-> schematic_said fn t2 = Says m) /\ (schematic_said fn t = Stops <-> schematic_said fn t2 = Stops).
Proof.
  intros E T T1 T2 F. apply schematic_fine in F as (ls & L & S1). rewrite (lines_of _ _ _ L T1) in S1.
  split; [intros m; rewrite (says_refused fn t _ m T), (says_refused fn t2 _ m T2)|rewrite (stops_refused fn t _ T), (stops_refused fn t2 _ T2)]; exact (refused_rest _ _ _ _ b _ E S1 _).
Qed.
Lemma whole_of a xs : symbols_text a xs -> ~ In (lit "#End Library") a -> whole a xs.
Proof.
  induction 1 as [|r|l y r ys Y E S' IH]; intros N; [exact wh_none|destruct N; now left|]. apply (wh_more _ _ _ _ Y E). apply IH. intros I. apply N. apply in_or_app. now right.
Qed.
Lemma whole_app a xs b ys : whole a xs -> whole b ys -> whole (a ++ b) (xs ++ ys).
Proof. induction 1 as [|l y r zs Y N _ IH]; intros B; [exact B|]. rewrite <- app_assoc. exact (wh_more _ _ _ _ Y N (IH B)). Qed.
Lemma lib_refused_heading b o : lib_refused (lib_heading ++ b) o <-> exists x ys y, b = x ++ y /\ whole x ys /\ symbol_fails y o /\ hd_error y <> Some (lit "#End Library").
Proof.
  split.
  - intros R. inversion R as [ls m W Q|x ys y m A F N Q]; subst.
    + exfalso. inversion W as [|? ? ? ? X|? ? ? ? W1]; subst; [now apply X|]. inversion W1 as [|? ? ? ? X|? ? ? ? W2]; subst; [now apply X|]. inversion W2 as [|? ? ? ? X|? ? ? ? W3]; subst; [now apply X|]. inversion W3.
    + now exists x, ys, y.
  - intros (x & ys & y & -> & A & F & N). exact (lr_symbol x ys y o A F N).
Qed.
Theorem lib_refused_rest a b xs : library_text (lib_heading ++ a) xs -> ~ In (lit "#End Library") a ->
  forall o, lib_refused (lib_heading ++ a ++ b) o <-> lib_refused (lib_heading ++ b) o.
Proof.
  intros (a' & Q & T) N. unfold lib_heading in Q. cbn [app] in Q. injection Q as <-. pose proof (whole_of _ _ T N) as W.
  assert (Z : forall o, lib_refused (lib_heading ++ b) o -> lib_refused (lib_heading ++ a ++ b) o).
  { intros o R. apply (proj2 (lib_refused_heading _ _)). destruct (proj1 (lib_refused_heading b o) R) as (x & ys & y & -> & X & F & H). exists (a ++ x), (xs ++ ys), y. split; [apply app_assoc|]. split; [exact (whole_app _ _ _ _ W X)|]. auto. }
  intros o. split; [|apply Z]. intros R. destruct (lib_said (lib_heading ++ b)) as [l|m| |] eqn:X.
  - exfalso. apply lib_fine in X as (b' & Q & B). unfold lib_heading in Q. cbn [app] in Q. injection Q as <-.
    apply (proj1 (lib_refused_or_read (lib_heading ++ a ++ b))); [|now exists o]. exists (xs ++ l), (a ++ b). split; [reflexivity|]. exact (whole_text _ _ _ W _ B).
  - assert (R' : lib_refused (lib_heading ++ b) (Some m)) by (apply library_ends; exact X). rewrite (lib_refused_fun _ _ _ R (Z _ R')). exact R'.
  - assert (R' : lib_refused (lib_heading ++ b) None) by (apply library_ends; exact X). rewrite (lib_refused_fun _ _ _ R (Z _ R')). exact R'.
  - destruct (lib_unspent _ X).
Qed.
Theorem lib_rest a b t t1 t2 xs : text_lines t (lib_heading ++ a ++ b) -> text_lines t1 (lib_heading ++ a) -> text_lines t2 (lib_heading ++ b) ->
  ~ In (lit "#End Library") a -> library_said t1 = Fine xs ->
  (forall m, library_said t = Says m <-> library_said t2 = Says m) /\ (library_said t = Stops <-> library_said t2 = Stops).
Proof.
  intros T T1 T2 N F. apply library_fine in F as (ls & L & S1). rewrite (lines_of _ _ _ L T1) in S1.
  split; [intros m; rewrite (lib_says_refused t _ m T), (lib_says_refused t2 _ m T2)|rewrite (lib_stops_refused t _ T), (lib_stops_refused t2 _ T2)]; exact (lib_refused_rest _ b _ S1 N _).
Qed.
(** ** One line *)
Lemma longer (p : list str) s r p' s' r' : p ++ s :: r = p' ++ s' :: r' -> (length p < length p')%nat -> exists q, p' = (p ++ [s]) ++ q.
Proof.
  revert p'. induction p as [|x p IH]; intros [|x' p'] E K; try (cbn in K; lia).
  - injection E as -> _. now exists p'.
  - injection E as -> E. destruct (IH p' E ltac:(cbn in K; lia)) as [q Q]. exists q. cbn [app]. now f_equal.
Qed.
Lemma same_length (p : list str) s r p' s' r' : p ++ s :: r = p' ++ s' :: r' -> length p = length p' -> p = p' /\ s = s' /\ r = r'.
Proof.
  revert p'. induction p as [|x p IH]; intros [|x' p'] E K; try discriminate K.
  - injection E as -> ->. auto.
  - injection E as -> E. injection K as K. destruct (IH p' E K) as (-> & -> & ->). auto.
Qed.
Theorem line_one p s r p' s' r' o o' : p ++ s :: r = p' ++ s' :: r' -> may_go_on p -> lost (p ++ [s]) o -> may_go_on p' -> lost (p' ++ [s']) o' -> p = p' /\ s = s' /\ o = o'.
Proof.
  intros E G L G' L'. destruct (Nat.lt_trichotomy (length p) (length p')) as [K|[K|K]].
  - exfalso. destruct (longer _ _ _ _ _ _ E K) as [q ->]. exact (not_both _ _ G' (lost_more _ _ _ L)).
  - destruct (same_length _ _ _ _ _ _ E K) as (-> & -> & _). split; [reflexivity|]. split; [reflexivity|]. exact (lost_one _ _ _ L L').
  - exfalso. destruct (longer _ _ _ _ _ _ (eq_sym E) K) as [q ->]. exact (not_both _ _ G (lost_more _ _ _ L')).
Qed.
Theorem lib_line_one p s r p' s' r' o o' : p ++ s :: r = p' ++ s' :: r' -> lib_may_go_on p -> lib_lost (p ++ [s]) o -> lib_may_go_on p' -> lib_lost (p' ++ [s']) o' -> p = p' /\ s = s' /\ o = o'.
Proof.
  intros E G L G' L'. destruct (Nat.lt_trichotomy (length p) (length p')) as [K|[K|K]].
  - exfalso. destruct (longer _ _ _ _ _ _ E K) as [q ->]. exact (lib_not_both _ _ G' (lib_lost_more _ _ _ L)).
  - destruct (same_length _ _ _ _ _ _ E K) as (-> & -> & _). split; [reflexivity|]. split; [reflexivity|]. exact (lib_refused_fun _ _ _ (L []) (L' [])).
  - exfalso. destruct (longer _ _ _ _ _ _ (eq_sym E) K) as [q ->]. exact (lib_not_both _ _ G (lib_lost_more _ _ _ L')).
Qed.
(** ** Lost by the complaint *)
Theorem lost_iff ls m : lost ls (Some m) <-> refused ls (Some m) /\ m <> too_short.
Proof.
  split.
  - intros L. assert (R : refused ls (Some m)) by (rewrite <- (app_nil_r ls); apply L). split; [exact R|]. intros ->. destruct (refused_or _ _ R) as [[N _]|[_ G]]; [now apply N|exact (not_both _ _ G L)].
  - intros [R N]. destruct (refused_or _ _ R) as [[_ L]|[Z _]]; [exact L|destruct (N (Z m eq_refl))].
Qed.
Theorem lib_lost_iff ls m : lib_lost ls (Some m) <-> lib_refused ls (Some m) /\ m <> too_short.
Proof.
  split.
  - intros L. assert (R : lib_refused ls (Some m)) by (rewrite <- (app_nil_r ls); apply L). split; [exact R|]. intros ->. destruct (lib_refused_or _ _ R) as [[N _]|[_ G]]; [now apply N|exact (lib_not_both _ _ G L)].
  - intros [R N]. destruct (lib_refused_or _ _ R) as [[_ L]|[Z _]]; [exact L|destruct (N (Z m eq_refl))].
Qed.
Theorem choice ls : (may_go_on ls \/ exists o, lost ls o) /\ forall o, ~ (may_go_on ls /\ lost ls o).
Proof. split; [apply goes_or_lost|]. intros o [G L]. exact (not_both _ _ G L). Qed.
Theorem lib_choice ls : (lib_may_go_on ls \/ exists o, lib_lost ls o) /\ forall o, ~ (lib_may_go_on ls /\ lib_lost ls o).
Proof. split; [apply lib_goes_or_lost|]. intros o [G L]. exact (lib_not_both _ _ G L). Qed.
