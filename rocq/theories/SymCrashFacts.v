(** The symbol library reader panics exactly at the texts of [library_crash] (C41). *)
From Coq Require Import String Lia.
From Verif Require Import Base Str StrFacts Num F64 F64Text SexpFacts LibFns LibSpec CutSpec CutFacts SchData SchPrint SchParse SchReadSpec SchReadFacts SymData SymParse SymReadSpec SymReadFacts CrashSpec CrashFacts.
Open Scope string_scope. Open Scope list_scope.

Lemma orient_np s : pin_orientation_make s <> Panic.
Proof. unfold pin_orientation_make. now repeat destruct (seq s _). Qed.
Lemma type_np s : pin_type_make s <> Panic.
Proof. unfold pin_type_make. now repeat destruct (seq s _). Qed.
Lemma shape_np s : pin_shape_make s <> Panic.
Proof. unfold pin_shape_make. destruct (is_empty s); [discriminate|]. cbv zeta. generalize (if starts_with (lit "N") s then tl s else s). intros t. now repeat destruct (seq t _). Qed.
Lemma fill_np s : fill_make s <> Panic.
Proof. unfold fill_make. now repeat destruct (seq s _). Qed.
Ltac never2 H := first [never H | now apply orient_np in H | now apply type_np in H | now apply shape_np in H | now apply fill_np in H].
Ltac qstep := match goal with
  | H : bind _ _ = Panic |- _ => let E := fresh "E" in let x := fresh "x" in apply bind_panic in H as [H|(x & E & H)]; [try never2 H|]
  | H : (if ?b then Err _ else _) = Panic |- _ => let E := fresh "E" in destruct b eqn:E; [discriminate H|]
  end.

(** ** Lines *)
Lemma sfield_panic_fw s : parse_sfield s = Panic -> starts_with (lit "F") s = true -> sfield_short s.
Proof.
  unfold parse_sfield. intros H F. split; [exact F|]. qstep. pose proof (words_bw _ _ E) as W. clear E. qstep. assert (L : length x = 9%nat \/ length x = 10%nat).
  { destruct (Nat.eqb_spec (length x) 9); [now left|]. destruct (Nat.eqb_spec (length x) 10); [now right|discriminate E]. }
  clear E. pose proof (proj1 (starts_F s) F) as [r R]. rewrite R in W. destruct (line_head _ _ _ W) as (i & v' & V); [discriminate|discriminate|]. rewrite <- R in W.
  assert (Z : nth_error x 0 = Some (70%N :: i)) by (rewrite V; reflexivity). rewrite (proj2 (idx_iff _ _ _) Z) in H. cbn [bind tl] in H. clear V v'.
  qstep. apply bind_panic in H as [H|(name & M & H)].
  { destruct (Nat.eqb (length x) 10) eqn:Q; [apply Nat.eqb_eq in Q; apply idx_panic in H; lia|now apply option_np in H]. }
  assert (N : names_field 9 x x0).
  { destruct L as [L|L]; [|now left]. right. split; [exact L|]. rewrite L in M. cbn [Nat.eqb] in M. destruct (default_field_name x0) as [n|] eqn:D; [|discriminate M]. apply usual_iff in D as (k & K & _). now exists k. }
  clear M. repeat qstep; try discriminate H; apply char_panic in H; inv; read; exists x, i, x0; (split; [exact W|split; [exact Z|split; [assumption|split; [exact N|]]]]); clear N; do 3 eexists;
    repeat (split; [unfold at_int, at_num, at_word; solve [eauto]|]).
  - left. apply short0 in H. now subst.
  - right. do 2 eexists. repeat (split; [unfold at_char, at_name, at_word; solve [eauto 8]|]). left. apply short0 in H. now subst.
  - right. do 2 eexists. repeat (split; [unfold at_char, at_name, at_word; solve [eauto 8]|]). right. eexists _, _. repeat (split; [unfold at_char, at_word; solve [eauto 8]|]). left. now apply short0 in H.
  - right. do 2 eexists. repeat (split; [unfold at_char, at_name, at_word; solve [eauto 8]|]). right. eexists _, _. repeat (split; [unfold at_char, at_word; solve [eauto 8]|]).
    right. eexists _, _. split; [eassumption|]. left. eapply short1; eassumption.
  - right. do 2 eexists. repeat (split; [unfold at_char, at_name, at_word; solve [eauto 8]|]). right. eexists _, _. repeat (split; [unfold at_char, at_word; solve [eauto 8]|]).
    right. eexists _, _. split; [eassumption|]. right. eexists _, _. split; [eassumption|]. eapply short2; eassumption.
Qed.
Lemma sfield_panic_bw s : sfield_short s -> parse_sfield s = Panic.
Proof.
  intros (F & v & i & n & W & W0 & I0 & N & x & y & z & (w2 & W2 & I2) & (w3 & W3 & I3) & (w4 & W4 & I4) & H). unfold parse_sfield. rewrite (words_fw _ _ W). cbn [bind].
  assert (Q : negb (Nat.eqb (length v) 9) && negb (Nat.eqb (length v) 10) = false) by (destruct N as [N|(N & _)]; rewrite N; reflexivity). rewrite Q. clear Q.
  destruct (idx_ok v 1) as [value V1]; [destruct N as [N|(N & _)]; lia|]. destruct (name_ok 9 v n N) as [name M].
  unfold at_word in *. apply idx_iff in W0, W2, W3, W4. apply int_ok in I0, I4. apply num_ok in I2, I3. rewrite W0. cbn [bind]. change (tl (lit "F" ++ i)) with i. rewrite I0. cbn [bind]. rewrite M. cbn [bind].
  rewrite V1. cbn [bind]. rewrite W2. cbn [bind]. rewrite I2. cbn [bind]. rewrite W3. cbn [bind]. rewrite I3. cbn [bind]. rewrite W4. cbn [bind]. rewrite I4. cbn [bind].
  destruct H as [W5|(o & b & (w5 & c5 & W5 & C5 & O5) & (k6 & W6 & I6) & H)]; unfold at_word in *; apply idx_iff in W5; rewrite W5; cbn [bind]; [reflexivity|].
  apply char_ok in C5. apply orientation_iff in O5. rewrite C5. cbn [bind]. rewrite O5. cbn [bind]. apply idx_iff in W6. rewrite W6. cbn [bind].
  assert (V : bool_from_string (lit k6) "V" "I" = Ok b) by (apply yes_no_iff; [discriminate|eauto]). rewrite V. cbn [bind].
  destruct H as [W7|(h & w & (w7 & c7 & W7 & C7 & J7) & W8 & S)]; apply idx_iff in W7; rewrite W7; cbn [bind]; [reflexivity|].
  apply char_ok in C7. apply sjustify_iff in J7. rewrite C7. cbn [bind]. rewrite J7. cbn [bind]. apply idx_iff in W8. rewrite W8. cbn [bind]. now apply style_panic.
Qed.
Lemma draw_np s : draw_line s <> Panic.
Proof.
  unfold draw_line. intros H. destruct (starts_with (lit "X ") s).
  - apply bind_panic in H as [H|(? & _ & H)]; [|discriminate H]. unfold parse_pin in H. qstep. qstep. assert (L : length x = 12%nat \/ length x = 13%nat).
    { destruct (Nat.eqb_spec (length x) 12); [now left|]. destruct (Nat.eqb_spec (length x) 13); [now right|discriminate E0]. }
    repeat qstep. destruct (Nat.eqb_spec (length x) 13) as [L'|]; [|discriminate H]. repeat qstep. discriminate H.
  - destruct (starts_with (lit "S ") s); [|discriminate H]. apply bind_panic in H as [H|(? & _ & H)]; [|discriminate H]. unfold parse_rect in H. qstep. qstep.
    apply Bool.negb_false_iff, Nat.eqb_eq in E0. repeat qstep. discriminate H.
Qed.
Lemma draws_np p acc : draw_loop p acc <> Panic.
Proof.
  revert acc. induction p as [|s r IH]; intros acc; cbn [draw_loop]; [discriminate|]. destruct (seq s "ENDDRAW"); [discriminate|]. intros H.
  apply bind_panic in H as [H|(? & _ & H)]; [now apply draw_np in H|now apply IH in H].
Qed.

(** ** Symbols *)
Lemma fields_panic_fw p acc : sfields_loop p acc = Panic -> exists fl fs r, p = fl ++ r /\ Forall2 sfield_line fl fs /\ (r = [] \/ (exists t, r = [] :: t) \/ exists s t, r = s :: t /\ sfield_short s).
Proof.
  revert acc. induction p as [|s r IH]; intros acc H; [exists [], [], []; split; [reflexivity|split; [constructor|now left]]|]. cbn [sfields_loop] in H.
  apply bind_panic in H as [H|(c & C & H)].
  { apply char_panic, short0 in H. subst. exists [], [], ([] :: r). split; [reflexivity|split; [constructor|right; left; now exists r]]. }
  apply char_iff in C. destruct s as [|c' t]; [discriminate C|injection C as C; subst c']. destruct (N.eqb_spec c 70) as [E|N]; [subst c|discriminate H].
  assert (F : starts_with (lit "F") (70%N :: t) = true) by (apply starts_F; eauto). apply bind_panic in H as [H|(f & P & H)].
  - apply sfield_panic_fw in H; [|exact F]. exists [], [], ((70%N :: t) :: r). split; [reflexivity|split; [constructor|right; right; eauto]].
  - apply field_fw in P; [|exact F]. apply IH in H as (fl & fs & q & -> & Q & R). exists ((70%N :: t) :: fl), (f :: fs), q. split; [reflexivity|split; [now constructor|exact R]].
Qed.
Lemma fields_panic_bw fl fs r : Forall2 sfield_line fl fs -> (forall acc, sfields_loop r acc = Panic) -> forall acc, sfields_loop (fl ++ r) acc = Panic.
Proof.
  intros H R. induction H as [|s f fl fs S H IH]; intros acc; cbn [app sfields_loop]; [apply R|].
  pose proof S as (v & i & F & _). apply starts_F in F as [t T]. assert (C : char_at s 0 = Ok 70%N) by (now rewrite T). rewrite C. cbn [bind N.eqb Pos.eqb]. rewrite (field_bw _ _ S). cbn [bind]. apply IH.
Qed.
Lemma skip_nil p : skip_fplist p = [] <-> ~ In (lit "$ENDFPLIST") p \/ exists m, p = m ++ [lit "$ENDFPLIST"] /\ ~ In (lit "$ENDFPLIST") m.
Proof.
  induction p as [|s r IH]; cbn [skip_fplist].
  - split; [intros _; left; intros []|reflexivity].
  - destruct (seq s "$ENDFPLIST") eqn:E.
    + apply seq_iff in E. subst. split.
      * intros ->. right. exists []. split; [reflexivity|intros []].
      * intros [H|(m & H & N)]; [exfalso; apply H; now left|]. destruct m as [|x m]; cbn [app] in H; [now injection H|injection H as H1 H2; subst; exfalso; apply N; now left].
    + apply seq_no in E. rewrite IH. split.
      * intros [H|(m & -> & N)]; [left; intros [K|K]; [now subst|contradiction]|right; exists (s :: m); split; [reflexivity|intros [K|K]; [now subst|contradiction]]].
      * intros [H|(m & H & N)]; [left; intros K; apply H; now right|]. destruct m as [|x m]; cbn [app] in H; injection H as -> ->; [contradiction|]. right. exists m. split; [reflexivity|intros K; apply N; now right].
Qed.
Lemma after_loop r : after_fields r -> (forall acc, sfields_loop r acc = Panic) \/ exists q, r = lit "$FPLIST" :: q /\ skip_fplist q = [].
Proof.
  intros [|t|s t S|m N|m N]; [left; reflexivity|left; reflexivity| | |].
  - left. intros acc. cbn [sfields_loop]. pose proof S as (F & _). apply starts_F in F as [i ->]. change (char_at (70%N :: i) 0) with (Ok 70%N). cbn [bind N.eqb Pos.eqb]. now rewrite (sfield_panic_bw _ S).
  - right. exists m. split; [reflexivity|]. apply skip_nil. now left.
  - right. eexists. split; [reflexivity|]. apply skip_nil. right. now exists m.
Qed.
Lemma symbol_panic_fw p : parse_symbol p = Panic -> symbol_crash p.
Proof.
  unfold parse_symbol. intros H. apply bind_panic in H as [H|(p1 & A & H)]; [now apply line_np in H|]. apply assume_line_iff in A. destruct p as [|a p]; [discriminate A|]. cbn [next tl] in A. subst p.
  destruct p1 as [|d p1]; [apply sy_alone|]. cbn [here bind next tl] in H. qstep. pose proof (words_bw _ _ E) as W. clear E. qstep. apply Bool.negb_false_iff, Nat.eqb_eq in E. rename E into L.
  do 16 qstep.
  assert (D : def_line d).
  { inv. read. repeat match goal with u : unit |- _ => destruct u end. match goal with H : assume_string _ _ = Ok _ |- _ => apply assume_iff in H; subst end.
    exists x. do 6 eexists. split; [exact W|split; [exact L|]]. repeat (split; [unfold at_name, at_int, at_num, at_word; solve [eauto 8]|]). unfold at_name, at_word. eauto. }
  repeat match goal with K : idx _ _ = Ok _ |- _ => clear K end. 
  apply bind_panic in H as [H|([fs p2] & F & H)].
  - apply fields_panic_fw in H as (fl & fs & r & -> & P & [->|[(t & ->)|(s & t & -> & S)]]); (eapply sy_fields_crash; [exact D|exact P|]); [apply af_end|apply af_empty|now apply af_field].
  - apply fields_fw in F as (fl & fs' & -> & _ & F). destruct p2 as [|s2 p2].
    { eapply sy_fields_crash; [exact D|exact F|apply af_end]. }
    cbn [here bind next tl] in H. apply bind_panic in H as [H|([al p3] & _ & H)].
    + destruct (seq s2 "$FPLIST") eqn:Q.
      * apply seq_iff in Q. subst s2. eapply sy_fields_crash; [exact D|exact F|]. destruct (skip_fplist p2) as [|y t] eqn:K.
        -- apply skip_nil in K as [K|(m & -> & K)]; [now apply af_open|now apply af_list].
        -- unfold parse_aliases in H. cbn [here bind next tl] in H. destruct (starts_with (lit "ALIAS") y); [repeat qstep|]; discriminate H.
      * unfold parse_aliases in H. cbn [here bind next tl] in H. destruct (starts_with (lit "ALIAS") s2); [repeat qstep|]; discriminate H.
    + exfalso. qstep. apply bind_panic in H as [H|([dr p5] & _ & H)]; [now apply draws_np in H|]. repeat qstep. discriminate H.
Qed.
Lemma symbol_panic_bw p : symbol_crash p -> parse_symbol p = Panic.
Proof.
  intros [a|a d fl fs r (v & x & b1 & b2 & n & b3 & b4 & W & L & W0 & X & (k5 & W5 & I5) & (k6 & W6 & I6) & I & (k8 & W8 & I8) & (k9 & W9 & I9)) F R]; [reflexivity|].
  unfold parse_symbol. cbn [next tl]. rewrite (proj2 (assume_line_iff _ _ _) eq_refl). cbn [bind here next tl]. opened.
  assert (B5 : bool_from_string (lit k5) "Y" "N" = Ok b1) by (apply yes_no_iff; [discriminate|eauto]).
  assert (B6 : bool_from_string (lit k6) "Y" "N" = Ok b2) by (apply yes_no_iff; [discriminate|eauto]).
  assert (B8 : bool_from_string (lit k8) "L" "F" = Ok b3) by (apply yes_no_iff; [discriminate|eauto]).
  assert (B9 : bool_from_string (lit k9) "P" "N" = Ok b4) by (apply yes_no_iff; [discriminate|eauto]).
  destruct (idx_ok v 1) as [w1 V1]; [lia|]. destruct (idx_ok v 2) as [w2 V2]; [lia|]. apply idx_iff in V1, V2.
  run. rewrite L. cbn [Nat.eqb negb]. run. rewrite (proj2 (assume_iff _ _) eq_refl). run. rewrite B5. run. rewrite B6. run. rewrite B8. run. rewrite B9. run.
  apply after_loop in R as [R|(q & -> & K)].
  - now rewrite (fields_panic_bw _ _ _ F R).
  - change (lit "$FPLIST") with (36%N :: lit "FPLIST"). rewrite (fields_bw _ _ _ _ _ _ F) by discriminate. cbn [bind here next tl].
    change (36%N :: lit "FPLIST") with (lit "$FPLIST"). rewrite (proj2 (seq_iff _ _) eq_refl). rewrite K. reflexivity.
Qed.
Lemma symbols_panic_fw n p acc : symbols_loop n p acc = Panic -> symbols_crash p.
Proof.
  revert p acc. induction n as [|n IH]; intros [|s r] acc H; cbn [symbols_loop] in H; try discriminate H; destruct (seq s "#End Library") eqn:E; try discriminate H. apply seq_no in E.
  apply bind_panic in H as [H|([y q] & Y & H)].
  - apply syc_here; [now apply symbol_panic_fw|]. cbn [hd_error]. intros Z. now injection Z.
  - apply symbol_fw in Y as (l & E2 & Y & NE). apply IH in H. rewrite E2. eapply syc_more; [exact Y| |exact H]. destruct l as [|x l]; [contradiction|]. cbn [app] in E2. injection E2 as <- _. cbn [hd_error]. intros Z. now injection Z.
Qed.
Lemma symbols_panic_bw p : symbols_crash p -> forall n acc, (length p <= n)%nat -> symbols_loop n p acc = Panic.
Proof.
  induction 1 as [l S E|l y r Y E S IH]; intros n acc L.
  - pose proof (symbol_panic_bw _ S) as P. destruct l as [|x l]; [inversion S|]. cbn [length hd_error] in *. destruct n as [|n]; [lia|]. cbn [symbols_loop].
    rewrite (proj2 (seq_no x _)) by (intros ->; now apply E). now rewrite P.
  - pose proof (symbol_bw _ _ r Y) as P. destruct l as [|x l]; [inversion Y|]. cbn [app length hd_error] in *. destruct n as [|n]; [lia|]. cbn [symbols_loop].
    rewrite (proj2 (seq_no x _)) by (intros ->; now apply E). rewrite P. cbn [bind]. apply IH. rewrite app_length in L. lia.
Qed.
Theorem library_crash_iff s : parse_symbol_lib s = Panic <-> exists ls, text_lines s ls /\ library_crash ls.
Proof.
  unfold parse_symbol_lib, parse_symbol_lines, library_crash. split.
  - intros H. exists (lines s). split; [now apply lines_iff|]. apply bind_panic in H as [H|(p1 & A & H)]; [now apply line_np in H|]. apply bind_panic in H as [H|(p2 & B & H)]; [now apply line_np in H|].
    apply bind_panic in H as [H|(p3 & C & H)]; [now apply line_np in H|]. apply assume_line_iff in A, B, C. exists p3. split; [now rewrite A, B, C|]. now apply symbols_panic_fw in H.
  - intros (ls & L & r & E & S). apply lines_iff in L. subst ls. rewrite E. rewrite (proj2 (assume_line_iff _ _ _) eq_refl). cbn [bind]. rewrite (proj2 (assume_line_iff _ _ _) eq_refl). cbn [bind].
    rewrite (proj2 (assume_line_iff _ _ _) eq_refl). cbn [bind]. now rewrite (symbols_panic_bw _ S).
Qed.
Theorem library_err_iff t : (exists e, parse_symbol_lib t = Err e) <-> forall ls, text_lines t ls -> ~ library_crash ls /\ forall l, ~ library_text ls l.
Proof.
  split.
  - intros [e E] ls L. split; [intros K|intros c K].
    + assert (P : parse_symbol_lib t = Panic) by (apply library_crash_iff; now exists ls). rewrite E in P. discriminate P.
    + assert (P : parse_symbol_lib t = Ok c) by (apply library_iff; now exists ls). rewrite E in P. discriminate P.
  - intros H. destruct (parse_symbol_lib t) as [c|e|] eqn:E; [|now exists e|].
    + apply library_iff in E as (ls & L & K). destruct (H ls L) as [_ N]. now apply N in K.
    + apply library_crash_iff in E as (ls & L & K). destruct (H ls L) as [N _]. contradiction.
Qed.
