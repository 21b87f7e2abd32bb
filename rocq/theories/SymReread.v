(** What is known about symbol libraries that were read from a text (lemmas for
    C10). *)
From Coq Require Import String Lia.
From Verif Require Import Base Str StrFacts Num NumFacts F64 F64Text F64Facts LibFns LibSpec LibFacts SchData SchPrint SchParse SchWf SchLine SchFacts SchEnds SchReread SymData SymPrint SymParse SymWf SymFacts.
Open Scope string_scope. Open Scope list_scope.

Definition nls (p : list str) : Prop := Forall (fun l => no_nl l = true) p.
Lemma nls_tl p : nls p -> nls (tl p). Proof. intros H. destruct p; [exact H|]. now inversion H. Qed.
Lemma nls_here p s : nls p -> here p = Ok s -> no_nl s = true.
Proof. destruct p; [discriminate|]. intros H [= ->]. now inversion H. Qed.
Lemma nls_assume p e q : nls p -> assume_line p e = Ok q -> nls q.
Proof. destruct p; [discriminate|]. cbn [assume_line]. destruct (seq _ _); [|discriminate]. intros H [= ->]. now inversion H. Qed.
Lemma words_quotable s v : no_nl s = true -> split_quote_aware s = Ok v -> Forall (fun w => quotable w = true) v.
Proof.
  intros Hs Hv. apply Forall_forall. intros w Hw. apply In_nth_error in Hw as (k & E).
  apply (split_words_quotable None s v k w Hs Hv Logic.I). unfold idx. now rewrite E.
Qed.
Lemma idx_quotable v k w : Forall (fun w => quotable w = true) v -> idx v k = Ok w -> quotable w = true.
Proof.
  unfold idx. destruct (nth_error v k) eqn:E; [|discriminate]. intros F [= ->]. apply nth_error_In in E. rewrite Forall_forall in F. auto.
Qed.

Lemma sfield_read s f : no_nl s = true -> parse_sfield s = Ok f -> sfield_clean f = true -> sfield_ok f = true.
Proof.
  intros Hs H Hc. unfold parse_sfield in H. binv. pose proof (words_quotable _ _ Hs Heqr) as Q.
  destruct (negb _ && negb _); [discriminate|]. binv. injection H as <-. unfold sfield_clean, sfield_ok in *.
  cbn [sf_i sf_value sf_dim sf_name sf_bold] in *. bsplit. repeat match goal with H : ?x = true |- context [?x] => rewrite H end.
  repeat match goal with H : i64_from_string _ = Ok ?z |- _ => apply i64_from_ok in H; try rewrite H end.
  rewrite (idx_quotable _ _ _ Q Heqr3). cbn [andb]. rewrite andb_true_r.
  destruct (Nat.eqb (length v) 10).
  - rewrite (idx_quotable _ _ _ Q Heqr2). reflexivity.
  - unfold of_option in Heqr2. destruct (default_field_name v1) eqn:E; [|discriminate]. injection Heqr2 as ->.
    now rewrite (default_name_quotable _ _ E).
Qed.
Lemma sfields_read p : forall acc fs q, nls p -> sfields_loop p acc = Ok (fs, q) ->
  nls q /\ exists new, fs = acc ++ new /\ (forallb sfield_clean new = true -> forallb sfield_ok new = true).
Proof.
  induction p as [|s p IH]; intros acc fs q Hn H; [discriminate|]. cbn [sfields_loop] in H. binv.
  destruct (N.eqb v 70).
  - binv. inversion Hn; subst. apply IH in H as (A & new & -> & B); [|assumption]. split; [assumption|].
    exists (v0 :: new). split; [now rewrite <- app_assoc|]. cbn [forallb]. intros C. bsplit.
    rewrite (sfield_read _ _ H2 Heqr0) by assumption. auto.
  - injection H as <- <-. split; [assumption|]. exists []. split; [now rewrite app_nil_r|auto].
Qed.
Lemma pin_read s p : no_nl s = true -> parse_pin s = Ok p -> draw_clean (DPin p) = true -> pin_ok p = true.
Proof.
  intros Hs H Hc. unfold parse_pin in H. binv. pose proof (words_quotable _ _ Hs Heqr) as Q.
  destruct (negb _ && negb _); [discriminate|]. binv. 
  assert (Hp : pn_name p = v0 /\ pn_number p = v1 /\ forallb i64_ok [pn_x p; pn_y p; pn_len p; pn_num_size p; pn_name_size p; pn_unit p; pn_convert p] = true).
  { repeat match goal with H : i64_from_string _ = Ok ?z |- _ => apply i64_from_ok in H end.
    destruct (Nat.eqb (length v) 13); binv; injection H as <-; cbn [forallb pn_name pn_number pn_x pn_y pn_len pn_num_size pn_name_size pn_unit pn_convert];
      (split; [reflexivity|]; split; [reflexivity|]); repeat match goal with H : ?x = true |- context [?x] => rewrite H end; reflexivity. }
  destruct Hp as (E1 & E2 & E3). unfold pin_ok, mid_word. rewrite E3. cbn [draw_clean] in Hc. rewrite E1, E2.
  rewrite E1, E2 in Hc. bsplit. repeat match goal with H : word_str _ = true |- _ => rewrite H; clear H end.
  rewrite (quotable_nl _ (idx_quotable _ _ _ Q Heqr0)), (quotable_nl _ (idx_quotable _ _ _ Q Heqr1)). reflexivity.
Qed.
Lemma rect_read s r : parse_rect s = Ok r -> rect_ok r = true.
Proof.
  intros H. unfold parse_rect in H. binv. destruct (negb _); [discriminate|]. binv. injection H as <-. unfold rect_ok.
  repeat match goal with H : i64_from_string _ = Ok ?z |- _ => apply i64_from_ok in H end.
  cbn [forallb rc_x1 rc_y1 rc_x2 rc_y2 rc_unit rc_convert rc_thickness].
  repeat match goal with H : ?x = true |- context [?x] => rewrite H end. reflexivity.
Qed.
Lemma line_ok_split s : line_ok s = no_nl s && no_cr s. Proof. reflexivity. Qed.
Lemma draw_read s d : no_nl s = true -> seq s "ENDDRAW" = false -> draw_line s = Ok d -> draw_clean d = true -> draw_ok d = true.
Proof.
  intros Hs He H Hc. unfold draw_line in H.
  destruct (starts_with (lit "X ") s) eqn:EX.
  - binv. injection H as <-. cbn [draw_ok]. exact (pin_read _ _ Hs Heqr Hc).
  - destruct (starts_with (lit "S ") s) eqn:ES.
    + binv. injection H as <-. cbn [draw_ok]. exact (rect_read _ _ Heqr).
    + injection H as <-. cbn [draw_ok draw_clean] in *. unfold seq in He. rewrite line_ok_split, Hs, Hc, EX, ES, He. reflexivity.
Qed.
Lemma draws_read p : forall acc ds q, nls p -> draw_loop p acc = Ok (ds, q) ->
  nls q /\ exists new, ds = acc ++ new /\ (forallb draw_clean new = true -> forallb draw_ok new = true).
Proof.
  induction p as [|s p IH]; intros acc fs q Hn H; cbn [draw_loop] in H.
  - injection H as <- <-. split; [constructor|]. exists []. split; [now rewrite app_nil_r|auto].
  - inversion Hn; subst. destruct (seq s "ENDDRAW") eqn:E.
    + injection H as <- <-. split; [assumption|]. exists []. split; [now rewrite app_nil_r|auto].
    + binv. apply IH in H as (A & new & -> & B); [|assumption]. split; [assumption|].
      exists (v :: new). split; [now rewrite <- app_assoc|]. cbn [forallb]. intros C. bsplit.
      rewrite (draw_read _ _ H2 E Heqr) by assumption. auto.
Qed.
Lemma nls_fplist p : nls p -> nls (skip_fplist p).
Proof. induction p as [|s p IH]; intros H; [constructor|]. inversion H; subst. cbn [skip_fplist]. destruct (seq _ _); auto. Qed.
Lemma aliases_read p al q : nls p -> parse_aliases p = Ok (al, q) -> nls q /\ Forall (fun w => quotable w = true) al.
Proof.
  intros Hn H. unfold parse_aliases in H. binv. destruct (starts_with _ _).
  - binv. injection H as <- <-. split; [now apply nls_tl|]. pose proof (words_quotable _ _ (nls_here _ _ Hn Heqr) Heqr0) as Q.
    destruct Q; constructor || assumption.
  - injection H as <- <-. split; [assumption|constructor].
Qed.
Lemma alias_last al : Forall (fun w => quotable w = true) al -> no_cr (last al []) = true -> line_ok (last al []) = true.
Proof.
  intros F H. rewrite line_ok_split, H, andb_true_r. clear H. induction F as [|a al Ha F IH]; [reflexivity|].
  destruct al; [now apply quotable_nl|exact IH].
Qed.
Lemma symbol_read p s q : nls p -> parse_symbol p = Ok (s, q) -> nls q /\ (symbol_clean s = true -> symbol_ok s = true).
Proof.
  intros Hn H. unfold parse_symbol in H. binv.
  pose proof (nls_assume _ _ _ (nls_tl _ Hn) Heqr) as N0. pose proof (words_quotable _ _ (nls_here _ _ N0 Heqr0) Heqr1) as Q.
  destruct (negb _); [discriminate|]. binv. destruct v18 as [fs p1]. apply sfields_read in Heqr18 as (N1 & new & -> & B); [|now apply nls_tl].
  destruct (here p1) as [hs| |] eqn:EH; cbn [bind] in H; [|discriminate H|discriminate H].
  assert (N2 : nls (if seq hs "$FPLIST" then skip_fplist (next p1) else p1))
    by (destruct (seq hs _); [apply nls_fplist, nls_tl|]; assumption).
  destruct (parse_aliases _) as [[al p2]| |] eqn:EA; cbn [bind] in H; [|discriminate H|discriminate H].
  apply aliases_read in EA as (N3 & F); [|assumption].
  destruct (assume_line p2 _) as [p2'| |] eqn:EB; cbn [bind] in H; [|discriminate H|discriminate H]. pose proof (nls_assume _ _ _ N3 EB) as N4.
  destruct (draw_loop _ _) as [[ds p3]| |] eqn:ED; cbn [bind] in H; [|discriminate H|discriminate H].
  apply draws_read in ED as (N5 & nd & -> & D); [|assumption].
  destruct (assume_line p3 _) as [p4| |] eqn:EE; cbn [bind] in H; [|discriminate H|discriminate H]. pose proof (nls_assume _ _ _ N5 EE) as N6.
  destruct (assume_line p4 _) as [p5| |] eqn:EF; cbn [bind] in H; [|discriminate H|discriminate H]. pose proof (nls_assume _ _ _ N6 EF) as N7.
  injection H as <- <-. split; [assumption|]. unfold symbol_clean, symbol_ok, mid_word.
  cbn [sy_name sy_reference sy_unit_count sy_fields sy_aliases sy_draw app]. intros C. bsplit.
  rewrite B, D by assumption.
  repeat match goal with H : i64_from_string _ = Ok ?z |- _ => apply i64_from_ok in H; rewrite H end.
  rewrite (quotable_nl _ (idx_quotable _ _ _ Q Heqr4)), (quotable_nl _ (idx_quotable _ _ _ Q Heqr5)).
  rewrite (alias_last _ F) by assumption.
  repeat match goal with H : word_str _ = true |- _ => rewrite H; clear H end.
  match goal with H : Nat.leb _ _ = true |- _ => rewrite H end. cbn [andb].
  rewrite !andb_true_r. rewrite forallb_forall in *. intros a Ha. rewrite Forall_forall in F.
  match goal with H : forall x, In x al -> _ |- _ => rewrite (H a Ha) end. now rewrite (quotable_nl _ (F a Ha)).
Qed.
Lemma symbols_read n : forall p acc l, nls p -> symbols_loop n p acc = Ok l ->
  exists new, l = acc ++ new /\ (forallb symbol_clean new = true -> forallb symbol_ok new = true).
Proof.
  induction n as [|n IH]; intros p acc l Hn H.
  - destruct p as [|s p]; cbn [symbols_loop] in H; [|destruct (seq _ _); [|discriminate]]; injection H as <-; exists [];
      (split; [now rewrite app_nil_r|auto]).
  - destruct p as [|s p]; cbn [symbols_loop] in H; [injection H as <-; exists []; (split; [now rewrite app_nil_r|auto])|].
    destruct (seq _ _); [injection H as <-; exists []; (split; [now rewrite app_nil_r|auto])|].
    binv. destruct v as [y q]. apply symbol_read in Heqr as (N & S); [|assumption].
    apply IH in H as (new & -> & B); [|assumption]. exists (y :: new). split; [now rewrite <- app_assoc|].
    cbn [forallb]. intros C. bsplit. rewrite S by assumption. auto.
Qed.
Lemma reread_library t l : parse_symbol_lib t = Ok l -> symbol_lib_clean l = true ->
  exists t', print_symbol_lib l = Ok t' /\ parse_symbol_lib t' = Ok l.
Proof.
  intros H C. apply rt_library. unfold parse_symbol_lib, parse_symbol_lines in H. binv.
  pose proof (nls_assume _ _ _ (lines_nl t) Heqr) as N1. pose proof (nls_assume _ _ _ N1 Heqr0) as N2. pose proof (nls_assume _ _ _ N2 Heqr1) as N3.
  apply symbols_read in H as (new & -> & B); [|assumption]. apply B. exact C.
Qed.
