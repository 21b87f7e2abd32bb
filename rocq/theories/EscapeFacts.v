(** Facts about readers that know the backslash (C109). *)
From Coq Require Import List NArith ZArith Lia Bool String.
From Verif Require Import Base Str StrFacts Sexp FpData FpSer FpDe LyData LySer LyDe FpLibTable Formatter FormatterSpec FormatterFacts DocSpec DocFacts DocText DocTextFacts
  FpFacts LyFacts LibFacts EolSpec EolFacts KeepSpec KeepEdits FpWf LyWf TornSpec TornFacts DiskFacts CharSpec CharFacts Escape EscapeSpec.
Import ListNotations.
Open Scope string_scope. Open Scope list_scope.

(** ** Texts without a backslash between quotes *)
Fixpoint calm (q : bool) (t : str) : bool :=
  match t with
  | [] => true
  | c :: r => if N.eqb c 34 then calm (negb q) r else if N.eqb c 92 then negb q && calm q r else calm q r
  end.
Lemma calm_of : forall t (q : bool), (forall a b, t = a ++ 92%N :: b -> Nat.even (quotes a) = negb q) -> calm q t = true.
Proof.
  induction t as [|c t IH]; intros q H; [reflexivity|]. cbn [calm].
  destruct (N.eqb c 34) eqn:E.
  - apply N.eqb_eq in E. subst c. apply IH. intros a b K.
    specialize (H (34%N :: a) b). cbn [app] in H. rewrite K in H. specialize (H eq_refl).
    rewrite quotes_cons in H. change (N.eqb 34 34) with true in H. rewrite even_succ in H.
    destruct (Nat.even (quotes a)), q; cbn in *; congruence.
  - assert (I : calm q t = true).
    { apply IH. intros a b K. specialize (H (c :: a) b). cbn [app] in H. rewrite K in H. specialize (H eq_refl).
      rewrite quotes_cons in H. rewrite N.eqb_sym, E in H. exact H. }
    destruct (N.eqb c 92) eqn:F; [|exact I]. apply N.eqb_eq in F. subst c.
    specialize (H [] t eq_refl). cbn in H. rewrite <- H, I. reflexivity.
Qed.
Lemma calm_is : forall t (q : bool), calm q t = true -> forall a b, t = a ++ 92%N :: b -> Nat.even (quotes a) = negb q.
Proof.
  induction t as [|c t IH]; intros q C a b H; [destruct a; discriminate H|]. cbn [calm] in C.
  destruct a as [|d a]; cbn [app] in H; injection H as -> H.
  - cbn in C. apply andb_prop in C as [C _]. exact (eq_sym C).
  - rewrite quotes_cons. rewrite N.eqb_sym. destruct (N.eqb d 34).
    + rewrite even_succ, (IH _ C a b H). apply negb_involutive.
    + assert (K : calm q t = true) by (destruct (N.eqb d 92); [apply andb_prop in C as [_ C]; exact C|exact C]). exact (IH q K a b H).
Qed.
Lemma unescaped_iff t : unescaped t <-> calm false t = true.
Proof. split; [intros H; apply calm_of; exact H|intros H a b E; exact (calm_is t false H a b E)]. Qed.
Lemma lex_calm esc t : forall st, calm (quoting st) t = true -> lex_esc esc st t = lex st t.
Proof.
  induction t as [|c t IH]; intros st Q; [reflexivity|]. cbn [calm] in Q.
  destruct (N.eqb c 34) eqn:E34.
  - destruct st as [|a|a]; cbn [quoting negb] in Q; cbn [lex lex_esc]; rewrite E34.
    + apply N.eqb_eq in E34. subst c. cbn. now rewrite (IH (LQuote []) Q).
    + apply N.eqb_eq in E34. subst c. cbn. now rewrite (IH (LQuote []) Q).
    + now rewrite (IH LNone Q).
  - destruct st as [|a|a]; cbn [quoting] in Q; cbn [lex lex_esc]; rewrite E34.
    + assert (K : calm false t = true) by (destruct (N.eqb c 92); exact Q).
      now rewrite (IH LNone K), (IH (LBare [c]) K).
    + assert (K : calm false t = true) by (destruct (N.eqb c 92); exact Q).
      now rewrite (IH LNone K), (IH (LBare (c :: a)) K).
    + destruct (N.eqb c 92); [discriminate Q|]. now rewrite (IH (LQuote (c :: a)) Q).
Qed.
Theorem read_unescaped esc t : unescaped t -> read_esc esc t = read_sexp t.
Proof. intros H. unfold read_esc, read_sexp. rewrite lex_calm; [reflexivity|]. apply calm_of. exact H. Qed.
Lemma plain_unescaped t : ~ In 92%N t -> unescaped t.
Proof. intros H a b ->. destruct H. apply in_or_app. right. now left. Qed.
Lemma unescaped_prefix p q : unescaped (p ++ q) -> unescaped p.
Proof. intros H a b ->. apply (H a (b ++ q)). now rewrite <- app_assoc. Qed.

(** ** Saved files *)
Lemma not_ours : ~ of_program 92%N.
Proof. intros [H|H]; [discriminate H|]. destruct H as [H|[H|[H|[H|H]]]]; discriminate H. Qed.
Lemma module_plain nq m n : ~ of_texts (module_strs m) 92%N -> ~ In 92%N (module_to_string nq m n).
Proof. intros H I. apply module_chars in I as [I|I]; [now apply not_ours|auto]. Qed.
Lemma layout_plain nq l n : ~ of_texts (layout_strs l ++ flat_map tree_strs (layout_other l)) 92%N -> ~ In 92%N (layout_to_string nq l n).
Proof. intros H I. apply layout_chars in I as [I|I]; [now apply not_ours|auto]. Qed.
Lemma table_plain nq t n : ~ of_texts (flat_map flib_strs t) 92%N -> ~ In 92%N (table_to_string nq t n).
Proof. intros H I. apply table_chars in I as [I|I]; [now apply not_ours|auto]. Qed.
Theorem module_any esc nq m n : ~ of_texts (module_strs m) 92%N ->
  forall p q, module_to_string nq m n = p ++ q -> module_esc esc p = parse_module p.
Proof.
  intros H p q E. unfold module_esc, parse_module. rewrite read_unescaped; [reflexivity|].
  apply (unescaped_prefix p q). rewrite <- E. apply plain_unescaped. now apply module_plain.
Qed.
Theorem layout_any esc nq l n : ~ of_texts (layout_strs l ++ flat_map tree_strs (layout_other l)) 92%N ->
  forall p q, layout_to_string nq l n = p ++ q -> layout_esc esc p = parse_layout p.
Proof.
  intros H p q E. unfold layout_esc, parse_layout. rewrite read_unescaped; [reflexivity|].
  apply (unescaped_prefix p q). rewrite <- E. apply plain_unescaped. now apply layout_plain.
Qed.
Theorem table_any esc nq t n : ~ of_texts (flat_map flib_strs t) 92%N ->
  forall p q, table_to_string nq t n = p ++ q -> table_esc esc p = parse_table p.
Proof.
  intros H p q E. unfold table_esc, parse_table. rewrite read_unescaped; [reflexivity|].
  apply (unescaped_prefix p q). rewrite <- E. apply plain_unescaped. now apply table_plain.
Qed.

(** ** Words with backslashes *)
Section Esc.
Variable esc : N -> str.
Notation lexe := (lex_esc esc).
Lemma e_ws w r : wsb w -> lexe LNone (w ++ r) = lexe LNone r.
Proof.
  unfold wsb. induction w as [|c w IH]; cbn [forallb app]; intros H; [reflexivity|].
  apply andb_prop in H as [H1 H2]. cbn [lex_esc]. rewrite H1, opt_app_nil. now apply IH.
Qed.
Lemma e_lp r : lexe LNone (40%N :: r) = option_map (app [LP]) (lexe LNone r). Proof. reflexivity. Qed.
Lemma e_rp r : lexe LNone (41%N :: r) = option_map (app [RP]) (lexe LNone r). Proof. reflexivity. Qed.
Lemma e_bare_end a r : delim r -> lexe (LBare a) r = option_map (app [At (rev a)]) (lexe LNone r).
Proof.
  destruct r as [|c r]; cbn [delim]; [reflexivity|]. intros H.
  cbn [lex_esc]. destruct (is_ws c) eqn:W; [now rewrite opt_app_nil|].
  destruct H as [H|[-> | ->]]; [discriminate| |]; cbn [N.eqb Pos.eqb app]; destruct (lexe LNone r); reflexivity.
Qed.
Lemma e_bare s : forall a r, delim r -> forallb bare s = true ->
  lexe (LBare a) (s ++ r) = option_map (app [At (rev a ++ s)]) (lexe LNone r).
Proof.
  induction s as [|c s IH]; intros a r D H; cbn [app].
  - rewrite app_nil_r. now apply e_bare_end.
  - cbn [forallb] in H. apply andb_prop in H as [H1 H2]. apply bare_inv in H1 as (A1 & A2 & A3 & A4).
    cbn [lex_esc]. rewrite A1, A2, A3, A4, IH by assumption. cbn [rev]. now rewrite <- app_assoc.
Qed.
Lemma e_quote t x : says esc t x -> forall a r, lexe (LQuote a) (t ++ 34%N :: r) = option_map (app [At (rev a ++ x)]) (lexe LNone r).
Proof.
  induction 1 as [|c t x N34 N92 _ IH|c t x _ IH]; intros a r; cbn [app].
  - cbn [lex_esc N.eqb Pos.eqb]. rewrite app_nil_r. reflexivity.
  - apply N.eqb_neq in N34, N92. cbn [lex_esc]. rewrite N34, N92, IH. cbn [rev]. now rewrite <- app_assoc.
  - cbn [lex_esc N.eqb Pos.eqb]. rewrite IH, rev_app_distr, rev_involutive. now rewrite <- app_assoc.
Qed.
Variable nq : str -> bool.
Hypothesis Q : quote_contract nq.
Lemma e_atom x r : stands esc nq x -> delim r -> lexe LNone (atom_text nq x ++ r) = option_map (app [At x]) (lexe LNone r).
Proof.
  intros H D. unfold atom_text. destruct (nq x) eqn:E.
  - rewrite <- app_comm_cons, <- app_assoc. cbn [app lex_esc]. change (is_ws 34) with false. cbn [N.eqb Pos.eqb].
    rewrite opt_app_nil. now apply (e_quote x x (H E) []).
  - destruct (Q x E) as [N B]. destruct x as [|c x]; [contradiction|]. cbn [forallb] in B.
    apply andb_prop in B as [B1 B2]. apply bare_inv in B1 as (A1 & A2 & A3 & A4).
    cbn [app lex_esc]. rewrite A1, A2, A3, A4. now rewrite e_bare.
Qed.
Definition fine (s : sexp) : Prop := solid s = true /\ forall x, In x (tree_strs s) -> stands esc nq x.
Definition fines (l : list sexp) : Prop := forallb solid l = true /\ forall x, In x (flat_map tree_strs l) -> stands esc nq x.
Lemma fines_cons y l : fines (y :: l) -> fine y /\ fines l.
Proof.
  intros [A B]. cbn [forallb flat_map] in *. apply andb_prop in A as [A1 A2].
  split; split; auto; intros x I; apply B, in_or_app; auto.
Qed.
Definition lexed_so (s : sexp) : Prop := forall f r, fine s -> delim r ->
  lexe LNone (snd (fm_ser nq s f) ++ r) = option_map (app (toks s)) (lexe LNone r).
Lemma e_rest_delim l g r : fines l -> delim r -> delim (snd (fm_rest nq l g) ++ r).
Proof.
  destruct l as [|y l]; intros H D; [exact D|]. cbn [fm_rest]. apply fines_cons in H as [[H1 _] H2].
  assert (L : forall u, delim (fm_element g y ++ snd (fm_ser nq y g) ++ u)).
  { intros u. destruct y as [x|l'|]; [|apply delim_ws; [apply element_text|apply list_delim]|discriminate].
    rewrite element_str. cbn. auto. }
  destruct (fm_ser nq y g) as [g1 t1]. destruct (fm_rest nq l g1) as [g2 t2]. cbn [snd] in *.
  rewrite <- !app_assoc. apply L.
Qed.
Lemma e_rest l : Forall lexed_so l -> forall g r, fines l -> delim r ->
  lexe LNone (snd (fm_rest nq l g) ++ r) = option_map (app (flat_map toks l)) (lexe LNone r).
Proof.
  induction 1 as [|y l Hy _ IH]; intros g r D R; cbn [fm_rest flat_map snd app].
  - now rewrite opt_app_nil.
  - apply fines_cons in D as [D1 D2].
    specialize (Hy g). destruct (fm_ser nq y g) as [g1 t1].
    pose proof (e_rest_delim l g1 r D2 R) as RD. specialize (IH g1 r D2 R).
    destruct (fm_rest nq l g1) as [g2 t2]. cbn [snd] in *.
    rewrite <- !app_assoc, e_ws by apply element_text.
    rewrite Hy, IH, opt_app2 by assumption. reflexivity.
Qed.
Lemma e_ser : forall s, lexed_so s.
Proof.
  apply sexp_nest_ind.
  - intros x f r D R. cbn [fm_ser snd toks]. apply e_atom; [|assumption]. apply D. now left.
  - intros f r [D _]. discriminate.
  - intros l HL f r D R. destruct l as [|x l].
    + rewrite fm_ser_nil. destruct (open_text f None) as (w & E & W).
      destruct (fm_open f None) as [f1 t1]. cbn [snd] in E. subst t1.
      destruct (close_text f1) as (u & u' & E & U & U'). destruct (fm_close f1) as [f3 t3]. cbn [snd] in *. subst t3.
      rewrite <- !app_assoc, e_ws by assumption. cbn [app]. rewrite e_lp, <- ?app_assoc, e_ws by assumption.
      cbn [app]. rewrite e_rp, e_ws by assumption. destruct (lexe LNone r); reflexivity.
    + inversion HL as [|? ? HX HR]; subst. assert (D' : fines (x :: l)) by exact D. apply fines_cons in D' as [D1 D2].
      rewrite fm_ser_cons. destruct (open_text f (Some x)) as (w & E & W).
      destruct (fm_open f (Some x)) as [f1 t1]. cbn [snd] in E. subst t1.
      specialize (HX f1). destruct (fm_ser nq x f1) as [g t].
      pose proof (fun u => e_rest_delim l g u D2) as RD. pose proof (fun u => e_rest l HR g u D2) as LR.
      destruct (fm_rest nq l g) as [g' t']. destruct (close_text g') as (u & u' & E & U & U').
      destruct (fm_close g') as [f3 t3]. cbn [snd] in *. subst t3.
      rewrite <- !app_assoc, e_ws by assumption. cbn [app]. rewrite e_lp.
      assert (DC : delim (u ++ (41%N :: u') ++ r)) by (apply delim_ws; [assumption|cbn; auto]).
      rewrite HX by auto. rewrite LR by assumption. rewrite e_ws by assumption. cbn [app]. rewrite e_rp, e_ws by assumption.
      cbn [toks flat_map]. destruct (lexe LNone r); [|reflexivity]. cbn [option_map app]. rewrite <- !app_assoc. reflexivity.
Qed.
Lemma s_toks : forall s stk l r, solid s = true -> build (l :: stk) (toks s ++ r) = build ((s :: l) :: stk) r.
Proof.
  induction s as [x| |l HL] using sexp_nest_ind; intros stk l0 r D.
  - reflexivity.
  - discriminate.
  - cbn [toks solid app] in *. cbn [build].
    assert (B : forall k a u, build (a :: k) (flat_map toks l ++ u) = build ((rev l ++ a) :: k) u).
    { clear l0 stk r. induction HL as [|y l Hy _ IH]; intros k a u; [reflexivity|].
      cbn [forallb] in D. apply andb_prop in D as [D1 D2].
      cbn [flat_map]. rewrite <- app_assoc, Hy, IH by assumption. cbn [rev]. now rewrite <- app_assoc. }
    rewrite <- app_assoc, B. cbn [app build]. rewrite app_nil_r, rev_involutive. reflexivity.
Qed.
Lemma s_top s : solid s = true -> build [] (toks s) = Some (s, []).
Proof.
  destruct s as [x|l|]; intros D; [reflexivity| |discriminate].
  cbn [toks solid] in *. cbn [build].
  assert (B : forall l a u, forallb solid l = true -> build [a] (flat_map toks l ++ u) = build [rev l ++ a] u).
  { clear. induction l as [|y l IH]; intros a u D; [reflexivity|].
    cbn [forallb] in D. apply andb_prop in D as [D1 D2]. cbn [flat_map].
    rewrite <- app_assoc, s_toks, IH by assumption. cbn [rev]. now rewrite <- app_assoc. }
  rewrite B by assumption. cbn [build]. now rewrite app_nil_r, rev_involutive.
Qed.
Theorem read_escaped n s w : solid s = true -> (forall x, In x (tree_strs s) -> stands esc nq x) -> wsb w -> read_esc esc (pretty nq n s ++ w) = Ok s.
Proof.
  intros D H W. unfold read_esc, pretty. rewrite e_ser; [|now split|rewrite <- (app_nil_r w); apply delim_ws; cbn; auto].
  rewrite <- (app_nil_r w), e_ws by assumption. cbn [lex_esc option_map]. rewrite app_nil_r. now rewrite s_top.
Qed.
End Esc.

(** A text between quotes is one word just when it says one. *)
Lemma ends_some esc : forall n r st us, (length r <= n)%nat -> lex_esc esc st (r ++ [34%N]) = Some us -> us <> [].
Proof.
  induction n as [|n IH]; intros r st us L H.
  - destruct r as [|c r]; [|cbn in L; lia]. destruct st as [|a|a]; cbn in H; try discriminate. now injection H as <-.
  - destruct r as [|c r]; [destruct st as [|a|a]; cbn in H; try discriminate; now injection H as <-|].
    assert (Lr : (length r <= n)%nat) by (cbn in L; lia). cbn [app] in H.
    assert (K : forall pre st', option_map (app pre) (lex_esc esc st' (r ++ [34%N])) = Some us -> us <> []).
    { intros pre st' E. destruct (lex_esc esc st' (r ++ [34%N])) as [v|] eqn:F; [|discriminate]. cbn in E. injection E as <-.
      pose proof (IH r st' v Lr F) as V. destruct pre; [exact V|discriminate]. }
    destruct st as [|a|a]; cbn [lex_esc] in H; cbv zeta in H.
    + repeat match goal with H : context [if ?b then _ else _] |- _ => destruct b end; try (eapply K; exact H). eapply IH; eassumption.
    + repeat match goal with H : context [if ?b then _ else _] |- _ => destruct b end; try (eapply K; exact H). eapply IH; eassumption.
    + destruct (N.eqb c 34).
      { destruct (lex_esc esc LNone (r ++ [34%N])) as [v|]; [|discriminate]. cbn in H. injection H as <-. discriminate. }
      destruct (N.eqb c 92); [|eapply IH; eassumption].
      destruct r as [|d r]; cbn [app] in H; [cbn in H; discriminate|]. eapply (IH r); [cbn in Lr; lia|exact H].
Qed.
Lemma quoted_says esc : forall n t a us, (length t <= n)%nat -> lex_esc esc (LQuote a) (t ++ [34%N]) = Some us ->
  (exists x, says esc t x /\ us = [At (rev a ++ x)]) \/ exists u v w, us = At u :: v :: w.
Proof.
  induction n as [|n IH]; intros t a us L H.
  - destruct t as [|c t]; [|cbn in L; lia]. cbn in H. injection H as <-. left. exists []. split; [constructor|]. now rewrite app_nil_r.
  - destruct t as [|c t]; [cbn in H; injection H as <-; left; exists []; split; [constructor|now rewrite app_nil_r]|].
    assert (Lt : (length t <= n)%nat) by (cbn in L; lia). cbn [app lex_esc] in H.
    destruct (N.eqb_spec c 34) as [->|N34].
    + destruct (lex_esc esc LNone (t ++ [34%N])) as [v|] eqn:F; [|discriminate]. cbn in H. injection H as <-.
      pose proof (ends_some esc _ t LNone v (le_n _) F) as V. destruct v as [|v w]; [contradiction|]. right. eauto.
    + destruct (N.eqb_spec c 92) as [->|N92].
      * destruct t as [|d t]; cbn [app] in H; [cbn in H; discriminate|].
        apply IH in H; [|cbn in Lt; lia]. destruct H as [(x & S & ->)|H]; [|now right]. left. exists (esc d ++ x).
        split; [now constructor|]. now rewrite rev_app_distr, rev_involutive, <- app_assoc.
      * apply IH in H; [|exact Lt]. destruct H as [(x & S & ->)|H]; [|now right]. left. exists (c :: x).
        split; [now constructor|]. cbn [rev]. now rewrite <- app_assoc.
Qed.
Theorem quoted_iff esc t s : read_esc esc ([34%N] ++ t ++ [34%N]) = Ok s <-> exists x, says esc t x /\ s = SStr x.
Proof.
  unfold read_esc. cbn [app lex_esc]. change (is_ws 34) with false. cbn [N.eqb Pos.eqb]. rewrite opt_app_nil. split.
  - intros H. destruct (lex_esc esc (LQuote []) (t ++ [34%N])) as [us|] eqn:E; [|discriminate].
    apply (quoted_says esc _ t [] us (le_n _)) in E as [(x & S & ->)|(u & v & w & ->)].
    + cbn in H. injection H as <-. eauto.
    + discriminate.
  - intros (x & S & ->). rewrite (e_quote esc t x S [] []). reflexivity.
Qed.

(** ** Files whose words hold backslashes *)
Lemma wsb_nil : wsb []. Proof. reflexivity. Qed.
Theorem module_escaped esc nq m n : quote_contract nq -> module_ok m = true -> (forall x, In x (tree_strs (ser_module m)) -> stands esc nq x) ->
  module_esc esc (module_to_string nq m n) = Ok m.
Proof.
  intros Q W H. unfold module_esc, module_to_string. rewrite <- (app_nil_r (pretty _ _ _)).
  rewrite (read_escaped esc nq Q) by (auto using wsb_nil; apply solid_module). now apply rt_module.
Qed.
Theorem layout_escaped esc nq l n : quote_contract nq -> layout_ok l = true -> forallb solid (layout_other l) = true ->
  (forall x, In x (tree_strs (ser_layout l)) -> stands esc nq x) -> layout_esc esc (layout_to_string nq l n) = Ok l.
Proof.
  intros Q W O H. unfold layout_esc, layout_to_string.
  rewrite (read_escaped esc nq Q) by (auto; try reflexivity; now apply solid_layout). now apply rt_layout.
Qed.
Theorem table_escaped esc nq t n : quote_contract nq -> (forall x, In x (tree_strs (ser_fp_lib_table t)) -> stands esc nq x) ->
  table_esc esc (table_to_string nq t n) = Ok t.
Proof.
  intros Q H. unfold table_esc, table_to_string. rewrite <- (app_nil_r (pretty _ _ _)).
  rewrite (read_escaped esc nq Q) by (auto using wsb_nil; apply solid_table). apply rt_fp_lib_table.
Qed.
(** Files that were saved, read by any of the readers *)
Theorem module_round esc nq m n : quote_contract nq -> module_saves m = true -> ~ of_texts (module_strs m) 92%N ->
  module_esc esc (module_to_string nq m n) = Ok m /\
  forall p q, module_to_string nq m n = p ++ q -> q <> [] -> module_esc esc p = Err ESexp.
Proof.
  intros Q S H. unfold module_saves in S. apply andb_prop in S as [S1 S2]. split.
  - rewrite (module_any esc nq m n H (module_to_string nq m n) []) by (now rewrite app_nil_r). now apply rt_module_text.
  - intros p q E N. rewrite (module_any esc nq m n H p q E). eapply module_cut; eassumption.
Qed.
Theorem layout_round esc nq l n : quote_contract nq -> layout_saves l = true ->
  ~ of_texts (layout_strs l ++ flat_map tree_strs (layout_other l)) 92%N -> layout_esc esc (layout_to_string nq l n) = Ok l.
Proof.
  intros Q S H. unfold layout_saves in S. apply andb_prop in S as [S S3]. apply andb_prop in S as [S1 S2].
  rewrite (layout_any esc nq l n H (layout_to_string nq l n) []) by (now rewrite app_nil_r). now apply rt_layout_text.
Qed.
Theorem table_round esc nq t n : quote_contract nq -> forallb no_quote (flat_map flib_strs t) = true ->
  ~ of_texts (flat_map flib_strs t) 92%N -> table_esc esc (table_to_string nq t n) = Ok t.
Proof.
  intros Q S H. rewrite (table_any esc nq t n H (table_to_string nq t n) []) by (now rewrite app_nil_r). now apply rt_table_text.
Qed.

Lemma keep_says t x : says keep_pair t x -> x = t.
Proof. induction 1 as [|c t x _ _ _ IH|c t x _ IH]; [reflexivity|now rewrite IH|]. rewrite IH. reflexivity. Qed.

(** ** Deciding *)
Definition standsb (esc : N -> str) (nq : str -> bool) (x : str) : bool :=
  negb (nq x) || match read_esc esc ([34%N] ++ x ++ [34%N]) with Ok (SStr y) => str_eqb x y | _ => false end.
Lemma standsb_all esc nq l : forallb (standsb esc nq) l = true -> forall x, In x l -> stands esc nq x.
Proof.
  intros H x I E. rewrite forallb_forall in H. specialize (H x I). unfold standsb in H. rewrite E in H. cbn [negb orb] in H.
  destruct (read_esc esc ([34%N] ++ x ++ [34%N])) as [s| |] eqn:R; try discriminate H. destruct s as [y| |]; try discriminate H.
  apply quoted_iff in R as (z & S & Z). injection Z as ->. apply str_eqb_eq in H. now subst.
Qed.
