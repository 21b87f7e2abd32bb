(** Lemmas for P_Auto.v: it does not matter when a document is saved. *)
From Coq Require Import String Relations.
From Verif Require Import Base Str StrFacts Num F64 Sexp SexpFacts FpData FpSer FpDe FpWf FpFacts FpOps Bound CheckFix FpCheck FpNew LyData LySer LyDe LyWf LyFacts LyOps
  Formatter FormatterSpec DocSpec DocText KeepSpec KeepFacts KeepEdits ExactFacts ExactLy SettleFacts SxText DocTextFacts SchData SchPrint SchParse SchWf SchFacts SchEnds SchReread FixFacts SymData SymPrint SymParse SymWf SymFacts SymOps SymExact
  ResaveSpec ResaveLySpec ResaveFacts ResaveLy AutoSpec.
Open Scope string_scope. Open Scope list_scope.

Lemma change_edit ch m a : change_safe ch = true -> change_one m ch = Ok a -> fp_edit m a.
Proof.
  assert (J : forall u v : module, Ok u = Ok v -> v = u) by (intros u v Z; now injection Z).
  intros S H. destruct ch as [|d|x y|old new|old new|c|e]; cbn [change_one change_safe] in *; try (apply J in H; subst a).
  - apply fe_flip.
  - apply fe_rotate.
  - apply fe_move.
  - now apply fe_reference.
  - now apply fe_net.
  - exact (fe_fix m a c S H).
  - now apply fe_append.
Qed.
Lemma changes_edit l : forall m a, forallb change_safe l = true -> change_all m l = Ok a -> clos_refl_trans _ fp_edit m a.
Proof.
  assert (J : forall u v : module, Ok u = Ok v -> v = u) by (intros u v Z; now injection Z).
  induction l as [|ch l IH]; intros m a S H; cbn [change_all forallb] in *; [apply J in H; subst a; apply rt_refl|].
  apply andb_prop in S as [S1 S2]. apply bind_inv in H as (b & B & H).
  apply rt_trans with b; [apply rt_step; exact (change_edit ch m b S1 B)|exact (IH b a S2 H)].
Qed.
Lemma changed_edit l m : forallb change_safe l = true -> clos_refl_trans _ fp_edit m (changed l m).
Proof.
  intros S. unfold changed. destruct (change_all m l) as [a|k|] eqn:E; [exact (changes_edit l m a S E)|apply rt_refl..].
Qed.
Lemma board_edit ch l : board_safe ch -> ly_edit l (fst (board_one l ch)).
Proof.
  intros S. destruct ch as [x y|u|r cs|num name|n|n v]; cbn [board_safe board_one fst] in *.
  - apply le_move.
  - destruct (update_net_names u l) as [a k] eqn:E. exact (le_names l a k u S E).
  - destruct (modify_module l r (changed cs)) as [a k] eqn:E. exact (le_module l a k r (changed cs) (fun m _ => changed_edit cs m S) E).
  - destruct S as [A B]. now apply le_net.
  - now apply le_class.
  - destruct S as (A & B & C). exact (le_setup l n v A B C).
Qed.
Lemma board_keeps ch l : board_safe ch -> layout_saves l = true -> layout_saves (fst (board_one l ch)) = true.
Proof. intros S. apply ly_edits_keep. apply rt_step. now apply board_edit. Qed.
Lemma change_keeps ch m a : change_safe ch = true -> change_one m ch = Ok a -> module_saves m = true -> module_saves a = true.
Proof. intros S H. apply fp_edits_keep. apply rt_step. now apply (change_edit ch). Qed.

(** [c]: with saves, [p]: without, [d]: a footprint that is read back and is written like both *)
Lemma work_module_from nq l : quote_contract nq -> forall c p d, mod_alike c d -> mod_alike p d -> module_saves d = true ->
  (forall ch, In ch (edits_of l) -> change_safe ch = true) ->
  exists f g e, work_module nq c l = Ok f /\ change_all p (edits_of l) = Ok g /\ mod_alike f e /\ mod_alike g e.
Proof.
  intros Q. induction l as [|[ch|n] l IH]; intros c p d C P D S.
  - exists c, p, d. split; [reflexivity|]. split; [reflexivity|]. split; assumption.
  - cbn [work_module edits_of flat_map app change_all]. fold (@edits_of change l).
    destruct (change_total c ch) as (c1 & C1). destruct (change_total p ch) as (p1 & P1). destruct (change_total d ch) as (d1 & D1). rewrite C1, P1. cbn [bind].
    apply (IH c1 p1 d1).
    + exact (change_alike ch c d c1 d1 C C1 D1).
    + exact (change_alike ch p d p1 d1 P P1 D1).
    + apply (change_keeps ch d d1); [apply S; cbn [edits_of flat_map app]; now left|exact D1|exact D].
    + intros x I. apply S. cbn [edits_of flat_map app]. now right.
  - cbn [work_module edits_of flat_map app]. fold (@edits_of change l).
    assert (R : parse_module (module_to_string nq c n) = Ok d).
    { rewrite <- (saves_read nq d n Q D). unfold module_to_string. now rewrite (mod_alike_ser _ _ C). }
    rewrite R. cbn [bind]. apply (IH d p d (mod_alike_refl d) P D). exact S.
Qed.
Lemma work_module_same nq s m n q l : quote_contract nq -> parse_module s = Ok m -> parse_module (module_to_string nq m n) = Ok q ->
  (forall ch, In ch (edits_of l) -> change_safe ch = true) ->
  exists f g, work_module nq m l = Ok f /\ change_all m (edits_of l) = Ok g /\ (forall k, module_to_string nq f k = module_to_string nq g k) /\ module_bound f = module_bound g.
Proof.
  intros Q H R S. destruct (again_module _ _ _ _ _ Q H R) as [E T]. pose proof (tidy_mod_alike m T) as A. rewrite <- E in A.
  destruct (settled_module nq s m n q Q H R) as [_ K]. pose proof (proj1 (module_text_iff nq q 0 Q) (K 0%Z)) as D.
  destruct (work_module_from nq l Q m m q A A D S) as (f & g & e & F & G & X & Y).
  exists f, g. split; [exact F|]. split; [exact G|]. split.
  - intros k. unfold module_to_string. now rewrite <- (mod_alike_ser _ _ X), <- (mod_alike_ser _ _ Y).
  - now rewrite <- (alike_box _ _ X), <- (alike_box _ _ Y).
Qed.

Lemma board_alike_refl l : board_alike l l.
Proof.
  assert (F : forall es, Forall2 ly_alike es es) by (induction es; constructor; [apply yl_same|assumption]).
  unfold board_alike. pose proof (F (ly_elements l)). tauto.
Qed.
Lemma work_board_from nq l : quote_contract nq -> forall c p d, board_alike c d -> board_alike p d -> layout_saves d = true ->
  (forall ch, In ch (edits_of l) -> board_safe ch) ->
  exists f e, work_board nq c l = Ok (f, snd (board_all p (edits_of l))) /\ board_alike f e /\ board_alike (fst (board_all p (edits_of l))) e.
Proof.
  intros Q. induction l as [|[ch|n] l IH]; intros c p d C P D S.
  - exists c, d. split; [reflexivity|]. split; assumption.
  - cbn [work_board edits_of flat_map app board_all]. fold (@edits_of board_change l).
    destruct (board_one_alike ch c d C) as [C1 C2]. destruct (board_one_alike ch p d P) as [P1 P2].
    assert (D1 : layout_saves (fst (board_one d ch)) = true) by (apply board_keeps; [apply S; cbn [edits_of flat_map app]; now left|exact D]).
    destruct (IH _ _ _ C1 P1 D1) as (f & e & F & X & Y); [intros x I; apply S; cbn [edits_of flat_map app]; now right|].
    rewrite C2 in P2. destruct (board_one c ch) as [c1 i], (board_one p ch) as [p1 j]. cbn [fst snd] in *. subst j. rewrite F. cbn [bind fst snd].
    destruct (board_all p1 (edits_of l)) as [g ks]. cbn [fst snd] in *. exists f, e. split; [reflexivity|]. split; assumption.
  - cbn [work_board edits_of flat_map app]. fold (@edits_of board_change l).
    assert (R : parse_layout (layout_to_string nq c n) = Ok d).
    { rewrite <- (lsaves_read nq d n Q D). unfold layout_to_string. now rewrite (board_alike_ser _ _ C). }
    rewrite R. cbn [bind]. apply (IH d p d (board_alike_refl d) P D). exact S.
Qed.
Lemma work_board_same nq s m n q l : quote_contract nq -> parse_layout s = Ok m -> parse_layout (layout_to_string nq m n) = Ok q ->
  (forall ch, In ch (edits_of l) -> board_safe ch) ->
  exists f, work_board nq m l = Ok (f, snd (board_all m (edits_of l))) /\ (forall k, layout_to_string nq f k = layout_to_string nq (fst (board_all m (edits_of l))) k)
  /\ layout_bound f = layout_bound (fst (board_all m (edits_of l))).
Proof.
  intros Q H R S. pose proof (again_board _ _ _ _ _ Q H R) as A.
  destruct (settled_layout nq s m n q Q H R) as [_ K]. pose proof (proj1 (layout_text_iff nq q 0 Q) (K 0%Z)) as D.
  destruct (work_board_from nq l Q m m q A A D S) as (f & e & F & X & Y).
  exists f. split; [exact F|]. split.
  - intros k. unfold layout_to_string. now rewrite <- (board_alike_ser _ _ X), <- (board_alike_ser _ _ Y).
  - now rewrite <- (board_alike_bound _ _ X), <- (board_alike_bound _ _ Y).
Qed.

Lemma sch_history_from s r : sch_history s r -> sch_ok s = true -> exists s', r = Ok s' /\ clos_refl_trans _ sch_edit s s'.
Proof.
  assert (J : forall u v : schematic, Ok u = Ok v -> u = v) by (intros u v Z; now injection Z).
  induction 1 as [s|s a r W _ IH|s r W N]; intros O.
  - exists s. split; [reflexivity|apply rt_refl].
  - inversion W as [x y E X Y|x X Y].
    + subst x y. destruct IH as (s' & R & T); [eapply sch_edits_keep; [apply rt_step; exact E|exact O]|].
      exists s'. split; [exact R|]. apply rt_trans with a; [now apply rt_step|exact T].
    + rewrite (rt_schematic s O) in Y. apply J in Y. subst a. exact (IH O).
  - exfalso. inversion W as [x y E X Y|x X Y]; subst r; [discriminate N|]. rewrite (rt_schematic s O) in N. discriminate N.
Qed.
Lemma sch_history_same fn t s r : parse_schematic fn t = Ok s -> sch_clean s = true -> sch_history s r -> exists s', r = Ok s' /\ clos_refl_trans _ sch_edit s s'.
Proof. intros P C H. exact (sch_history_from s r H (opened_sch fn t s P C)). Qed.

Lemma lib_history_from l r : lib_history l r -> (do t <- print_symbol_lib l; parse_symbol_lib t) = Ok l -> exists l', r = Ok l' /\ clos_refl_trans _ lib_edit l l'.
Proof.
  assert (J : forall u v : list symbol, Ok u = Ok v -> u = v) by (intros u v Z; now injection Z).
  assert (E1 : forall x y, lib_edit x y -> (do t <- print_symbol_lib x; parse_symbol_lib t) = Ok x -> (do t <- print_symbol_lib y; parse_symbol_lib t) = Ok y).
  { intros x y [a s b name s' W N] K. assert (O : symbol_lib_ok (a ++ s :: b) = true).
    { apply survive_library. apply bind_inv in K as (t & T & K). exists t. split; [exact T|exact K]. }
    destruct (renamed_saves a s b name s' O W N) as (t & T & P). rewrite T. exact P. }
  induction 1 as [l|l a r W _ IH|l r W N]; intros O.
  - exists l. split; [reflexivity|apply rt_refl].
  - inversion W as [x y E X Y|x X Y].
    + subst x y. destruct (IH (E1 l a E O)) as (l' & R & T).
      exists l'. split; [exact R|]. apply rt_trans with a; [now apply rt_step|exact T].
    + rewrite O in Y. apply J in Y. subst a. exact (IH O).
  - exfalso. inversion W as [x y E X Y|x X Y]; subst r; [discriminate N|]. rewrite O in N. discriminate N.
Qed.
Lemma lib_history_same l t r : print_symbol_lib l = Ok t -> parse_symbol_lib t = Ok l -> lib_history l r -> exists l', r = Ok l' /\ clos_refl_trans _ lib_edit l l'.
Proof. intros T P H. apply (lib_history_from l r H). rewrite T. exact P. Qed.
