(** Lemmas for P_Resave.v: the programs print the same about a file and its saved form. *)
From Coq Require Import String.
From Verif Require Import Base Str StrFacts F64 F64Text Sexp FpData FpOps LyData LySer LyOps Formatter FormatterSpec DocText KicadFile KfFacts CheckFix SymCheck FpCheck
  FpNew Bins BinFacts ResaveSpec ResaveLySpec ResaveFacts ResaveLy.
Open Scope string_scope. Open Scope list_scope.
Lemma load_module fs n s m : fs n = Some s -> parse_module s = Ok m -> unwrap (read_module fs n) = Ok m.
Proof. intros F P. apply unwrap_ok, read_module_iff. exists s. split; [exact F|exact P]. Qed.
Lemma load_layout fs n s l : fs n = Some s -> parse_layout s = Ok l -> unwrap (read_layout fs n) = Ok l.
Proof. intros F P. apply unwrap_ok, read_layout_iff. exists s. split; [exact F|exact P]. Qed.
Lemma resave_dump nq fs fs' p f rest s m n m' : quote_contract nq -> parse_module s = Ok m -> parse_module (module_to_string nq m n) = Ok m' ->
  fs f = Some s -> fs' f = Some (module_to_string nq m n) -> dump_footprint nq fs' (p :: f :: rest) = dump_footprint nq fs (p :: f :: rest).
Proof.
  intros Q H R F F'. unfold dump_footprint. cbn [arg bind]. rewrite (load_module fs f s m F H), (load_module fs' f _ m' F' R). cbn [bind].
  destruct (again_module _ _ _ _ _ Q H R) as [E T]. pose proof (tidy_mod_alike m T) as A. rewrite <- E in A.
  unfold module_to_string. rewrite (mod_alike_ser _ _ A). destruct A as [N _]. now rewrite N.
Qed.
Lemma resave_klc nq fs fs' p f rest s m n m' : quote_contract nq -> parse_module s = Ok m -> parse_module (module_to_string nq m n) = Ok m' ->
  (forall t, In (EFpText t) (m_elements m) -> font_counts t = true) ->
  fs f = Some s -> fs' f = Some (module_to_string nq m n) -> klc_kicad_mod fs' (p :: f :: rest) = klc_kicad_mod fs (p :: f :: rest).
Proof.
  intros Q H R C F F'. unfold klc_kicad_mod. cbn [arg bind]. rewrite (load_module fs f s m F H), (load_module fs' f _ m' F' R). cbn [bind].
  rewrite (resave_report nq s m n m' klc Q H R C). destruct (again_module _ _ _ _ _ Q H R) as [E T]. pose proof (tidy_mod_alike m T) as [N _]. rewrite <- E in N. now rewrite N.
Qed.
Lemma resave_layouts nq fs fs' p f rest s l n l' : quote_contract nq -> parse_layout s = Ok l -> parse_layout (layout_to_string nq l n) = Ok l' ->
  fs f = Some s -> fs' f = Some (layout_to_string nq l n) ->
  dump_layout nq fs' (p :: f :: rest) = dump_layout nq fs (p :: f :: rest) /\ adjust_program nq fs' (p :: f :: rest) = adjust_program nq fs (p :: f :: rest).
Proof.
  intros Q H R F F'. pose proof (again_board _ _ _ _ _ Q H R) as A. destruct (board_one_alike (BoardMove (flit "100.0") (flit "0.0")) _ _ A) as [B _]. cbn [board_one fst] in B.
  unfold dump_layout, adjust_program. cbn [arg bind]. rewrite (load_layout fs f s l F H), (load_layout fs' f _ l' F' R). cbn [bind].
  unfold layout_to_string. split; [now rewrite (board_alike_ser _ _ A)|now rewrite (board_alike_ser _ _ B)].
Qed.
