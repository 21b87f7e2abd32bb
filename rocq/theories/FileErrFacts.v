(** What the error says when a file cannot be opened *)
From Coq Require Import String Lia.
From Verif Require Import Base Str Sexp FpData LyData FpLibTable Formatter DocText LibFns LibSpec CutSpec SchData SchParse SymData SymParse KicadFile Bins KfSpec SpellSpec SpellKind KindSpec
  KindFacts Said SchErr SymErr ErrErase ErrSpec ErrWhole FileErr FileErrSpec.
Open Scope string_scope. Open Scope list_scope.

Definition untold {A} (r : told A) : res A := match r with TFine a => Ok a | TSays _ => Err EOther | TElse e => Err e | TStops => Panic end.
Lemma untold_said {A} (r : said A) : untold (of_said r) = plain r. Proof. destruct r; reflexivity. Qed.
Lemma untold_res {A} (r : res A) : untold (of_res r) = r. Proof. destruct r; reflexivity. Qed.
Lemma untold_project t : untold (project_told t) = parse_project t. Proof. unfold project_told, parse_project. destruct (negb _); reflexivity. Qed.
Lemma untold_attempt {A} (r : told A) mk stop rest : untold (attempt_told r mk stop rest) = attempt (untold r) mk stop (untold rest).
Proof. destruct r, stop; reflexivity. Qed.
Lemma untold_data n t x : untold (data_told n t x) = read_data n t x.
Proof. unfold data_told, read_data. rewrite !untold_attempt, !untold_said, !untold_res, untold_project, plain_schematic, plain_library. reflexivity. Qed.
Lemma untold_file fs n x : untold (file_told fs n x) = read_kicad_file fs n x.
Proof. unfold file_told, read_kicad_file, read_file. destruct (fs n); [apply untold_data|reflexivity]. Qed.
Lemma untold_bind {A B} (r : told A) (f : A -> told B) : untold (tbind r f) = bind (untold r) (fun a => untold (f a)).
Proof. destruct r; reflexivity. Qed.
Lemma same_module fs n : untold (module_told fs n) = read_module fs n.
Proof. unfold module_told, read_module. rewrite untold_bind, untold_file. destruct (read_kicad_file fs n XModule) as [[]| |]; reflexivity. Qed.
Lemma same_schematic fs n : untold (schematic_told fs n) = read_schematic fs n.
Proof. unfold schematic_told, read_schematic. rewrite untold_bind, untold_file. destruct (read_kicad_file fs n XSchematic) as [[]| |]; reflexivity. Qed.
Lemma same_layout fs n : untold (layout_told fs n) = read_layout fs n.
Proof. unfold layout_told, read_layout. rewrite untold_bind, untold_file. destruct (read_kicad_file fs n XLayout) as [[]| |]; reflexivity. Qed.
Lemma same_library fs n : untold (symbol_lib_told fs n) = read_symbol_lib fs n.
Proof. unfold symbol_lib_told, read_symbol_lib. rewrite untold_bind, untold_file. destruct (read_kicad_file fs n XSymbolLib) as [[]| |]; reflexivity. Qed.
Lemma same_project fs n : untold (proj_told fs n) = read_project fs n.
Proof. unfold proj_told, read_project. rewrite untold_bind, untold_file. destruct (read_kicad_file fs n XProject) as [[]| |]; reflexivity. Qed.
Lemma same_table fs n : untold (table_told fs n) = read_fp_lib_table fs n.
Proof. unfold table_told, read_fp_lib_table. rewrite untold_bind, untold_file. destruct (read_kicad_file fs n XFpLibTable) as [[]| |]; reflexivity. Qed.

(** The last reader that is tried has the word. *)
Definition asked {A} (r : told A) (mk : A -> kicad_file) : told kicad_file := tbind r (fun a => TFine (mk a)).
Lemma attempt_on {A} (r : told A) mk rest m : attempt_told r mk false rest = TSays m -> rest = TSays m.
Proof. destruct r; cbn; first [discriminate|exact (fun H => H)]. Qed.
Lemma attempt_at {A} (r : told A) mk rest m : attempt_told r mk true rest = TSays m -> r = TSays m.
Proof. destruct r; cbn; try discriminate. intros [= <-]. reflexivity. Qed.
Lemma attempt_go {A} (r : told A) mk rest e : untold (attempt_told r mk false rest) = Err e -> attempt_told r mk false rest = rest /\ untold rest = Err e.
Proof. destruct r; cbn; first [discriminate|auto]. Qed.
Ltac passed H := let Y := fresh in let Z := fresh in destruct (attempt_go _ _ _ _ H) as [Y Z]; rewrite Y; clear Y H; rename Z into H.
Lemma said_text {A} (r : said A) m : of_said r = TSays m <-> r = Says m.
Proof. destruct r; cbn; split; try discriminate; intros [= <-]; reflexivity. Qed.
Lemma res_text {A} (r : res A) m : of_res r <> TSays m. Proof. destruct r; discriminate. Qed.
Lemma data_fw n t x m : data_told n t x = TSays m -> complaint t x m.
Proof.
  unfold data_told. destruct x; cbn [expected_eqb]; intros H;
    repeat first [apply attempt_on in H|apply attempt_at in H].
  - destruct (res_text _ _ H).
  - apply said_text in H. apply (schematic_says (Some n)). exact H.
  - destruct (res_text _ _ H).
  - apply said_text in H. apply library_says. exact H.
  - unfold project_told in H. destruct (negb _); [|discriminate]. injection H as <-. reflexivity.
  - destruct (res_text _ _ H).
  - discriminate H.
Qed.
Lemma data_bw n t x m e : untold (data_told n t x) = Err e -> complaint t x m -> data_told n t x = TSays m.
Proof.
  unfold data_told. destruct x; cbn [expected_eqb complaint]; intros H C; try contradiction.
  - passed H. apply (schematic_says (Some n)) in C. rewrite C. reflexivity.
  - do 3 passed H. apply library_says in C. rewrite C. reflexivity.
  - do 4 passed H. subst m. unfold project_told in *. destruct (negb _); [reflexivity|discriminate H].
Qed.
Lemma file_says_iff fs n x m : file_told fs n x = TSays m <-> file_says fs n x m.
Proof.
  split.
  - intros H. pose proof (f_equal untold H) as E. rewrite untold_file in E. cbn [untold] in E. apply file_fails_iff in E.
    destruct E as [[_ X]|(t & T & X & N & _)]; [discriminate X|]. exists t. split; [exact T|]. split; [exact N|]. unfold file_told in H. rewrite T in H. exact (data_fw n t x m H).
  - intros (t & T & N & C). assert (X : x <> XAny) by (intros ->; exact C).
    assert (E : read_kicad_file fs n x = Err (blames x)) by (apply file_fails_iff; right; exists t; auto). rewrite <- untold_file in E.
    unfold file_told in *. rewrite T in *. exact (data_bw n t x m _ E C).
Qed.
Lemma kind_named f y : is_kind f y -> exists k, In (y, k) kinds /\ show_file f = lit k.
Proof.
  destruct f, y; cbn [is_kind]; try contradiction; intros _;
    [exists "module"|exists "schematic"|exists "layout"|exists "symbollib"|exists "project"|exists "fp-lib-table"]; (split; [unfold kinds; cbn [In]; auto 8|reflexivity]).
Qed.
Lemma kinds_fun y a b : In (y, a) kinds -> In (y, b) kinds -> a = b.
Proof. destruct y; cbn; intuition congruence. Qed.
Section Open.
Context {A : Type} (x : expected) (g : kicad_file -> str -> told A).
Hypothesis (X : x <> XAny) (G1 : forall f n, is_kind f x -> exists a, g f n = TFine a) (G2 : forall f n, ~ is_kind f x -> g f n = unexpected f n).
Lemma open_says_iff fs n m : tbind (file_told fs n x) (fun f => g f n) = TSays m <-> open_says fs n x m.
Proof.
  unfold open_says. destruct (file_told fs n x) as [f|k|e|] eqn:R; cbn [tbind].
  - pose proof (f_equal untold R) as E. rewrite untold_file in E. cbn [untold] in E.
    assert (U : forall u, f <> KUnknown u).
    { intros u ->. apply file_unknown_iff in E. destruct E as (t & _ & _ & Y & _). contradiction. }
    apply file_known_iff in E; [|exact U]. destruct E as (t & T & F & y & K & L). split.
    + intros H. right. destruct (kind_dec f x) as [I|I].
      { destruct (G1 f n I) as [a E]. congruence. }
      rewrite (G2 f n I) in H. injection H as <-. destruct (kind_named f y K) as (k & IK & ->). exists t, f, y, k. split; [exact T|]. split; [exact F|]. split; [exact K|].
      split; [|split; [exact IK|reflexivity]]. assert (turn y <> turn x) by (intros E; apply turn_inj in E; subst y; contradiction). lia.
    + intros [(t' & T' & [_ N] & _)|(t' & f' & y' & k & T' & F' & K' & L' & IK & ->)].
      * assert (t' = t) by congruence. subst t'. destruct (N f F). exists y. auto.
      * assert (t' = t) by congruence. subst t'. pose proof (file_one n t f f' F F') as <-. rewrite G2.
        -- unfold unexpected. destruct (kind_named f y' K') as (k' & IK' & ->). rewrite (kinds_fun y' k k' IK IK'). reflexivity.
        -- intros I. pose proof (kind_one f x y' I K') as <-. lia.
  - assert (S : file_says fs n x k) by (apply file_says_iff; exact R). split.
    + intros [= <-]. left. exact S.
    + intros [S'|(t & f & y & z & T & F & K & L & _)].
      * apply file_says_iff in S'. congruence.
      * destruct S as (t' & T' & [_ N] & _). assert (t' = t) by congruence. subst t'. destruct (N f F). exists y. split; [exact K|lia].
  - split; [discriminate|]. intros [S|(t & f & y & z & T & F & K & L & _)].
    + apply file_says_iff in S. congruence.
    + pose proof (f_equal untold R) as E. rewrite untold_file in E. cbn [untold] in E. apply file_fails_iff in E.
      destruct E as [[N _]|(t' & T' & _ & [_ N] & _)]; [congruence|]. assert (t' = t) by congruence. subst t'. destruct (N f F). exists y. split; [exact K|lia].
  - split; [discriminate|]. intros [S|(t & f & y & z & T & F & K & L & _)].
    + apply file_says_iff in S. congruence.
    + pose proof (f_equal untold R) as E. rewrite untold_file in E. cbn [untold] in E.
      assert (O : read_kicad_file fs n x = Ok f).
      { apply file_known_iff; [intros u ->; destruct F|]. exists t. split; [exact T|]. split; [exact F|]. exists y. split; [exact K|lia]. }
      congruence.
Qed.
End Open.
Ltac one_kind := let f := fresh in let n := fresh in let I := fresh in intros f n I; destruct f; cbn in I; first [contradiction|destruct (I Logic.I)|eexists; reflexivity|reflexivity].
Lemma module_says fs n m : module_told fs n = TSays m <-> open_says fs n XModule m.
Proof. refine (open_says_iff XModule (fun k n => match k with KModule m => TFine m | x => unexpected x n end) _ _ _ fs n m); [discriminate|one_kind|one_kind]. Qed.
Lemma schematic_file_says fs n m : schematic_told fs n = TSays m <-> open_says fs n XSchematic m.
Proof. refine (open_says_iff XSchematic (fun k n => match k with KSchematic m => TFine m | x => unexpected x n end) _ _ _ fs n m); [discriminate|one_kind|one_kind]. Qed.
Lemma layout_says fs n m : layout_told fs n = TSays m <-> open_says fs n XLayout m.
Proof. refine (open_says_iff XLayout (fun k n => match k with KLayout m => TFine m | x => unexpected x n end) _ _ _ fs n m); [discriminate|one_kind|one_kind]. Qed.
Lemma library_file_says fs n m : symbol_lib_told fs n = TSays m <-> open_says fs n XSymbolLib m.
Proof. refine (open_says_iff XSymbolLib (fun k n => match k with KSymbolLib m => TFine m | x => unexpected x n end) _ _ _ fs n m); [discriminate|one_kind|one_kind]. Qed.
Lemma project_says fs n m : proj_told fs n = TSays m <-> open_says fs n XProject m.
Proof. refine (open_says_iff XProject (fun k n => match k with KProject m => TFine m | x => unexpected x n end) _ _ _ fs n m); [discriminate|one_kind|one_kind]. Qed.
Lemma table_says fs n m : table_told fs n = TSays m <-> open_says fs n XFpLibTable m.
Proof. refine (open_says_iff XFpLibTable (fun k n => match k with KFpLibTable m => TFine m | x => unexpected x n end) _ _ _ fs n m); [discriminate|one_kind|one_kind]. Qed.
Lemma open_one fs n x m k : x <> XAny -> open_says fs n x m -> open_says fs n x k -> m = k.
Proof.
  intros X H1 H2.
  destruct x; [apply module_says in H1; apply module_says in H2|apply schematic_file_says in H1; apply schematic_file_says in H2|apply layout_says in H1; apply layout_says in H2
    |apply library_file_says in H1; apply library_file_says in H2|apply project_says in H1; apply project_says in H2|apply table_says in H1; apply table_says in H2|destruct (X eq_refl)];
    rewrite H1 in H2; injection H2 as H2; exact H2.
Qed.
(** Without an error about trees or from the outside, there is always a text. *)
Lemma open_worded fs n x : x <> XAny -> open_fails fs n x EOther <-> exists m, open_says fs n x m.
Proof.
  assert (E : forall A (r : told A) (m : res A), untold r = m -> (forall e, m = Err e -> r = TElse e -> e <> EOther) -> m = Err EOther <-> exists k, r = TSays k).
  { intros A r m <- N. destruct r as [a|k|e|]; cbn [untold] in *; split; try discriminate; try (intros [k' K]; discriminate K).
    - intros _. eauto.
    - reflexivity.
    - intros [= ->]. destruct (N EOther eq_refl eq_refl eq_refl). }
  assert (NE : forall e t y, data_told n t y = TElse e -> e <> EOther).
  { intros e t y. unfold data_told.
    assert (A1 : forall e, of_res (parse_module t) = TElse e -> e <> EOther). { intros d D. destruct (parse_module t) eqn:Q; try discriminate D. injection D as <-. apply KindSx.e_parse_module in Q. congruence. }
    assert (A2 : forall e, of_said (schematic_said (Some n) t) = TElse e -> e <> EOther). { intros d D. destruct (schematic_said _ t); try discriminate D. injection D as <-. discriminate. }
    assert (A3 : forall e, of_res (parse_layout t) = TElse e -> e <> EOther). { intros d D. destruct (parse_layout t) eqn:Q; try discriminate D. injection D as <-. apply KindSx.e_parse_layout in Q. congruence. }
    assert (A4 : forall e, of_said (library_said t) = TElse e -> e <> EOther). { intros d D. destruct (library_said t); try discriminate D. injection D as <-. discriminate. }
    assert (A5 : forall e, project_told t = TElse e -> e <> EOther). { intros d D. unfold project_told in D. destruct (negb _); discriminate D. }
    assert (A6 : forall e, of_res (parse_table t) = TElse e -> e <> EOther). { intros d D. destruct (parse_table t) eqn:Q; try discriminate D. injection D as <-. apply KindSx.e_parse_table in Q. congruence. }
    assert (ST : forall A (r : told A) mk b rest, (forall d, r = TElse d -> d <> EOther) -> (rest = TElse e -> e <> EOther) -> attempt_told r mk b rest = TElse e -> e <> EOther).
    { intros A r mk b rest HR HS. destruct r; cbn [attempt_told]; try discriminate; destruct b; try discriminate; first [exact HS|intros Q; injection Q as <-; exact (HR _ eq_refl)]. }
    repeat (apply ST; [assumption|]). discriminate. }
  assert (NF : forall e y, file_told fs n y = TElse e -> e <> EOther). { intros e y. unfold file_told. destruct (fs n) as [t|]; [exact (NE e t y)|]. intros [= <-]. discriminate. }
  assert (NB : forall A y (g : kicad_file -> told A) e, (forall f, g f <> TElse e) -> tbind (file_told fs n y) g = TElse e -> e <> EOther).
  { intros A y g e H. destruct (file_told fs n y) eqn:Q; cbn; try discriminate; [intros R; destruct (H _ R)|]. intros [= <-]. exact (NF _ _ Q). }
  intros X. destruct x; [| | | | | |destruct (X eq_refl)].
  - setoid_rewrite <- module_says. rewrite <- (open_fails_iff XModule (fun k => match k with KModule m => Ok m | _ => Err EOther end)); [|discriminate|intros [] I; cbn in I; try contradiction; eexists; reflexivity|intros [] I; cbn in I; first [reflexivity|destruct (I Logic.I)]].
    apply E; [apply same_module|]. intros e _ T. refine (NB _ _ _ e _ T). intros []; discriminate.
  - setoid_rewrite <- schematic_file_says. rewrite <- (open_fails_iff XSchematic (fun k => match k with KSchematic m => Ok m | _ => Err EOther end)); [|discriminate|intros [] I; cbn in I; try contradiction; eexists; reflexivity|intros [] I; cbn in I; first [reflexivity|destruct (I Logic.I)]].
    apply E; [apply same_schematic|]. intros e _ T. refine (NB _ _ _ e _ T). intros []; discriminate.
  - setoid_rewrite <- layout_says. rewrite <- (open_fails_iff XLayout (fun k => match k with KLayout m => Ok m | _ => Err EOther end)); [|discriminate|intros [] I; cbn in I; try contradiction; eexists; reflexivity|intros [] I; cbn in I; first [reflexivity|destruct (I Logic.I)]].
    apply E; [apply same_layout|]. intros e _ T. refine (NB _ _ _ e _ T). intros []; discriminate.
  - setoid_rewrite <- library_file_says. rewrite <- (open_fails_iff XSymbolLib (fun k => match k with KSymbolLib m => Ok m | _ => Err EOther end)); [|discriminate|intros [] I; cbn in I; try contradiction; eexists; reflexivity|intros [] I; cbn in I; first [reflexivity|destruct (I Logic.I)]].
    apply E; [apply same_library|]. intros e _ T. refine (NB _ _ _ e _ T). intros []; discriminate.
  - setoid_rewrite <- project_says. rewrite <- (open_fails_iff XProject (fun k => match k with KProject m => Ok m | _ => Err EOther end)); [|discriminate|intros [] I; cbn in I; try contradiction; eexists; reflexivity|intros [] I; cbn in I; first [reflexivity|destruct (I Logic.I)]].
    apply E; [apply same_project|]. intros e _ T. refine (NB _ _ _ e _ T). intros []; discriminate.
  - setoid_rewrite <- table_says. rewrite <- (open_fails_iff XFpLibTable (fun k => match k with KFpLibTable m => Ok m | _ => Err EOther end)); [|discriminate|intros [] I; cbn in I; try contradiction; eexists; reflexivity|intros [] I; cbn in I; first [reflexivity|destruct (I Logic.I)]].
    apply E; [apply same_table|]. intros e _ T. refine (NB _ _ _ e _ T). intros []; discriminate.
Qed.
