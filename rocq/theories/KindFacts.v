(** Proofs: which error is reported (C83). *)
From Coq Require Import String Lia.
From Verif Require Import Base Str Sexp FpData LyData FpLibTable Formatter DocText LibFns SchData SchParse SymData SymParse KicadFile KfSpec KindSx KindText SpellSpec SpellKind KindSpec.
Open Scope list_scope.

Lemma project_other t e : parse_project t = Err e -> e = EOther.
Proof. unfold parse_project. destruct (negb _); [now intros [= <-]|discriminate]. Qed.
Lemma attempt_err {A} (r : res A) mk stop rest e : attempt r mk stop rest = Err e -> stop = true /\ r = Err e \/ stop = false /\ rest = Err e.
Proof. destruct r as [a|d|]; cbn [attempt]; [discriminate| |discriminate]. destruct stop; [|auto]. intros [= <-]. auto. Qed.
Lemma data_blames n t x e : read_data n t x = Err e -> e = blames x.
Proof.
  unfold read_data. intros H.
  apply attempt_err in H as [[X H]|[_ H]]; [destruct x; try discriminate X; now apply e_parse_module in H|].
  apply attempt_err in H as [[X H]|[_ H]]; [destruct x; try discriminate X; now apply sch_other in H|].
  apply attempt_err in H as [[X H]|[_ H]]; [destruct x; try discriminate X; now apply e_parse_layout in H|].
  apply attempt_err in H as [[X H]|[_ H]]; [destruct x; try discriminate X; now apply lib_other in H|].
  apply attempt_err in H as [[X H]|[_ H]]; [destruct x; try discriminate X; now apply project_other in H|].
  apply attempt_err in H as [[X H]|[_ H]]; [destruct x; try discriminate X; now apply e_parse_table in H|].
  discriminate H.
Qed.
Lemma file_fails_iff fs n x e : read_kicad_file fs n x = Err e <-> file_fails fs n x e.
Proof.
  unfold file_fails, read_kicad_file, read_file. destruct (fs n) as [t|]; cbn [of_option bind].
  - split.
    + intros H. right. exists t. split; [reflexivity|].
      assert (D : exists e, read_data n t x = Err e) by now exists e. apply data_err in D as (X & C & F).
      repeat split; try assumption. now apply data_blames in H.
    + intros [[[=] _]|(t' & [= <-] & X & [C F] & ->)].
      assert (D : exists e, read_data n t x = Err e) by (apply data_err; auto). destruct D as [d D]. rewrite D. f_equal. now apply data_blames in D.
  - split; [intros [= <-]; now left|]. intros [[_ ->]|(t & [=] & _)]. reflexivity.
Qed.
Lemma kind_dec f x : is_kind f x \/ ~ is_kind f x.
Proof. destruct f, x; cbn; auto. Qed.
Lemma turn_inj x y : turn x = turn y -> x = y.
Proof. destruct x, y; cbn; intros H; first [reflexivity|discriminate H]. Qed.
Lemma kind_one f x y : is_kind f x -> is_kind f y -> x = y.
Proof. destruct f, x; cbn; try contradiction; destruct y; cbn; try contradiction; reflexivity. Qed.
Section Open.
Context {A : Type} (x : expected) (g : kicad_file -> res A).
Hypothesis (X : x <> XAny) (G1 : forall f, is_kind f x -> exists a, g f = Ok a) (G2 : forall f, ~ is_kind f x -> g f = Err EOther).
Lemma open_fails_iff fs n e : bind (read_kicad_file fs n x) g = Err e <-> open_fails fs n x e.
Proof.
  destruct (read_kicad_file fs n x) as [f|d|] eqn:R; cbn [bind].
  - assert (U : forall u, f <> KUnknown u).
    { intros u ->. apply file_unknown_iff in R as (t & _ & _ & Y & _). contradiction. }
    apply file_known_iff in R as (t & T & F & W); [|exact U]. destruct W as (y & K & L). split.
    + intros H. right. exists t. split; [exact T|]. left. destruct (kind_dec f x) as [I|I].
      { destruct (G1 f I) as [a E]. congruence. }
      rewrite (G2 f I) in H. injection H as <-. split; [|reflexivity]. exists f. split; [exact F|]. exists y. split; [exact K|].
      assert (turn y <> turn x) by (intros E; apply turn_inj in E; subst y; contradiction). lia.
    + intros [[N _]|(t' & T' & O)]; [congruence|]. assert (t' = t) by congruence. subst t'. destruct O as [[(f' & F' & y' & K' & L') ->]|[[_ N] _]].
      * pose proof (file_one n t f f' F F') as <-. apply G2. intros I. pose proof (kind_one f x y' I K') as <-. lia.
      * destruct (N f F). now exists y.
  - pose proof R as R0. apply file_fails_iff in R. split.
    + intros [= <-]. destruct R as [R|(t & T & _ & N & E)]; [now left|]. right. exists t. split; [exact T|]. now right.
    + intros H. f_equal. destruct R as [[N ->]|(t & T & _ & N & ->)]; destruct H as [[N' ->]|(t' & T' & O)]; try congruence.
      assert (t' = t) by congruence. subst t'. destruct O as [[(f & F & y & K & L) _]|[_ ->]]; [|reflexivity].
      destruct N as [_ N]. destruct (N f F). exists y. split; [exact K|lia].
  - split; [discriminate|]. intros [[N _]|(t & T & O)].
    + apply file_panic_iff in R as (t & T & _). congruence.
    + pose proof R as R0. apply file_panic_iff in R as (t' & T' & C). assert (t' = t) by congruence. subst t'. destruct O as [[(f & F & y & K & L) _]|[[N _] _]]; [|contradiction].
      assert (H : read_kicad_file fs n x = Ok f).
      { apply file_known_iff; [now apply (file_known n t)|]. exists t. split; [exact T|]. split; [exact F|]. exists y. split; [exact K|lia]. }
      congruence.
Qed.
End Open.
Ltac opened := apply open_fails_iff; [discriminate|intros []; cbn; try contradiction; eauto|intros []; cbn; intros I; try reflexivity; now destruct I].
Lemma module_fails fs n e : read_module fs n = Err e <-> open_fails fs n XModule e.
Proof. opened. Qed.
Lemma schematic_fails fs n e : read_schematic fs n = Err e <-> open_fails fs n XSchematic e.
Proof. opened. Qed.
Lemma layout_fails fs n e : read_layout fs n = Err e <-> open_fails fs n XLayout e.
Proof. opened. Qed.
Lemma library_fails fs n e : read_symbol_lib fs n = Err e <-> open_fails fs n XSymbolLib e.
Proof. opened. Qed.
Lemma project_fails fs n e : read_project fs n = Err e <-> open_fails fs n XProject e.
Proof. opened. Qed.
Lemma table_fails fs n e : read_fp_lib_table fs n = Err e <-> open_fails fs n XFpLibTable e.
Proof. opened. Qed.
Lemma text_errors e t :
  (parse_module t = Err e -> e = ESexp) /\ (parse_layout t = Err e -> e = ESexp) /\ (parse_table t = Err e -> e = ESexp) /\
  (forall fn, parse_schematic fn t = Err e -> e = EOther) /\ (parse_symbol_lib t = Err e -> e = EOther) /\ (parse_project t = Err e -> e = EOther).
Proof.
  split; [intros H; now apply e_parse_module in H|]. split; [intros H; now apply e_parse_layout in H|]. split; [intros H; now apply e_parse_table in H|].
  split; [intros fn H; now apply sch_other in H|]. split; [intros H; now apply lib_other in H|]. intros H; now apply project_other in H.
Qed.
