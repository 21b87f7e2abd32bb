(** What the programs print besides their results (C92). *)
From Coq Require Import String.
From Verif Require Import Base Str StrFacts SexpFacts LibFns DocText CutSpec CutFacts SchData SchPrint SchParse SchReadSpec SchReadFacts KicadFile KfSpec KfFacts Bins BinSpec BinFacts SchOut OutSpec OutFacts.
Open Scope string_scope. Open Scope list_scope.

Lemma module_quiet n d : read_out n d XModule = [].
Proof. unfold read_out. now destruct (parse_module d). Qed.
Lemma other_class n d x y : is_class d (class_of x) -> x <> XSchematic -> read_out n d y = [].
Proof.
  intros C N. unfold read_out. destruct (parse_module d); try reflexivity. destruct (expected_eqb y XModule); [reflexivity|].
  destruct (lines_total d) as [ls L]. apply (out_none _ _ ls L). intros body (libs & el & E & _). apply N, class_inj, (class_one d); [exact C|].
  cbn [class_of is_class]. apply lines_iff in L. unfold KfFacts.headed. rewrite L, E. eexists. reflexivity.
Qed.
Lemma other_quiet n d f x : accepted n d f -> kind f <> XSchematic -> read_out n d x = [].
Proof. intros A. apply other_class. now apply (accepted_class n). Qed.
Lemma sch_read n d ls body m x : text_lines d ls -> OutSpec.headed ls body -> secs_told body m -> x <> XModule ->
  read_out n d x = m /\ exists c, parse_schematic (Some n) d = Ok c.
Proof.
  intros L H S X. destruct (proj2 (out_whole (Some n) d m)) as [[c C] O]; [eauto|]. split; [|eauto]. unfold read_out.
  destruct (others n d XSchematic (accepted_class n d (KSchematic c) C)) as [M _]. destruct M as [e ->]; [discriminate|].
  destruct x; try exact O. contradiction.
Qed.
Lemma identify_all fs p n rest d ls body m : fs n = Some d -> text_lines d ls -> OutSpec.headed ls body -> secs_told body m ->
  stdout fs (p :: n :: rest) XAny (identify fs (p :: n :: rest)) = unlines m ++ lit "found: schematic" ++ nl.
Proof.
  intros F L H S. destruct (sch_read n d ls body m XAny L H S ltac:(discriminate)) as [R [c C]].
  rewrite (identify_known fs p n rest d (KSchematic c) F C). unfold stdout. cbn [arg]. rewrite F, R. reflexivity.
Qed.
Lemma identify_other fs p n rest d f : fs n = Some d -> accepted n d f -> kind f <> XSchematic ->
  stdout fs (p :: n :: rest) XAny (identify fs (p :: n :: rest)) = lit "found: " ++ word (kind f) ++ nl.
Proof.
  intros F A K. rewrite (identify_known fs p n rest d f F A). unfold stdout. cbn [arg]. rewrite F, (other_quiet n d f XAny A K). reflexivity.
Qed.
Lemma arg_inv args n : arg args = Ok n -> exists p r, args = p :: n :: r.
Proof. destruct args as [|p [|k r]]; try discriminate. intros [= ->]. eauto. Qed.
Lemma quiet_out fs args x (r : res ran) : (forall n d, arg args = Ok n -> fs n = Some d -> read_out n d x = []) ->
  stdout fs args x r = match r with Ok v => r_out v | _ => [] end.
Proof. intros H. unfold stdout. destruct (arg args) as [n| |] eqn:A; try reflexivity. destruct (fs n) as [d|] eqn:F; [|reflexivity]. now rewrite (H n d eq_refl F). Qed.
Definition out_of (r : res ran) : str := match r with Ok v => r_out v | _ => [] end.
Lemma dump_all nq fs args r :
  (dump_layout nq fs args = Ok r -> stdout fs args XLayout (dump_layout nq fs args) = r_out r) /\
  (adjust_program nq fs args = Ok r -> stdout fs args XLayout (adjust_program nq fs args) = r_out r) /\
  (klc_symbol_lib fs args = Ok r -> stdout fs args XSymbolLib (klc_symbol_lib fs args) = []) /\
  stdout fs args XModule (dump_footprint nq fs args) = out_of (dump_footprint nq fs args) /\
  stdout fs args XModule (klc_kicad_mod fs args) = [].
Proof.
  split; [|split; [|split; [|split]]].
  - intros H. rewrite quiet_out; [now rewrite H|]. intros n d A F. unfold dump_layout in H. rewrite A in H. cbn [bind] in H.
    apply bind_inv in H as (l & U & _). apply unwrap_ok, read_layout_iff in U as (d' & F' & P). assert (d' = d) by congruence. subst d'.
    apply (other_quiet n d (KLayout l)); [exact P|discriminate].
  - intros H. rewrite quiet_out; [now rewrite H|]. intros n d A F. unfold adjust_program in H. rewrite A in H. cbn [bind] in H.
    apply bind_inv in H as (l & U & _). apply unwrap_ok, read_layout_iff in U as (d' & F' & P). assert (d' = d) by congruence. subst d'.
    apply (other_quiet n d (KLayout l)); [exact P|discriminate].
  - intros H. pose proof H as H'. rewrite quiet_out.
    + rewrite H. unfold klc_symbol_lib in H'. destruct (arg args) as [n| |]; try discriminate. cbn [bind] in H'. apply bind_inv in H' as (l & _ & [= <-]). reflexivity.
    + intros n d A F. unfold klc_symbol_lib in H. rewrite A in H. cbn [bind] in H.
      apply bind_inv in H as (l & U & _). apply unwrap_ok, read_symbol_lib_iff in U as (d' & F' & P). assert (d' = d) by congruence. subst d'.
      apply (other_quiet n d (KSymbolLib l)); [exact P|discriminate].
  - rewrite quiet_out; [reflexivity|]. intros. apply module_quiet.
  - rewrite quiet_out; [|intros; apply module_quiet]. unfold klc_kicad_mod. destruct (arg args) as [n| |]; try reflexivity. cbn [bind].
    destruct (unwrap (read_module fs n)); reflexivity.
Qed.
