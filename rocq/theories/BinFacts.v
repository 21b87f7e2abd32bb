(** Lemmas for C53. *)
From Coq Require Import String.
From Verif Require Import Base Str StrFacts F64 F64Text Sexp SexpFacts FpData FpWf LyData LyWf LyOps FpLibTable Formatter FormatterSpec DocSpec DocText LibFns SchData SchParse SymData SymParse
  KicadFile KfSpec KfFacts KfTotal CheckFix SymCheck FpCheck CheckSpec CheckFacts ReportFacts SxText KeepSpec KeepFacts KeepEdits Bins BinSpec.
Open Scope string_scope. Open Scope list_scope.

(** A line end after a text changes nothing. *)
Lemma om_om {A B C} (f : B -> C) (g : A -> B) o : option_map f (option_map g o) = option_map (fun x => f (g x)) o.
Proof. now destruct o. Qed.
Lemma lex_nl c s : is_ws c = true -> N.eqb c 34 = false -> forall st, lex st (s ++ [c]) = lex st s.
Proof.
  intros W Q. induction s as [|d s IH]; intros st.
  - cbn [app lex]. rewrite W, Q. destruct st; reflexivity.
  - cbn [app lex]. destruct st; rewrite ?IH; reflexivity.
Qed.
Lemma read_nl s : read_sexp (s ++ nl) = read_sexp s.
Proof. unfold read_sexp, nl. now rewrite lex_nl. Qed.
Lemma module_nl s : parse_module (s ++ nl) = parse_module s.
Proof. unfold parse_module. now rewrite read_nl. Qed.
Lemma layout_nl s : parse_layout (s ++ nl) = parse_layout s.
Proof. unfold parse_layout. now rewrite read_nl. Qed.

Lemma unwrap_ok {A} (r : res A) a : unwrap r = Ok a <-> r = Ok a.
Proof. destruct r; cbn [unwrap]; split; intros H; try exact H; discriminate H. Qed.
Lemma unwrap_panic {A} (r : res A) : unwrap r = Panic <-> forall a, r <> Ok a.
Proof.
  destruct r; cbn [unwrap]; split; intros H; try reflexivity; try discriminate H; try (intros; discriminate).
  destruct (H a eq_refl).
Qed.

(** ** identify *)
Lemma never_err n d : forall e, read_data n d XAny <> Err e.
Proof.
  intros e. unfold read_data, attempt. cbn [expected_eqb].
  destruct (parse_module d); try discriminate. destruct (parse_schematic (Some n) d); try discriminate.
  destruct (parse_layout d); try discriminate. destruct (parse_symbol_lib d); try discriminate.
  destruct (parse_project d); try discriminate. destruct (parse_table d); discriminate.
Qed.
Lemma accepted_known n s f : accepted n s f -> f <> KUnknown n.
Proof. intros H ->. exact H. Qed.
Lemma rank_any x : (rank x <= rank XAny)%nat.
Proof. destruct x; cbn; repeat constructor. Qed.
Lemma show_word f n : f <> KUnknown n -> (forall m, f <> KUnknown m) -> show_file f = word (kind f).
Proof. intros _ H. destruct f; try reflexivity. destruct (H name eq_refl). Qed.
Lemma accepted_not_unknown n s f : accepted n s f -> forall m, f <> KUnknown m.
Proof. intros H m ->. exact H. Qed.
Lemma identify_known fs p n r d f : fs n = Some d -> accepted n d f ->
  identify fs (p :: n :: r) = Ok (mk_ran (lit "found: " ++ word (kind f) ++ nl) []).
Proof.
  intros H A. unfold identify. cbn [arg bind]. unfold read_kicad_file, read_file. rewrite H. cbn [of_option bind].
  assert (E : read_data n d XAny = Ok f) by (apply known_iff; [exact (accepted_known _ _ _ A)|split; [exact A|apply rank_any]]).
  rewrite E. cbn [unwrap bind]. rewrite (show_word f n); [reflexivity|exact (accepted_known _ _ _ A)|exact (accepted_not_unknown _ _ _ A)].
Qed.
Lemma identify_unknown fs p n r d : fs n = Some d -> (forall f, ~ accepted n d f) ->
  parse_schematic (Some n) d <> Panic -> parse_symbol_lib d <> Panic ->
  identify fs (p :: n :: r) = Ok (mk_ran (lit "found: unknown: " ++ n ++ nl) []).
Proof.
  intros H N P1 P2. unfold identify. cbn [arg bind]. unfold read_kicad_file, read_file. rewrite H. cbn [of_option bind].
  destruct (unknown_two n d XAny P1 P2 N) as [U _]. rewrite (U eq_refl). cbn [unwrap bind show_file]. now rewrite !app_assoc.
Qed.
Lemma identify_sound fs args r : identify fs args = Ok r -> exists p n rest d, args = p :: n :: rest /\ fs n = Some d /\ r_log r = [] /\
  ((exists f, accepted n d f /\ r_out r = lit "found: " ++ word (kind f) ++ nl) \/
   ((forall f, ~ accepted n d f) /\ r_out r = lit "found: unknown: " ++ n ++ nl)).
Proof.
  intros H. unfold identify in H. destruct args as [|p [|n rest]]; try discriminate H. cbn [arg bind] in H.
  unfold read_kicad_file, read_file in H. destruct (fs n) as [d|] eqn:E; [|discriminate H]. cbn [of_option bind] in H.
  exists p, n, rest, d. split; [reflexivity|]. split; [exact E|].
  destruct (read_data n d XAny) as [f| |] eqn:R; try discriminate H. cbn [unwrap bind] in H. injection H as <-. cbn [r_log r_out]. split; [reflexivity|].
  destruct (sound _ _ _ _ R) as [A| ->].
  - left. exists f. split; [exact A|]. rewrite (show_word f n); [reflexivity|exact (accepted_known _ _ _ A)|exact (accepted_not_unknown _ _ _ A)].
  - right. split; [|cbn [show_file]; now rewrite !app_assoc]. intros f A.
    assert (K : read_data n d XAny = Ok f) by (apply known_iff; [exact (accepted_known _ _ _ A)|split; [exact A|apply rank_any]]).
    rewrite K in R. injection R as ->. exact A.
Qed.
Lemma identify_aborts fs args : identify fs args = Panic <->
  (length args < 2)%nat \/ exists p n rest, args = p :: n :: rest /\
  (fs n = None \/ exists d, fs n = Some d /\ (forall f, ~ accepted n d f) /\ (parse_schematic (Some n) d = Panic \/ parse_symbol_lib d = Panic)).
Proof.
  split.
  - intros H. destruct args as [|p [|n rest]]; [left; cbn; repeat constructor|left; cbn; repeat constructor|]. right. exists p, n, rest. split; [reflexivity|].
    destruct (fs n) as [d|] eqn:E; [right|now left]. exists d. split; [reflexivity|].
    assert (N : forall f, ~ accepted n d f).
    { intros f A. rewrite (identify_known fs p n rest d f E A) in H. discriminate H. }
    split; [exact N|]. destruct (parse_schematic (Some n) d) eqn:S; [| |now left]; right.
    + exfalso. exact (N (KSchematic a) S).
    + destruct (parse_symbol_lib d) eqn:L; [exfalso; exact (N (KSymbolLib a) L)| |reflexivity].
      rewrite (identify_unknown fs p n rest d E N) in H; [discriminate H|congruence|congruence].
  - intros [H|(p & n & rest & -> & [H|(d & E & N & C)])].
    + destruct args as [|p [|n rest]]; try reflexivity. cbn in H. exfalso. apply le_S_n in H. apply le_S_n in H. inversion H.
    + unfold identify. cbn [arg bind]. unfold read_kicad_file, read_file. rewrite H. reflexivity.
    + destruct (identify fs (p :: n :: rest)) as [r|e|] eqn:I; [| |reflexivity]; exfalso.
      * unfold identify in I. cbn [arg bind] in I. unfold read_kicad_file, read_file in I. rewrite E in I. cbn [of_option bind] in I.
        destruct (read_data n d XAny) as [f| |] eqn:R; try discriminate I.
        destruct (sound _ _ _ _ R) as [A| ->]; [exact (N f A)|]. unfold read_data, attempt in R. cbn [expected_eqb] in R.
        destruct (parse_module d); try discriminate R. destruct (parse_schematic (Some n) d); try discriminate R.
        destruct (parse_layout d); try discriminate R. destruct (parse_symbol_lib d); try discriminate R.
        destruct C as [C|C]; discriminate C.
      * unfold identify in I. cbn [arg bind] in I. unfold read_kicad_file, read_file in I. rewrite E in I. cbn [of_option bind] in I.
        destruct (read_data n d XAny) as [f| |]; discriminate I.
Qed.

(** ** Dumps *)
Lemma dump_fp nq fs p n rest d m : quote_contract nq -> fs n = Some d -> parse_module d = Ok m -> module_clean m = true ->
  exists t, dump_footprint nq fs (p :: n :: rest) = Ok (mk_ran (m_name m ++ nl ++ t) []) /\ parse_module t = Ok m.
Proof.
  intros Q E P C. exists (module_to_string nq m 0 ++ nl). split.
  - unfold dump_footprint. cbn [arg bind]. rewrite (proj2 (unwrap_ok _ m)); [reflexivity|]. apply read_module_iff. eauto.
  - rewrite module_nl. exact (text_module nq d m 0 Q P C).
Qed.
Lemma dump_ly nq fs p n rest d l : quote_contract nq -> fs n = Some d -> parse_layout d = Ok l -> layout_clean l = true ->
  exists t, dump_layout nq fs (p :: n :: rest) = Ok (mk_ran t [(false, n)]) /\ parse_layout t = Ok l
  /\ forall fs', fs' n = Some t -> dump_layout nq fs' (p :: n :: rest) = Ok (mk_ran t [(false, n)]).
Proof.
  intros Q E P C. set (t := layout_to_string nq l 0 ++ nl).
  assert (D : forall fs d, fs n = Some d -> parse_layout d = Ok l -> dump_layout nq fs (p :: n :: rest) = Ok (mk_ran t [(false, n)])).
  { intros fs0 d0 E0 P0. unfold dump_layout. cbn [arg bind]. rewrite (proj2 (unwrap_ok _ l)); [reflexivity|]. apply read_layout_iff. eauto. }
  assert (R : parse_layout t = Ok l) by (unfold t; rewrite layout_nl; exact (text_layout nq d l 0 Q P C)).
  exists t. split; [exact (D fs d E P)|]. split; [exact R|]. intros fs' E'. exact (D fs' t E' R).
Qed.
Lemma dump_ly_aborts nq fs p n rest : dump_layout nq fs (p :: n :: rest) = Panic <-> forall d l, fs n = Some d -> parse_layout d <> Ok l.
Proof.
  unfold dump_layout. cbn [arg bind]. split.
  - intros H d l E P. rewrite (proj2 (unwrap_ok _ l)) in H; [discriminate H|]. apply read_layout_iff. eauto.
  - intros H. rewrite (proj2 (unwrap_panic _)); [reflexivity|]. intros l R. apply read_layout_iff in R as (d & E & P). exact (H d l E P).
Qed.
Lemma adjust_run nq fs p n rest d l : quote_contract nq -> fs n = Some d -> parse_layout d = Ok l -> layout_clean l = true ->
  exists t, adjust_program nq fs (p :: n :: rest) = Ok (mk_ran t [(false, n)]) /\ parse_layout t = Ok (adjust_layout (flit "100.0") (flit "0.0") l).
Proof.
  intros Q E P C. exists (layout_to_string nq (adjust_layout (flit "100.0") (flit "0.0") l) 0 ++ nl). split.
  - unfold adjust_program. cbn [arg bind]. rewrite (proj2 (unwrap_ok _ l)); [reflexivity|]. apply read_layout_iff. eauto.
  - rewrite layout_nl. apply lsaves_read; [exact Q|]. apply lkeep_adjust. exact (lopened_saves d l P C).
Qed.

(** ** Checks *)
Definition only_items (l : list cf_data) : Prop := Forall (fun d => exists i, d = Item i) l.
Lemma oi_when b s r i m : only_items (when b (cf_new s r i m)).
Proof. destruct b; unfold when; [|constructor]. constructor; [eexists; reflexivity|constructor]. Qed.
Lemma oi_info b s r i m : only_items (when b (cf_info s r i m)).
Proof. destruct b; unfold when; [|constructor]. constructor; [eexists; reflexivity|constructor]. Qed.
Lemma oi_app l m : only_items l -> only_items m -> only_items (l ++ m).
Proof. intros A B. now apply Forall_app. Qed.
Lemma oi_one d : (exists i, d = Item i) -> only_items [d]. Proof. intros H. constructor; [exact H|constructor]. Qed.
Lemma oi_nil : only_items []. Proof. constructor. Qed.
Ltac oi := repeat match goal with
  | |- only_items (_ ++ _) => apply oi_app
  | |- only_items (when _ (cf_new _ _ _ _)) => apply oi_when
  | |- only_items (when _ (cf_info _ _ _ _)) => apply oi_info
  | |- only_items [] => apply oi_nil
  | |- only_items [_] => apply oi_one; eexists; reflexivity
  | |- only_items (if ?b then _ else _) => destruct b
  | |- only_items (match ?o with Some _ => _ | None => _ end) => destruct o
  end.
Lemma fp_items c m : only_items (fp_check c m).
Proof. unfold fp_check, check_reference, check_value, check_reference2. oi. Qed.
Lemma oi_empty l : only_items l -> all_findings l = [] -> l = [].
Proof. intros H E. destruct H as [|d l (i & ->) H]; [reflexivity|discriminate E]. Qed.
Lemma oi_dump n l : only_items l -> flat_map (dump n) l = map (dump_item n) (all_findings l).
Proof.
  intros H. induction H as [|d l (i & ->) H IH]; [reflexivity|]. unfold all_findings in *. cbn [flat_map dump findings app map]. now rewrite IH.
Qed.
Lemma klc_fp fs p n rest d m : fs n = Some d -> parse_module d = Ok m ->
  exists log, klc_kicad_mod fs (p :: n :: rest) = Ok (mk_ran [] log) /\
  (log = [] <-> forall i, ~ violation klc m i) /\
  (log = [] \/ log = (false, lit "Module " ++ m_name m) :: map (dump_item 1) (all_findings (fp_check klc m))).
Proof.
  intros E P. exists (match fp_check klc m with [] => [] | v => (false, lit "Module " ++ m_name m) :: flat_map (dump 1) v end). split; [|split].
  - unfold klc_kicad_mod. cbn [arg bind]. rewrite (proj2 (unwrap_ok _ m)); [reflexivity|]. apply read_module_iff. eauto.
  - pose proof (oi_empty _ (fp_items klc m)) as O. split.
    + intros H i V. apply reports in V. destruct (fp_check klc m) as [|x l]; [exact V|discriminate H].
    + intros H. rewrite O; [reflexivity|]. destruct (all_findings (fp_check klc m)) as [|i l] eqn:F; [reflexivity|].
      exfalso. apply (H i). apply reports. rewrite F. now left.
  - pose proof (oi_dump 1 _ (fp_items klc m)) as O. destruct (fp_check klc m) as [|x l]; [now left|]. right. now rewrite O.
Qed.
Lemma dump_all n l : Forall2 (fun line i => exists k, line = dump_item k i) (flat_map (dump n) l) (all_findings l).
Proof.
  induction l as [|d l IH]; [constructor|]. unfold all_findings in *. cbn [flat_map]. apply Forall2_app; [apply dump_findings|exact IH].
Qed.
Lemma klc_sym fs p n rest d l : fs n = Some d -> parse_symbol_lib d = Ok l ->
  exists log, klc_symbol_lib fs (p :: n :: rest) = Ok (mk_ran [] log) /\ symbol_log l log.
Proof.
  intros E P. eexists. split.
  - unfold klc_symbol_lib. cbn [arg bind]. rewrite (proj2 (unwrap_ok _ l)); [reflexivity|]. apply read_symbol_lib_iff. eauto.
  - clear. induction l as [|s l IH]; [constructor|]. cbn [flat_map]. pose proof (symbol_silent s) as S.
    destruct (symbol_check s) as [|x v] eqn:C.
    + apply sl_fine; [now apply S|exact IH].
    + cbn [app]. apply sl_bad; [|rewrite C; apply (dump_all 1 (x :: v))|exact IH]. intros A. apply S in A. discriminate A.
Qed.
Lemma log_empty l log : symbol_log l log -> (log = [] <-> Forall symbol_accepted l).
Proof.
  intros H. induction H as [|s l log A H IH|s l lines log A F H IH].
  - split; [constructor|reflexivity].
  - rewrite IH. split; [intros; now constructor|intros K; now inversion K].
  - split; [discriminate|]. intros K. inversion K; subst. contradiction.
Qed.
