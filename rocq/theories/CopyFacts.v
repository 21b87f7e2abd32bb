(** Lemmas for C101. *)
From Coq Require Import String.
From Verif Require Import Base Str StrFacts SexpFacts SchData SchParse SchOps CutSpec CutFacts SchReadSpec SchReadFacts ErrSpec Said SchErr ErrErase ErrWhole FileErr FileErrFacts Paths PathSpec PathFacts WalkErr WalkErrFacts CopySpec.
Open Scope string_scope. Open Scope list_scope.

Lemma leads_names p : leads p (rooted p) (names p).
Proof. now apply leads_iff. Qed.
Lemma text_content fn fn' ls c c' : schematic_text fn ls c -> schematic_text fn' ls c' -> same_content c c' /\ sc_filename c = fn /\ sc_filename c' = fn'.
Proof.
  intros A B. assert (K : schematic_text fn' ls (mk_sch fn' (sc_libraries c) (sc_description c) (sc_elements c) (sc_sheets c) (sc_eelayer c)) /\ sc_filename c = fn).
  { destruct A as (libs & e & body & secs & E & S & T & ->). split; [|reflexivity]. now exists libs, e, body, secs. }
  destruct K as [K F]. apply of_lines in K, B. rewrite K in B. injection B as <-. now repeat split.
Qed.
Definition alike (r r' : told schematic) (p p' : str) : Prop :=
  match r with
  | TFine c => exists c', r' = TFine c' /\ same_content c c' /\ sc_filename c = Some p /\ sc_filename c' = Some p'
  | TSays m => r' = TSays m
  | TElse e => r' = TElse e
  | TStops => r' = TStops
  end.
Lemma said_alike p p' t : alike (of_said (schematic_said (Some p) t)) (of_said (schematic_said (Some p') t)) p p'.
Proof.
  destruct (schematic_said (Some p) t) as [c|m| |] eqn:E; cbn [of_said alike].
  - apply schematic_fine in E as (ls & T & X). pose proof X as Y. destruct X as (libs & e & body & secs & E & S & B & ->).
    eassert (K : schematic_said (Some p') t = Fine _) by (apply schematic_fine; exists ls; split; [exact T|]; exists libs, e, body, secs; split; [exact E|]; split; [exact S|]; split; [exact B|reflexivity]).
    rewrite K. eexists. split; [reflexivity|]. now repeat split.
  - apply schematic_says in E. now rewrite (proj2 (schematic_says (Some p') t m) E).
  - apply schematic_stops in E. now rewrite (proj2 (schematic_stops (Some p') t) E).
  - destruct (schematic_said (Some p') t) as [c|m| |] eqn:E'; [| | |reflexivity]; exfalso.
    + apply schematic_fine in E' as (ls & T & X). destruct X as (libs & e & body & secs & X & S & B & _).
      eassert (K : schematic_said (Some p) t = Fine _) by (apply schematic_fine; exists ls; split; [exact T|]; exists libs, e, body, secs; split; [exact X|]; split; [exact S|]; split; [exact B|reflexivity]). congruence.
    + apply schematic_says in E'. apply (schematic_says (Some p)) in E'. congruence.
    + apply schematic_stops in E'. apply (schematic_stops (Some p)) in E'. congruence.
Qed.

Section C.
Variables (b : bool) (D : list str) (b' : bool) (D' : list str) (read read' : str -> res str).
Hypothesis C : copied b D b' D' read read'.
Definition matched (p p' : str) : Prop := counterpart b D b' D' p p' /\ (~ leads p b D \/ (p = p' /\ rooted p = true)).

Lemma matched_step p p' f : matched p p' ->
  (sheet_path p f = None /\ sheet_path p' f = None) \/ exists g g', sheet_path p f = Some g /\ sheet_path p' f = Some g' /\ counterpart b D b' D' g g'.
Proof.
  intros [[q q' l A A'|q R] N].
  - destruct N as [N|[<- R]].
    + assert (NL : l <> []) by (intros ->; apply N; now rewrite app_nil_r in A). apply leads_iff in A as [Eb En], A' as [Eb' En'].
      assert (X : forall x dd, names x = dd ++ l -> exists d, path_parent x = Some d /\ leads d (rooted x) (dd ++ removelast l)).
      { intros x dd NX. destruct (path_parent x) as [d|] eqn:P.
        - exists d. split; [reflexivity|]. apply parent_leads in P. now rewrite NX, removelast_app in P by exact NL.
        - apply parent_none in P as [P _]. rewrite NX in P. apply app_eq_nil in P as [_ P]. contradiction. }
      destruct (X q D (eq_sym En)) as (d & P & L), (X q' D' (eq_sym En')) as (d' & P' & L'). right. exists (path_join d f), (path_join d' f). unfold sheet_path. rewrite P, P'. split; [reflexivity|]. split; [reflexivity|].
      apply (join_leads d f) in L. apply (join_leads d' f) in L'. destruct (rooted f) eqn:RF.
      * replace (path_join d f) with f by (unfold path_join; now rewrite RF). replace (path_join d' f) with f by (unfold path_join; now rewrite RF). apply cp_root. exact RF.
      * rewrite <- app_assoc in L, L'. rewrite <- Eb in L. rewrite <- Eb' in L'. exact (cp_in _ _ _ _ _ _ _ L L').
    + destruct (sheet_path q f) as [g|] eqn:G; [right; exists g, g|left; auto]. split; [reflexivity|]. split; [reflexivity|]. unfold sheet_path in G. destruct (path_parent q) as [d|] eqn:P; [|discriminate G]. injection G as <-.
      apply parent_leads in P. apply (join_leads d f) in P. apply cp_root. apply leads_iff in P as [P _]. rewrite R in P. destruct (rooted f); exact (eq_sym P).
  - destruct (sheet_path q f) as [g|] eqn:G; [right; exists g, g|left; auto]. split; [reflexivity|]. split; [reflexivity|]. unfold sheet_path in G. destruct (path_parent q) as [d|] eqn:P; [|discriminate G]. injection G as <-.
    apply parent_leads in P. apply (join_leads d f) in P. apply cp_root. apply leads_iff in P as [P _]. fold (rooted q) in R. rewrite R in P. destruct (rooted f); exact (eq_sym P).
Qed.
Definition twins (s s' : schematic) : Prop := same_content s s' /\ exists p p', sc_filename s = Some p /\ sc_filename s' = Some p' /\ matched p p'.
Lemma twin_sheet s s' h : twins s s' ->
  match sheet_told (unix_fs read) s h with
  | TFine t => exists t', sheet_told (unix_fs read') s' h = TFine t' /\ twins t t'
  | TSays m => sheet_told (unix_fs read') s' h = TSays m
  | TElse e => sheet_told (unix_fs read') s' h = TElse e
  | TStops => sheet_told (unix_fs read') s' h = TStops
  end.
Proof.
  intros (_ & p & p' & F & F' & M). unfold sheet_told, filename_told. rewrite F, F'. cbn [fs_join unix_fs].
  destruct (matched_step p p' (sh_filename h) M) as [[-> ->]|(g & g' & -> & -> & X)]; [reflexivity|]. cbn [tbind]. unfold path_told. cbn [fs_read unix_fs].
  rewrite <- (proj1 C _ _ X). destruct (read g) as [t|e|] eqn:R; cbn [of_res tbind]; [|reflexivity|reflexivity].
  pose proof (said_alike g g' t) as A. destruct (of_said (schematic_said (Some g) t)) as [c|m|e|]; cbn [alike] in A; [|exact A|exact A|exact A].
  destruct A as (c' & E & S & G & G'). exists c'. split; [exact E|]. split; [exact S|]. exists g, g'. split; [exact G|]. split; [exact G'|]. split; [exact X|]. left. intros L. exact (proj2 C _ _ L R).
Qed.
Lemma twin_all n : forall s s', twins s s' -> all_told (unix_fs read) n s = all_told (unix_fs read') n s'.
Proof.
  induction n as [|n IH]; intros s s' T; [reflexivity|]. rewrite !told_all_S. destruct T as [(S1 & S2 & S3 & S4 & S5) X]. unfold components. rewrite S3, S4. generalize (comps (sc_elements s')) as v.
  assert (T : twins s s') by (split; [now repeat split|exact X]). clear S4. induction (sc_sheets s') as [|h l IHl]; intros v; [reflexivity|]. cbn [told_all].
  pose proof (twin_sheet s s' h T) as H. destruct (sheet_told (unix_fs read) s h) as [t|m|e|]; [|now rewrite H|now rewrite H|now rewrite H].
  destruct H as (t' & -> & Y). cbn [tbind]. rewrite (IH _ _ Y). destruct (all_told (unix_fs read') n t'); cbn [tbind]; [apply IHl|reflexivity|reflexivity|reflexivity].
Qed.
Lemma twin_component n r : forall s s', twins s s' -> component_told (unix_fs read) n r s = component_told (unix_fs read') n r s'.
Proof.
  induction n as [|n IH]; intros s s' T; [reflexivity|]. rewrite !told_S. destruct T as [(S1 & S2 & S3 & S4 & S5) X]. rewrite S3, S4. destruct (find_comp r (sc_elements s')); [reflexivity|].
  assert (T : twins s s') by (split; [now repeat split|exact X]). clear S4. induction (sc_sheets s') as [|h l IHl]; [reflexivity|]. cbn [told_go].
  pose proof (twin_sheet s s' h T) as H. destruct (sheet_told (unix_fs read) s h) as [t|m|e|]; [|now rewrite H|now rewrite H|now rewrite H].
  destruct H as (t' & -> & Y). cbn [tbind]. rewrite (IH _ _ Y). destruct (component_told (unix_fs read') n r t') as [c|m|e|]; [reflexivity|apply IHl|destruct e; try apply IHl; reflexivity|reflexivity].
Qed.
Lemma copy_all s s' p p' n : same_content s s' -> sc_filename s = Some p -> sc_filename s' = Some p' -> counterpart b D b' D' p p' -> ~ leads p b D ->
  all_told (unix_fs read) n s = all_told (unix_fs read') n s'.
Proof. intros S F F' X N. apply twin_all. split; [exact S|]. exists p, p'. repeat split; auto. Qed.
Lemma copy_component s s' p p' n r : same_content s s' -> sc_filename s = Some p -> sc_filename s' = Some p' -> counterpart b D b' D' p p' -> ~ leads p b D ->
  component_told (unix_fs read) n r s = component_told (unix_fs read') n r s'.
Proof. intros S F F' X N. apply twin_component. split; [exact S|]. exists p, p'. repeat split; auto. Qed.
(** Opening the first file, too *)
Lemma copy_open p p' : counterpart b D b' D' p p' ->
  match path_told (unix_fs read) p with
  | TFine s => exists s', path_told (unix_fs read') p' = TFine s' /\ same_content s s' /\ sc_filename s = Some p /\ sc_filename s' = Some p' /\ ~ leads p b D
  | TSays m => path_told (unix_fs read') p' = TSays m
  | TElse e => path_told (unix_fs read') p' = TElse e
  | TStops => path_told (unix_fs read') p' = TStops
  end.
Proof.
  intros X. unfold path_told. cbn [fs_read unix_fs]. rewrite <- (proj1 C _ _ X). destruct (read p) as [t|e|] eqn:R; cbn [of_res tbind]; [|reflexivity|reflexivity].
  pose proof (said_alike p p' t) as A. destruct (of_said (schematic_said (Some p) t)) as [c|m|e|]; cbn [alike] in A; [|exact A|exact A|exact A].
  destruct A as (c' & E & S & G & G'). exists c'. repeat (split; [assumption|]). intros L. exact (proj2 C _ _ L R).
Qed.
Lemma copy_walk p p' n : counterpart b D b' D' p p' ->
  tbind (path_told (unix_fs read) p) (all_told (unix_fs read) n) = tbind (path_told (unix_fs read') p') (all_told (unix_fs read') n).
Proof.
  intros X. pose proof (copy_open _ _ X) as O. destruct (path_told (unix_fs read) p) as [s|m|e|]; [|now rewrite O|now rewrite O|now rewrite O].
  destruct O as (s' & -> & S & F & F' & N). cbn [tbind]. exact (copy_all s s' p p' n S F F' X N).
Qed.
Lemma copy_search p p' n r : counterpart b D b' D' p p' ->
  tbind (path_told (unix_fs read) p) (component_told (unix_fs read) n r) = tbind (path_told (unix_fs read') p') (component_told (unix_fs read') n r).
Proof.
  intros X. pose proof (copy_open _ _ X) as O. destruct (path_told (unix_fs read) p) as [s|m|e|]; [|now rewrite O|now rewrite O|now rewrite O].
  destruct O as (s' & -> & S & F & F' & N). cbn [tbind]. exact (copy_component s s' p p' n r S F F' X N).
Qed.
End C.
