(** Lemmas for C100. *)
From Coq Require Import String Lia.
From Verif Require Import Base Str StrFacts SexpFacts FpData FpOps LyData LyOps SchData SchParse SchOps SchSpec SchOpsFacts CutSpec SchReadSpec ErrSpec Said SchErr ErrErase ErrWhole FileErr FileErrSpec FileErrFacts
  WalkSpec WalkFacts WalkFind WalkErr LySpec FpOpsSpec FpOpsFacts LyNetFacts WalkErrSpec.
Open Scope string_scope. Open Scope list_scope.

Lemma untold_bind {A B} (r : told A) (f : A -> told B) : untold (tbind r f) = bind (untold r) (fun a => untold (f a)).
Proof. destruct r; reflexivity. Qed.
Lemma untold_sheet fs s h : untold (sheet_told fs s h) = parse_file_for_sheet fs s h.
Proof.
  unfold sheet_told, filename_told, parse_file_for_sheet, filename_for_sheet, parse_file, path_told. rewrite untold_bind.
  destruct (sc_filename s) as [p|]; [|reflexivity]. cbn [of_option bind]. destruct (fs_join fs p (sh_filename h)) as [f|]; [|reflexivity]. cbn [of_option bind untold].
  rewrite untold_bind, untold_res. destruct (fs_read fs f) as [t| |]; [|reflexivity|reflexivity]. cbn [bind]. now rewrite untold_said, plain_schematic.
Qed.
Lemma sheet_iff fs s h m : sheet_told fs s h = TSays m <-> sheet_says fs s h m.
Proof.
  unfold sheet_told, filename_told, path_told. split.
  - destruct (sc_filename s) as [p|] eqn:F; [|intros [= <-]; now constructor]. destruct (fs_join fs p (sh_filename h)) as [f|] eqn:J; [|intros [= <-]; now apply (ss_dir _ _ _ p)].
    cbn [tbind]. destruct (fs_read fs f) as [t| |] eqn:R; cbn [of_res tbind]; try discriminate. intros H. assert (S : schematic_said (Some f) t = Says m) by (destruct (schematic_said (Some f) t); try discriminate H; now injection H as ->).
    apply schematic_says in S as (ls & T & X). exact (ss_text _ _ _ p f t ls m F J R T X).
  - intros [F|p F J|p f t ls x F J R T X]; rewrite F; [reflexivity|now rewrite J|]. rewrite J. cbn [tbind]. rewrite R. cbn [of_res tbind].
    rewrite (proj2 (schematic_says (Some f) t x)); [reflexivity|]. now exists ls.
Qed.

Definition told_all (fs : fsys) (n : nat) (s : schematic) : list sheet -> list component -> told (list component) :=
  fix go (l : list sheet) (v : list component) : told (list component) :=
    match l with
    | [] => TFine v
    | h :: t => tbind (sheet_told fs s h) (fun s2 => tbind (all_told fs n s2) (fun v2 => go t (v ++ v2)))
    end.
Lemma told_all_S fs n s : all_told fs (S n) s = told_all fs n s (sc_sheets s) (components s). Proof. reflexivity. Qed.
Definition told_go (fs : fsys) (n : nat) (r : str) (s : schematic) : list sheet -> told component :=
  fix go (l : list sheet) : told component :=
    match l with
    | [] => TSays (lit "could not find component " ++ r ++ lit " in schematic")
    | h :: t =>
        tbind (sheet_told fs s h) (fun s2 =>
          match component_told fs n r s2 with
          | TFine c => TFine c
          | TElse EFuel => TElse EFuel
          | TSays _ | TElse _ => go t
          | TStops => TStops
          end)
    end.
Lemma told_S fs n r s : component_told fs (S n) r s = match find_comp r (sc_elements s) with Some c => TFine c | None => told_go fs n r s (sc_sheets s) end.
Proof. reflexivity. Qed.
(** Texts apart, these are the operations. *)
Lemma untold_all fs n : forall s, untold (all_told fs n s) = all_components fs n s.
Proof.
  induction n as [|n IH]; intros s; [reflexivity|]. rewrite told_all_S, all_S. generalize (components s) as v. induction (sc_sheets s) as [|h l IHl]; intros v; [reflexivity|].
  cbn [told_all all_go]. rewrite untold_bind, untold_sheet. destruct (parse_file_for_sheet fs s h) as [t| |]; [|reflexivity|reflexivity]. cbn [bind]. rewrite untold_bind, IH.
  destruct (all_components fs n t) as [w| |]; [|reflexivity|reflexivity]. cbn [bind]. apply IHl.
Qed.
Lemma untold_component fs n r : forall s, untold (component_told fs n r s) = component_by_reference fs n r s.
Proof.
  induction n as [|n IH]; intros s; [reflexivity|]. rewrite told_S, by_S. destruct (find_comp r (sc_elements s)); [reflexivity|]. induction (sc_sheets s) as [|h l IHl]; [reflexivity|].
  cbn [told_go by_go]. rewrite untold_bind, untold_sheet. destruct (parse_file_for_sheet fs s h) as [t| |]; [|reflexivity|reflexivity]. cbn [bind]. rewrite <- IH.
  destruct (component_told fs n r t) as [c|m|e|]; cbn [untold]; [reflexivity|exact IHl|destruct e; (exact IHl || reflexivity)|reflexivity].
Qed.

Section W.
Variable fs : fsys.

Lemma all_told_fine n s l : all_components fs n s = Ok l -> all_told fs n s = TFine l.
Proof. rewrite <- untold_all. destruct (all_told fs n s); cbn; congruence. Qed.
Lemma sheet_fine s h t : opens fs s h t -> sheet_told fs s h = TFine t.
Proof. unfold opens. rewrite <- untold_sheet. destruct (sheet_told fs s h); cbn; congruence. Qed.
Lemma told_gathered s a : Forall (gathered fs s) a -> exists n, forall m, (n <= m)%nat -> forall l v, exists w, told_all fs m s (a ++ l) v = told_all fs m s l w.
Proof.
  induction 1 as [|h a (t & c & O & C) _ (n & IH)]; [exists 0%nat; intros m _ l v; exists v; reflexivity|].
  destruct (all_complete _ _ _ C) as (k & K). exists (Nat.max n k). intros m L l v. cbn [app told_all].
  rewrite (sheet_fine _ _ _ O). cbn [tbind]. rewrite (all_told_fine m t c) by (apply K; lia). cbn [tbind]. apply (IH m ltac:(lia) l (v ++ c)).
Qed.
Lemma walk_run s m : walk_says fs s m -> exists n, forall k, (n <= k)%nat -> all_told fs k s = TSays m.
Proof.
  induction 1 as [s a h b m E G S|s t m (a & h & b & E & G & O) W (n & IH)]; destruct (told_gathered s a G) as (k & K).
  - exists (Datatypes.S k). intros [|j] L; [lia|]. rewrite told_all_S, E. destruct (K j ltac:(lia) (h :: b) (components s)) as [w ->]. cbn [told_all]. apply sheet_iff in S. now rewrite S.
  - exists (Datatypes.S (Nat.max k n)). intros [|j] L; [lia|]. rewrite told_all_S, E. destruct (K j ltac:(lia) (h :: b) (components s)) as [w ->]. cbn [told_all].
    rewrite (sheet_fine _ _ _ O). cbn [tbind]. rewrite IH by lia. reflexivity.
Qed.
Lemma run_walk n : forall s m, all_told fs n s = TSays m -> walk_says fs s m.
Proof.
  induction n as [|n IH]; intros s m; [discriminate|]. rewrite told_all_S.
  assert (K : forall a l v, sc_sheets s = a ++ l -> Forall (gathered fs s) a -> told_all fs n s l v = TSays m -> walk_says fs s m).
  { intros a l. revert a. induction l as [|h l IHl]; intros a v E G; [discriminate|]. cbn [told_all]. destruct (sheet_told fs s h) as [t|x|e|] eqn:S; cbn [tbind]; try discriminate.
    - assert (O : opens fs s h t) by (unfold opens; rewrite <- untold_sheet, S; reflexivity). destruct (all_told fs n t) as [w|x|e|] eqn:C; cbn [tbind]; try discriminate.
      + apply (IHl (a ++ [h])); [now rewrite <- app_assoc|]. apply Forall_app. split; [exact G|]. constructor; [|constructor]. exists t, w. split; [exact O|]. apply (all_sound fs n). now rewrite <- untold_all, C.
      + intros [= ->]. apply (ws_in _ _ t); [now exists a, h, l|]. exact (IH _ _ C).
    - intros [= ->]. apply sheet_iff in S. exact (ws_at _ _ a h l _ E G S). }
  exact (K [] _ _ eq_refl (Forall_nil _)).
Qed.
Lemma walk_iff s m : walk_says fs s m <-> exists n, forall k, (n <= k)%nat -> all_told fs k s = TSays m.
Proof. split; [apply walk_run|]. intros (n & H). exact (run_walk n s m (H n (le_n n))). Qed.

Hypothesis NF : forall p, fs_read fs p <> Err EFuel.
Variable r : str.
Lemma told_missed s a : missed fs r s a -> exists n, forall m, (n <= m)%nat -> forall l, told_go fs m r s (a ++ l) = told_go fs m r s l.
Proof.
  induction 1 as [s|s h t f l O F _ (k & K)]; [exists 0%nat; reflexivity|]. destruct (fails_run fs r NF _ _ F) as (n & N).
  exists (Nat.max n k). intros m L l'. cbn [app told_go]. rewrite (sheet_fine _ _ _ O). cbn [tbind].
  specialize (N m ltac:(lia)). rewrite <- untold_component in N. apply (fails_nf fs r NF) in F.
  destruct (component_told fs m r t) as [c|x|e|]; cbn [untold] in N; try discriminate N; [apply K; lia|]. injection N as ->. destruct f; try (apply K; lia). contradiction.
Qed.
Lemma search_run s m : search_says fs r s m -> exists n, forall k, (n <= k)%nat -> component_told fs k r s = TSays m.
Proof.
  intros [A M|a h b x A E M S].
  - destruct (told_missed _ _ M) as (n & N). exists (Datatypes.S n). intros [|k] L; [lia|]. rewrite told_S. apply find_none_iff in A as ->. rewrite <- (app_nil_r (sc_sheets s)), N by lia. reflexivity.
  - destruct (told_missed _ _ M) as (n & N). exists (Datatypes.S n). intros [|k] L; [lia|]. rewrite told_S. apply find_none_iff in A as ->. rewrite E, N by lia. cbn [told_go].
    apply sheet_iff in S. now rewrite S.
Qed.
Lemma missed_snoc s a h t e : missed fs r s a -> opens fs s h t -> fails fs r t e -> missed fs r s (a ++ [h]).
Proof. intros M O F. induction M as [s|s h' t' e' l O' F' M IH]; cbn [app]; [now apply (missed_cons fs r s h t e []); [| |constructor]|]. apply (missed_cons fs r s h' t' e'); auto. Qed.
Lemma run_search n s m : component_told fs n r s = TSays m -> search_says fs r s m.
Proof.
  destruct n as [|n]; [discriminate|]. rewrite told_S. destruct (find_comp r (sc_elements s)) eqn:F; [discriminate|]. apply find_none_iff in F.
  assert (K : forall a l, sc_sheets s = a ++ l -> missed fs r s a -> told_go fs n r s l = TSays m -> search_says fs r s m).
  { intros a l. revert a. induction l as [|h l IHl]; intros a E M; cbn [told_go].
    - intros [= <-]. rewrite app_nil_r in E. subst a. now constructor.
    - destruct (sheet_told fs s h) as [t|x|e|] eqn:S; cbn [tbind]; try discriminate.
      + assert (O : opens fs s h t) by (unfold opens; rewrite <- untold_sheet, S; reflexivity).
        assert (G : forall e, untold (component_told fs n r t) = Err e -> e <> EFuel -> told_go fs n r s l = TSays m -> search_says fs r s m).
        { intros e U N. rewrite untold_component in U. apply (IHl (a ++ [h])); [now rewrite <- app_assoc|]. apply (missed_snoc s a h t e M O). exact (run_fails fs r n t e U N). }
        destruct (component_told fs n r t) as [c|x|e|]; cbn [untold] in G; try discriminate; [apply (G EOther eq_refl); discriminate|].
        destruct e; try discriminate; (eapply G; [reflexivity|discriminate]).
      + intros [= ->]. apply sheet_iff in S. exact (se_sheet _ _ _ a h l _ F E M S). }
  exact (K [] _ eq_refl (missed_nil fs r s)).
Qed.
Lemma search_iff s m : search_says fs r s m <-> exists n, forall k, (n <= k)%nat -> component_told fs k r s = TSays m.
Proof. split; [apply search_run|]. intros (n & H). exact (run_search n s m (H n (le_n n))). Qed.
End W.

(** ** Boards *)
Definition told_kind (r : told unit) : option ekind := match r with TFine _ => None | TSays _ => Some EOther | TElse e => Some e | TStops => None end.
Lemma change_kind r f l : (fst (change_first r f l), told_kind (snd (change_first r f l))) = LyOps.modify_first r f l.
Proof.
  induction l as [|e l IH]; [reflexivity|]. destruct e; cbn [change_first LyOps.modify_first]; try (destruct (is_reference_with_name _ r); [reflexivity|]);
    destruct (change_first r f l), (LyOps.modify_first r f l); cbn [fst snd] in *; injection IH as -> <-; reflexivity.
Qed.
Lemma modify_kind l r f : (fst (modify_told l r f), told_kind (snd (modify_told l r f))) = modify_module l r f.
Proof.
  unfold modify_told, modify_module. pose proof (change_kind r f (ly_elements l)) as H. destruct (change_first r f (ly_elements l)), (LyOps.modify_first r f (ly_elements l)). cbn [fst snd] in *. now injection H as -> <-.
Qed.
Lemma change_result r f l : snd (change_first r f l) = if existsb (fun e => match e with YModule m => is_reference_with_name m r | _ => false end) l then TFine tt else TSays (lit "did not find module with reference " ++ r).
Proof.
  induction l as [|e l IH]; [reflexivity|]. destruct e; cbn [change_first existsb orb]; try (destruct (is_reference_with_name _ r); [reflexivity|cbn [orb]]); destruct (change_first r f l); exact IH.
Qed.
Lemma modify_result l r f : snd (modify_told l r f) = if existsb (fun e => match e with YModule m => is_reference_with_name m r | _ => false end) (ly_elements l) then TFine tt else TSays (lit "did not find module with reference " ++ r).
Proof. unfold modify_told. rewrite <- (change_result r f). destruct (change_first r f (ly_elements l)). reflexivity. Qed.
Lemma change_same r f l : existsb (fun e => match e with YModule m => is_reference_with_name m r | _ => false end) l = false -> fst (change_first r f l) = l.
Proof.
  induction l as [|e l IH]; [reflexivity|]. destruct e; cbn [change_first existsb orb]; try (destruct (is_reference_with_name _ r); [discriminate|cbn [orb]]); intros H; specialize (IH H);
    destruct (change_first r f l); cbn [fst] in *; now subst.
Qed.
Lemma modify_says l r f m : snd (modify_told l r f) = TSays m <-> m = lit "did not find module with reference " ++ r /\ forall x, In x (get_modules l) -> is_reference_with_name x r = false.
Proof.
  rewrite modify_result. set (p := fun e => match e with YModule m => is_reference_with_name m r | _ => false end).
  assert (K : existsb p (ly_elements l) = false <-> forall x, In x (get_modules l) -> is_reference_with_name x r = false).
  { split.
    - intros H x I. apply in_flat_map in I as (e & I & J). destruct e; try contradiction. destruct J as [->|[]]. destruct (is_reference_with_name x r) eqn:E; [|reflexivity].
      rewrite <- H. symmetry. apply existsb_exists. now exists (YModule x).
    - intros H. destruct (existsb p (ly_elements l)) eqn:E; [|reflexivity]. apply existsb_exists in E as (e & I & J). destruct e as [x| | | | | | | | | | |]; try discriminate J. cbn in J. rewrite <- J.
      apply H. apply in_flat_map. exists (YModule x). split; [exact I|now left]. }
  destruct (existsb p (ly_elements l)); split.
  - discriminate.
  - intros [_ H]. apply K in H. discriminate H.
  - intros [= <-]. split; [reflexivity|now apply K].
  - now intros [-> _].
Qed.
Lemma modify_unchanged l r f m : snd (modify_told l r f) = TSays m -> fst (modify_told l r f) = l.
Proof.
  rewrite modify_result. destruct (existsb _ (ly_elements l)) eqn:E; [discriminate|]. intros _. unfold modify_told. pose proof (change_same r f _ E) as H.
  destruct (change_first r f (ly_elements l)) as [es k]. cbn [fst] in *. subst es. now destruct l.
Qed.
Lemma modify_lacks l r f m : snd (modify_told l r f) = TSays m <->
  m = lit "did not find module with reference " ++ r /\ forall x, In (YModule x) (ly_elements l) -> ~ carries r x.
Proof.
  rewrite modify_says. assert (K : (forall x, In x (get_modules l) -> is_reference_with_name x r = false) <-> (forall x, In (YModule x) (ly_elements l) -> ~ carries r x)).
  { split; intros H x I.
    - intros C. apply is_ref_iff in C. rewrite H in C; [discriminate C|]. apply in_flat_map. exists (YModule x). split; [exact I|now left].
    - apply in_flat_map in I as (e & I & J). destruct e; try contradiction. destruct J as [->|[]]. destruct (is_reference_with_name x r) eqn:E; [|reflexivity]. exfalso. apply (H x I). now apply is_ref_iff. }
  now rewrite K.
Qed.
Lemma unnamed_kind new n : (fst (unnamed_told new n), told_kind (snd (unnamed_told new n))) = set_unnamed_net new n.
Proof. unfold unnamed_told, set_unnamed_net. destruct (is_unnamed_net n) as [[a b]|]; reflexivity. Qed.
Lemma unnamed_says new n m : snd (unnamed_told new n) = TSays m <-> m = lit "net is not an unnamed net: " ++ n /\ forall a b, ~ unnamed_form n a b.
Proof.
  unfold unnamed_told. destruct (is_unnamed_net n) as [[a b]|] eqn:E; cbn [snd]; split.
  - discriminate.
  - intros [_ H]. apply is_unnamed_iff' in E. destruct (H a b E).
  - intros [= <-]. split; [reflexivity|]. intros a b H. apply is_unnamed_iff' in H. congruence.
  - now intros [-> _].
Qed.
Lemma show_one a b : show_error a = show_error b -> a = b.
Proof. destruct a, b; cbn [show_error]; intros H; try (apply app_inv_head in H; now subst); discriminate H. Qed.
