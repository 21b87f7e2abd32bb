(** Lemmas about paths (C72). *)
From Coq Require Import String Lia.
From Verif Require Import Base Str StrFacts SchData SchParse SchOps SchReadSpec SchReadFacts Paths PathSpec.
Open Scope string_scope. Open Scope list_scope.

Lemma seg_ne s : segments s <> [].
Proof. unfold segments. destruct s as [|c r]; cbn [split_on]; [discriminate|]. destruct (c =? 47)%N; [discriminate|]. destruct (split_on _ r); discriminate. Qed.
Lemma seg_app a b : segments (a ++ 47%N :: b) = segments a ++ segments b.
Proof.
  unfold segments. induction a as [|c a IH]; cbn [app split_on].
  - reflexivity.
  - destruct (c =? 47)%N; [now rewrite IH|]. rewrite IH. pose proof (seg_ne a) as N. unfold segments in N. destruct (split_on _ a); [contradiction|reflexivity].
Qed.
Lemma seg_one a : ~ In 47%N a -> segments a = [a].
Proof.
  unfold segments. induction a as [|c a IH]; intros N; [reflexivity|]. cbn [split_on]. destruct (N.eqb_spec c 47) as [E|_]; [subst; contradiction N; now left|].
  rewrite IH; [reflexivity|]. intros I. apply N. now right.
Qed.
Lemma pieces_seg p l : pieces p l -> segments p = l.
Proof. induction 1 as [a N|a b l N P IH]; [now apply seg_one|]. rewrite seg_app, IH, (seg_one a N). reflexivity. Qed.
Lemma seg_pieces p : pieces p (segments p).
Proof.
  unfold segments. induction p as [|c p IH]; [constructor; intros []|]. cbn [split_on]. destruct (N.eqb_spec c 47) as [->|D].
  - apply (pc_more []); [intros []|exact IH].
  - inversion IH as [a N E|a b l N P E1 E2].
    + rewrite <- E in *. constructor. intros [I|I]; [congruence|contradiction].
    + subst. rewrite <- E2 in IH. apply (pc_more (c :: a)); [|exact P]. intros [I|I]; [congruence|contradiction].
Qed.
Definition names (p : str) : list str := filter step (segments p).
Lemma leads_iff p b l : leads p b l <-> b = rooted p /\ l = names p.
Proof.
  unfold leads, names. split.
  - intros (v & V & -> & ->). apply pieces_seg in V. subst. now split.
  - intros [-> ->]. exists (segments p). split; [apply seg_pieces|now split].
Qed.
Lemma step_dull s : step s = negb (dull s).
Proof. unfold step, dull. destruct s; [reflexivity|]. cbn [str_eqb is_empty orb negb andb]. reflexivity. Qed.
Lemma trim_names l : filter step (trim_back l) = filter step l.
Proof.
  induction l as [|s r IH]; [reflexivity|]. cbn [trim_back filter]. destruct (trim_back r) as [|x t] eqn:E.
  - rewrite <- IH. rewrite step_dull. destruct (dull s) eqn:D; cbn [negb filter]; [reflexivity|]. now rewrite step_dull, D.
  - cbn [filter] in *. rewrite IH. reflexivity.
Qed.
Lemma trim_last l : trim_back l <> [] -> exists a s, trim_back l = a ++ [s] /\ dull s = false.
Proof.
  induction l as [|s r IH]; [contradiction|]. cbn [trim_back]. destruct (trim_back r) as [|x t] eqn:E.
  - destruct (dull s) eqn:D; [contradiction|]. intros _. exists [], s. now split.
  - intros _. destruct IH as (a & y & A & D); [discriminate|]. rewrite A. exists (s :: a), y. now split.
Qed.
Lemma slashed_app a b : a <> [] -> b <> [] -> slashed (a ++ b) = slashed a ++ 47%N :: slashed b.
Proof.
  intros A B. induction a as [|s a IH]; [contradiction|]. destruct a as [|t a].
  - destruct b; [contradiction|reflexivity].
  - change (slashed ((s :: t :: a) ++ b)) with (s ++ 47%N :: slashed ((t :: a) ++ b)). rewrite IH by discriminate. change (slashed (s :: t :: a)) with (s ++ 47%N :: slashed (t :: a)). now rewrite <- app_assoc.
Qed.
Lemma slashed_seg s : slashed (segments s) = s.
Proof.
  pose proof (seg_pieces s) as P. induction P as [a N|a b l N P IH]; [reflexivity|]. destruct l as [|x l]; [inversion P|]. change (slashed (a :: x :: l)) with (a ++ 47%N :: slashed (x :: l)). now rewrite IH.
Qed.
(** The pieces of [slashed], for pieces without slashes *)
Lemma seg_slashed l : l <> [] -> Forall (fun s => ~ In 47%N s) l -> segments (slashed l) = l.
Proof.
  intros N F. induction F as [|s l S F IH]; [contradiction|]. destruct l as [|t l]; [now apply seg_one|].
  change (slashed (s :: t :: l)) with (s ++ 47%N :: slashed (t :: l)). rewrite seg_app, (seg_one s S), IH by discriminate. reflexivity.
Qed.
Lemma seg_free s : Forall (fun s => ~ In 47%N s) (segments s).
Proof. pose proof (seg_pieces s) as P. induction P; constructor; auto. Qed.
Lemma trim_sub (P : str -> Prop) l : Forall P l -> Forall P (trim_back l).
Proof. induction 1 as [|s r S F IH]; [constructor|]. cbn [trim_back]. destruct (trim_back r); [destruct (dull s); constructor; auto|constructor; auto]. Qed.
Lemma last_sub {A} (P : A -> Prop) l : Forall P l -> Forall P (removelast l).
Proof. induction 1 as [|s r S F IH]; [constructor|]. cbn [removelast]. destruct r; [constructor|constructor; auto]. Qed.

Lemma rooted_iff p : rooted p = true <-> exists r, p = 47%N :: r.
Proof.
  unfold rooted. split; [|intros [r ->]; reflexivity]. destruct p as [|c r]; [discriminate|]. change (N.eqb 47 c && true = true -> exists r0, c :: r = 47%N :: r0).
  rewrite Bool.andb_true_r. intros H. apply N.eqb_eq in H. subst. now exists r.
Qed.
Lemma dot_iff p : leads_dot p = true <-> p = lit "." \/ exists r, p = lit "./" ++ r.
Proof.
  unfold leads_dot. rewrite Bool.orb_true_iff. split.
  - intros [H|H]; [left; now apply str_eqb_eq|right]. destruct p as [|a [|b r]]; try discriminate H; [change (N.eqb 46 a && false = true) in H; rewrite Bool.andb_false_r in H; discriminate H|].
    change (N.eqb 46 a && (N.eqb 47 b && true) = true) in H. apply Bool.andb_true_iff in H as [A B]. rewrite Bool.andb_true_r in B. apply N.eqb_eq in A, B. subst. now exists r.
  - intros [->|[r ->]]; [left|right]; reflexivity.
Qed.
Lemma rooted_slashed x r : x <> [] -> ~ In 47%N x -> rooted (slashed (x :: r)) = false.
Proof.
  intros N I. destruct x as [|c x]; [contradiction|]. assert (E : exists t, slashed ((c :: x) :: r) = c :: t) by (destruct r; eexists; reflexivity). destruct E as [t ->].
  destruct (rooted (c :: t)) eqn:R; [|reflexivity]. apply rooted_iff in R as [u U]. injection U as -> _. contradiction I. now left.
Qed.
Lemma seg_head p : rooted p = false -> p <> [] -> exists x r, segments p = x :: r /\ x <> [].
Proof.
  intros R N. destruct p as [|c p]; [contradiction|]. unfold segments. cbn [split_on]. destruct (N.eqb_spec c 47) as [->|D]; [discriminate R|]. destruct (split_on _ p); eexists _, _; (split; [reflexivity|discriminate]).
Qed.
Lemma trim_cons x r : trim_back (x :: r) <> [] -> exists t, trim_back (x :: r) = x :: t.
Proof. cbn [trim_back]. destruct (trim_back r); [destruct (dull x); [contradiction|intros _; now exists []]|intros _; eexists; reflexivity]. Qed.
Lemma body_names p : filter step (segments (skipn (before_body p) p)) = names p.
Proof.
  unfold names, before_body. destruct (rooted p) eqn:R; cbn [orb].
  - apply rooted_iff in R as [r ->]. reflexivity.
  - destruct (leads_dot p) eqn:D; [|reflexivity]. apply dot_iff in D as [->|[r ->]]; [reflexivity|]. reflexivity.
Qed.
Lemma parent_leads p d : path_parent p = Some d -> leads d (rooted p) (removelast (names p)).
Proof.
  intros H. unfold path_parent in H. cbv zeta in H. rewrite <- body_names. rewrite <- trim_names. set (l := trim_back (segments (skipn (before_body p) p))) in *.
  destruct l as [|y l'] eqn:L.
  { destruct (leads_dot p) eqn:D; [|discriminate H]. injection H as <-. apply leads_iff. cbn [filter removelast]. split; [|reflexivity].
    apply dot_iff in D as [->|[r ->]]; reflexivity. }
  assert (NE : trim_back (segments (skipn (before_body p) p)) <> []) by (fold l; rewrite L; discriminate).
  destruct (trim_last _ NE) as (a & s & A & D). fold l in A. rewrite <- L in *. clear L y l'. rewrite A in *. rewrite removelast_last in H.
  assert (F : Forall (fun s => ~ In 47%N s) a) by (pose proof (trim_sub _ _ (seg_free (skipn (before_body p) p))) as F; fold l in F; rewrite A in F; apply Forall_app in F; tauto).
  rewrite filter_app. cbn [filter]. rewrite step_dull, D. cbn [negb]. rewrite removelast_last.
  assert (H' : Some (firstn (before_body p) p ++ slashed (trim_back a)) = Some d) by (destruct (a ++ [s]) eqn:E; [now destruct a|exact H]). clear H. injection H' as <-.
  apply trim_sub in F. rewrite <- trim_names. apply leads_iff. unfold names. unfold before_body in *. destruct (rooted p) eqn:R; cbn [orb] in *.
  - pose proof (proj1 (rooted_iff p) R) as [r ->]. cbn [firstn app]. split; [reflexivity|]. change (segments (47%N :: slashed (trim_back a))) with ([] :: segments (slashed (trim_back a))).
    destruct (trim_back a) as [|x t] eqn:T; [reflexivity|]. rewrite seg_slashed; [reflexivity|discriminate|exact F].
  - destruct (leads_dot p) eqn:DP.
    + apply dot_iff in DP as [->|[r ->]]; [exfalso; apply NE; reflexivity|]. cbn [firstn app] in *. change (skipn 1 (lit "./" ++ r)) with (47%N :: r) in *.
      change (segments (47%N :: r)) with ([] :: segments r) in *. destruct (trim_cons _ _ NE) as [t T]. pose proof (eq_trans (eq_sym T) A) as A'. clear A. rename A' into A. destruct a as [|x a]; [injection A as <- _; discriminate D|].
      injection A as <- _. cbn [trim_back dull is_empty orb] in *. destruct (trim_back a) as [|x t'] eqn:T'; [split; reflexivity|].
      change (slashed ([] :: x :: t')) with (47%N :: slashed (x :: t')). split; [reflexivity|]. cbn [app].
      change (46%N :: 47%N :: slashed (x :: t')) with ([46%N] ++ 47%N :: slashed (x :: t')). rewrite seg_app, seg_slashed; [reflexivity|discriminate|]. inversion F; assumption.
    + cbn [firstn app skipn] in *. destruct (trim_back a) as [|x t] eqn:T; [split; reflexivity|].
      rewrite seg_slashed by (exact F || discriminate). split; [|reflexivity].
      destruct p as [|c p]; [exfalso; apply NE; reflexivity|]. destruct (seg_head (c :: p) R) as (z & q & Z & ZN); [discriminate|].
      rewrite Z in NE. destruct (trim_cons _ _ NE) as [t' T']. assert (A' : trim_back (segments (c :: p)) = a ++ [s]) by exact A. clear A. rename A' into A. rewrite Z, T' in A. destruct a as [|z' a]; [discriminate T|]. injection A as <- _.
      assert (NT : trim_back (z :: a) <> []) by (rewrite T; discriminate). destruct (trim_cons _ _ NT) as [t'' T'']. rewrite T'' in T. injection T as <- <-.
      symmetry. apply rooted_slashed; [exact ZN|]. inversion F; assumption.
Qed.
Lemma parent_none p : path_parent p = None <-> names p = [] /\ (p = [] \/ rooted p = true).
Proof.
  unfold path_parent. cbv zeta. rewrite <- body_names, <- trim_names.
  split.
  - destruct (trim_back (segments (skipn (before_body p) p))) as [|y l0] eqn:L; [|discriminate]. destruct (leads_dot p) eqn:D; [discriminate|]. intros _. split; [reflexivity|].
    destruct (rooted p) eqn:R; [now right|left]. unfold before_body in L. rewrite R, D in L. cbn [orb skipn] in L. destruct p as [|c p]; [reflexivity|exfalso].
    destruct (seg_head (c :: p) R) as (x & r & E & N); [discriminate|].  rewrite E in L. cbn [trim_back] in L. destruct (trim_back r); [|discriminate L]. destruct (dull x) eqn:X; [|discriminate L].
    unfold dull in X. destruct x as [|c' x]; [contradiction|]. cbn [is_empty orb] in X. apply str_eqb_eq in X. rewrite X in E. rewrite <- (slashed_seg (c :: p)), E in D.
    destruct r; discriminate D.
  - intros [H E]. destruct (trim_back (segments (skipn (before_body p) p))) as [|y l0] eqn:L.
    + destruct (leads_dot p) eqn:D; [exfalso|reflexivity]. apply dot_iff in D. destruct E as [->|E]; [destruct D as [D|[r D]]; discriminate D|]. apply rooted_iff in E as [r ->]. destruct D as [D|[q D]]; discriminate D.
    + exfalso. assert (NE : trim_back (segments (skipn (before_body p) p)) <> []) by (rewrite L; discriminate). destruct (trim_last _ NE) as (a & s & A & D). rewrite <- L, A, filter_app in H. cbn [filter] in H. rewrite step_dull, D in H. destruct (filter step a); discriminate H.
Qed.
Lemma join_leads d f b l : leads d b l -> leads (path_join d f) (if rooted f then true else b) (if rooted f then names f else l ++ names f).
Proof.
  intros H. apply leads_iff in H as [-> ->]. apply leads_iff. unfold path_join. destruct (rooted f) eqn:R; [now split|].
  destruct d as [|c d]; [cbn [is_empty orb app]; split; [now rewrite R|reflexivity]|]. cbn [is_empty orb].
  destruct (N.eqb_spec (last (c :: d) 0) 47) as [E|E].
  - split; [reflexivity|]. destruct (@exists_last _ (c :: d)) as (e & z & Z); [discriminate|]. rewrite Z in E. rewrite last_last in E. subst z.
    change (c :: d ++ f) with ((c :: d) ++ f). rewrite Z, <- app_assoc. cbn [app]. unfold names. rewrite !seg_app, !filter_app. cbn. now rewrite app_nil_r.
  - split; [reflexivity|]. unfold names. change (c :: d ++ 47%N :: f) with ((c :: d) ++ 47%N :: f). now rewrite seg_app, filter_app.
Qed.

(** ** Sheets *)
Lemma trim_end l s : dull s = false -> trim_back (l ++ [s]) = l ++ [s].
Proof. intros D. induction l as [|x l IH]; cbn [app trim_back]; [now rewrite D|]. rewrite IH. destruct (l ++ [s]) eqn:E; [now destruct l|reflexivity]. Qed.
Lemma step_not_dull s : step s = true -> dull s = false.
Proof. rewrite step_dull. destruct (dull s); [discriminate|reflexivity]. Qed.
Lemma ends_seg d : ends_in_step d -> trim_back (segments d) = segments d.
Proof.
  intros (s & S & N & [->|[e ->]]); apply step_not_dull in S.
  - rewrite (seg_one _ N). cbn [trim_back]. now rewrite S.
  - rewrite seg_app, (seg_one _ N). now apply trim_end.
Qed.
Lemma ends_skip d : ends_in_step d -> rooted d = true \/ leads_dot d = true -> ends_in_step (skipn 1 d).
Proof.
  intros (s & S & N & [->|[e ->]]) H.
  - exfalso. destruct H as [H|H]; [apply rooted_iff in H as [r ->]; apply N; now left|]. apply dot_iff in H as [->|[r ->]]; [discriminate S|]. apply N. right. now left.
  - exists s. split; [exact S|split; [exact N|]]. destruct e as [|c e]; [left; reflexivity|right; exists e; reflexivity].
Qed.
Lemma parent_by p a s : trim_back (segments (skipn (before_body p) p)) = a ++ [s] -> path_parent p = Some (firstn (before_body p) p ++ slashed (trim_back a)).
Proof.
  intros H. unfold path_parent. cbv zeta. rewrite H. rewrite <- (removelast_last a s) at 2. destruct (a ++ [s]) eqn:E; [now destruct a|reflexivity].
Qed.
Lemma parent_beside d n : ends_in_step d \/ d = lit "." -> ~ In 47%N n -> step n = true -> path_parent (d ++ 47%N :: n) = Some d.
Proof.
  intros [E| ->] I S; apply step_not_dull in S.
  - assert (NE : d <> []) by (destruct E as (s & S' & _ & [->|[e ->]]); [destruct s; discriminate|destruct e; discriminate]).
    set (k := before_body (d ++ 47%N :: n)).
    assert (K : exists x y, d = x ++ y /\ firstn k (d ++ 47%N :: n) = x /\ skipn k (d ++ 47%N :: n) = y ++ 47%N :: n /\ ends_in_step y).
    { destruct d as [|c d]; [contradiction|]. unfold k, before_body. destruct (rooted ((c :: d) ++ 47%N :: n)) eqn:R; [|destruct (leads_dot ((c :: d) ++ 47%N :: n)) eqn:D]; cbn [orb].
      - exists [c], d. split; [reflexivity|split; [reflexivity|split; [reflexivity|]]]. apply (ends_skip (c :: d) E). left. exact R.
      - exists [c], d. split; [reflexivity|split; [reflexivity|split; [reflexivity|]]]. apply (ends_skip (c :: d) E). right. apply dot_iff. apply dot_iff in D as [D|[r D]].
        + destruct d as [|c' d]; cbn [app] in D; [discriminate D|destruct d; discriminate D].
        + change (lit "./" ++ r) with (46%N :: 47%N :: r) in D. assert (C : c = 46%N) by (injection D; auto). subst c. destruct d as [|c' d]; [now left|]. assert (C : c' = 47%N) by (injection D; auto). subst c'. right. exists d. reflexivity.
      - exists [], (c :: d). split; [reflexivity|split; [reflexivity|split; [reflexivity|exact E]]]. }
    destruct K as (x & y & -> & F & G & Y). rewrite (parent_by _ (segments y) n).
    + fold k. now rewrite F, (ends_seg _ Y), slashed_seg.
    + fold k. now rewrite G, seg_app, (seg_one _ I), (trim_end _ _ S).
  - rewrite (parent_by _ [[]] n); [reflexivity|]. change (skipn (before_body (lit "." ++ 47%N :: n)) (lit "." ++ 47%N :: n)) with ([] ++ 47%N :: n).
    rewrite seg_app, (seg_one _ I), (trim_end _ _ S). reflexivity.
Qed.
Lemma parent_alone n : ~ In 47%N n -> step n = true -> path_parent n = Some [].
Proof.
  intros I S. unfold path_parent. assert (B : before_body n = 0%nat).
  { unfold before_body. destruct (rooted n) eqn:R; [apply rooted_iff in R as [r ->]; contradiction I; now left|]. destruct (leads_dot n) eqn:D; [|reflexivity]. exfalso.
    apply dot_iff in D as [->|[r ->]]; [discriminate S|]. apply I. right. now left. }
  rewrite B. cbn [skipn firstn app]. rewrite (seg_one _ I). cbn [trim_back]. apply step_not_dull in S. rewrite S. reflexivity.
Qed.
Lemma last_end d : ends_in_step d -> (last d 0 =? 47)%N = false.
Proof.
  intros (s & S & N & H). destruct (@exists_last _ s) as (t & z & ->); [destruct s; [discriminate S|discriminate]|].
  assert (Z : last d 0%N = z) by (destruct H as [->|[e ->]]; [apply last_last|]; change (47%N :: t ++ [z]) with ((47%N :: t) ++ [z]); rewrite app_assoc; apply last_last).
  rewrite Z. apply N.eqb_neq. intros ->. apply N. apply in_or_app. right. now left.
Qed.
Lemma beside d n f : ends_in_step d \/ d = lit "." -> ~ In 47%N n -> step n = true -> rooted f = false -> sheet_path (d ++ 47%N :: n) f = Some (d ++ 47%N :: f).
Proof.
  intros E I S R. unfold sheet_path. rewrite (parent_beside _ _ E I S). unfold path_join. rewrite R. destruct E as [E| ->]; [|reflexivity]. rewrite (last_end _ E).
  destruct d; [destruct E as (s & S' & _ & [<-|[e E]]); [discriminate S'|destruct e; discriminate E]|reflexivity].
Qed.
Lemma alone n f : ~ In 47%N n -> step n = true -> sheet_path n f = Some f.
Proof. intros I S. unfold sheet_path. rewrite (parent_alone _ I S). unfold path_join. now destruct (rooted f). Qed.
Lemma at_root p r f : sheet_path p (47%N :: r) = Some f -> f = 47%N :: r.
Proof. unfold sheet_path. destruct (path_parent p); [|discriminate]. intros H. now injection H. Qed.
Lemma sheet_leads p f g : sheet_path p f = Some g ->
  leads g (if rooted f then true else rooted p) (if rooted f then names f else removelast (names p) ++ names f).
Proof. unfold sheet_path. destruct (path_parent p) as [d|] eqn:D; [|discriminate]. intros H. injection H as <-. apply join_leads, parent_leads, D. Qed.

Lemma sheet_file r s h p g b l b' l' : sc_filename s = Some p -> filename_for_sheet (unix_fs r) s h = Ok g -> leads p b l -> leads (sh_filename h) b' l' ->
  leads g (b || b') (if b' then l' else removelast l ++ l').
Proof.
  intros F H L L'. apply leads_iff in L as [-> ->], L' as [-> ->]. unfold filename_for_sheet in H. rewrite F in H. cbn [of_option bind unix_fs fs_join] in H.
  destruct (sheet_path p (sh_filename h)) as [q|] eqn:E; [|discriminate H]. injection H as <-. apply sheet_leads in E. destruct (rooted (sh_filename h)); [rewrite Bool.orb_true_r|rewrite Bool.orb_false_r]; exact E.
Qed.
Lemma sheet_none r s h : (forall g, filename_for_sheet (unix_fs r) s h <> Ok g) <-> (sc_filename s = None \/ exists p b, sc_filename s = Some p /\ leads p b [] /\ (p = [] \/ b = true)).
Proof.
  unfold filename_for_sheet. destruct (sc_filename s) as [p|]; cbn [of_option bind unix_fs fs_join].
  - split.
    + intros H. right. assert (N : path_parent p = None). { destruct (path_parent p) eqn:E; [|reflexivity]. exfalso. unfold sheet_path in H. rewrite E in H. cbn [of_option] in H. now eapply H. }
      apply parent_none in N as [N D]. exists p, (rooted p). split; [reflexivity|split; [apply leads_iff; now split|exact D]].
    + intros [H|(q & b & E & L & D)]; [discriminate H|]. injection E as <-. apply leads_iff in L as [-> L]. assert (N : path_parent p = None) by (apply parent_none; now split).
      unfold sheet_path. rewrite N. cbn [of_option]. discriminate.
  - split; [now left|discriminate].
Qed.
Lemma sheet_beside r s h d n : sc_filename s = Some (d ++ 47%N :: n) -> ends_in_step d \/ d = lit "." -> ~ In 47%N n -> step n = true -> starts_with (lit "/") (sh_filename h) = false ->
  filename_for_sheet (unix_fs r) s h = Ok (d ++ 47%N :: sh_filename h).
Proof. intros F E I S R. unfold filename_for_sheet. rewrite F. cbn [of_option bind unix_fs fs_join]. now rewrite (beside _ _ _ E I S R). Qed.
Lemma sheet_alone r s h n : sc_filename s = Some n -> ~ In 47%N n -> step n = true -> filename_for_sheet (unix_fs r) s h = Ok (sh_filename h).
Proof. intros F I S. unfold filename_for_sheet. rewrite F. cbn [of_option bind unix_fs fs_join]. now rewrite (alone _ _ I S). Qed.
Lemma sheet_loaded r s h c : parse_file_for_sheet (unix_fs r) s h = Ok c -> exists g, filename_for_sheet (unix_fs r) s h = Ok g /\ sc_filename c = Some g.
Proof.
  unfold parse_file_for_sheet. destruct (filename_for_sheet (unix_fs r) s h) as [g| |]; try discriminate. cbn [bind]. intros H. exists g. split; [reflexivity|].
  unfold parse_file in H. cbn [unix_fs fs_read] in H. destruct (r g) as [t| |]; try discriminate H. cbn [bind] in H. apply schematic_iff in H as (ls & _ & H).
  destruct H as (libs & e & body & secs & _ & _ & _ & ->). reflexivity.
Qed.
