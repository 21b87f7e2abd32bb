(** Lemmas for C84 and C85. *)
From Coq Require Import Lia ListDec Decidable Classical_Prop Classical_Pred_Type.
From Verif Require Import Base Str StrFacts SchData SchParse SchOps SchSpec SchOpsFacts SchTotal WalkSpec.

(** ** Chains *)
Inductive trace {A} (R : A -> A -> Prop) : A -> list A -> Prop :=
| trace_nil s : trace R s []
| trace_cons s t l : R s t -> trace R t l -> trace R s (t :: l).
Lemma str_dec (a b : str) : decidable (a = b).
Proof. destruct (str_eqb_spec a b); [left|right]; assumption. Qed.

Lemma trace_split {A} (R : A -> A -> Prop) s l1 l2 : trace R s (l1 ++ l2) -> exists u, trace R u l2 /\ (l1 = [] /\ u = s \/ exists m, l1 = m ++ [u]).
Proof.
  revert s. induction l1 as [|t l1 IH]; cbn; intros s H; [exists s; auto|].
  inversion H as [|? ? ? S T]; subst. destruct (IH _ T) as (u & U & [[-> ->]|[m ->]]).
  - exists t. split; [exact U|]. right. exists []. reflexivity.
  - exists u. split; [exact U|]. right. exists (t :: m). reflexivity.
Qed.
Lemma trace_plus {A} (R : A -> A -> Prop) u : forall l s m, trace R s (l ++ u :: m) -> plus R s u.
Proof.
  induction l as [|t l IH]; cbn; intros s m H; inversion H as [|? ? ? S T]; subst; [now constructor|].
  eapply plus_more; eauto.
Qed.

Lemma plus_next {A} (R : A -> A -> Prop) s t : plus R t t -> plus R s t -> exists u, R s u /\ plus R u t.
Proof. intros C P. inversion P; subst; eauto. Qed.

Lemma twice (l : list str) : ~ NoDup l -> exists p a b c, l = a ++ p :: b ++ p :: c.
Proof.
  induction l as [|x l IH]; intros H; [destruct H; constructor|].
  destruct (In_decidable str_dec x l) as [I|I].
  - apply in_split in I as (b & c & ->). exists x, [], b, c. reflexivity.
  - destruct IH as (p & a & b & c & ->); [intros D; apply H; now constructor|]. exists p, (x :: a), b, c. reflexivity.
Qed.

(** More steps than there are files: some schematic comes twice. *)
Lemma trace_repeats (fs : fsys) (R : schematic -> schematic -> Prop) (P : list str) s l :
  trace R s l -> (length P < length l)%nat ->
  (forall t, In t l -> exists p, In p P /\ parse_file fs p = Ok t) ->
  exists t, plus R s t /\ plus R t t.
Proof.
  intros T L K.
  assert (X : exists ps, Forall2 (fun t p => In p P /\ parse_file fs p = Ok t) l ps).
  { clear T L. induction l as [|t l IH]; [exists []; constructor|].
    destruct (K t (or_introl eq_refl)) as (p & Hp). destruct IH as (ps & F); [intros u U; apply K; now right|].
    exists (p :: ps). now constructor. }
  destruct X as (ps & F).
  assert (LE : length l = length ps) by (clear - F; induction F; cbn; congruence).
  assert (I : incl ps P).
  { clear - F. induction F as [|? ? ? ? [H _] ? IH]; [intros q []|]. intros q [<-|J]; auto. }
  destruct (twice ps) as (p & a & b & c & ->).
  { intros D. apply (NoDup_incl_length D) in I. lia. }
  apply Forall2_app_inv_r in F as (la & l' & _ & F & ->).
  inversion F as [|t ? lb ? [_ E1] F']; subst. apply Forall2_app_inv_r in F' as (lb' & l'' & _ & F' & ->).
  inversion F' as [|t2 ? lc ? [_ E2] F'']; subst. assert (t2 = t) by congruence. subst t2.
  exists t. split; [eapply trace_plus; exact T|].
  replace (la ++ t :: lb' ++ t :: lc) with ((la ++ [t]) ++ lb' ++ t :: lc) in T by now rewrite <- app_assoc.
  apply trace_split in T as (u & T & [[E _]|(m & E)]); [destruct la; discriminate|].
  apply app_inj_tail in E as [_ ->]. eapply trace_plus, T.
Qed.

(** ** Collecting *)
Section All.
Variable fs : fsys.
Hypothesis NF : forall p, fs_read fs p <> Err EFuel.

Lemma sheets_nf s h : parse_file_for_sheet fs s h <> Err EFuel.
Proof. now apply sheets_no_fuel. Qed.

Lemma gathered_run s a : Forall (gathered fs s) a ->
  exists n, forall m, (n <= m)%nat -> forall l v, exists w, all_go fs m s (a ++ l) v = all_go fs m s l w.
Proof.
  induction 1 as [|h a (t & c & O & C) _ (n & IH)]; [exists 0%nat; intros m _ l v; exists v; reflexivity|].
  destruct (all_complete _ _ _ C) as (k & K). exists (Nat.max n k). intros m L l v. cbn [app all_go].
  unfold opens in O. rewrite O. cbn [bind]. rewrite K by lia. cbn [bind].
  apply (IH m ltac:(lia) l (v ++ c)).
Qed.
Lemma gathered_any s a n : Forall (gathered fs s) a ->
  forall l v, all_go fs n s (a ++ l) v = Err EFuel \/ exists w, all_go fs n s (a ++ l) v = all_go fs n s l w.
Proof.
  induction 1 as [|h a (t & c & O & C) _ IH]; intros l v; [right; exists v; reflexivity|]. cbn [app all_go].
  unfold opens in O. rewrite O. cbn [bind]. destruct (all_complete _ _ _ C) as (k & K).
  destruct (all_components fs n t) as [d|e|] eqn:E.
  - cbn [bind]. apply IH.
  - left. destruct e; try reflexivity; exfalso; specialize (K (Nat.max k n) ltac:(lia)); rewrite (all_mono fs n) in K by (lia || congruence); congruence.
  - exfalso. specialize (K (Nat.max k n) ltac:(lia)). rewrite (all_mono fs n) in K by (lia || congruence). congruence.
Qed.

(** What a call that did not return a list met *)
Lemma all_go_inv n s hs v : (forall l, all_go fs n s hs v <> Ok l) ->
  exists a h b, hs = a ++ h :: b /\ Forall (gathered fs s) a /\
    ((exists e, parse_file_for_sheet fs s h = Err e /\ all_go fs n s hs v = Err e) \/
     (parse_file_for_sheet fs s h = Panic /\ all_go fs n s hs v = Panic) \/
     exists t, opens fs s h t /\ (forall l, all_components fs n t <> Ok l) /\ all_go fs n s hs v = all_components fs n t).
Proof.
  revert v. induction hs as [|h hs IH]; cbn [all_go]; intros v H; [exfalso; apply (H v); reflexivity|].
  destruct (parse_file_for_sheet fs s h) as [t|e|] eqn:P; cbn [bind] in *.
  - destruct (all_components fs n t) as [c|e|] eqn:C; cbn [bind] in *.
    + destruct (IH _ H) as (a & k & b & -> & G & X). exists (h :: a), k, b. split; [reflexivity|]. split; [|exact X].
      constructor; [|exact G]. exists t, c. split; [exact P|]. eapply all_sound, C.
    + exists [], h, hs. split; [reflexivity|]. split; [constructor|]. right. right. exists t. rewrite C. repeat split; [exact P|discriminate].
    + exists [], h, hs. split; [reflexivity|]. split; [constructor|]. right. right. exists t. rewrite C. repeat split; [exact P|discriminate].
  - exists [], h, hs. split; [reflexivity|]. split; [constructor|]. left. exists e. auto.
  - exists [], h, hs. split; [reflexivity|]. split; [constructor|]. right. left. auto.
Qed.

Lemma fuel_step n s : all_components fs (S n) s = Err EFuel -> exists t, goes_into fs s t /\ all_components fs n t = Err EFuel.
Proof.
  rewrite all_S. intros H. destruct (all_go_inv n s (sc_sheets s) (components s)) as (a & h & b & E & G & X); [rewrite H; discriminate|].
  rewrite H in X. destruct X as [(e & P & [= <-])|[(_ & Q)|(t & O & _ & Q)]]; [destruct (sheets_nf _ _ P)|discriminate|].
  exists t. split; [exists a, h, b; auto|now symmetry].
Qed.
Lemma step_fuel n s t : goes_into fs s t -> all_components fs n t = Err EFuel -> all_components fs (S n) s = Err EFuel.
Proof.
  intros (a & h & b & E & G & O) F. rewrite all_S, E. destruct (gathered_any s a n G (h :: b) (components s)) as [H|(w & ->)]; [exact H|].
  cbn [all_go]. unfold opens in O. rewrite O. cbn [bind]. rewrite F. reflexivity.
Qed.
Lemma fuel_trace n : forall s, all_components fs n s = Err EFuel -> exists l, length l = n /\ trace (goes_into fs) s l.
Proof.
  induction n as [|n IH]; intros s H; [exists []; split; [reflexivity|constructor]|].
  destruct (fuel_step _ _ H) as (t & G & F). destruct (IH _ F) as (l & L & T). exists (t :: l). split; [cbn; congruence|]. econstructor; eauto.
Qed.
Lemma endless_fuel n : forall s, endless fs s -> all_components fs n s = Err EFuel.
Proof. induction n as [|n IH]; intros s [t G E]; [reflexivity|]. eapply step_fuel; eauto. Qed.

Lemma fuel_next s : (forall n, all_components fs n s = Err EFuel) ->
  exists t, goes_into fs s t /\ forall n, all_components fs n t = Err EFuel.
Proof.
  assert (G : forall hs v, (exists N, forall n, (N <= n)%nat -> all_go fs n s hs v = Err EFuel) ->
    exists a h b t, hs = a ++ h :: b /\ Forall (gathered fs s) a /\ opens fs s h t /\ forall n, all_components fs n t = Err EFuel).
  { induction hs as [|h hs IH]; intros v (N & X); [discriminate (X N (le_n _))|].
    destruct (parse_file_for_sheet fs s h) as [t|e|] eqn:P.
    - destruct (classic (forall n, all_components fs n t = Err EFuel)) as [A|A].
      + exists [], h, hs, t. repeat split; auto.
      + apply not_all_ex_not in A as (k & A).
        assert (Y : forall n, (Nat.max N k <= n)%nat -> (do v2 <- all_components fs k t; all_go fs n s hs (v ++ v2)) = Err EFuel).
        { intros n L. specialize (X n ltac:(lia)). cbn [all_go] in X. rewrite P in X. cbn [bind] in X.
          rewrite (all_mono fs k t n) in X by (assumption || lia). exact X. }
        destruct (all_components fs k t) as [c|e|] eqn:C; cbn [bind] in Y.
        * destruct (IH (v ++ c)) as (a & g & b & u & -> & F & O & U); [eauto|].
          exists (h :: a), g, b, u. repeat split; auto. constructor; [|exact F]. exists t, c. split; [exact P|]. eapply all_sound, C.
        * exfalso. apply A. exact (Y _ (le_n _)).
        * discriminate (Y _ (le_n _)).
    - specialize (X N (le_n _)). cbn [all_go] in X. rewrite P in X. injection X as ->. destruct (sheets_nf _ _ P).
    - specialize (X N (le_n _)). cbn [all_go] in X. rewrite P in X. discriminate X. }
  intros H. destruct (G (sc_sheets s) (components s)) as (a & h & b & t & E & F & O & U).
  - exists 0%nat. intros n _. rewrite <- all_S. apply H.
  - exists t. split; [exists a, h, b; auto|exact U].
Qed.
Lemma fuel_endless : forall s, (forall n, all_components fs n s = Err EFuel) -> endless fs s.
Proof. cofix CH. intros s H. destruct (fuel_next s H) as (t & G & T). exact (endless_in fs s t G (CH t T)). Qed.
Lemma endless_iff s : endless fs s <-> forall n, all_components fs n s = Err EFuel.
Proof. split; [intros E n; now apply endless_fuel|apply fuel_endless]. Qed.

(** The failure of a schematic as the failure of the call *)
Definition as_failure (x : res schematic) : res (list component) :=
  match x with Ok _ => Err EFuel | Err e => Err e | Panic => Panic end.
Lemma stops_run s x : stops fs s x -> exists n, forall m, (n <= m)%nat -> all_components fs m s = as_failure x.
Proof.
  induction 1 as [s a h b x E G P B|s t x (a & h & b & E & G & O) _ (k & K)]; destruct (gathered_run s a G) as (n & N).
  - exists (S n). intros [|m] L; [lia|]. rewrite all_S, E. destruct (N m ltac:(lia) (h :: b) (components s)) as (w & ->).
    cbn [all_go]. rewrite P. destruct x; [destruct (B _ eq_refl)|reflexivity|reflexivity].
  - exists (S (Nat.max n k)). intros [|m] L; [lia|]. rewrite all_S, E. destruct (N m ltac:(lia) (h :: b) (components s)) as (w & ->).
    cbn [all_go]. unfold opens in O. rewrite O. cbn [bind]. rewrite K by lia.
    assert (Q : forall l, as_failure x <> Ok l) by (intros l; destruct x; discriminate).
    destruct (as_failure x) as [l| |]; [destruct (Q l eq_refl)|reflexivity|reflexivity].
Qed.
Lemma run_stops n : forall s, (forall l, all_components fs n s <> Ok l) -> all_components fs n s <> Err EFuel ->
  exists x, (forall t, x <> Ok t) /\ all_components fs n s = as_failure x /\ stops fs s x.
Proof.
  induction n as [|n IH]; intros s H F; [destruct (F eq_refl)|]. rewrite all_S in *.
  destruct (all_go_inv n s (sc_sheets s) (components s) H) as (a & h & b & E & G & [(e & P & Q)|[(P & Q)|(t & O & U & Q)]]).
  - exists (Err e). split; [discriminate|]. split; [exact Q|]. eapply stop_at; eauto. discriminate.
  - exists Panic. split; [discriminate|]. split; [exact Q|]. eapply stop_at; eauto. discriminate.
  - rewrite Q in *. destruct (IH t U F) as (x & B & X & S). exists x. split; [exact B|]. split; [exact X|].
    eapply stop_in; [exists a, h, b; eauto|exact S].
Qed.
Lemma stops_not_fuel s x : stops fs s x -> x <> Err EFuel.
Proof. induction 1 as [s a h b x E G P B|]; [rewrite <- P; apply sheets_nf|assumption]. Qed.
Lemma stops_nf s : ~ stops fs s (Err EFuel).
Proof. intros H. now apply stops_not_fuel in H. Qed.
Lemma stops_bad s x : stops fs s x -> forall t, x <> Ok t.
Proof. induction 1; auto. Qed.
Lemma stops_err_iff s e : stops fs s (Err e) <-> e <> EFuel /\ exists n, forall m, (n <= m)%nat -> all_components fs m s = Err e.
Proof.
  split.
  - intros H. split; [intros ->; exact (stops_nf s H)|]. exact (stops_run s _ H).
  - intros (N & n & H). specialize (H n (le_n _)). destruct (run_stops n s) as (x & B & X & S); [rewrite H; discriminate|rewrite H; congruence|].
    rewrite H in X. destruct x as [t|f|]; [destruct (B t eq_refl)| |discriminate]. injection X as ->. exact S.
Qed.
Lemma stops_panic_iff s : stops fs s Panic <-> exists n, forall m, (n <= m)%nat -> all_components fs m s = Panic.
Proof.
  split; [exact (stops_run s Panic)|]. intros (n & H). specialize (H n (le_n _)).
  destruct (run_stops n s) as (x & B & X & S); [rewrite H; discriminate|rewrite H; discriminate|].
  rewrite H in X. destruct x as [t|f|]; [destruct (B t eq_refl)|discriminate|]. exact S.
Qed.
(** Exactly one of the three *)
Lemma walk_one s : (exists l, comps_of fs s l) \/ (exists x, stops fs s x) \/ endless fs s.
Proof.
  destruct (classic (forall n, all_components fs n s = Err EFuel)) as [A|A]; [right; right; now apply fuel_endless|].
  apply not_all_ex_not in A as (n & A). destruct (all_components fs n s) as [l|e|] eqn:E.
  - left. exists l. eapply all_sound, E.
  - right. left. destruct (run_stops n s) as (x & _ & _ & S); [rewrite E; discriminate|rewrite E; exact A|]. eauto.
  - right. left. destruct (run_stops n s) as (x & _ & _ & S); [rewrite E; discriminate|rewrite E; exact A|]. eauto.
Qed.
Lemma walk_excl s : ((exists l, comps_of fs s l) -> (exists x, stops fs s x) -> False) /\
  ((exists l, comps_of fs s l) -> endless fs s -> False) /\ ((exists x, stops fs s x) -> endless fs s -> False) /\
  (forall x y, stops fs s x -> stops fs s y -> x = y).
Proof.
  split; [|split; [|split]].
  - intros (l & C) (x & S). destruct (all_complete _ _ _ C) as (n & N), (stops_run _ _ S) as (k & K).
    specialize (N (Nat.max n k) ltac:(lia)). specialize (K (Nat.max n k) ltac:(lia)). rewrite N in K. destruct x; discriminate.
  - intros (l & C) E. destruct (all_complete _ _ _ C) as (n & N). specialize (N n (le_n _)). rewrite (endless_fuel n s E) in N. discriminate.
  - intros (x & S) E. destruct (stops_run _ _ S) as (k & K). specialize (K k (le_n _)). rewrite (endless_fuel k s E) in K.
    destruct x as [t|e|]; [exact (stops_bad _ _ S t eq_refl)|injection K as <-; exact (stops_nf s S)|discriminate].
  - intros x y X Y. pose proof (stops_bad _ _ X) as BX. pose proof (stops_bad _ _ Y) as BY.
    destruct (stops_run _ _ X) as (n & N), (stops_run _ _ Y) as (k & K).
    specialize (N (Nat.max n k) ltac:(lia)). specialize (K (Nat.max n k) ltac:(lia)). rewrite N in K.
    destruct x as [t|e|]; [destruct (BX t eq_refl)| |]; (destruct y as [u|f|]; [destruct (BY u eq_refl)| |]); cbn in K; congruence.
Qed.

(** Round trips in the files *)
Lemma cycle_endless t : plus (goes_into fs) t t -> endless fs t.
Proof.
  intros C. cut (forall s, plus (goes_into fs) s t -> endless fs s); [intros H; now apply H|].
  assert (N : forall s, plus (goes_into fs) s t -> exists u, goes_into fs s u /\ plus (goes_into fs) u t).
  { intros s P. apply (plus_next _ _ _ C P). }
  cofix CH. intros s P. destruct (N s P) as (u & G & Q). exact (endless_in fs s u G (CH u Q)).
Qed.
Lemma lead_endless s t : plus (goes_into fs) s t -> endless fs t -> endless fs s.
Proof. induction 1; intros E; econstructor; eauto. Qed.
End All.

Lemma into_sheet fs s t : goes_into fs s t -> exists h, In h (sc_sheets s) /\ opens fs s h t.
Proof. intros (a & h & b & E & _ & O). exists h. rewrite E, in_app_iff. cbn. auto. Qed.
Lemma opens_inv fs s h t : opens fs s h t -> exists p, filename_for_sheet fs s h = Ok p /\ parse_file fs p = Ok t.
Proof.
  unfold opens, parse_file_for_sheet. destruct (filename_for_sheet fs s h) as [p| |]; cbn [bind]; [|discriminate|discriminate]. eauto.
Qed.
Lemma among_next fs s P h t : files_among fs s P -> In h (sc_sheets s) -> opens fs s h t ->
  files_among fs t P /\ exists p, In p P /\ parse_file fs p = Ok t.
Proof.
  intros F I O. split.
  - intros t' h' p u R I' N Q. eapply F; [eapply reaches_sheet; eauto|exact I'|exact N|exact Q].
  - destruct (opens_inv _ _ _ _ O) as (p & N & Q). exists p. split; [|exact Q]. eapply F; [apply reaches_here|exact I|exact N|exact Q].
Qed.
Lemma trace_among fs (R : schematic -> schematic -> Prop) (H : forall s t, R s t -> exists h, In h (sc_sheets s) /\ opens fs s h t) P :
  forall l s, files_among fs s P -> trace R s l -> forall t, In t l -> exists p, In p P /\ parse_file fs p = Ok t.
Proof.
  induction l as [|u l IH]; intros s F T t; [intros []|]. inversion T as [|? ? ? S T']; subst.
  destruct (H _ _ S) as (h & I & O). destruct (among_next _ _ _ _ _ F I O) as (F' & X). intros [<-|J]; [exact X|]. eapply IH; eauto.
Qed.
Lemma all_finite fs (NF : forall p, fs_read fs p <> Err EFuel) P s : files_among fs s P ->
  (endless fs s <-> all_components fs (S (length P)) s = Err EFuel) /\
  (endless fs s <-> exists t, plus (goes_into fs) s t /\ plus (goes_into fs) t t) /\
  (endless fs s \/ forall n, (length P < n)%nat -> all_components fs n s = all_components fs (S (length P)) s /\ all_components fs n s <> Err EFuel).
Proof.
  intros F.
  assert (A : endless fs s -> all_components fs (S (length P)) s = Err EFuel) by (intros E; now apply endless_fuel).
  assert (B : all_components fs (S (length P)) s = Err EFuel -> exists t, plus (goes_into fs) s t /\ plus (goes_into fs) t t).
  { intros E. destruct (fuel_trace fs NF _ _ E) as (l & L & T). eapply (trace_repeats fs _ P); [exact T|rewrite L; lia|].
    eapply trace_among; [apply into_sheet|exact F|exact T]. }
  assert (C : (exists t, plus (goes_into fs) s t /\ plus (goes_into fs) t t) -> endless fs s).
  { intros (t & X & Y). eapply lead_endless; [exact X|]. now apply cycle_endless. }
  split; [tauto|]. split; [tauto|].
  destruct (all_components fs (S (length P)) s) as [l|e|] eqn:E.
  - right. intros n L. rewrite (all_mono fs (S (length P)) s n) by (lia || congruence). rewrite E. split; [reflexivity|discriminate].
  - destruct e; try (left; tauto); right; intros n L; rewrite (all_mono fs (S (length P)) s n) by (lia || congruence); rewrite E; (split; [reflexivity|discriminate]).
  - right. intros n L. rewrite (all_mono fs (S (length P)) s n) by (lia || congruence). rewrite E. split; [reflexivity|discriminate].
Qed.
