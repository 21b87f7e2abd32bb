(** Lemmas for C85: looking for a reference through the sheets. *)
From Coq Require Import Lia Classical_Prop Classical_Pred_Type.
From Verif Require Import Base Str StrFacts SchData SchParse SchOps SchSpec SchOpsFacts SchTotal WalkSpec WalkFacts.

Lemma find_none_iff r s : find_comp r (sc_elements s) = None <-> lacks_own r s.
Proof.
  rewrite find_comp_own. unfold lacks_own. split.
  - intros H c I E. apply (find_none _ _ H) in I. cbn in I. rewrite E, str_eqb_refl in I. discriminate.
  - intros H. destruct (find _ (own (sc_elements s))) as [c|] eqn:E; [|reflexivity].
    apply find_some in E as [I E]. apply str_eqb_eq in E. destruct (H c I E).
Qed.
Lemma find_some_iff r s c : find_comp r (sc_elements s) = Some c <->
  exists a b, own (sc_elements s) = a ++ c :: b /\ Forall (fun d => co_reference d <> r) a /\ co_reference c = r.
Proof.
  rewrite find_comp_own. induction (own (sc_elements s)) as [|d l IH]; cbn.
  - split; [discriminate|]. intros ([|? ?] & b & E & _); discriminate.
  - destruct (str_eqb_spec (co_reference d) r) as [E|E].
    + split.
      * intros [= <-]. exists [], l. auto.
      * intros ([|x a] & b & Q & F & R); cbn in Q; injection Q as -> ->; [reflexivity|]. inversion F; contradiction.
    + rewrite IH. split.
      * intros (a & b & -> & F & R). exists (d :: a), b. auto.
      * intros ([|x a] & b & Q & F & R); cbn in Q; injection Q as -> ->; [contradiction|]. inversion F; subst. exists a, b. auto.
Qed.

Scheme fails_mind := Minimality for fails Sort Prop
with missed_mind := Minimality for missed Sort Prop.

Section By.
Variable fs : fsys.
Variable r : str.
Hypothesis NF : forall p, fs_read fs p <> Err EFuel.

Lemma by_mono n : forall s m, component_by_reference fs n r s <> Err EFuel -> (n <= m)%nat ->
  component_by_reference fs m r s = component_by_reference fs n r s.
Proof.
  induction n as [|n IH]; intros s m; [cbn; congruence|]. intros H L. destruct m as [|m]; [lia|].
  rewrite by_S in *. rewrite by_S. destruct (find_comp r (sc_elements s)); [reflexivity|].
  revert H. induction (sc_sheets s) as [|h hs IHs]; cbn [by_go]; intros H; [reflexivity|].
  destruct (parse_file_for_sheet fs s h) as [t|e|]; cbn [bind] in *; [|reflexivity|reflexivity].
  assert (X : component_by_reference fs n r t <> Err EFuel) by (intros E; rewrite E in H; congruence).
  rewrite (IH t m X ltac:(lia)). destruct (component_by_reference fs n r t) as [c|e|]; [reflexivity| |reflexivity].
  destruct e; try (apply IHs; exact H). congruence.
Qed.

Lemma fails_nf s e : fails fs r s e -> e <> EFuel.
Proof. destruct 1 as [|s a h b e _ _ _ P]; [discriminate|]. intros ->. exact (sheets_nf fs NF _ _ P). Qed.

Lemma fails_run s e : fails fs r s e -> exists n, forall m, (n <= m)%nat -> component_by_reference fs m r s = Err e.
Proof.
  apply (fails_mind fs r (fun s e => exists n, forall m, (n <= m)%nat -> component_by_reference fs m r s = Err e)
    (fun s hs => exists n, forall m, (n <= m)%nat -> forall l, by_go fs m r s (hs ++ l) = by_go fs m r s l)).
  - intros t A _ (n & N). exists (S n). intros [|m] L; [lia|]. rewrite by_S. apply find_none_iff in A as ->.
    rewrite <- (app_nil_r (sc_sheets t)), N by lia. reflexivity.
  - intros t a h b f A E _ (n & N) P. exists (S n). intros [|m] L; [lia|]. rewrite by_S. apply find_none_iff in A as ->.
    rewrite E, N by lia. cbn [by_go]. rewrite P. reflexivity.
  - intros t. exists 0%nat. reflexivity.
  - intros u h t f l O F (n & N) _ (k & K). exists (Nat.max n k). intros m L l'. cbn [app by_go]. unfold opens in O. rewrite O. cbn [bind].
    rewrite N by lia. apply fails_nf in F. destruct f; try (apply K; lia). contradiction.
Qed.
Lemma missed_run s a : missed fs r s a -> exists n, forall m, (n <= m)%nat -> forall l, by_go fs m r s (a ++ l) = by_go fs m r s l.
Proof.
  induction 1 as [s|s h t f l O F _ (k & K)]; [exists 0%nat; reflexivity|]. destruct (fails_run _ _ F) as (n & N).
  exists (Nat.max n k). intros m L l'. cbn [app by_go]. unfold opens in O. rewrite O. cbn [bind].
  rewrite N by lia. apply fails_nf in F. destruct f; try (apply K; lia). contradiction.
Qed.
Lemma missed_any s a n : missed fs r s a -> forall l, by_go fs n r s (a ++ l) = Err EFuel \/ by_go fs n r s (a ++ l) = by_go fs n r s l.
Proof.
  induction 1 as [s|s h t f l O F _ IH]; intros l'; [right; reflexivity|]. cbn [app by_go]. unfold opens in O. rewrite O. cbn [bind].
  destruct (fails_run _ _ F) as (k & K). specialize (K (Nat.max k n) ltac:(lia)).
  destruct (component_by_reference fs n r t) as [c|e|] eqn:E.
  - rewrite (by_mono n) in K by (lia || congruence). congruence.
  - destruct e; try (apply IH). left. reflexivity.
  - rewrite (by_mono n) in K by (lia || congruence). congruence.
Qed.

(** What a pass over the sheets met *)
Lemma by_go_inv n s (IH : forall t e, component_by_reference fs n r t = Err e -> e <> EFuel -> fails fs r t e) hs :
  (missed fs r s hs /\ by_go fs n r s hs = Err EOther) \/
  exists a h b, hs = a ++ h :: b /\ missed fs r s a /\
    ((exists e, parse_file_for_sheet fs s h = Err e /\ by_go fs n r s hs = Err e) \/
     (parse_file_for_sheet fs s h = Panic /\ by_go fs n r s hs = Panic) \/
     exists t, opens fs s h t /\ (forall e, e <> EFuel -> component_by_reference fs n r t <> Err e) /\
       by_go fs n r s hs = component_by_reference fs n r t).
Proof.
  induction hs as [|h hs IHs]; [left; split; [constructor|reflexivity]|]. cbn [by_go].
  destruct (parse_file_for_sheet fs s h) as [t|e|] eqn:P; cbn [bind].
  - destruct (component_by_reference fs n r t) as [c|e|] eqn:C.
    + right. exists [], h, hs. split; [reflexivity|]. split; [constructor|]. right. right. exists t. rewrite C. repeat split; [exact P|discriminate].
    + assert (D : e = EFuel \/ e <> EFuel) by (destruct e; auto; right; discriminate). destruct D as [->|D].
      * right. exists [], h, hs. split; [reflexivity|]. split; [constructor|]. right. right. exists t. rewrite C. repeat split; [exact P|congruence].
      * replace (match e with EFuel => Err EFuel | _ => by_go fs n r s hs end) with (by_go fs n r s hs) by (destruct e; try reflexivity; contradiction).
        assert (M : forall l, missed fs r s l -> missed fs r s (h :: l)) by (intros l; econstructor; [exact P|eapply IH; eassumption|assumption]).
        destruct IHs as [(A & B)|(a & k & b & -> & A & B)]; [left; auto|]. right. exists (h :: a), k, b. auto.
    + right. exists [], h, hs. split; [reflexivity|]. split; [constructor|]. right. right. exists t. rewrite C. repeat split; [exact P|discriminate].
  - right. exists [], h, hs. split; [reflexivity|]. split; [constructor|]. left. exists e. auto.
  - right. exists [], h, hs. split; [reflexivity|]. split; [constructor|]. right. left. auto.
Qed.

Lemma run_fails n : forall s e, component_by_reference fs n r s = Err e -> e <> EFuel -> fails fs r s e.
Proof.
  induction n as [|n IH]; intros s e H F; [cbn in H; congruence|]. rewrite by_S in H.
  destruct (find_comp r (sc_elements s)) eqn:O; [discriminate|]. apply find_none_iff in O.
  destruct (by_go_inv n s IH (sc_sheets s)) as [(M & Q)|(a & h & b & E & M & [(f & P & Q)|[(P & Q)|(t & T & U & Q)]])]; rewrite H in Q.
  - injection Q as ->. now constructor.
  - injection Q as ->. eapply fail_at; eauto.
  - discriminate.
  - destruct (U e F). now symmetry.
Qed.
Lemma run_finds n : forall s c, component_by_reference fs n r s = Ok c -> finds fs r s c.
Proof.
  induction n as [|n IH]; intros s c H; [discriminate|]. rewrite by_S in H.
  destruct (find_comp r (sc_elements s)) eqn:O.
  - injection H as ->. apply find_some_iff in O as (a & b & E & F & R). eapply find_own; eauto.
  - apply find_none_iff in O.
    destruct (by_go_inv n s (run_fails n) (sc_sheets s)) as [(M & Q)|(a & h & b & E & M & [(f & P & Q)|[(P & Q)|(t & T & U & Q)]])]; rewrite H in Q; try discriminate.
    eapply find_in; [split; [exact O|exists a, h, b; eauto]|]. apply IH. now symmetry.
Qed.
Lemma run_breaks n : forall s, component_by_reference fs n r s = Panic -> breaks fs r s.
Proof.
  induction n as [|n IH]; intros s H; [discriminate|]. rewrite by_S in H.
  destruct (find_comp r (sc_elements s)) eqn:O; [discriminate|]. apply find_none_iff in O.
  destruct (by_go_inv n s (run_fails n) (sc_sheets s)) as [(M & Q)|(a & h & b & E & M & [(f & P & Q)|[(P & Q)|(t & T & U & Q)]])]; rewrite H in Q; try discriminate.
  - eapply break_at; eauto.
  - eapply break_in; [split; [exact O|exists a, h, b; eauto]|]. apply IH. now symmetry.
Qed.
Lemma look_fuel n s : component_by_reference fs (S n) r s = Err EFuel -> exists t, looks_into fs r s t /\ component_by_reference fs n r t = Err EFuel.
Proof.
  rewrite by_S. destruct (find_comp r (sc_elements s)) eqn:O; [discriminate|]. apply find_none_iff in O. intros H.
  destruct (by_go_inv n s (run_fails n) (sc_sheets s)) as [(M & Q)|(a & h & b & E & M & [(f & P & Q)|[(P & Q)|(t & T & U & Q)]])]; rewrite H in Q; try discriminate.
  - injection Q as <-. destruct (sheets_nf fs NF _ _ P).
  - exists t. split; [split; [exact O|exists a, h, b; eauto]|now symmetry].
Qed.
Lemma fuel_look n s t : looks_into fs r s t -> component_by_reference fs n r t = Err EFuel -> component_by_reference fs (S n) r s = Err EFuel.
Proof.
  intros (A & a & h & b & E & M & O) F. rewrite by_S. apply find_none_iff in A as ->. rewrite E.
  destruct (missed_any s a n M (h :: b)) as [->| ->]; [reflexivity|]. cbn [by_go]. unfold opens in O. rewrite O. cbn [bind]. now rewrite F.
Qed.
Lemma looks_run s t x : looks_into fs r s t -> x <> Err EFuel -> (forall e, x <> Err e) ->
  (exists n, forall m, (n <= m)%nat -> component_by_reference fs m r t = x) ->
  exists n, forall m, (n <= m)%nat -> component_by_reference fs m r s = x.
Proof.
  intros (A & a & h & b & E & M & O) _ NE (k & K). destruct (missed_run s a M) as (n & N). exists (S (Nat.max n k)).
  intros [|m] L; [lia|]. rewrite by_S. apply find_none_iff in A as ->. rewrite E, N by lia. cbn [by_go]. unfold opens in O. rewrite O. cbn [bind].
  rewrite K by lia. destruct x as [c|e|]; [reflexivity|destruct (NE e eq_refl)|reflexivity].
Qed.
Lemma finds_run s c : finds fs r s c -> exists n, forall m, (n <= m)%nat -> component_by_reference fs m r s = Ok c.
Proof.
  induction 1 as [s a c b E F R|s t c I _ IH].
  - exists 1%nat. intros [|m] L; [lia|]. rewrite by_S.
    assert (X : find_comp r (sc_elements s) = Some c) by (apply find_some_iff; exists a, b; auto). now rewrite X.
  - eapply looks_run; eauto; discriminate.
Qed.
Lemma breaks_run s : breaks fs r s -> exists n, forall m, (n <= m)%nat -> component_by_reference fs m r s = Panic.
Proof.
  induction 1 as [s a h b A E M P|s t I _ IH].
  - destruct (missed_run s a M) as (n & N). exists (S n). intros [|m] L; [lia|]. rewrite by_S. apply find_none_iff in A as ->.
    rewrite E, N by lia. cbn [by_go]. rewrite P. reflexivity.
  - eapply looks_run; eauto; discriminate.
Qed.

Lemma finds_iff s c : finds fs r s c <-> exists n, forall m, (n <= m)%nat -> component_by_reference fs m r s = Ok c.
Proof. split; [apply finds_run|]. intros (n & H). apply (run_finds n), H, le_n. Qed.
Lemma fails_iff s e : fails fs r s e <-> e <> EFuel /\ exists n, forall m, (n <= m)%nat -> component_by_reference fs m r s = Err e.
Proof.
  split; [intros H; split; [eapply fails_nf, H|apply fails_run, H]|]. intros (F & n & H). apply (run_fails n); [apply H, le_n|exact F].
Qed.
Lemma breaks_iff s : breaks fs r s <-> exists n, forall m, (n <= m)%nat -> component_by_reference fs m r s = Panic.
Proof. split; [apply breaks_run|]. intros (n & H). apply (run_breaks n), H, le_n. Qed.

Lemma look_next s : (forall n, component_by_reference fs n r s = Err EFuel) ->
  exists t, looks_into fs r s t /\ forall n, component_by_reference fs n r t = Err EFuel.
Proof.
  intros H.
  assert (A : lacks_own r s).
  { specialize (H 1%nat). rewrite by_S in H. destruct (find_comp r (sc_elements s)) eqn:O; [discriminate|]. now apply find_none_iff. }
  assert (G : forall hs, (exists N, forall n, (N <= n)%nat -> by_go fs n r s hs = Err EFuel) ->
    exists a h b t, hs = a ++ h :: b /\ missed fs r s a /\ opens fs s h t /\ forall n, component_by_reference fs n r t = Err EFuel).
  { induction hs as [|h hs IH]; intros (N & X); [discriminate (X N (le_n _))|].
    destruct (parse_file_for_sheet fs s h) as [t|e|] eqn:P.
    - destruct (classic (forall n, component_by_reference fs n r t = Err EFuel)) as [B|B].
      + exists [], h, hs, t. repeat split; auto. constructor.
      + apply not_all_ex_not in B as (k & B).
        assert (Y : forall n, (Nat.max N k <= n)%nat -> match component_by_reference fs k r t with
          | Ok c => Ok c | Err EFuel => Err EFuel | Err _ => by_go fs n r s hs | Panic => Panic end = Err EFuel).
        { intros n L. specialize (X n ltac:(lia)). cbn [by_go] in X. rewrite P in X. cbn [bind] in X.
          rewrite (by_mono k t n) in X by (assumption || lia). exact X. }
        destruct (component_by_reference fs k r t) as [c|e|] eqn:C.
        * discriminate (Y _ (le_n _)).
        * destruct IH as (a & g & b & u & -> & F & O & U).
          { exists (Nat.max N k). intros n L. specialize (Y n L). destruct e; try exact Y. contradiction. }
          exists (h :: a), g, b, u. repeat split; auto. econstructor; [exact P| |exact F]. apply (run_fails k _ e C). congruence.
        * discriminate (Y _ (le_n _)).
    - specialize (X N (le_n _)). cbn [by_go] in X. rewrite P in X. injection X as ->. destruct (sheets_nf fs NF _ _ P).
    - specialize (X N (le_n _)). cbn [by_go] in X. rewrite P in X. discriminate X. }
  destruct (G (sc_sheets s)) as (a & h & b & t & E & F & O & U).
  - exists 0%nat. intros n _. specialize (H (S n)). rewrite by_S in H. apply find_none_iff in A. rewrite A in H. exact H.
  - exists t. split; [split; [exact A|exists a, h, b; auto]|exact U].
Qed.
Lemma hunts_fuel n : forall s, hunts fs r s -> component_by_reference fs n r s = Err EFuel.
Proof. induction n as [|n IH]; intros s [t G E]; [reflexivity|]. eapply fuel_look; eauto. Qed.
Lemma fuel_hunts : forall s, (forall n, component_by_reference fs n r s = Err EFuel) -> hunts fs r s.
Proof. cofix CH. intros s H. destruct (look_next s H) as (t & G & T). exact (hunts_in fs r s t G (CH t T)). Qed.
Lemma hunts_iff s : hunts fs r s <-> forall n, component_by_reference fs n r s = Err EFuel.
Proof. split; [intros E n; now apply hunts_fuel|apply fuel_hunts]. Qed.

Lemma look_one s : (exists c, finds fs r s c) \/ (exists e, fails fs r s e) \/ breaks fs r s \/ hunts fs r s.
Proof.
  destruct (classic (forall n, component_by_reference fs n r s = Err EFuel)) as [A|A]; [right; right; right; now apply fuel_hunts|].
  apply not_all_ex_not in A as (n & A). destruct (component_by_reference fs n r s) as [c|e|] eqn:E.
  - left. exists c. eapply run_finds, E.
  - right. left. exists e. eapply run_fails; [exact E|congruence].
  - right. right. left. eapply run_breaks, E.
Qed.

Lemma agree {A} (f : nat -> A) x y : (exists n, forall m, (n <= m)%nat -> f m = x) -> (exists n, forall m, (n <= m)%nat -> f m = y) -> x = y.
Proof. intros (n & N) (k & K). rewrite <- (N (Nat.max n k)) by lia. apply K. lia. Qed.
Lemma look_excl s : (forall c d, finds fs r s c -> finds fs r s d -> c = d) /\ (forall e f, fails fs r s e -> fails fs r s f -> e = f) /\
  (forall c e, finds fs r s c -> fails fs r s e -> False) /\ (forall c, finds fs r s c -> breaks fs r s -> False) /\
  (forall e, fails fs r s e -> breaks fs r s -> False) /\
  (hunts fs r s -> (forall c, ~ finds fs r s c) /\ (forall e, ~ fails fs r s e) /\ ~ breaks fs r s).
Proof.
  split; [|split; [|split; [|split; [|split]]]].
  - intros c d C D. apply finds_run in C, D. pose proof (agree _ _ _ C D). congruence.
  - intros c d C D. apply fails_run in C, D. pose proof (agree _ _ _ C D). congruence.
  - intros c d C D. apply finds_run in C. apply fails_run in D. discriminate (agree _ _ _ C D).
  - intros c C D. apply finds_run in C. apply breaks_run in D. discriminate (agree _ _ _ C D).
  - intros c C D. apply fails_run in C. apply breaks_run in D. discriminate (agree _ _ _ C D).
  - intros H. assert (E : exists n, forall m, (n <= m)%nat -> component_by_reference fs m r s = Err EFuel) by (exists 0%nat; intros m _; now apply hunts_fuel).
    split; [|split].
    + intros c C. apply finds_run in C. discriminate (agree _ _ _ C E).
    + intros e C. pose proof (fails_nf _ _ C) as N. apply fails_run in C. pose proof (agree _ _ _ C E). congruence.
    + intros C. apply breaks_run in C. discriminate (agree _ _ _ C E).
Qed.

Lemma fuel_look_trace n : forall s, component_by_reference fs n r s = Err EFuel -> exists l, length l = n /\ trace (looks_into fs r) s l.
Proof.
  induction n as [|n IH]; intros s H; [exists []; split; [reflexivity|constructor]|].
  destruct (look_fuel _ _ H) as (t & G & F). destruct (IH _ F) as (l & L & T). exists (t :: l). split; [cbn; congruence|]. econstructor; eauto.
Qed.
Lemma cycle_hunts t : plus (looks_into fs r) t t -> hunts fs r t.
Proof.
  intros C. cut (forall s, plus (looks_into fs r) s t -> hunts fs r s); [intros H; now apply H|].
  assert (N : forall s, plus (looks_into fs r) s t -> exists u, looks_into fs r s u /\ plus (looks_into fs r) u t).
  { intros s P. apply (plus_next _ _ _ C P). }
  cofix CH. intros s P. destruct (N s P) as (u & G & Q). exact (hunts_in fs r s u G (CH u Q)).
Qed.
Lemma lead_hunts s t : plus (looks_into fs r) s t -> hunts fs r t -> hunts fs r s.
Proof. induction 1; intros E; econstructor; eauto. Qed.
Lemma look_sheet s t : looks_into fs r s t -> exists h, In h (sc_sheets s) /\ opens fs s h t.
Proof. intros (_ & a & h & b & E & _ & O). exists h. rewrite E, in_app_iff. cbn. auto. Qed.
Lemma by_finite P s : files_among fs s P ->
  (hunts fs r s <-> component_by_reference fs (S (length P)) r s = Err EFuel) /\
  (hunts fs r s <-> exists t, plus (looks_into fs r) s t /\ plus (looks_into fs r) t t) /\
  (hunts fs r s \/ forall n, (length P < n)%nat ->
     component_by_reference fs n r s = component_by_reference fs (S (length P)) r s /\ component_by_reference fs n r s <> Err EFuel).
Proof.
  intros F.
  assert (A : hunts fs r s -> component_by_reference fs (S (length P)) r s = Err EFuel) by (intros E; now apply hunts_fuel).
  assert (B : component_by_reference fs (S (length P)) r s = Err EFuel -> exists t, plus (looks_into fs r) s t /\ plus (looks_into fs r) t t).
  { intros E. destruct (fuel_look_trace _ _ E) as (l & L & T). eapply (trace_repeats fs _ P); [exact T|rewrite L; lia|].
    eapply trace_among; [apply look_sheet|exact F|exact T]. }
  assert (C : (exists t, plus (looks_into fs r) s t /\ plus (looks_into fs r) t t) -> hunts fs r s).
  { intros (t & X & Y). eapply lead_hunts; [exact X|]. now apply cycle_hunts. }
  split; [tauto|]. split; [tauto|].
  assert (M : component_by_reference fs (S (length P)) r s <> Err EFuel -> forall n, (length P < n)%nat ->
     component_by_reference fs n r s = component_by_reference fs (S (length P)) r s /\ component_by_reference fs n r s <> Err EFuel).
  { intros H n L. rewrite (by_mono (S (length P)) s n) by (lia || assumption). auto. }
  destruct (component_by_reference fs (S (length P)) r s) as [l|e|] eqn:E.
  - right. apply M. discriminate.
  - destruct e; try (left; tauto); right; apply M; discriminate.
  - right. apply M. discriminate.
Qed.
End By.
