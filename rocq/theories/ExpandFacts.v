(** Expanding URIs: proofs for C93. *)
From Coq Require Import String Lia NArith.
From Verif Require Import Base Str StrFacts FpLibTable Expand ExpandSpec.
Open Scope list_scope. Open Scope N_scope.

Lemma name_iff uni c : name_char uni c = true <-> word_char uni c.
Proof. unfold name_char, word_char. rewrite !Bool.orb_true_iff, !Bool.andb_true_iff, N.eqb_eq, !N.leb_le, N.ltb_lt. intuition. Qed.
Lemma span_ok p s a b : span p s = (a, b) -> s = a ++ b /\ Forall (fun c => p c = true) a /\ ends_before (fun c => p c = true) b.
Proof.
  revert a b. induction s as [|c s IH]; intros a b; cbn [span].
  - intros [= <- <-]. split; [reflexivity|]. split; [constructor|]. intros ? ? [=].
  - destruct (p c) eqn:P.
    + destruct (span p s) as [a' b'] eqn:E. intros [= <- <-]. destruct (IH _ _ eq_refl) as (-> & F & N). split; [reflexivity|]. split; [now constructor|exact N].
    + intros [= <- <-]. split; [reflexivity|]. split; [constructor|]. intros ? ? [= <- <-]. congruence.
Qed.
Lemma cut_some x s a b : cut_at x s = Some (a, b) -> s = a ++ x :: b /\ ~ In x a.
Proof.
  revert a. induction s as [|c s IH]; intros a; cbn [cut_at]; [discriminate|]. destruct (c =? x) eqn:E.
  - intros [= <- <-]. apply N.eqb_eq in E as ->. split; [reflexivity|]. intros [].
  - destruct (cut_at x s) as [[a' b']|] eqn:C; [|discriminate]. intros [= <- <-]. destruct (IH _ eq_refl) as [-> N]. split; [reflexivity|].
    intros [->|I]; [rewrite N.eqb_refl in E; discriminate|exact (N I)].
Qed.
Lemma cut_none x s : cut_at x s = None -> ~ In x s.
Proof.
  induction s as [|c s IH]; cbn [cut_at]; [intros _ []|]. destruct (c =? x) eqn:E; [discriminate|]. destruct (cut_at x s) as [[? ?]|]; [discriminate|].
  intros _ [->|I]; [rewrite N.eqb_refl in E; discriminate|exact (IH eq_refl I)].
Qed.

(** What the pieces stand for *)
Fixpoint fill (env : str -> option str) (ps : list piece) : expansion :=
  match ps with
  | [] => XDone []
  | Letter c :: r => push_str [c] (fill env r)
  | Var v :: r => look_up env v (fill env r)
  end.
Lemma push_app a b r : push_str (a ++ b) r = push_str a (push_str b r).
Proof. destruct r; cbn [push_str]; [|reflexivity|reflexivity]. now rewrite app_assoc. Qed.
Lemma push_nil r : push_str [] r = r.
Proof. now destruct r. Qed.
Lemma letters uni env a : Forall (fun c => c <> 36) a -> forall r ps, spelled uni r ps ->
  spelled uni (a ++ r) (map Letter a ++ ps) /\ fill env (map Letter a ++ ps) = push_str a (fill env ps).
Proof.
  induction 1 as [|c a N F IH]; intros r ps S; cbn [map app fill]; [now rewrite push_nil|]. destruct (IH r ps S) as [S' E]. split; [now constructor|].
  rewrite E. change (c :: a) with ([c] ++ a). symmetry. apply push_app.
Qed.
Lemma loop_spelled uni env f : forall s, (length s < f)%nat -> exists ps, spelled uni s ps /\ env_loop f uni env s = fill env ps.
Proof.
  induction f as [|f IH]; intros s L; [lia|]. cbn [env_loop]. destruct (span (fun c => negb (c =? 36)) s) as [a r] eqn:E. apply span_ok in E as (-> & F & N).
  assert (F' : Forall (fun c => c <> 36) a) by (eapply Forall_impl; [|exact F]; cbn; intros c; now rewrite Bool.negb_true_iff, N.eqb_neq). clear F.
  rewrite app_length in L.
  assert (K : exists ps, spelled uni r ps /\ match r with
     | [] => XDone []
     | _ :: [] => push_str [36] (env_loop f uni env [])
     | _ :: c :: u =>
         if c =? 123 then match cut_at 125 u with Some (v, w) => look_up env v (env_loop f uni env w) | None => push_str [36; 123] (env_loop f uni env u) end
         else if name_char uni c then let (v, w) := span (name_char uni) u in look_up env (c :: v) (env_loop f uni env w)
         else push_str [36] (env_loop f uni env (if c =? 36 then u else c :: u)) end = fill env ps).
  2:{ destruct K as (ps & S & ->). destruct (letters uni env a F' r ps S) as [S' E']. exists (map Letter a ++ ps). now rewrite E'. }
  destruct r as [|d [|c u]].
  - exists []. split; [constructor|reflexivity].
  - assert (d = 36). { specialize (N d [] eq_refl). destruct (d =? 36) eqn:E; [now apply N.eqb_eq|exfalso; apply N; cbn; now rewrite E]. } subst d.
    destruct (IH [] ltac:(cbn in *; lia)) as (ps & S & ->). exists (Letter 36 :: ps). split; [|reflexivity]. apply sp_lone; [intros ? ? [=]|exact S].
  - assert (d = 36). { specialize (N d (c :: u) eq_refl). destruct (d =? 36) eqn:E; [now apply N.eqb_eq|exfalso; apply N; cbn; now rewrite E]. } subst d. cbn [length] in L. clear N.
    destruct (c =? 123) eqn:B.
    + apply N.eqb_eq in B as ->. destruct (cut_at 125 u) as [[v w]|] eqn:C.
      * apply cut_some in C as [-> NI]. rewrite app_length in L. cbn [length] in L. destruct (IH w ltac:(lia)) as (ps & S & ->).
        exists (Var v :: ps). split; [now constructor|reflexivity].
      * apply cut_none in C. destruct (IH u ltac:(lia)) as (ps & S & ->). exists (Letter 36 :: Letter 123 :: ps). split; [now constructor|].
        cbn [fill]. now rewrite <- push_app.
    + apply N.eqb_neq in B. destruct (name_char uni c) eqn:W.
      * destruct (span (name_char uni) u) as [v w] eqn:E. apply span_ok in E as (-> & F & N). rewrite app_length in L. destruct (IH w ltac:(lia)) as (ps & S & ->).
        exists (Var (c :: v) :: ps). split; [|reflexivity]. apply sp_named; [|intros x q Q X; apply (N x q Q); now apply name_iff|exact S].
        constructor; [now apply name_iff|]. eapply Forall_impl; [|exact F]. intros x. apply name_iff.
      * destruct (c =? 36) eqn:D.
        -- apply N.eqb_eq in D as ->. destruct (IH u ltac:(lia)) as (ps & S & ->). exists (Letter 36 :: ps). split; [now constructor|reflexivity].
        -- apply N.eqb_neq in D. destruct (IH (c :: u) ltac:(cbn; lia)) as (ps & S & ->). exists (Letter 36 :: ps). split; [|reflexivity].
           apply sp_lone; [|exact S]. intros x q [= <- _] [X|[X|X]]; [exact (D X)|exact (B X)|]. apply name_iff in X. congruence.
Qed.

Lemma not_word uni c : (c = 36 \/ c = 123) -> ~ word_char uni c.
Proof. unfold word_char. intros [->| ->] [H|[H|[H|[H|[H _]]]]]; try lia. Qed.
Lemma two_cuts (x : N) a b c d : a ++ x :: b = c ++ x :: d -> ~ In x a -> ~ In x c -> a = c /\ b = d.
Proof.
  revert c. induction a as [|y a IH]; intros [|z c] E A C; cbn [app] in E.
  - now injection E.
  - injection E as -> _. destruct C. now left.
  - injection E as -> _. destruct A. now left.
  - injection E as -> E. destruct (IH c E) as [-> ->]; [intros I; apply A; now right|intros I; apply C; now right|easy].
Qed.
Lemma two_spans (p : N -> Prop) a b c d : a ++ b = c ++ d -> Forall p a -> Forall p c -> ends_before p b -> ends_before p d -> a = c /\ b = d.
Proof.
  revert c. induction a as [|y a IH]; intros [|z c] E A C B D; cbn [app] in E.
  - easy.
  - inversion C; subst. destruct (B z (c ++ d) eq_refl). assumption.
  - inversion A; subst. destruct (D y (a ++ b) eq_refl). assumption.
  - injection E as -> E. inversion A; inversion C; subst. destruct (IH c E) as [-> ->]; easy.
Qed.
Lemma spelled_fun uni s ps : spelled uni s ps -> forall qs, spelled uni s qs -> ps = qs.
Proof.
  induction 1 as [|c r ps N S IH|v r ps N S IH|r ps N S IH|c v r ps F N S IH|r ps S IH|r ps N S IH]; intros qs Q.
  - now inversion Q.
  - inversion Q; subst; try contradiction. f_equal. auto.
  - inversion Q as [|? ? ? B|v' r' ? B ? E|? ? B|? ? ? ? B| |? ? B]; subst.
    + contradiction.
    + match goal with E : _ ++ 125 :: _ = _ ++ 125 :: _ |- _ => destruct (two_cuts 125 _ _ _ _ E) as [-> ->] end; try assumption. f_equal. auto.
    + destruct B. apply in_or_app. right. now left.
    + inversion B; subst. destruct (not_word uni 123); auto.
    + destruct (B _ _ eq_refl). auto.
  - inversion Q as [|? ? ? B|v' r' ? B ? E|? ? B|? ? ? ? B| |? ? B]; subst.
    + contradiction.
    + destruct N. apply in_or_app. right. now left.
    + repeat f_equal. auto.
    + inversion B; subst. destruct (not_word uni 123); auto.
    + destruct (B _ _ eq_refl). auto.
  - assert (W : word_char uni c) by now inversion F.
    inversion Q as [|? ? ? B|v' r' ? B ? E|? ? B|? ? ? ? B| |? ? B]; subst.
    + contradiction.
    + destruct (not_word uni 123); auto.
    + destruct (not_word uni 123); auto.
    + match goal with E : _ ++ _ = _ ++ _ |- _ => destruct (two_spans (word_char uni) _ _ _ _ E) as [-> ->] end; try assumption; try now inversion F; try now inversion B. f_equal. auto.
    + destruct (not_word uni 36); auto.
    + destruct (B _ _ eq_refl). auto.
  - inversion Q as [|? ? ? B|v' r' ? B ? E|? ? B|? ? ? ? B| |? ? B]; subst.
    + contradiction.
    + inversion B; subst. destruct (not_word uni 36); auto.
    + f_equal. auto.
    + destruct (B _ _ eq_refl). auto.
  - inversion Q as [|? ? ? B|v' r' ? B ? E|? ? B|? ? ? ? B| |? ? B]; subst.
    + contradiction.
    + destruct (N _ _ eq_refl). auto.
    + destruct (N _ _ eq_refl). auto.
    + inversion B; subst. destruct (N _ _ eq_refl). auto.
    + destruct (N _ _ eq_refl). auto.
    + f_equal. auto.
Qed.
Lemma spelled_ex uni s : exists ps, spelled uni s ps.
Proof. destruct (loop_spelled uni (fun _ => None) (S (length s)) s ltac:(lia)) as (ps & S & _). eauto. Qed.
Lemma spelled_one uni s : exists ps, spelled uni s ps /\ forall qs, spelled uni s qs -> qs = ps.
Proof. destruct (spelled_ex uni s) as [ps S]. exists ps. split; [exact S|]. intros qs Q. exact (spelled_fun uni s qs Q ps S). Qed.
Lemma expand_fill uni env s ps : spelled uni s ps -> env_expand uni env s = fill env ps.
Proof.
  intros S. unfold env_expand. destruct (loop_spelled uni env (Datatypes.S (length s)) s ltac:(lia)) as (qs & Q & ->). now rewrite (spelled_fun _ _ _ S _ Q).
Qed.
Lemma fill_done env ps x : fill env ps = XDone x <-> filled env ps x.
Proof.
  unfold filled. revert x. induction ps as [|[c|v] ps IH]; intros x; cbn [fill].
  - split; [intros [= <-]; exists []; split; [constructor|reflexivity]|]. intros (xs & F & ->). now inversion F.
  - split.
    + destruct (fill env ps) as [y| |]; try discriminate. intros [= <-]. destruct (proj1 (IH y) eq_refl) as (xs & F & ->). exists ([c] :: xs). split; [now constructor|reflexivity].
    + intros (xs & F & ->). inversion F as [|? y ? ys E F']; subst. rewrite (proj2 (IH (concat ys))); [reflexivity|eauto].
  - unfold look_up. split.
    + destruct (env v) as [y|] eqn:V; [|discriminate]. destruct (fill env ps) as [z| |]; try discriminate. intros [= <-]. destruct (proj1 (IH z) eq_refl) as (xs & F & ->).
      exists (y :: xs). split; [now constructor|reflexivity].
    + intros (xs & F & ->). inversion F as [|? y ? ys E F']; subst. rewrite E, (proj2 (IH (concat ys))); [reflexivity|eauto].
Qed.
Lemma fill_missing env ps v : fill env ps = XMissing v <-> lacks env ps v.
Proof.
  unfold lacks. induction ps as [|[c|w] ps IH]; cbn [fill].
  - split; [discriminate|]. intros ([|? ?] & b & E & _); discriminate.
  - split.
    + intros H. destruct (fill env ps) as [z|z|]; try discriminate. injection H as ->. destruct (proj1 IH eq_refl) as (a & b & -> & V & A).
      exists (Letter c :: a), b. split; [reflexivity|]. split; [exact V|]. intros w [E|I]; [discriminate|exact (A w I)].
    + intros ([|p a] & b & E & V & A); [discriminate|]. injection E as <- E. rewrite (proj2 IH); [reflexivity|]. exists a, b. split; [exact E|]. split; [exact V|].
      intros w I. apply A. now right.
  - unfold look_up. destruct (env w) as [y|] eqn:W.
    + split.
      * intros H. destruct (fill env ps) as [z|z|]; try discriminate. injection H as ->. destruct (proj1 IH eq_refl) as (a & b & -> & V & A).
        exists (Var w :: a), b. split; [reflexivity|]. split; [exact V|]. intros u [[= <-]|I]; [congruence|exact (A u I)].
      * intros ([|p a] & b & E & V & A); [injection E as <- <-; congruence|]. injection E as <- E. rewrite (proj2 IH); [reflexivity|]. exists a, b. split; [exact E|].
        split; [exact V|]. intros u I. apply A. now right.
    + split.
      * intros [= <-]. exists [], ps. split; [reflexivity|]. split; [exact W|]. intros ? [].
      * intros ([|p a] & b & E & V & A); [now injection E as <- <-|]. injection E as <- E. destruct (A w); [now left|exact W].
Qed.
Lemma fill_fuel env ps : fill env ps <> XFuel.
Proof.
  induction ps as [|[c|w] ps IH]; cbn [fill]; [discriminate| |unfold look_up; destruct (env w); [|discriminate]]; destruct (fill env ps); try discriminate; contradiction.
Qed.
Lemma no_dollar uni s : existsb (fun c => c =? 36) s = false -> spelled uni s (map Letter s).
Proof.
  induction s as [|c s IH]; cbn [existsb map]; [constructor|]. intros H. apply Bool.orb_false_iff in H as [C H]. apply N.eqb_neq in C. constructor; auto.
Qed.
Lemma fill_letters env s : fill env (map Letter s) = XDone s.
Proof. induction s as [|c s IH]; cbn [map fill]; [reflexivity|]. now rewrite IH. Qed.
Lemma fill_first uni env s ps x : spelled uni s ps -> fill env ps = XDone x -> forall q, s = 126 :: q -> exists r, x = 126 :: r.
Proof. intros S F q ->. inversion S; subst. cbn [fill] in F. destruct (fill env ps0); try discriminate. injection F as <-. eauto. Qed.
Lemma tilde_start x : starts_with (lit "~") x = true <-> exists q, x = 126 :: q.
Proof.
  change (lit "~") with [126]. cbn [starts_with]. destruct x as [|c x]; [split; [discriminate|intros [? [=]]]|]. rewrite Bool.andb_true_r, N.eqb_eq.
  split; [intros <-; eauto|intros [q [= -> _]]; reflexivity].
Qed.
Lemma tilde_other home x : (if starts_with (lit "~") x then x else tilde home x) = x.
Proof.
  destruct (starts_with (lit "~") x) eqn:X; [reflexivity|]. unfold tilde. destruct x as [|c x]; [reflexivity|].
  destruct (N.eq_dec c 126) as [->|D]; [assert (starts_with (lit "~") (126 :: x) = true) by (apply tilde_start; eauto); congruence|].
  destruct c as [|p]; [reflexivity|]. do 7 (destruct p as [p|p|]; try reflexivity). all: contradiction.
Qed.
Lemma tilde_located home s x : (forall q, s = 126 :: q -> exists r, x = 126 :: r) ->
  forall t, located home s x t <-> t = (if negb (starts_with (lit "~") s) && starts_with (lit "~") x then x else tilde home x).
Proof.
  intros H t. destruct (starts_with (lit "~") s) eqn:S; cbn [negb andb].
  - apply tilde_start in S as [q ->]. destruct (H q eq_refl) as [r ->]. clear H. unfold tilde, located, homeward.
    assert (E : is_empty r || starts_with (lit "/") r = true <-> ends_before (fun c => c <> 47) r).
    { change (lit "/") with [47]. destruct r as [|c r]; cbn [is_empty orb starts_with]; [split; [intros _ ? ? [=]|reflexivity]|].
      rewrite Bool.andb_true_r, N.eqb_eq. split; [intros <- d e [= <- _] N; exact (N eq_refl)|]. intros K.
      destruct (N.eq_dec 47 c) as [->|N]; [reflexivity|]. destruct (K c r eq_refl). congruence. }
    destruct (is_empty r || starts_with (lit "/") r) eqn:B.
    + pose proof (proj1 E eq_refl) as K. destruct home as [h|].
      * split; [intros [(r' & h' & (_ & [= <-] & _) & [= <-] & ->)|[[X|X] _]]; [reflexivity|discriminate|]|].
        -- destruct (X r). eauto 6.
        -- intros ->. left. exists r, h. eauto 8.
      * split; [intros [(r' & h' & _ & [=] & _)|[_ ->]]; reflexivity|]. intros ->. right. auto.
    + assert (K : ~ ends_before (fun c => c <> 47) r) by (intros X; apply E in X; discriminate).
      split; [intros [(r' & h' & (_ & [= <-] & X) & _)|[_ ->]]; [contradiction|reflexivity]|]. intros ->. right. split; [|reflexivity]. right.
      intros r' (_ & [= <-] & X). exact (K X).
  - assert (N : forall r, ~ homeward s x r) by (intros r (Q & _); apply tilde_start in Q; congruence).
    rewrite (tilde_other home x).
    unfold located. split; [intros [(r & h & X & _)|[_ ->]]; [destruct (N r X)|reflexivity]|]. intros ->. right. auto.
Qed.
Theorem full_done uni env home s t : full uni env home s = XDone t <-> exists ps x, spelled uni s ps /\ filled env ps x /\ located home s x t.
Proof.
  assert (A : forall ps x, spelled uni s ps -> fill env ps = XDone x -> forall y,
    located home s x y <-> y = (if negb (starts_with (lit "~") s) && starts_with (lit "~") x then x else tilde home x))
    by (intros ps x S F; apply tilde_located; exact (fill_first uni env s ps x S F)).
  unfold full. destruct (existsb (fun c => c =? 36) s) eqn:D.
  - destruct (spelled_ex uni s) as [ps S]. rewrite (expand_fill uni env s ps S). split.
    + destruct (fill env ps) as [x| |] eqn:F; try discriminate. intros [= <-]. exists ps, x. split; [exact S|]. split; [now apply fill_done|]. now apply (A ps x S F).
    + intros (qs & x & Q & F & L). rewrite (spelled_fun _ _ _ S _ Q) in *. apply fill_done in F. rewrite F. f_equal. symmetry. now apply (A qs x Q F).
  - pose proof (no_dollar uni s D) as S. assert (F := fill_letters env s).
    assert (T : (if negb (starts_with (lit "~") s) && starts_with (lit "~") s then s else tilde home s) = tilde home s) by now destruct (starts_with (lit "~") s).
    split.
    + intros [= <-]. exists (map Letter s), s. split; [exact S|]. split; [now apply fill_done|]. now apply (A _ s S F).
    + intros (qs & x & Q & G & L). rewrite <- (spelled_fun _ _ _ S _ Q) in *. apply fill_done in G. assert (x = s) by congruence. subst x. f_equal. apply (A _ s S F) in L. congruence.
Qed.
Theorem full_missing uni env home s v : full uni env home s = XMissing v <-> exists ps, spelled uni s ps /\ lacks env ps v.
Proof.
  unfold full. destruct (existsb (fun c => c =? 36) s) eqn:D.
  - destruct (spelled_ex uni s) as [ps S]. rewrite (expand_fill uni env s ps S). split.
    + intros H. exists ps. split; [exact S|]. apply fill_missing. destruct (fill env ps); congruence.
    + intros (qs & Q & L). rewrite (spelled_fun _ _ _ S _ Q). apply fill_missing in L. now rewrite L.
  - split; [discriminate|]. intros (qs & Q & L). rewrite <- (spelled_fun _ _ _ (no_dollar uni s D) _ Q) in L. apply fill_missing in L. rewrite fill_letters in L. discriminate.
Qed.
Theorem full_ends uni env home s : full uni env home s <> XFuel.
Proof.
  unfold full. destruct (existsb (fun c => c =? 36) s); [|discriminate]. destruct (spelled_ex uni s) as [ps S]. rewrite (expand_fill uni env s ps S).
  pose proof (fill_fuel env ps). destruct (fill env ps); congruence.
Qed.

(** ** Consequences *)
Lemma fill_ext env env' ps : (forall v, In (Var v) ps -> env v = env' v) -> fill env ps = fill env' ps.
Proof.
  induction ps as [|[c|v] ps IH]; intros H; cbn [fill]; [reflexivity| |].
  - rewrite IH; [reflexivity|]. intros v I. apply H. now right.
  - unfold look_up. rewrite (H v) by now left. rewrite IH; [reflexivity|]. intros u I. apply H. now right.
Qed.
Lemma full_ext uni env env' home s ps : spelled uni s ps -> (forall v, In (Var v) ps -> env v = env' v) -> full uni env home s = full uni env' home s.
Proof. intros S H. unfold full. now rewrite !(expand_fill uni _ s ps S), (fill_ext env env' ps H). Qed.
Lemma fill_all env ps : (exists x, fill env ps = XDone x) <-> forall v, In (Var v) ps -> env v <> None.
Proof.
  induction ps as [|[c|v] ps IH]; cbn [fill].
  - split; [intros _ v []|]. intros _. now exists [].
  - split.
    + intros [x H]. destruct (fill env ps) as [y| |]; try discriminate. intros v [E|I]; [discriminate|]. apply (proj1 IH); eauto.
    + intros H. destruct (proj2 IH) as [x ->]; [intros v I; apply H; now right|]. eexists. reflexivity.
  - unfold look_up. split.
    + intros [x H]. destruct (env v) as [z|] eqn:V; [|discriminate]. destruct (fill env ps) as [y| |]; try discriminate.
      intros u [[= ->]|I]; [congruence|]. apply (proj1 IH); eauto.
    + intros H. destruct (env v) as [z|] eqn:V; [|destruct (H v); [now left|exact V]]. destruct (proj2 IH) as [x ->]; [intros u I; apply H; now right|]. eexists. reflexivity.
Qed.
Lemma full_all uni env home s ps : spelled uni s ps -> ((exists t, full uni env home s = XDone t) <-> forall v, In (Var v) ps -> env v <> None).
Proof.
  intros S. rewrite <- fill_all. unfold full. destruct (existsb (fun c => c =? 36) s) eqn:D.
  - rewrite (expand_fill uni env s ps S). split; intros [x H]; [|rewrite H; eauto]. destruct (fill env ps); try discriminate; eauto.
  - rewrite <- (spelled_fun _ _ _ (no_dollar uni s D) _ S), fill_letters. split; intros _; eauto.
Qed.
Lemma letters_spelled uni s ps : Forall (fun c => c <> 36) s -> spelled uni s ps <-> ps = map Letter s.
Proof.
  intros F. assert (S : spelled uni s (map Letter s)).
  { destruct (letters uni (fun _ => None) s F [] [] (sp_end uni)) as [S _]. now rewrite !app_nil_r in S. }
  split; [intros S'; exact (spelled_fun _ _ _ S' _ S)|intros ->; exact S].
Qed.
Lemma full_plain uni env home s : ~ In 36 s -> (forall r, ~ homeward s s r) -> full uni env home s = XDone s.
Proof.
  intros N H. assert (F : Forall (fun c => c <> 36) s) by (apply Forall_forall; intros c I ->; exact (N I)).
  apply full_done. exists (map Letter s), s. split; [now apply letters_spelled|]. split; [apply fill_done, fill_letters|]. right. auto.
Qed.
Lemma full_prefix uni env home v x r : ~ In 125 v -> env v = Some x -> ~ In 36 r -> full uni env home (36 :: 123 :: v ++ 125 :: r) = XDone (x ++ r).
Proof.
  intros V E N. assert (F : Forall (fun c => c <> 36) r) by (apply Forall_forall; intros c I ->; exact (N I)).
  apply full_done. exists (Var v :: map Letter r), (x ++ r). split; [constructor; [exact V|now apply letters_spelled]|]. split.
  - apply fill_done. cbn [fill]. unfold look_up. now rewrite E, fill_letters.
  - right. split; [|reflexivity]. right. intros q ([p P] & _). discriminate.
Qed.
Lemma full_home uni env h r : ~ In 36 r -> ends_before (fun c => c <> 47) r -> full uni env (Some h) (126 :: r) = XDone (h ++ r).
Proof.
  intros N H. assert (F : Forall (fun c => c <> 36) (126 :: r)) by (apply Forall_forall; intros c [<-|I]; [discriminate|intros ->; exact (N I)]).
  apply full_done. exists (map Letter (126 :: r)), (126 :: r). split; [now apply letters_spelled|]. split; [apply fill_done, fill_letters|].
  left. exists r, h. split; [|easy]. split; [eauto|]. easy.
Qed.
