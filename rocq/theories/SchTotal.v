(** The loop bound of the schematic reader suffices, and a condition under which
    the reader does not crash. *)
From Coq Require Import String Lia.
From Verif Require Import Base Str StrFacts Num F64 F64Text LibFns SchData SchPrint SchParse SchSpec.
Open Scope string_scope. Open Scope list_scope.

(** ** Never out of fuel *)
Definition nf {A} (r : res A) : Prop := r <> Err EFuel.
Lemma nf_bind {A B} (r : res A) (f : A -> res B) : nf r -> (forall a, r = Ok a -> nf (f a)) -> nf (bind r f).
Proof. unfold nf. destruct r; cbn; intros H K; [apply K; auto|congruence|discriminate]. Qed.
Lemma nf_ok {A} (a : A) : nf (Ok a). Proof. discriminate. Qed.
Lemma nf_panic {A} : nf (@Panic A). Proof. discriminate. Qed.
Lemma nf_other {A} : nf (@Err A EOther). Proof. discriminate. Qed.
Lemma nf_idx {A} (l : list A) i : nf (idx l i). Proof. unfold nf, idx. destruct (nth_error l i); discriminate. Qed.
Lemma nf_opt {A} (o : option A) : nf (of_option EOther o). Proof. destruct o; discriminate. Qed.
Lemma nf_here p : nf (here p). Proof. destruct p; discriminate. Qed.
Lemma nf_int n s : nf (split_quote_aware_int n s).
Proof. unfold nf, split_quote_aware_int. destruct n; [destruct (Nat.ltb _ _)|]; discriminate. Qed.
Lemma nf_char s i : nf (char_at s i).
Proof. apply nf_idx. Qed.
Ltac nf_step :=
  first
  [ apply nf_ok | apply nf_panic | apply nf_other | apply nf_idx | apply nf_opt | apply nf_here | apply nf_int | apply nf_char
  | assumption
  | apply nf_bind; [|intros]
  | match goal with |- nf (if ?b then _ else _) => destruct b end
  | match goal with |- nf (let '(_, _) := ?p in _) => destruct p end
  | match goal with |- nf (match ?p with _ => _ end) => destruct p end ].
Ltac nfs := repeat nf_step.

Lemma nf_word n s : nf (word_and_qstring n s). Proof. unfold word_and_qstring, assume_string. nfs. Qed.
Lemma nf_description p : nf (parse_description p).
Proof. unfold parse_description, i64_from_string, assume_string. repeat (first [apply nf_word|nf_step]). Qed.
Lemma nf_four s : nf (four s). Proof. unfold four, i64_from_string. nfs. Qed.
Lemma nf_cfield v : nf (cfield_new v).
Proof. unfold cfield_new, i64_from_string, f64_from_string, orientation_new, bool_from_string, bool_from, sjustify_new. nfs. Qed.
Lemma nf_component_line s d : nf (component_line s d).
Proof. unfold component_line, i64_from_string. repeat (first [apply nf_cfield|nf_step]). Qed.
Lemma nf_component_loop n : forall p d, (length p <= n)%nat -> nf (component_loop p d).
Proof.
  induction n as [|n IH]; intros p d L.
  - destruct p; [discriminate|cbn in L; lia].
  - destruct p as [|s r]; cbn [component_loop]; [discriminate|]. cbn in L.
    destruct (seq s "$EndComp"); [discriminate|]. destruct (word_is s "1" || word_is s "0").
    + destruct r as [|s2 r2]; [discriminate|]. cbn in L. apply nf_bind; [apply nf_four|]. intros [[[a b] c] e] _. apply IH. lia.
    + apply nf_bind; [apply nf_component_line|]. intros d' _. apply IH. lia.
Qed.
Lemma nf_sheet_line s d : nf (sheet_line s d).
Proof. unfold sheet_line, parse_sheet_label, parse_label_form, parse_label_side, i64_from_string. nfs. Qed.
Lemma nf_sheet_loop p : forall d, nf (sheet_loop p d).
Proof.
  induction p as [|s r IH]; intros d; cbn [sheet_loop]; [discriminate|].
  destruct (seq s "$EndSheet"); [discriminate|]. apply nf_bind; [apply nf_sheet_line|]. intros d' _. apply IH.
Qed.
Lemma nf_wire p : nf (parse_wire p). Proof. unfold parse_wire. repeat (first [apply nf_four|nf_step]). Qed.
Lemma nf_point p : nf (parse_point p). Proof. unfold parse_point, i64_from_string. nfs. Qed.
Lemma nf_text p : nf (parse_text p). Proof. unfold parse_text, i64_from_string. nfs. Qed.
Lemma nf_round p c : nf (round p c).
Proof.
  unfold round, parse_component, parse_sheet.
  repeat (first [apply nf_description|eapply nf_component_loop; reflexivity|apply nf_sheet_loop|apply nf_wire|apply nf_point|apply nf_text|nf_step]).
Qed.

(** Positions only move forward. *)
Ltac rbinv := repeat match goal with
  | H : bind ?e _ = Ok _ |- _ => let E := fresh "E" in destruct e eqn:E; cbn [bind] in H; [|discriminate H|discriminate H]
  | H : (if ?b then _ else _) = Ok _ |- _ => destruct b; try discriminate H
  | H : Ok _ = Ok _ |- _ => injection H as <-
  end.
Definition suf (p q : list str) : Prop := exists a, p = a ++ q.
Lemma suf_refl p : suf p p. Proof. exists []. reflexivity. Qed.
Lemma suf_trans p q r : suf p q -> suf q r -> suf p r.
Proof. intros (a & ->) (b & ->). exists (a ++ b). now rewrite app_assoc. Qed.
Lemma suf_cons s p q : suf p q -> suf (s :: p) q.
Proof. intros (a & ->). exists (s :: a). reflexivity. Qed.
Lemma suf_next p : suf p (next p).
Proof. destruct p; [apply suf_refl|apply suf_cons, suf_refl]. Qed.
Lemma suf_len p q : suf p q -> (length q <= length p)%nat.
Proof. intros (a & ->). rewrite app_length. lia. Qed.
Lemma suf_component_loop n : forall p d r, (length p <= n)%nat -> component_loop p d = Ok r -> suf p (snd r).
Proof.
  induction n as [|n IH]; intros p d r L; [destruct p; [discriminate|cbn in L; lia]|].
  destruct p as [|s t]; cbn [component_loop]; [discriminate|]. cbn in L.
  destruct (seq s "$EndComp"); [intros [= <-]; apply suf_refl|]. destruct (word_is s "1" || word_is s "0").
  - destruct t as [|s2 t2]; [discriminate|]. cbn in L. destruct (four s2) as [[[[a b] c] e]| |]; cbn [bind]; try discriminate.
    intros H. apply IH in H; [|lia]. now apply suf_cons, suf_cons.
  - destruct (component_line s d); cbn [bind]; try discriminate. intros H. apply IH in H; [|lia]. now apply suf_cons.
Qed.
Lemma suf_sheet_loop p : forall d r, sheet_loop p d = Ok r -> suf p (snd r).
Proof.
  induction p as [|s t IH]; intros d r; cbn [sheet_loop]; [discriminate|].
  destruct (seq s "$EndSheet"); [intros [= <-]; apply suf_refl|]. destruct (sheet_line s d); cbn [bind]; try discriminate.
  intros H. apply IH in H. now apply suf_cons.
Qed.
Lemma suf_description p r : parse_description p = Ok r -> suf p (snd r).
Proof.
  unfold parse_description. intros H. cbv zeta in H. rbinv. cbn [snd].
  repeat (eapply suf_trans; [|apply suf_next]). apply suf_refl.
Qed.
Lemma suf_round p c r : round p c = Ok r -> suf p (snd r).
Proof.
  unfold round. destruct (here p) as [s| |]; cbn [bind]; try discriminate. destruct (first_word s) as [w|]; [|discriminate].
  destruct (seq w "$Descr").
  { destruct (parse_description p) as [dp| |] eqn:E; cbn [bind]; try discriminate. intros [= <-]. cbn. now apply suf_description in E. }
  destruct (seq w "$Comp").
  { destruct (parse_component p) as [dp| |] eqn:E; cbn [bind]; try discriminate. intros [= <-]. cbn.
    eapply suf_component_loop in E; [|reflexivity]. eapply suf_trans; [apply suf_next|exact E]. }
  destruct (seq w "$Sheet").
  { destruct (parse_sheet p) as [dp| |] eqn:E; cbn [bind]; try discriminate. intros [= <-]. cbn.
    apply suf_sheet_loop in E. eapply suf_trans; [apply suf_next|exact E]. }
  destruct (seq w "$EndSCHEMATC"); [intros [= <-]; apply suf_refl|].
  destruct (seq w "Wire").
  { destruct (parse_wire p) as [dp| |] eqn:E; cbn [bind]; try discriminate. intros [= <-]. cbn [snd].
    unfold parse_wire in E. destruct (here p) as [t| |]; cbn [bind] in E; try discriminate.
    destruct (split_ws t) as [|a [|k [|b [|]]]]; try discriminate. cbv zeta in E.
    destruct (here (next p)) as [u| |]; cbn [bind] in E; try discriminate.
    destruct (four u) as [[[[? ?] ?] ?]| |]; cbn [bind] in E; try discriminate. injection E as <-. cbn [snd]. apply suf_next. }
  assert (PT : forall dp, parse_point p = Ok dp -> suf p (snd dp)).
  { intros dp E. unfold parse_point in E. destruct (here p) as [t| |]; cbn [bind] in E; try discriminate.
    destruct (split_ws t) as [|? [|? [|? [|? [|]]]]]; try discriminate. rbinv. apply suf_refl. }
  destruct (seq w "Connection").
  { destruct (parse_point p) as [dp| |] eqn:E; cbn [bind]; try discriminate. intros [= <-]. cbn. auto. }
  destruct (seq w "NoConn").
  { destruct (parse_point p) as [dp| |] eqn:E; cbn [bind]; try discriminate. intros [= <-]. cbn. auto. }
  destruct (seq w "Text"); [|intros [= <-]; apply suf_refl].
  destruct (parse_text p) as [dp| |] eqn:E; cbn [bind]; try discriminate. intros [= <-]. cbn [snd fst].
  unfold parse_text in E. cbv zeta in E. destruct (here p) as [u| |]; cbn [bind] in E; try discriminate.
  destruct (Nat.ltb _ _); [discriminate|].
  repeat match goal with
  | H : bind ?e _ = Ok _ |- _ => destruct e; cbn [bind] in H; [|discriminate H|discriminate H]
  end. injection E as <-. cbn [snd]. apply suf_next.
Qed.
Lemma nf_main n : forall p c, (length p <= n)%nat -> nf (main_loop n p c).
Proof.
  induction n as [|n IH]; intros p c L.
  - destruct p; [discriminate|cbn in L; lia].
  - destruct p as [|s t]; cbn [main_loop]; [discriminate|]. apply nf_bind; [apply nf_round|].
    intros cp E. apply IH. apply suf_round, suf_len in E. cbn in L, E. unfold next. destruct (snd cp); cbn in *; lia.
Qed.
Lemma nf_parse fn t : nf (parse_schematic fn t).
Proof.
  unfold parse_schematic, parse_lines. apply nf_bind; [unfold assume_line; nfs|]. intros p _.
  destruct (libs_loop p []) as [libs q]. apply nf_bind; [apply nf_here|]. intros e _.
  destruct (negb _); [discriminate|]. apply nf_bind; [unfold assume_line; nfs|]. intros r _. apply nf_main. lia.
Qed.

(** ** No crash *)
Definition np {A} (r : res A) : Prop := r <> Panic.
Lemma np_bind {A B} (r : res A) (f : A -> res B) : np r -> (forall a, r = Ok a -> np (f a)) -> np (bind r f).
Proof. unfold np. destruct r; cbn; intros H K; [apply K; auto|discriminate|congruence]. Qed.
Lemma np_ok {A} (a : A) : np (Ok a). Proof. discriminate. Qed.
Lemma np_err {A} e : np (@Err A e). Proof. discriminate. Qed.
Lemma np_opt {A} e (o : option A) : np (of_option e o). Proof. destruct o; discriminate. Qed.
Lemma np_int n s : np (split_quote_aware_int n s).
Proof. unfold np, split_quote_aware_int. destruct n; [destruct (Nat.ltb _ _)|]; discriminate. Qed.
Lemma np_idx {A} (l : list A) i : (i < length l)%nat -> np (idx l i).
Proof. intros H. unfold np, idx. destruct (nth_error l i) eqn:E; [discriminate|]. apply nth_error_None in E. lia. Qed.
Lemma split_n_len n s v : split_quote_aware_n n s = Ok v -> (n <= length v)%nat.
Proof.
  unfold split_quote_aware_n, split_quote_aware_int. cbv zeta. match goal with |- (if Nat.ltb (length ?x) _ then _ else _) = _ -> _ => set (w := x) end.
  destruct (Nat.ltb_spec (length w) n); [discriminate|]. intros [= <-]. assumption.
Qed.
Ltac np_step :=
  first
  [ apply np_ok | apply np_err | apply np_opt | apply np_int
  | assumption
  | match goal with
    | |- np (bind (split_quote_aware_n _ _) _) =>
        let E := fresh "E" in apply np_bind; [apply np_int|intros ? E; apply split_n_len in E]
    end
  | apply np_bind; [|intros ? _]
  | apply np_idx; lia
  | match goal with |- np (if ?b then _ else _) => destruct b end
  | match goal with |- np (let '(_, _) := ?p in _) => destruct p end
  | match goal with |- np (match ?p with _ => _ end) => destruct p end ].
Ltac nps := repeat np_step.

Lemma np_word n s : np (word_and_qstring n s). Proof. unfold word_and_qstring, assume_string. nps. Qed.
Lemma np_four s : np (four s). Proof. unfold four, i64_from_string. nps. Qed.
Lemma np_sheet_line s d : np (sheet_line s d).
Proof. unfold sheet_line, parse_sheet_label, parse_label_form, parse_label_side, i64_from_string. nps. Qed.

Lemma np_description p : (12 <= length p)%nat -> np (parse_description p).
Proof.
  intros L. do 12 (destruct p as [|? p]; [cbn in L; lia|]). clear L. unfold parse_description, i64_from_string, assume_string.
  cbn [here next tl]. cbn [bind]. repeat (first [apply np_word|np_step]).
Qed.
Lemma np_cfield (v : list str) : (10 <= length v -> 1 <= length (nth 3 v []) /\ 1 <= length (nth 8 v []) /\ 3 <= length (nth 9 v []))%nat ->
  np (cfield_new v).
Proof.
  intros H. unfold cfield_new.
  destruct (negb (Nat.eqb (length v) 10) && negb (Nat.eqb (length v) 11)) eqn:E; [apply np_err|].
  assert (L : (10 <= length v)%nat /\ (Nat.eqb (length v) 11 = true -> (11 <= length v)%nat)).
  { apply andb_false_iff in E. rewrite !negb_false_iff, !Nat.eqb_eq in E. rewrite Nat.eqb_eq. lia. }
  destruct L as [L L11]. specialize (H L). destruct H as (H3 & H8 & H9).
  unfold i64_from_string, f64_from_string, orientation_new, bool_from_string, bool_from, sjustify_new.
  apply np_bind; [apply np_idx; lia|]. intros w1 _. apply np_bind; [nps|]. intros i _.
  apply np_bind; [destruct (Nat.eqb (length v) 11); [apply np_idx; specialize (L11 eq_refl); lia|nps]|]. intros nm _.
  assert (X : forall i w, idx v i = Ok w -> w = nth i v []).
  { intros k w. unfold idx. destruct (nth_error v k) eqn:N; [|discriminate]. intros [= <-]. symmetry. now apply nth_error_nth. }
  apply np_bind; [nps|]. intros val _. apply np_bind; [nps|]. intros w3 E3. apply X in E3. rewrite <- E3 in H3.
  apply np_bind; [apply np_idx; lia|]. intros c3 _. do 9 (apply np_bind; [nps|intros ? _]).
  apply np_bind; [nps|]. intros w8 E8. apply X in E8. rewrite <- E8 in H8.
  apply np_bind; [apply np_idx; lia|]. intros c8 _. apply np_bind; [nps|intros ? _].
  apply np_bind; [nps|]. intros w9 E9. apply X in E9. rewrite <- E9 in H9.
  apply np_bind; [apply np_idx; lia|]. intros c9 _. apply np_bind; [nps|intros ? _].
  apply np_bind; [apply np_idx; lia|]. intros d1 _. apply np_bind; [nps|intros ? _].
  apply np_bind; [apply np_idx; lia|]. intros d2 _. nps.
Qed.
Lemma word_is_first s w : word_is s w = true -> first_word s = Some (lit w).
Proof. unfold word_is. destruct (first_word s); [|discriminate]. intros H. apply str_eqb_eq in H. now subst. Qed.
Lemma np_component_line s d : line_calm s = true -> np (component_line s d).
Proof.
  intros H. unfold component_line, i64_from_string.
  destruct (word_is s "L"); [nps|]. destruct (word_is s "U"); [nps|]. destruct (word_is s "P"); [nps|].
  destruct (word_is s "F") eqn:F; [|nps]. apply word_is_first in F. unfold line_calm in H. rewrite F in H.
  change (seq (lit "F") "F") with true in H. cbv iota in H.
  apply np_bind; [apply np_int|]. intros v E. unfold split_quote_aware in *. rewrite E in H.
  apply np_bind; [|intros ? _; nps]. apply np_cfield. intros L. destruct (Nat.ltb_spec (length v) 10); [lia|]. cbn [orb] in H.
  rewrite !andb_true_iff, !Nat.leb_le in H. tauto.
Qed.
Lemma np_component_loop n : forall p d, (length p <= n)%nat -> forallb line_calm p = true ->
  existsb (fun s => seq s "$EndComp") p = true -> np (component_loop p d).
Proof.
  induction n as [|n IH]; intros p d L C X; [destruct p; [discriminate|cbn in L; lia]|].
  destruct p as [|s t]; [discriminate|]. cbn [component_loop]. cbn in L, C, X. apply andb_prop in C as [Cs Ct].
  destruct (seq s "$EndComp") eqn:E; [discriminate|]. cbn [orb] in X. destruct (word_is s "1" || word_is s "0").
  - destruct t as [|s2 t2]; [discriminate|]. cbn in L, Ct, X. apply andb_prop in Ct as [_ Ct].
    destruct (seq s2 "$EndComp") eqn:E2.
    + apply str_eqb_eq in E2. subst s2. discriminate.
    + apply np_bind; [apply np_four|]. intros [[[a b] c] e] _. apply IH; auto; lia.
  - apply np_bind; [now apply np_component_line|]. intros d' _. apply IH; auto; lia.
Qed.
Lemma np_sheet_loop p : forall d, existsb (fun s => seq s "$EndSheet") p = true -> np (sheet_loop p d).
Proof.
  induction p as [|s t IH]; intros d X; [discriminate|]. cbn [sheet_loop]. cbn in X.
  destruct (seq s "$EndSheet"); [discriminate|]. apply np_bind; [apply np_sheet_line|]. intros d' _. apply IH, X.
Qed.
Lemma np_text s p : line_calm s = true -> first_word s = Some (lit "Text") -> p <> [] -> np (parse_text (s :: p)).
Proof.
  intros C F P. unfold line_calm in C. rewrite F in C. change (seq (lit "Text") "F") with false in C.
  change (seq (lit "Text") "Text") with true in C. cbv iota in C.
  unfold parse_text. cbn [here bind]. cbv zeta. destruct (Nat.ltb_spec (length (split_ws s)) 8) as [L|L]; [apply np_err|].
  unfold i64_from_string. apply np_bind; [nps|]. intros k K.
  assert (E : nth 1 (split_ws s) [] = k).
  { unfold idx in K. destruct (nth_error (split_ws s) 1) eqn:N; [|discriminate]. injection K as <-. now apply nth_error_nth. }
  rewrite E in C. apply np_bind; [nps|]. intros t T.
  apply np_bind; [nps|]. intros ? _. apply np_bind; [nps|]. intros ? _. apply np_bind; [nps|]. intros ? _. apply np_bind; [nps|]. intros ? _.
  apply np_bind; [nps|]. intros ? _. apply np_bind; [nps|]. intros ? _. apply np_bind; [nps|]. intros ? _. apply np_bind; [nps|]. intros ? _.
  apply np_bind; [nps|]. intros shape _. apply np_bind; [destruct (is_local t); nps|]. intros wi _.
  apply np_bind.
  { destruct (is_local t) eqn:I; [nps|]. apply np_idx. 
    destruct (seq k "Label"); [injection T as <-; discriminate|]. destruct (seq k "Notes"); [injection T as <-; discriminate|].
    destruct (seq k "GLabel"); [|destruct (seq k "HLabel"); [|discriminate]]; cbn [orb] in C;
      apply negb_true_iff, Nat.eqb_neq in C; lia. }
  intros wt _. apply np_bind; [nps|]. intros th _. apply np_bind; [|intros; nps]. cbn [next tl]. destruct p; [contradiction|discriminate].
Qed.

Lemma np_round s p c : line_calm s = true -> block_closed s p = true -> forallb line_calm p = true -> np (round (s :: p) c).
Proof.
  intros C B CP. unfold round. cbn [here bind]. destruct (first_word s) as [w|] eqn:F.
  2:{ unfold line_calm in C. rewrite F in C. discriminate. }
  unfold block_closed in B. rewrite F in B.
  destruct (seq w "$Descr").
  { apply np_bind; [|intros; nps]. apply np_description. apply Nat.leb_le in B. cbn. lia. }
  destruct (seq w "$Comp").
  { apply np_bind; [|intros; nps]. eapply np_component_loop; [reflexivity|exact CP|exact B]. }
  destruct (seq w "$Sheet").
  { apply np_bind; [|intros; nps]. apply np_sheet_loop. exact B. }
  destruct (seq w "$EndSCHEMATC"); [discriminate|].
  destruct (seq w "Wire") eqn:W.
  { cbn [orb] in B. apply np_bind; [|intros; nps]. unfold parse_wire. cbn [here bind].
    destruct (split_ws s) as [|? [|? [|? [|]]]]; try apply np_err. cbv zeta. cbn [next tl]. destruct p; [discriminate|]. cbn [here bind].
    apply np_bind; [apply np_four|]. intros [[[? ?] ?] ?] _. apply np_ok. }
  assert (PT : np (parse_point (s :: p))).
  { unfold parse_point, i64_from_string. cbn [here bind]. nps. }
  destruct (seq w "Connection"); [apply np_bind; [exact PT|intros; nps]|].
  destruct (seq w "NoConn"); [apply np_bind; [exact PT|intros; nps]|].
  destruct (seq w "Text") eqn:T; [|discriminate]. apply str_eqb_eq in T. subst w.
  cbn [orb] in B. apply np_bind; [|intros; nps]. apply np_text; auto. destruct p; discriminate.
Qed.

Lemma suf_forallb (f : str -> bool) p q : suf p q -> forallb f p = true -> forallb f q = true.
Proof. intros (a & ->). rewrite forallb_app. now intros H%andb_prop. Qed.
Lemma suf_closed p q : suf p q -> blocks_closed p = true -> blocks_closed q = true.
Proof. intros (a & ->). induction a as [|s a IH]; [auto|]. cbn. intros H. apply andb_prop in H as [_ H]. auto. Qed.
Lemma np_main n : forall p c, forallb line_calm p = true -> blocks_closed p = true -> np (main_loop n p c).
Proof.
  induction n as [|n IH]; intros p c C B; [destruct p; discriminate|].
  destruct p as [|s t]; [discriminate|]. cbn [main_loop]. assert (C' := C). assert (B' := B). cbn in C', B'.
  apply andb_prop in C' as [Cs Ct]. apply andb_prop in B' as [Bs Bt].
  apply np_bind; [now apply np_round|]. intros cp E. apply suf_round in E.
  assert (S : suf (s :: t) (next (snd cp))) by (eapply suf_trans; [exact E|apply suf_next]).
  apply IH; [eapply suf_forallb; eauto|eapply suf_closed; eauto].
Qed.
Lemma libs_suf p : forall acc, suf p (snd (libs_loop p acc)).
Proof.
  induction p as [|s r IH]; intros acc; cbn [libs_loop]; [apply suf_refl|].
  destruct (starts_with (lit "LIBS:") s); [apply suf_cons, IH|apply suf_refl].
Qed.
Lemma libs_left p : forall acc, existsb (fun s => negb (starts_with (lit "LIBS:") s)) p = true -> snd (libs_loop p acc) <> [].
Proof.
  induction p as [|s r IH]; intros acc H; [discriminate|]. cbn [libs_loop existsb] in *.
  destruct (starts_with (lit "LIBS:") s); [now apply IH|discriminate].
Qed.
Lemma np_parse fn t : calm t = true -> np (parse_schematic fn t).
Proof.
  unfold calm, parse_schematic. generalize (lines t). intros l H. apply andb_prop in H as [H B]. apply andb_prop in H as [L C].
  unfold parse_lines. apply np_bind; [unfold assume_line; nps|]. intros p P.
  assert (S1 : suf l p /\ p = tl l).
  { destruct l as [|s r]; [discriminate|]. cbn in P. destruct (seq s _); [|discriminate]. injection P as <-. split; [apply suf_cons, suf_refl|reflexivity]. }
  destruct S1 as [S1 T]. rewrite <- T in L. assert (S2 := libs_suf p []). assert (N := libs_left p [] L).
  destruct (libs_loop p []) as [libs q]. cbn [snd] in S2, N. destruct q as [|e q]; [contradiction|]. cbn [here bind].
  destruct (negb _); [apply np_err|]. apply np_bind; [unfold assume_line; nps|]. intros r R.
  assert (S3 : suf (e :: q) r).
  { cbn [next tl] in R. destruct q as [|s q]; [discriminate|]. cbn in R. destruct (seq s _); [|discriminate]. injection R as <-. apply suf_cons, suf_cons, suf_refl. }
  assert (S : suf l r) by (eapply suf_trans; [exact S1|eapply suf_trans; eassumption]).
  apply np_main; [eapply suf_forallb; eauto|eapply suf_closed; eauto].
Qed.
