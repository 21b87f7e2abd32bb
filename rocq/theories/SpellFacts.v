(** Proofs: reading the text of a tree (C77). *)
From Coq Require Import String Lia.
From Verif Require Import Base Str StrFacts Sexp Formatter FormatterSpec FormatterFacts SxText SpellSpec.
Open Scope list_scope.

Scheme spelt_ind2 := Induction for spelt Sort Prop with spelt_all_ind2 := Induction for spelt_all Sort Prop.

Lemma blank_wsb w : blank_text w <-> wsb w.
Proof. unfold wsb, blank_text. symmetry. apply forallb_forall. Qed.
Lemma plain_bare c : plain c <-> bare c = true.
Proof.
  unfold plain, bare. rewrite Bool.negb_true_iff, !Bool.orb_false_iff, !N.eqb_neq. tauto.
Qed.
Lemma plains x : (forall c, In c x -> plain c) <-> forallb bare x = true.
Proof. rewrite forallb_forall. split; intros H c I; apply plain_bare; auto. Qed.
Lemma no_quotes x : ~ In 34%N x <-> forallb (fun c => negb (N.eqb c 34)) x = true.
Proof.
  rewrite forallb_forall. split.
  - intros H c I. apply Bool.negb_true_iff, N.eqb_neq. intros ->. now apply H.
  - intros H I. now apply H in I.
Qed.

(** ** From the spelling to the pieces *)
Lemma lex_word_end a r : (forall d u, r = d :: u -> ~ plain d) -> lex (LBare a) r = option_map (app [At (rev a)]) (lex LNone r).
Proof.
  destruct r as [|c r]; intros H; [reflexivity|]. specialize (H c r eq_refl).
  cbn [lex]. destruct (is_ws c) eqn:W; [now rewrite opt_app_nil|].
  destruct (N.eqb_spec c 40); [cbn [app]; destruct (lex LNone r); reflexivity|].
  destruct (N.eqb_spec c 41); [cbn [app]; destruct (lex LNone r); reflexivity|].
  destruct (N.eqb_spec c 34); [now rewrite opt_app_nil|]. destruct H. unfold plain. tauto.
Qed.
Lemma lex_word s : forall a r, (forall d u, r = d :: u -> ~ plain d) -> forallb bare s = true ->
  lex (LBare a) (s ++ r) = option_map (app [At (rev a ++ s)]) (lex LNone r).
Proof.
  induction s as [|c s IH]; intros a r D H; cbn [app].
  - rewrite app_nil_r. now apply lex_word_end.
  - cbn [forallb] in H. apply andb_prop in H as [H1 H2]. apply bare_inv in H1 as (A1 & A2 & A3 & A4).
    cbn [lex]. rewrite A1, A2, A3, A4, IH by assumption. cbn [rev]. now rewrite <- app_assoc.
Qed.
Lemma last_plain x : x <> [] -> (forall c, In c x -> plain c) -> exists t c, x = t ++ [c] /\ plain c.
Proof. intros N H. destruct (exists_last N) as (t & c & ->). exists t, c. split; [reflexivity|]. apply H, in_or_app. right. now left. Qed.
Lemma together_app t u r : u <> [] -> ~ run_together t u -> ~ run_together t (u ++ r).
Proof. intros N H (t1 & c & d & u1 & A & B & C & D). apply H. destruct u as [|e u]; [contradiction|]. injection B as -> _. now exists t1, c, d, u. Qed.
Lemma together_close t u : ~ run_together t (41%N :: u).
Proof. intros (t1 & c & d & u1 & A & B & C & D). injection B as <- _. destruct D as (_ & _ & D & _). now apply D. Qed.
Lemma together_in t u r : ~ run_together t u -> ~ run_together t (u ++ 41%N :: r).
Proof. destruct u as [|d u]; [intros _; apply together_close|]. apply together_app. discriminate. Qed.

Lemma spelt_lex : forall s t, spelt s t -> forall r, ~ run_together t r -> lex LNone (t ++ r) = option_map (app (toks s)) (lex LNone r).
Proof.
  apply (spelt_ind2 (fun s t _ => forall r, ~ run_together t r -> lex LNone (t ++ r) = option_map (app (toks s)) (lex LNone r))
    (fun l t _ => forall r, lex LNone (t ++ 41%N :: r) = option_map (app (flat_map toks l)) (lex LNone (41%N :: r)))).
  - intros x N H r R. destruct (last_plain x N H) as (t & c & E & P).
    assert (D : forall d u, r = d :: u -> ~ plain d).
    { intros d u -> Q. apply R. now exists t, c, d, u. }
    clear t c E P. apply plains in H. destruct x as [|c x]; [contradiction|]. cbn [forallb] in H. apply andb_prop in H as [B1 B2].
    apply bare_inv in B1 as (A1 & A2 & A3 & A4). cbn [app lex]. rewrite A1, A2, A3, A4. now rewrite lex_word.
  - intros x H r _. apply no_quotes in H. rewrite <- !app_assoc. cbn [app lex]. change (is_ws 34) with false. cbn [N.eqb Pos.eqb].
    rewrite opt_app_nil. now apply (lex_quote x []).
  - intros l t _ IH r _. rewrite <- !app_assoc. cbn [app]. rewrite lex_lp, IH, lex_rp. cbn [toks].
    destruct (lex LNone r); [|reflexivity]. cbn [option_map app]. now rewrite <- app_assoc.
  - intros w W r. apply blank_wsb in W. rewrite lex_ws by exact W. now rewrite opt_app_nil.
  - intros w s t l u W _ IHs _ IHl N r. apply blank_wsb in W. rewrite <- !app_assoc, lex_ws by exact W.
    rewrite IHs by now apply together_in. rewrite IHl, opt_app2. reflexivity.
Qed.
Lemma spelt_doc : forall s t, spelt s t -> doc_ok s = true.
Proof.
  apply (spelt_ind2 (fun s t _ => doc_ok s = true) (fun l t _ => forallb doc_ok l = true)).
  - intros x _ H. cbn [doc_ok]. apply no_quotes. intros I. apply H in I. destruct I as (_ & _ & _ & I). now apply I.
  - intros x H. now apply no_quotes.
  - intros l t _ IH. exact IH.
  - reflexivity.
  - intros w s t l u _ _ A _ B _. cbn [forallb]. now rewrite A, B.
Qed.
Lemma document_read s t : document s t -> read_sexp t = Ok s.
Proof.
  intros D. inversion D as [|w s' a l u W S A R]; subst. inversion A as [v V|]; subst.
  apply read_toks; [eapply spelt_doc; exact S|]. apply blank_wsb in W, V. rewrite lex_ws by exact W.
  rewrite (spelt_lex _ _ S) by exact R. rewrite <- (app_nil_r u), lex_ws by exact V. cbn [lex option_map]. now rewrite app_nil_r.
Qed.

(** ** From the pieces to the spelling *)
Inductive lexed : list tok -> str -> Prop :=
| lx_nil w : blank_text w -> lexed [] w
| lx_open w ts u : blank_text w -> lexed ts u -> lexed (LP :: ts) (w ++ 40%N :: u)
| lx_close w ts u : blank_text w -> lexed ts u -> lexed (RP :: ts) (w ++ 41%N :: u)
| lx_word w x t ts u : blank_text w -> spelt (SStr x) t -> ~ run_together t u -> lexed ts u -> lexed (At x :: ts) (w ++ t ++ u).
Lemma lexed_ws c ts u : is_ws c = true -> lexed ts u -> lexed ts (c :: u).
Proof.
  assert (K : forall w, is_ws c = true -> blank_text w -> blank_text (c :: w)) by (intros w C W d [<-|I]; auto).
  intros C L. inversion L; subst.
  - apply lx_nil. auto.
  - apply (lx_open (c :: w)); auto.
  - apply (lx_close (c :: w)); auto.
  - apply (lx_word (c :: w)); auto.
Qed.
Lemma blank_nil : blank_text []. Proof. intros c []. Qed.
Definition acc_of (st : lst) : str := match st with LNone => [] | LBare a | LQuote a => a end.
Definition st_ok (st : lst) : Prop :=
  match st with LNone => True | LBare a => a <> [] /\ forallb bare a = true | LQuote a => ~ In 34%N a end.
Lemma opt_inv {A B} (f : A -> B) o b : option_map f o = Some b -> exists a, o = Some a /\ b = f a.
Proof. destruct o; cbn; [|discriminate]. intros [= <-]. eauto. Qed.
Lemma word_rev a : a <> [] -> forallb bare a = true -> spelt (SStr (rev a)) (rev a).
Proof.
  intros N B. apply sp_word.
  - intros E. apply N. rewrite <- (rev_involutive a), E. reflexivity.
  - intros c I. apply in_rev in I. revert c I. now apply plains.
Qed.
Lemma not_plain_together t d u : ~ plain d -> ~ run_together t (d :: u).
Proof. intros N (t1 & c & e & u1 & A & B & C & D). injection B as <- _. auto. Qed.
Lemma lex_lexed s : forall st ts, st_ok st -> lex st s = Some ts ->
  match st with
  | LNone => lexed ts s
  | LBare a => lexed ts (rev a ++ s)
  | LQuote a => lexed ts (34%N :: rev a ++ s)
  end.
Proof.
  induction s as [|c s IH]; intros st ts O H.
  - destruct st as [|a|a]; cbn [lex] in H; [| |discriminate].
    + injection H as <-. apply lx_nil, blank_nil.
    + injection H as <-. destruct O as [N B]. apply (lx_word [] (rev a) (rev a) [] []); [apply blank_nil|now apply word_rev| |apply lx_nil, blank_nil].
      intros (t1 & d & e & u & A & X & _). discriminate X.
  - assert (KN : forall us, lex LNone s = Some us -> lexed us s) by (intros us; now apply (IH LNone)).
    assert (KQ : forall us, lex (LQuote []) s = Some us -> lexed us (34%N :: s)) by (intros us; now apply (IH (LQuote []))).
    assert (KB : forall a us, lex (LBare (c :: a)) s = Some us -> (a = [] \/ forallb bare a = true) -> bare c = true -> lexed us (rev a ++ c :: s)).
    { intros a us L A B. apply (IH (LBare (c :: a))) in L.
      - cbn [rev] in L. now rewrite <- app_assoc in L.
      - split; [discriminate|]. cbn [forallb]. rewrite B. destruct A as [->|A]; [reflexivity|exact A]. }
    assert (KC : is_ws c = false -> N.eqb c 40 = false -> N.eqb c 41 = false -> N.eqb c 34 = false -> bare c = true).
    { intros A1 A2 A3 A4. unfold bare. now rewrite A1, A2, A3, A4. }
    destruct st as [|a|a]; cbn [lex] in H; cbv zeta in H.
    + destruct (is_ws c) eqn:W; [rewrite opt_app_nil in H; apply lexed_ws; auto|].
      destruct (N.eqb_spec c 40) as [->|N40]; [apply opt_inv in H as (us & L & ->); apply (lx_open []); [apply blank_nil|auto]|].
      destruct (N.eqb_spec c 41) as [->|N41]; [apply opt_inv in H as (us & L & ->); apply (lx_close []); [apply blank_nil|auto]|].
      destruct (N.eqb_spec c 34) as [->|N34]; [rewrite opt_app_nil in H; auto|].
      apply (KB []); [exact H|now left|]. apply KC; reflexivity.
    + destruct O as [N B].
      assert (G : forall us, ~ plain c -> lexed us (c :: s) -> lexed (At (rev a) :: us) (rev a ++ c :: s)).
      { intros us P L. apply (lx_word [] (rev a) (rev a)); [apply blank_nil|now apply word_rev|now apply not_plain_together|exact L]. }
      destruct (is_ws c) eqn:W.
      { apply opt_inv in H as (us & L & ->). apply G; [unfold plain; rewrite W; intros [X _]; discriminate X|]. apply lexed_ws; auto. }
      destruct (N.eqb_spec c 40) as [->|N40].
      { apply opt_inv in H as (us & L & ->). apply G; [unfold plain; tauto|]. apply (lx_open []); [apply blank_nil|auto]. }
      destruct (N.eqb_spec c 41) as [->|N41].
      { apply opt_inv in H as (us & L & ->). apply G; [unfold plain; tauto|]. apply (lx_close []); [apply blank_nil|auto]. }
      destruct (N.eqb_spec c 34) as [->|N34].
      { apply opt_inv in H as (us & L & ->). apply G; [unfold plain; tauto|]. auto. }
      apply KB; [exact H|now right|]. apply KC; reflexivity.
    + destruct (N.eqb_spec c 34) as [->|N34].
      * apply opt_inv in H as (us & L & ->).
        replace (34%N :: rev a ++ 34%N :: s) with ([] ++ ([34%N] ++ rev a ++ [34%N]) ++ s) by (cbn [app]; now rewrite <- app_assoc).
        apply lx_word; [apply blank_nil|apply sp_quoted; intros I; apply O; now apply in_rev| |auto].
        intros (t1 & d & e & u & A & _ & D & _). rewrite app_assoc in A. apply app_inj_tail in A as [_ <-]. destruct D as (_ & _ & _ & D). now apply D.
      * apply (IH (LQuote (c :: a))) in H; [cbn [rev] in H; now rewrite <- app_assoc in H|].
        intros [E|I]; [now apply N34|now apply O].
Qed.

(** The pieces are those of the tree. *)
Fixpoint open_toks (stk : list (list sexp)) : list tok :=
  match stk with [] => [] | l :: k => open_toks k ++ LP :: flat_map toks (rev l) end.
Lemma build_inv ts : forall stk v r, build stk ts = Some (v, r) -> open_toks stk ++ ts = toks v ++ r.
Proof.
  induction ts as [|[| |x] ts IH]; intros stk v r H; cbn [build] in H; [discriminate| | |].
  - apply IH in H. cbn [open_toks rev flat_map] in H. now rewrite <- app_assoc in H.
  - destruct stk as [|l [|l2 k]]; [discriminate| |].
    + injection H as <- <-. cbn [open_toks toks app]. now rewrite <- app_assoc.
    + apply IH in H. rewrite <- H. cbn [open_toks rev]. rewrite flat_map_app. cbn [flat_map toks]. rewrite app_nil_r, <- !app_assoc. cbn [app].
      rewrite <- !app_assoc. cbn [app]. rewrite <- !app_assoc. reflexivity.
  - destruct stk as [|l k].
    + now injection H as <- <-.
    + apply IH in H. rewrite <- H. cbn [open_toks rev]. rewrite flat_map_app. cbn [flat_map toks]. rewrite app_nil_r, <- !app_assoc. cbn [app].
      rewrite <- !app_assoc. reflexivity.
Qed.
Lemma lexed_toks : forall s, doc_ok s = true -> forall ts t, lexed (toks s ++ ts) t ->
  exists w a u, t = w ++ a ++ u /\ blank_text w /\ spelt s a /\ lexed ts u /\ ~ run_together a u.
Proof.
  induction s as [x| |l HL] using sexp_nest_ind; intros D ts t L.
  - cbn [toks app] in L. inversion L as [| | |w y a ts' u W S R L']; subst. now exists w, a, u.
  - discriminate.
  - cbn [toks app doc_ok] in *. rewrite <- app_assoc in L. cbn [app] in L. inversion L as [|w ts' u W L'| |]; subst.
    assert (K : exists a v, u = a ++ 41%N :: v /\ spelt_all l a /\ lexed ts v).
    { clear L W w. revert u L'. induction HL as [|y l Hy _ IH]; intros u L; cbn [flat_map app] in L.
      - inversion L as [| |w ts' v W L'|]; subst. exists w, v. split; [reflexivity|]. split; [now constructor|exact L'].
      - cbn [forallb] in D. apply andb_prop in D as [D1 D2]. rewrite <- app_assoc in L.
        destruct (Hy D1 _ _ L) as (w & a & v & -> & W & S & L' & R).
        destruct (IH D2 v L') as (b & x & -> & SB & LX).
        exists (w ++ a ++ b), x. rewrite <- !app_assoc. split; [reflexivity|]. split; [|exact LX].
        constructor; [exact W|exact S|exact SB|]. intros (t1 & c & d & u1 & A & B & C & E). apply R. subst b. now exists t1, c, d, (u1 ++ 41%N :: x). }
    destruct K as (a & v & -> & S & L2). exists w, ([40%N] ++ a ++ [41%N]), v.
    split; [cbn [app]; now rewrite <- app_assoc|]. split; [exact W|]. split; [now constructor|]. split; [exact L2|].
    intros (t1 & d & e & u & A & _ & P & _). rewrite app_assoc in A. apply app_inj_tail in A as [_ <-]. destruct P as (_ & _ & P & _). now apply P.
Qed.
Lemma read_document s t : read_sexp t = Ok s -> document s t.
Proof.
  intros H. pose proof (read_doc_ok _ _ H) as D. unfold read_sexp in H.
  destruct (lex LNone t) as [ts|] eqn:E; [|discriminate]. destruct (build [] ts) as [[v [|]]|] eqn:F; try discriminate. injection H as ->.
  apply build_inv in F. cbn [open_toks app] in F. apply (lex_lexed t LNone ts I) in E. rewrite F in E.
  destruct (lexed_toks s D [] t E) as (w & a & u & -> & W & S & L & R).
  constructor; [exact W|exact S| |exact R]. inversion L; subst. now constructor.
Qed.
Lemma read_iff t s : read_sexp t = Ok s <-> document s t.
Proof. split; [apply read_document|apply document_read]. Qed.
Lemma document_one t s s' : document s t -> document s' t -> s = s'.
Proof. rewrite <- !read_iff. congruence. Qed.
