(** Lemmas about the formatter. *)
From Coq Require Import String Lia.
From Verif Require Import Base Str StrFacts Sexp Formatter FormatterSpec.
Open Scope string_scope. Open Scope list_scope.

Lemma sexp_nest_ind (Q : sexp -> Prop) :
  (forall x, Q (SStr x)) -> Q SEmpty -> (forall l, Forall Q l -> Q (SList l)) -> forall s, Q s.
Proof.
  intros H1 H2 H3. fix IH 1. intros [x|l|]; [apply H1| |exact H2].
  apply H3. induction l as [|x l IHl]; constructor; [apply IH|exact IHl].
Qed.

Fixpoint fm_rest (nq : str -> bool) (l : list sexp) (g : fstate) : fstate * str :=
  match l with
  | [] => (g, [])
  | y :: r' =>
      let '(g1, t1) := fm_ser nq y g in
      let '(g2, t2) := fm_rest nq r' g1 in
      (g2, fm_element g y ++ t1 ++ t2)
  end.
Lemma fm_ser_nil nq f : fm_ser nq (SList []) f =
  let '(f1, t1) := fm_open f None in let '(f3, t3) := fm_close f1 in (f3, t1 ++ t3).
Proof. reflexivity. Qed.
Lemma fm_ser_cons nq x r f : fm_ser nq (SList (x :: r)) f =
  let '(f1, t1) := fm_open f (Some x) in
  let '(g, t) := fm_ser nq x f1 in
  let '(g', t') := fm_rest nq r g in
  let '(f3, t3) := fm_close g' in
  (f3, t1 ++ (t ++ t') ++ t3).
Proof.
  cbn [fm_ser hd_error]. destruct (fm_open f (Some x)) as [f1 t1].
  destruct (fm_ser nq x f1) as [g t].
  match goal with |- context [let '(_, _) := ?F r g in _] =>
    assert (E : forall l h, F l h = fm_rest nq l h) end.
  { clear. induction l as [|y l IH]; intros h; cbn [fm_rest]; [reflexivity|].
    destruct (fm_ser nq y h) as [g1 t1]. rewrite IH. reflexivity. }
  rewrite E. destruct (fm_rest nq r g) as [g' t']. reflexivity.
Qed.

(** ** White space *)
Definition wsb (s : str) : Prop := forallb is_ws s = true.
Lemma wsb_app a b : wsb a -> wsb b -> wsb (a ++ b).
Proof. unfold wsb. intros H1 H2. rewrite forallb_app, H1, H2. reflexivity. Qed.
Lemma wsb_nl n : wsb (repeat 10%N n).
Proof. unfold wsb. induction n; [reflexivity|exact IHn]. Qed.
Lemma wsb_indent f n : wsb (fm_indent f n).
Proof.
  unfold fm_indent. apply wsb_app; [apply wsb_nl|]. unfold wsb.
  induction (Z.to_nat (fs_indent f)) as [|k IH]; [reflexivity|]. cbn [repeat flat_map].
  rewrite forallb_app, IH. reflexivity.
Qed.
Lemma wsb_if b s : wsb s -> wsb (text_if b s).
Proof. destruct b; [auto|reflexivity]. Qed.
Lemma open_text f v : exists w, snd (fm_open f v) = w ++ [40%N] /\ wsb w.
Proof.
  unfold fm_open. cbn [snd].
  match goal with |- context [?a ++ ?b ++ ?c ++ [40%N]] => exists (a ++ b ++ c) end.
  split; [now rewrite !app_assoc|]. apply wsb_app; [apply wsb_if, wsb_indent|].
  apply wsb_app; [apply wsb_if, wsb_indent|].
  match goal with |- context [match ?w with _ => _ end] => destruct w end; [|reflexivity].
  apply wsb_if, wsb_indent.
Qed.
Lemma close_text f : exists w w', snd (fm_close f) = w ++ 41%N :: w' /\ wsb w /\ wsb w'.
Proof.
  unfold fm_close. destruct (fs_stack f) as [|[[s [i|]]|] r]; cbn [snd].
  - exists [], []. repeat split.
  - match goal with |- context [?a ++ ?b ++ [41%N] ++ ?c] => exists (a ++ b), c end.
    split; [now rewrite <- app_assoc|]. split; [|apply wsb_nl].
    apply wsb_app; apply wsb_if; [apply wsb_indent|reflexivity].
  - match goal with |- context [?a ++ [41%N]] => exists a, [] end. repeat split. apply wsb_if. reflexivity.
  - exists [], []. repeat split.
Qed.
Lemma element_text f v : wsb (fm_element f v).
Proof. unfold fm_element. destruct (want f v); destruct v; reflexivity. Qed.
Lemma element_str f x : fm_element f (SStr x) = [32%N].
Proof. unfold fm_element. destruct (want f (SStr x)); reflexivity. Qed.

(** ** Lexing *)
Fixpoint toks (s : sexp) : list tok :=
  match s with
  | SEmpty => []
  | SStr x => [At x]
  | SList l => LP :: flat_map toks l ++ [RP]
  end.
Definition delim (s : str) : Prop :=
  match s with [] => True | c :: _ => is_ws c = true \/ c = 40%N \/ c = 41%N end.
Lemma opt_app_nil {A} (o : option (list A)) : option_map (app []) o = o.
Proof. destruct o; reflexivity. Qed.
Lemma opt_app2 {A} (a b : list A) o : option_map (app a) (option_map (app b) o) = option_map (app (a ++ b)) o.
Proof. destruct o; cbn; [now rewrite app_assoc|reflexivity]. Qed.
Lemma lex_ws w r : wsb w -> lex LNone (w ++ r) = lex LNone r.
Proof.
  unfold wsb. induction w as [|c w IH]; cbn [forallb app]; intros H; [reflexivity|].
  apply andb_prop in H as [H1 H2]. cbn [lex]. rewrite H1, opt_app_nil. now apply IH.
Qed.
Lemma lex_lp r : lex LNone (40%N :: r) = option_map (app [LP]) (lex LNone r). Proof. reflexivity. Qed.
Lemma lex_rp r : lex LNone (41%N :: r) = option_map (app [RP]) (lex LNone r). Proof. reflexivity. Qed.
Lemma lex_bare_end a r : delim r -> lex (LBare a) r = option_map (app [At (rev a)]) (lex LNone r).
Proof.
  destruct r as [|c r]; cbn [delim]; [reflexivity|]. intros H.
  cbn [lex]. destruct (is_ws c) eqn:W; [now rewrite opt_app_nil|].
  destruct H as [H|[-> | ->]]; [discriminate| |]; cbn [N.eqb Pos.eqb app]; destruct (lex LNone r); reflexivity.
Qed.
Definition bare (c : N) : bool := negb (is_ws c || N.eqb c 40 || N.eqb c 41 || N.eqb c 34).
Lemma bare_inv c : bare c = true -> is_ws c = false /\ N.eqb c 40 = false /\ N.eqb c 41 = false /\ N.eqb c 34 = false.
Proof. unfold bare. intros H. apply negb_true_iff in H. rewrite !orb_false_iff in H. tauto. Qed.
Lemma lex_bare s : forall a r, delim r -> forallb bare s = true ->
  lex (LBare a) (s ++ r) = option_map (app [At (rev a ++ s)]) (lex LNone r).
Proof.
  induction s as [|c s IH]; intros a r D H; cbn [app].
  - rewrite app_nil_r. now apply lex_bare_end.
  - cbn [forallb] in H. apply andb_prop in H as [H1 H2]. apply bare_inv in H1 as (A1 & A2 & A3 & A4).
    cbn [lex]. rewrite A1, A2, A3, A4, IH by assumption. cbn [rev]. now rewrite <- app_assoc.
Qed.
Lemma lex_quote s : forall a r, forallb (fun c => negb (N.eqb c 34)) s = true ->
  lex (LQuote a) (s ++ 34%N :: r) = option_map (app [At (rev a ++ s)]) (lex LNone r).
Proof.
  induction s as [|c s IH]; intros a r H; cbn [app].
  - cbn [lex N.eqb Pos.eqb]. rewrite app_nil_r. reflexivity.
  - cbn [forallb] in H. apply andb_prop in H as [H1 H2]. apply negb_true_iff in H1.
    cbn [lex]. rewrite H1, IH by assumption. cbn [rev]. now rewrite <- app_assoc.
Qed.
Lemma lex_atom nq x r : quote_contract nq -> forallb (fun c => negb (N.eqb c 34)) x = true -> delim r ->
  lex LNone (atom_text nq x ++ r) = option_map (app [At x]) (lex LNone r).
Proof.
  intros Q H D. unfold atom_text. destruct (nq x) eqn:E.
  - rewrite <- app_comm_cons, <- app_assoc. cbn [app lex]. change (is_ws 34) with false. cbn [N.eqb Pos.eqb].
    rewrite opt_app_nil. now apply lex_quote.
  - destruct (Q x E) as [N B]. destruct x as [|c x]; [contradiction|]. cbn [forallb] in B.
    apply andb_prop in B as [B1 B2]. apply bare_inv in B1 as (A1 & A2 & A3 & A4).
    cbn [app lex]. rewrite A1, A2, A3, A4. now rewrite lex_bare.
Qed.

Lemma delim_ws w r : wsb w -> delim r -> delim (w ++ r).
Proof. destruct w as [|c w]; [auto|]. unfold wsb. cbn. intros H _. apply andb_prop in H as [H _]. auto. Qed.

Section WithRule.
Variable nq : str -> bool.
Hypothesis Q : quote_contract nq.

(** Start of the text of a list; a string is preceded by a blank. *)
Lemma list_delim l f r : delim (snd (fm_ser nq (SList l) f) ++ r).
Proof.
  destruct l as [|x l].
  - rewrite fm_ser_nil. destruct (open_text f None) as (w & E & W).
    destruct (fm_open f None) as [f1 t1]. cbn [snd] in E. subst t1. destruct (fm_close f1) as [f3 t3]. cbn [snd].
    rewrite <- !app_assoc. apply delim_ws; [exact W|]. cbn. auto.
  - rewrite fm_ser_cons. destruct (open_text f (Some x)) as (w & E & W).
    destruct (fm_open f (Some x)) as [f1 t1]. cbn [snd] in E. subst t1.
    destruct (fm_ser nq x f1) as [g t]. destruct (fm_rest nq l g) as [g' t']. destruct (fm_close g') as [f3 t3].
    cbn [snd]. rewrite <- !app_assoc. apply delim_ws; [exact W|]. cbn. auto.
Qed.
Definition lexes (s : sexp) : Prop := forall f r, doc_ok s = true -> delim r ->
  lex LNone (snd (fm_ser nq s f) ++ r) = option_map (app (toks s)) (lex LNone r).
Lemma rest_delim l g r : forallb doc_ok l = true -> delim r -> delim (snd (fm_rest nq l g) ++ r).
Proof.
  destruct l as [|y l]; intros H D; [exact D|]. cbn [fm_rest].
  cbn [forallb] in H. apply andb_prop in H as [H1 H2].
  assert (L : forall u, delim (fm_element g y ++ snd (fm_ser nq y g) ++ u)).
  { intros u. destruct y as [x|l'|]; [|apply delim_ws; [apply element_text|apply list_delim]|discriminate].
    rewrite element_str. cbn. auto. }
  destruct (fm_ser nq y g) as [g1 t1]. destruct (fm_rest nq l g1) as [g2 t2]. cbn [snd] in *.
  rewrite <- !app_assoc. apply L.
Qed.
Lemma lex_rest l : Forall lexes l -> forall g r, forallb doc_ok l = true -> delim r ->
  lex LNone (snd (fm_rest nq l g) ++ r) = option_map (app (flat_map toks l)) (lex LNone r).
Proof.
  induction 1 as [|y l Hy _ IH]; intros g r D R; cbn [fm_rest flat_map snd app].
  - now rewrite opt_app_nil.
  - cbn [forallb] in D. apply andb_prop in D as [D1 D2].
    specialize (Hy g). destruct (fm_ser nq y g) as [g1 t1].
    pose proof (rest_delim l g1 r D2 R) as RD. specialize (IH g1 r D2 R).
    destruct (fm_rest nq l g1) as [g2 t2]. cbn [snd] in *.
    rewrite <- !app_assoc, lex_ws by apply element_text.
    rewrite Hy, IH, opt_app2 by assumption. reflexivity.
Qed.
Lemma lex_ser : forall s, lexes s.
Proof.
  apply sexp_nest_ind.
  - intros x f r D R. cbn [fm_ser snd toks]. apply lex_atom; assumption.
  - intros f r D. discriminate.
  - intros l HL f r D R. cbn [doc_ok] in D. destruct l as [|x l].
    + rewrite fm_ser_nil. destruct (open_text f None) as (w & E & W).
      destruct (fm_open f None) as [f1 t1]. cbn [snd] in E. subst t1.
      destruct (close_text f1) as (u & u' & E & U & U'). destruct (fm_close f1) as [f3 t3]. cbn [snd] in *. subst t3.
      rewrite <- !app_assoc, lex_ws by assumption. cbn [app]. rewrite lex_lp, <- ?app_assoc, lex_ws by assumption.
      cbn [app]. rewrite lex_rp, lex_ws by assumption. destruct (lex LNone r); reflexivity.
    + inversion HL as [|? ? HX HR]; subst. cbn [forallb] in D. apply andb_prop in D as [D1 D2].
      rewrite fm_ser_cons. destruct (open_text f (Some x)) as (w & E & W).
      destruct (fm_open f (Some x)) as [f1 t1]. cbn [snd] in E. subst t1.
      specialize (HX f1). destruct (fm_ser nq x f1) as [g t].
      pose proof (fun u => rest_delim l g u D2) as RD. pose proof (fun u => lex_rest l HR g u D2) as LR.
      destruct (fm_rest nq l g) as [g' t']. destruct (close_text g') as (u & u' & E & U & U').
      destruct (fm_close g') as [f3 t3]. cbn [snd] in *. subst t3.
      rewrite <- !app_assoc, lex_ws by assumption. cbn [app]. rewrite lex_lp.
      assert (DC : delim (u ++ (41%N :: u') ++ r)) by (apply delim_ws; [assumption|cbn; auto]).
      rewrite HX by auto. rewrite LR by assumption. rewrite lex_ws by assumption. cbn [app]. rewrite lex_rp, lex_ws by assumption.
      cbn [toks flat_map]. destruct (lex LNone r); [|reflexivity]. cbn [option_map app]. rewrite <- !app_assoc. reflexivity.
Qed.

(** ** The plain rendering has the same tokens *)
Lemma compact_delim l u : delim (flat_map (fun y => 32%N :: compact nq y) l ++ 41%N :: u).
Proof. destruct l; cbn; auto. Qed.
Lemma lex_compact : forall s r, doc_ok s = true -> delim r ->
  lex LNone (compact nq s ++ r) = option_map (app (toks s)) (lex LNone r).
Proof.
  induction s as [x| |l HL] using sexp_nest_ind; intros r D R.
  - apply lex_atom; assumption.
  - discriminate.
  - cbn [compact toks doc_ok] in *. cbn [app]. rewrite lex_lp.
    destruct l as [|x l]; [cbn [app flat_map]; rewrite lex_rp; destruct (lex LNone r); reflexivity|].
    inversion HL as [|? ? HX HR]; subst. cbn [forallb] in D. apply andb_prop in D as [D1 D2].
    rewrite <- !app_assoc. cbn [app]. rewrite HX by (auto using compact_delim).
    assert (LL : lex LNone (flat_map (fun y => 32%N :: compact nq y) l ++ 41%N :: r)
                 = option_map (app (flat_map toks l)) (lex LNone (41%N :: r))).
    { clear HX D1 HL. induction HR as [|y l Hy _ IH]; cbn [flat_map app]; [now rewrite opt_app_nil|].
      cbn [forallb] in D2. apply andb_prop in D2 as [D1 D2]. specialize (IH D2).
      cbn [lex]. change (is_ws 32) with true. cbn iota. rewrite opt_app_nil, <- app_assoc.
      rewrite Hy, IH, opt_app2 by (auto using compact_delim). reflexivity. }
    rewrite LL, lex_rp. destruct (lex LNone r); [|reflexivity]. cbn [option_map flat_map app]. rewrite <- !app_assoc. reflexivity.
Qed.

(** ** Rebuilding *)
Lemma build_toks : forall s stk l r, doc_ok s = true ->
  build (l :: stk) (toks s ++ r) = build ((s :: l) :: stk) r.
Proof.
  induction s as [x| |l HL] using sexp_nest_ind; intros stk l0 r D.
  - reflexivity.
  - discriminate.
  - cbn [toks doc_ok app] in *. cbn [build].
    assert (B : forall k a u, build (a :: k) (flat_map toks l ++ u) = build ((rev l ++ a) :: k) u).
    { clear l0 stk r. induction HL as [|y l Hy _ IH]; intros k a u; [reflexivity|].
      cbn [forallb] in D. apply andb_prop in D as [D1 D2].
      cbn [flat_map]. rewrite <- app_assoc, Hy, IH by assumption. cbn [rev]. now rewrite <- app_assoc. }
    rewrite <- app_assoc, B. cbn [app build]. rewrite app_nil_r, rev_involutive. reflexivity.
Qed.
Lemma build_top s : doc_ok s = true -> build [] (toks s) = Some (s, []).
Proof.
  destruct s as [x|l|]; intros D; [reflexivity| |discriminate].
  cbn [toks doc_ok] in *. cbn [build].
  assert (B : forall l a u, forallb doc_ok l = true -> build [a] (flat_map toks l ++ u) = build [rev l ++ a] u).
  { clear. induction l as [|y l IH]; intros a u D; [reflexivity|].
    cbn [forallb] in D. apply andb_prop in D as [D1 D2]. cbn [flat_map].
    rewrite <- app_assoc, build_toks, IH by assumption. cbn [rev]. now rewrite <- app_assoc. }
  rewrite B by assumption. cbn [build]. now rewrite app_nil_r, rev_involutive.
Qed.
Lemma read_toks t s : doc_ok s = true -> lex LNone t = Some (toks s) -> read_sexp t = Ok s.
Proof. intros D L. unfold read_sexp. now rewrite L, build_top. Qed.

(** The document text followed by white space. *)
Lemma lex_pretty n s w : doc_ok s = true -> wsb w -> lex LNone (pretty nq n s ++ w) = Some (toks s).
Proof.
  intros D W. unfold pretty. rewrite lex_ser by (auto; rewrite <- (app_nil_r w); apply delim_ws; cbn; auto).
  rewrite <- (app_nil_r w), lex_ws by assumption. cbn. now rewrite app_nil_r.
Qed.
Lemma read_pretty n s w : doc_ok s = true -> wsb w -> read_sexp (pretty nq n s ++ w) = Ok s.
Proof. intros D W. apply read_toks; [exact D|now apply lex_pretty]. Qed.
Lemma lex_compact_doc s : doc_ok s = true -> lex LNone (compact nq s) = Some (toks s).
Proof.
  intros D. rewrite <- (app_nil_r (compact nq s)), lex_compact by (cbn; auto). cbn. now rewrite app_nil_r.
Qed.
Lemma read_compact s : doc_ok s = true -> read_sexp (compact nq s) = Ok s.
Proof. intros D. apply read_toks; [exact D|now apply lex_compact_doc]. Qed.
End WithRule.

(** ** Indentation and nesting are restored *)
Lemma open_stack f v : fs_stack (fst (fm_open f v)) =
  (if negb (is_empty (head_name v)) then Some (head_name v, want_name
     (mk_fs (fs_indent f) (fs_stack f) (fs_pts f)
       (if seqb (head_name v) "module" then true
        else if negb (seqb (head_name v) "module") && fm_parent f "kicad_pcb" && fs_seen_module f then false else fs_seen_module f)
       (fs_seen_segment f || (negb (fs_seen_segment f) && seqb (head_name v) "segment"))) (head_name v)) else None) :: fs_stack f.
Proof.
  unfold fm_open. cbn [fst fs_stack fs_indent fs_pts fs_seen_module fs_seen_segment].
  match goal with |- context [match ?w with Some _ => mk_fs _ _ _ _ _ | None => _ end] => destruct w eqn:W end;
    cbn [fs_stack]; rewrite ?W; reflexivity.
Qed.
Definition depth_top (f : fstate) : Z := match fs_stack f with Some (_, Some _) :: _ => 1 | _ => 0 end%Z.
(** Opening indents by what closing takes back, except under an unnamed head. *)
Lemma open_indent f v : (head_name v <> [] ->
   fs_indent (fst (fm_open f v)) = (fs_indent f + depth_top (fst (fm_open f v)))%Z)
  /\ (fs_indent f + depth_top (fst (fm_open f v)) <= fs_indent (fst (fm_open f v)))%Z.
Proof.
  unfold fm_open. cbn [fst fs_stack fs_indent fs_pts fs_seen_module fs_seen_segment]. unfold depth_top. cbn [fs_stack].
  match goal with |- context [match ?w with Some _ => mk_fs _ _ _ _ _ | None => _ end] => destruct w eqn:W end;
    cbn [fs_indent]; (split; [intros H; destruct (head_name v); [contradiction|]; cbn [is_empty negb]; lia|]);
    destruct (is_empty (head_name v)); cbn [negb]; lia.
Qed.
Lemma close_stack f : fs_stack (fst (fm_close f)) = tl (fs_stack f).
Proof. unfold fm_close. destruct (fs_stack f) as [|[[s [i|]]|] r] eqn:E; cbn [fst fs_stack]; rewrite ?E; reflexivity. Qed.
Lemma close_indent f : fs_indent (fst (fm_close f)) = (fs_indent f - depth_top f)%Z.
Proof. unfold fm_close, depth_top. destruct (fs_stack f) as [|[[s [i|]]|] r] eqn:E; cbn [fst fs_indent]; lia. Qed.

Lemma depth_top_eq f g : fs_stack f = fs_stack g -> depth_top f = depth_top g.
Proof. unfold depth_top. now intros ->. Qed.

Lemma ser_state nq : forall s f,
  fs_stack (fst (fm_ser nq s f)) = fs_stack f /\ (fs_indent f <= fs_indent (fst (fm_ser nq s f)))%Z
  /\ (named s = true -> fs_indent (fst (fm_ser nq s f)) = fs_indent f).
Proof.
  induction s as [x| |l HL] using sexp_nest_ind; intros f; try (cbn; repeat split; lia).
  assert (R : forall l g, Forall (fun s => forall f, fs_stack (fst (fm_ser nq s f)) = fs_stack f /\
       (fs_indent f <= fs_indent (fst (fm_ser nq s f)))%Z /\ (named s = true -> fs_indent (fst (fm_ser nq s f)) = fs_indent f)) l ->
     fs_stack (fst (fm_rest nq l g)) = fs_stack g /\ (fs_indent g <= fs_indent (fst (fm_rest nq l g)))%Z /\
     (forallb named l = true -> fs_indent (fst (fm_rest nq l g)) = fs_indent g)).
  { clear. intros l g H. revert g. induction H as [|y l Hy _ IH]; intros g; cbn [fm_rest]; [cbn; repeat split; lia|].
    destruct (Hy g) as (S1 & I1 & N1). destruct (fm_ser nq y g) as [g1 t1].
    destruct (IH g1) as (S2 & I2 & N2). destruct (fm_rest nq l g1) as [g2 t2]. cbn [fst] in *.
    split; [congruence|]. split; [lia|]. cbn [forallb]. intros H. apply andb_prop in H as [H1 H2].
    rewrite N2, N1 by assumption. reflexivity. }
  destruct l as [|x l].
  - rewrite fm_ser_nil. pose proof (open_stack f None) as OS. pose proof (open_indent f None) as [_ OI].
    destruct (fm_open f None) as [f1 t1]. pose proof (close_stack f1) as CS. pose proof (close_indent f1) as CI.
    destruct (fm_close f1) as [f3 t3]. cbn [fst] in *.
    split; [rewrite CS, OS; reflexivity|]. split; [lia|discriminate].
  - rewrite fm_ser_cons. pose proof (open_stack f (Some x)) as OS. pose proof (open_indent f (Some x)) as [ON OI].
    destruct (fm_open f (Some x)) as [f1 t1]. inversion HL as [|? ? HX HR]; subst.
    destruct (HX f1) as (S1 & I1 & N1). destruct (fm_ser nq x f1) as [g t].
    destruct (R l g HR) as (S2 & I2 & N2). destruct (fm_rest nq l g) as [g' t'].
    pose proof (close_stack g') as CS. pose proof (close_indent g') as CI.
    destruct (fm_close g') as [f3 t3]. cbn [fst] in *.
    assert (DT : depth_top g' = depth_top f1) by (apply depth_top_eq; congruence).
    split; [rewrite CS, S2, S1, OS; reflexivity|]. split; [lia|].
    destruct x as [n|l'|]; [|discriminate|discriminate]. cbn [named]. intros H. apply andb_prop in H as [H1 H2].
    destruct n as [|c n]; [discriminate|]. specialize (ON ltac:(discriminate)).
    rewrite CI, N2, N1, ON by auto. lia.
Qed.
