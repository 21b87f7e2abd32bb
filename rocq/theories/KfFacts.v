(** Proofs for C39 and C40. *)
From Coq Require Import String Lia.
From Verif Require Import Base Str StrFacts Sexp FpData FpDe FpWf LyData LyDe LyWf FpLibTable Formatter FormatterSpec DocText DocSpec DocTextFacts LibFns LibFacts
  SchData SchPrint SchParse SchWf SchFacts SymData SymPrint SymParse SymWf SymFacts KicadFile KfSpec.
Open Scope string_scope. Open Scope list_scope.

(** ** What a text starts with *)
Lemma lex_bare a s ts : lex (LBare a) s = Some ts -> exists x r, ts = At x :: r.
Proof.
  revert a ts. induction s as [|c s IH]; intros a ts; cbn [lex].
  - intros [= <-]. eauto.
  - destruct (is_ws c); [|destruct (N.eqb c 40); [|destruct (N.eqb c 41); [|destruct (N.eqb c 34)]]].
    1-4: destruct (lex _ s); cbn [option_map app]; [intros [= <-]; eauto|discriminate].
    apply IH.
Qed.
Definition ordinary (c : N) : bool := negb (is_ws c || N.eqb c 40 || N.eqb c 41 || N.eqb c 34).
Lemma read_bare c r : ordinary c = true -> read_sexp (c :: r) = Err ESexp \/ exists x, read_sexp (c :: r) = Ok (SStr x).
Proof.
  intros O. unfold ordinary in O. apply Bool.negb_true_iff in O. rewrite !Bool.orb_false_iff in O. destruct O as [[[O1 O2] O3] O4].
  unfold read_sexp. destruct (lex LNone (c :: r)) as [ts|] eqn:E; [|now left].
  cbn [lex] in E. rewrite O1, O2, O3, O4 in E. apply lex_bare in E as (x & q & ->). cbn [build].
  destruct q; eauto.
Qed.
Lemma bare_refused {A} (p : P A) n c r : ordinary c = true -> (do t <- read_sexp (c :: r); iter_new t n p) = Err ESexp.
Proof. intros O. destruct (read_bare c r O) as [->|[x ->]]; reflexivity. Qed.

Lemma starts_app p s : starts_with p s = true -> exists r, s = p ++ r.
Proof.
  revert s. induction p as [|x p IH]; intros s H; [now exists s|].
  destruct s as [|y s]; cbn in H; [discriminate H|]. apply andb_prop in H as [E H]. apply N.eqb_eq in E as ->. apply IH in H as [r ->]. now exists r.
Qed.
Lemma strip_pre w : exists r, w = strip_cr w ++ r.
Proof.
  induction w as [|c w [r IH]]; [now exists []|]. destruct w as [|d w].
  - cbn. destruct (N.eqb c 13); [now exists [c]|now exists []].
  - exists r. change (strip_cr (c :: d :: w)) with (c :: strip_cr (d :: w)). cbn [app]. now rewrite <- IH.
Qed.
Lemma split_first p s w l : split_on p s = w :: l -> exists r, s = w ++ r.
Proof.
  revert w l. induction s as [|c s IH]; intros w l; cbn [split_on].
  - intros [= <- _]. now exists [].
  - destruct (p c); [intros [= <- _]; now exists (c :: s)|].
    destruct (split_on p s) as [|v vs]; [intros [= <- _]; now exists s|].
    intros [= <- _]. destruct (IH v vs eq_refl) as [r ->]. now exists r.
Qed.
Lemma first_line s h l : lines s = h :: l -> exists r, s = h ++ r.
Proof.
  unfold lines. destruct (split_on _ s) as [|w ws] eqn:E; [discriminate|]. apply split_first in E as [r ->].
  cbn [drop_last_empty]. destruct (strip_pre w) as [q Q].
  destruct w; [destruct ws; [discriminate|]|]; cbn [map]; intros [= <- _].
  - now exists r.
  - exists (q ++ r). transitivity ((strip_cr (n :: w) ++ q) ++ r); [now rewrite <- Q|symmetry; apply (app_assoc (strip_cr (n :: w)))].
Qed.
Lemma assume_start p e r : assume_line p e = Ok r -> p = lit e :: r.
Proof. destruct p as [|s p]; [discriminate|]. cbn [assume_line]. unfold seq. destruct (str_eqb s (lit e)) eqn:E; [|discriminate]. intros [= ->]. apply str_eqb_eq in E as ->. reflexivity. Qed.
Lemma assume_np p e : assume_line p e <> Panic.
Proof. destruct p as [|s p]; [discriminate|]. cbn. now destruct (seq s e). Qed.

Definition sch_head := "EESchema Schematic File Version 2"%string.
Definition lib_head := "EESchema-LIBRARY Version 2.3"%string.
Definition headed (h : string) (s : str) : Prop := exists l, lines s = lit h :: l.
Lemma headed_start h s : headed h s -> exists r, s = lit h ++ r.
Proof. intros [l H]. exact (first_line s _ l H). Qed.
Lemma sch_headed fn s : (exists e, parse_schematic fn s = Err e) \/ headed sch_head s.
Proof.
  unfold parse_schematic, parse_lines. destruct (assume_line (lines s) _) as [r|e|] eqn:E; cbn [bind].
  - right. apply assume_start in E. now exists r.
  - left. now exists e.
  - destruct (assume_np _ _ E).
Qed.
Lemma lib_headed s : (exists e, parse_symbol_lib s = Err e) \/ headed lib_head s.
Proof.
  unfold parse_symbol_lib, parse_symbol_lines. destruct (assume_line (lines s) _) as [r|e|] eqn:E; cbn [bind].
  - right. apply assume_start in E. now exists r.
  - left. now exists e.
  - destruct (assume_np _ _ E).
Qed.

(** ** The five classes of texts *)
Inductive class := CList (name : str) | CSch | CLib | CPro | CNone.
Definition is_class (s : str) (c : class) : Prop :=
  match c with
  | CList n => exists l, read_sexp s = Ok (SList (SStr n :: l))
  | CSch => headed sch_head s
  | CLib => headed lib_head s
  | CPro => exists r, s = lit "update=" ++ r
  | CNone => False
  end.
Lemma list_not_bare s n l c r : read_sexp s = Ok (SList (SStr n :: l)) -> s = c :: r -> ordinary c = false.
Proof. intros H ->. destruct (ordinary c) eqn:O; [|reflexivity]. destruct (read_bare c r O) as [E|[x E]]; congruence. Qed.
Lemma class_one s c d : is_class s c -> is_class s d -> c = d.
Proof.
  intros C D. destruct c as [n| | | |], d as [k| | | |]; cbn [is_class] in C, D; try contradiction; try reflexivity.
  - destruct C as [l C], D as [l' D]. congruence.
  - exfalso. destruct C as [l C]. apply headed_start in D as [r ->]. now pose proof (list_not_bare _ _ _ _ _ C eq_refl).
  - exfalso. destruct C as [l C]. apply headed_start in D as [r ->]. now pose proof (list_not_bare _ _ _ _ _ C eq_refl).
  - exfalso. destruct C as [l C]. destruct D as [r ->]. now pose proof (list_not_bare _ _ _ _ _ C eq_refl).
  - exfalso. destruct D as [l D]. apply headed_start in C as [r ->]. now pose proof (list_not_bare _ _ _ _ _ D eq_refl).
  - exfalso. destruct C as [r C], D as [q D]. rewrite C in D. discriminate.
  - exfalso. destruct D as [q D]. apply headed_start in C as [r ->]. discriminate.
  - exfalso. destruct D as [l D]. apply headed_start in C as [r ->]. now pose proof (list_not_bare _ _ _ _ _ D eq_refl).
  - exfalso. destruct C as [r C], D as [q D]. rewrite C in D. discriminate.
  - exfalso. destruct D as [q D]. apply headed_start in C as [r ->]. discriminate.
  - exfalso. destruct D as [l D]. destruct C as [r ->]. now pose proof (list_not_bare _ _ _ _ _ D eq_refl).
  - exfalso. destruct C as [q C]. apply headed_start in D as [r ->]. discriminate.
  - exfalso. destruct C as [q C]. apply headed_start in D as [r ->]. discriminate.
Qed.
Lemma iter_class {A} (p : P A) n s :
  (exists e, (do t <- read_sexp s; iter_new t (lit n) p) = Err e) \/ is_class s (CList (lit n)).
Proof.
  destruct (read_sexp s) as [t|e|] eqn:E; cbn [bind]; [|eauto|].
  - unfold iter_new. destruct t as [x|[|[x|l'|] l]|]; cbn [sx_list bind]; eauto.
    destruct (str_eqb x (lit n)) eqn:Q; [|eauto]. apply str_eqb_eq in Q as ->. right. exists l. exact E.
  - exfalso. unfold read_sexp in E. destruct (lex LNone s) as [ts|]; [|discriminate]. destruct (build [] ts) as [[v [|]]|]; discriminate.
Qed.
Definition class_of (x : expected) : class :=
  match x with
  | XModule => CList (lit "module") | XSchematic => CSch | XLayout => CList (lit "kicad_pcb") | XSymbolLib => CLib | XProject => CPro
  | XFpLibTable => CList (lit "fp_lib_table") | XAny => CNone
  end.
Lemma class_inj x y : class_of x = class_of y -> x = y.
Proof. destruct x, y; intros H; try reflexivity; discriminate H. Qed.
Lemma module_class s : (exists e, parse_module s = Err e) \/ is_class s (class_of XModule).
Proof. unfold parse_module, de_module. apply iter_class. Qed.
Lemma layout_class s : (exists e, parse_layout s = Err e) \/ is_class s (class_of XLayout).
Proof. unfold parse_layout, de_layout. apply iter_class. Qed.
Lemma table_class s : (exists e, parse_table s = Err e) \/ is_class s (class_of XFpLibTable).
Proof. unfold parse_table, de_fp_lib_table. apply iter_class. Qed.
Lemma project_class s : (exists e, parse_project s = Err e) \/ is_class s (class_of XProject).
Proof. unfold parse_project. destruct (starts_with (lit "update=") s) eqn:E; cbn [negb]; [right; exact (starts_app _ _ E)|eauto]. Qed.
Lemma accepted_class n s f : accepted n s f -> is_class s (class_of (kind f)).
Proof.
  destruct f; cbn [accepted kind]; intros H.
  - contradiction.
  - destruct (module_class s) as [[e E]|C]; [congruence|exact C].
  - destruct (sch_headed (Some n) s) as [[e E]|C]; [congruence|exact C].
  - destruct (layout_class s) as [[e E]|C]; [congruence|exact C].
  - destruct (lib_headed s) as [[e E]|C]; [congruence|exact C].
  - destruct (project_class s) as [[e E]|C]; [congruence|exact C].
  - destruct (table_class s) as [[e E]|C]; [congruence|exact C].
Qed.
Lemma exclusive n s f g : accepted n s f -> accepted n s g -> f = g.
Proof.
  intros F G. assert (K : kind f = kind g).
  { apply class_inj. exact (class_one s _ _ (accepted_class n s f F) (accepted_class n s g G)). }
  destruct f, g; cbn [kind] in K; try discriminate K; cbn [accepted] in F, G; try contradiction; congruence.
Qed.
(** All other readers refuse what one reader accepts. *)
Lemma others n s x : is_class s (class_of x) ->
  (x <> XModule -> exists e, parse_module s = Err e) /\ (x <> XSchematic -> exists e, parse_schematic (Some n) s = Err e)
  /\ (x <> XLayout -> exists e, parse_layout s = Err e) /\ (x <> XSymbolLib -> exists e, parse_symbol_lib s = Err e)
  /\ (x <> XProject -> exists e, parse_project s = Err e) /\ (x <> XFpLibTable -> exists e, parse_table s = Err e).
Proof.
  intros C. assert (K : forall y, is_class s (class_of y) -> x = y).
  { intros y D. apply class_inj. exact (class_one s _ _ C D). }
  repeat split; intros N; [destruct (module_class s) as [H|D]|destruct (sch_headed (Some n) s) as [H|D]|destruct (layout_class s) as [H|D]|destruct (lib_headed s) as [H|D]
    |destruct (project_class s) as [H|D]|destruct (table_class s) as [H|D]]; try exact H; destruct N; apply K; exact D.
Qed.

(** ** The reader *)
Lemma expected_eqb_eq a b : expected_eqb a b = true <-> a = b.
Proof. destruct a, b; cbn; split; congruence. Qed.
Lemma sound n s x f : read_data n s x = Ok f -> accepted n s f \/ f = KUnknown n.
Proof.
  unfold read_data, attempt. intros H.
  destruct (parse_module s) eqn:E1; [injection H as <-; now left| |discriminate]. destruct (expected_eqb x XModule); [discriminate|].
  destruct (parse_schematic (Some n) s) eqn:E2; [injection H as <-; now left| |discriminate]. destruct (expected_eqb x XSchematic); [discriminate|].
  destruct (parse_layout s) eqn:E3; [injection H as <-; now left| |discriminate]. destruct (expected_eqb x XLayout); [discriminate|].
  destruct (parse_symbol_lib s) eqn:E4; [injection H as <-; now left| |discriminate]. destruct (expected_eqb x XSymbolLib); [discriminate|].
  destruct (parse_project s) eqn:E5; [injection H as <-; now left| |discriminate]. destruct (expected_eqb x XProject); [discriminate|].
  destruct (parse_table s) eqn:E6; [injection H as <-; now left| |discriminate]. destruct (expected_eqb x XFpLibTable); [discriminate|].
  injection H as <-. now right.
Qed.
Lemma accepts n s x f : accepted n s f ->
  if Nat.leb (rank (kind f)) (rank x) then read_data n s x = Ok f else exists e, read_data n s x = Err e.
Proof.
  intros A. destruct (others n s (kind f) (accepted_class n s f A)) as (O1 & O2 & O3 & O4 & O5 & O6). unfold read_data, attempt.
  destruct f as [u|m|c|l|l|d|t]; cbn [accepted kind] in *; [contradiction|..].
  - rewrite A. reflexivity.
  - destruct (O1 ltac:(discriminate)) as [e ->]. rewrite A. destruct x; cbn; eauto.
  - destruct (O1 ltac:(discriminate)) as [e ->], (O2 ltac:(discriminate)) as [e2 ->]. rewrite A. destruct x; cbn; eauto.
  - destruct (O1 ltac:(discriminate)) as [e ->], (O2 ltac:(discriminate)) as [e2 ->], (O3 ltac:(discriminate)) as [e3 ->]. rewrite A. destruct x; cbn; eauto.
  - destruct (O1 ltac:(discriminate)) as [e ->], (O2 ltac:(discriminate)) as [e2 ->], (O3 ltac:(discriminate)) as [e3 ->], (O4 ltac:(discriminate)) as [e4 ->].
    rewrite A. destruct x; cbn; eauto.
  - destruct (O1 ltac:(discriminate)) as [e ->], (O2 ltac:(discriminate)) as [e2 ->], (O3 ltac:(discriminate)) as [e3 ->], (O4 ltac:(discriminate)) as [e4 ->],
      (O5 ltac:(discriminate)) as [e5 ->]. rewrite A. destruct x; cbn; eauto.
Qed.
Lemma no_accept_err {A} (r : res A) : r <> Panic -> (forall a, r <> Ok a) -> exists e, r = Err e.
Proof. destruct r as [a|e|]; intros P N; [destruct (N a eq_refl)|eauto|destruct (P eq_refl)]. Qed.
Lemma unknown n s x : no_crash n s -> (forall f, ~ accepted n s f) ->
  (x = XAny -> read_data n s x = Ok (KUnknown n)) /\ (x <> XAny -> exists e, read_data n s x = Err e).
Proof.
  intros (P1 & P2 & P3 & P4 & P6) N. unfold read_data, attempt.
  destruct (no_accept_err _ P1 (fun a H => N (KModule a) H)) as [e1 ->]. destruct (no_accept_err _ P2 (fun a H => N (KSchematic a) H)) as [e2 ->].
  destruct (no_accept_err _ P3 (fun a H => N (KLayout a) H)) as [e3 ->]. destruct (no_accept_err _ P4 (fun a H => N (KSymbolLib a) H)) as [e4 ->].
  assert (P5 : parse_project s <> Panic) by (unfold parse_project; now destruct (negb _)).
  destruct (no_accept_err _ P5 (fun a H => N (KProject a) H)) as [e5 ->].
  destruct (no_accept_err _ P6 (fun a H => N (KFpLibTable a) H)) as [e6 ->].
  destruct x; cbn [expected_eqb]; split; intros H; try discriminate; try (now destruct H); try reflexivity; eauto.
Qed.
(** An accepting reader is reached only through refusing ones, so what is returned is
    the only possibility. *)
Lemma known_iff n s x f : f <> KUnknown n -> (read_data n s x = Ok f <-> accepted n s f /\ (rank (kind f) <= rank x)%nat).
Proof.
  intros U. split.
  - intros H. destruct (sound n s x f H) as [A|E]; [|contradiction]. split; [exact A|].
    pose proof (accepts n s x f A) as B. destruct (Nat.leb_spec (rank (kind f)) (rank x)) as [L|L]; [exact L|]. destruct B as [e B]. congruence.
  - intros [A L]. pose proof (accepts n s x f A) as B. destruct (Nat.leb_spec (rank (kind f)) (rank x)); [exact B|lia].
Qed.

(** ** The typed readers *)
Lemma typed {A} (mk : A -> kicad_file) (get : kicad_file -> res A) fs n x a :
  (forall a, kind (mk a) = x) -> x <> XAny -> (forall a, get (mk a) = Ok a) -> (forall f a, get f = Ok a -> f = mk a) ->
  (do k <- read_kicad_file fs n x; get k) = Ok a <-> exists s, fs n = Some s /\ accepted n s (mk a).
Proof.
  intros K X G1 G2. unfold read_kicad_file, read_file. destruct (fs n) as [s|]; cbn [of_option bind].
  - assert (NU : mk a <> KUnknown n) by (intros E; rewrite <- (K a), E in X; now apply X).
    split.
    + destruct (read_data n s x) as [f| |] eqn:E; cbn [bind]; try discriminate. intros H. apply G2 in H as ->.
      apply known_iff in E; [|exact NU]. exists s. tauto.
    + intros (s' & [= <-] & A0). assert (R : read_data n s x = Ok (mk a)).
      { apply known_iff; [exact NU|]. split; [exact A0|]. rewrite K. lia. }
      rewrite R. cbn [bind]. apply G1.
  - split; [discriminate|]. intros (s & [=] & _).
Qed.
Lemma read_module_iff fs n m : read_module fs n = Ok m <-> exists s, fs n = Some s /\ parse_module s = Ok m.
Proof. apply (typed KModule); try reflexivity; [discriminate|]. intros [| | | | | |] a; congruence. Qed.
Lemma read_schematic_iff fs n m : read_schematic fs n = Ok m <-> exists s, fs n = Some s /\ parse_schematic (Some n) s = Ok m.
Proof. apply (typed KSchematic); try reflexivity; [discriminate|]. intros [| | | | | |] a; congruence. Qed.
Lemma read_layout_iff fs n m : read_layout fs n = Ok m <-> exists s, fs n = Some s /\ parse_layout s = Ok m.
Proof. apply (typed KLayout); try reflexivity; [discriminate|]. intros [| | | | | |] a; congruence. Qed.
Lemma read_symbol_lib_iff fs n m : read_symbol_lib fs n = Ok m <-> exists s, fs n = Some s /\ parse_symbol_lib s = Ok m.
Proof. apply (typed KSymbolLib); try reflexivity; [discriminate|]. intros [| | | | | |] a; congruence. Qed.
Lemma read_project_iff fs n m : read_project fs n = Ok m <-> exists s, fs n = Some s /\ parse_project s = Ok m.
Proof. apply (typed KProject); try reflexivity; [discriminate|]. intros [| | | | | |] a; congruence. Qed.
Lemma read_table_iff fs n m : read_fp_lib_table fs n = Ok m <-> exists s, fs n = Some s /\ parse_table s = Ok m.
Proof. apply (typed KFpLibTable); try reflexivity; [discriminate|]. intros [| | | | | |] a; congruence. Qed.

(** ** Written files *)
Lemma read_written fs n s f x : accepted n s f -> (rank (kind f) <= rank x)%nat -> read_kicad_file (write_file fs n s) n x = Ok f.
Proof.
  intros A L. unfold read_kicad_file, read_file, write_file. rewrite str_eqb_refl. cbn [of_option bind].
  pose proof (accepts n s x f A) as B. destruct (Nat.leb_spec (rank (kind f)) (rank x)); [exact B|lia].
Qed.
