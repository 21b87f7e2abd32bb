(** Proofs: what a file of any kind is read as (C77). *)
From Coq Require Import String Lia.
From Verif Require Import Base Str StrFacts Sexp SexpFacts FpData FpDe LyData LyDe FpLibTable DocText LibFns LibSpec CutSpec CutFacts SchData SchParse SchReadSpec SchReadFacts SymData SymParse SymReadSpec SymReadFacts
  CrashSpec CrashFacts SymCrashFacts GramSpec MeanSpec WideSpec WideMean WideBoard Formatter SxTotal KicadFile KfSpec KfFacts KfTotal SpellSpec SpellFacts.
Open Scope list_scope.

Lemma text_iff {A} (de : sexp -> res A) (g : sexp -> Prop) (m : sexp -> A) t a : (forall s b, de s = Ok b <-> g s /\ b = m s) ->
  (do s <- read_sexp t; de s) = Ok a <-> exists s, document s t /\ g s /\ a = m s.
Proof.
  intros H. split.
  - intros B. apply bind_inv in B as (s & R & D). apply read_iff in R. apply H in D. now exists s.
  - intros (s & R & D). apply read_iff in R. rewrite R. cbn [bind]. now apply H.
Qed.
Lemma module_text t m : parse_module t = Ok m <-> exists s, document s t /\ follows w_module s /\ m = w_module_of s.
Proof. exact (text_iff de_module (follows w_module) w_module_of t m exact_module). Qed.
Lemma layout_text t l : parse_layout t = Ok l <-> exists s, document s t /\ follows w_board s /\ l = w_layout_of s.
Proof. exact (text_iff de_layout (follows w_board) w_layout_of t l exact_layout). Qed.
Lemma table_text t l : parse_table t = Ok l <-> exists s, document s t /\ follows w_table s /\ l = table_of s.
Proof. exact (text_iff de_fp_lib_table (follows w_table) table_of t l exact_table). Qed.
Lemma err_iff {A} (r : res A) (Q : A -> Prop) : r <> Panic -> (forall a, r = Ok a <-> Q a) -> (exists e, r = Err e) <-> forall a, ~ Q a.
Proof.
  intros P H. split.
  - intros [e E] a F. apply H in F. congruence.
  - intros N. destruct r as [a|e|]; [destruct (N a); now apply H|now exists e|now destruct P].
Qed.
Lemma not_text {A} (g : sexp -> Prop) (m : sexp -> A) t : (forall a, ~ exists s, document s t /\ g s /\ a = m s) <-> ~ exists s, document s t /\ g s.
Proof. split; [intros H (s & D & G); apply (H (m s)); now exists s|intros H a (s & D & G & _); apply H; now exists s]. Qed.
Lemma module_text_err t : (exists e, parse_module t = Err e) <-> ~ exists s, document s t /\ follows w_module s.
Proof. rewrite (err_iff _ _ (parse_module_np t) (module_text t)). apply not_text. Qed.
Lemma layout_text_err t : (exists e, parse_layout t = Err e) <-> ~ exists s, document s t /\ follows w_board s.
Proof. rewrite (err_iff _ _ (parse_layout_np t) (layout_text t)). apply not_text. Qed.
Lemma table_text_err t : (exists e, parse_table t = Err e) <-> ~ exists s, document s t /\ follows w_table s.
Proof. rewrite (err_iff _ _ (parse_table_np t) (table_text t)). apply not_text. Qed.
Lemma project_text t d : parse_project t = Ok d <-> d = t /\ exists r, t = project_start ++ r.
Proof.
  unfold parse_project, project_start. destruct (starts_with (lit "update=") t) eqn:E; cbn [negb].
  - apply StrFacts.starts_with_iff in E. split; [intros [= <-]; auto|intros [-> _]; reflexivity].
  - split; [discriminate|]. intros [_ H]. apply StrFacts.starts_with_iff in H. congruence.
Qed.

Lemma accepted_iff n t f : accepted n t f <-> file_is n t f.
Proof.
  destruct f as [u|m|c|l|l|d|l]; cbn [accepted file_is].
  - tauto.
  - apply module_text.
  - apply schematic_iff.
  - apply layout_text.
  - apply library_iff.
  - apply project_text.
  - apply table_text.
Qed.
Lemma within_iff f x : (forall u, f <> KUnknown u) -> within f x <-> (rank (kind f) <= rank x)%nat.
Proof.
  intros U. unfold within. assert (T : forall y, turn y = rank y) by (intros []; reflexivity). split.
  - intros (y & K & L). rewrite !T in L. destruct f, y; cbn [is_kind] in K; try contradiction; exact L.
  - intros L. exists (kind f). rewrite !T. split; [|exact L]. destruct f; cbn; try exact I. now destruct (U name).
Qed.
Lemma file_known n t f : file_is n t f -> forall u, f <> KUnknown u.
Proof. intros H u ->. exact H. Qed.
Lemma data_known n t x f : (forall u, f <> KUnknown u) -> read_data n t x = Ok f <-> file_is n t f /\ within f x.
Proof. intros U. rewrite known_iff by apply U. now rewrite accepted_iff, within_iff. Qed.
Lemma data_panic n t x : read_data n t x = Panic <-> file_crash t x.
Proof.
  rewrite read_panic. unfold file_crash. rewrite schematic_panic_iff, library_crash_iff.
  assert (T : turn x = rank x) by (now destruct x). rewrite T. cbn [turn]. split.
  - intros [[(ls & A & B) C]|[(ls & A & B) C]]; exists ls; auto.
  - intros (ls & A & [[B C]|[B C]]); [left|right]; (split; [now exists ls|exact C]).
Qed.
Lemma attempt_any {A} (r : res A) mk rest : (forall e, rest <> Err e) -> forall e, attempt r mk false rest <> Err e.
Proof. intros H e. destruct r; cbn [attempt]; [discriminate|apply H|discriminate]. Qed.
Lemma any_no_err n t e : read_data n t XAny <> Err e.
Proof. unfold read_data. cbn [expected_eqb]. repeat apply attempt_any. discriminate. Qed.
Lemma attempt_unknown {A} (r : res A) mk stop rest u : (forall a, mk a <> KUnknown u) -> attempt r mk stop rest = Ok (KUnknown u) -> stop = false /\ rest = Ok (KUnknown u).
Proof. intros M. destruct r as [a|e|]; cbn [attempt]; [intros [= H]; now apply M in H| |discriminate]. destruct stop; [discriminate|auto]. Qed.
Lemma unknown_any n t x u : read_data n t x = Ok (KUnknown u) -> x = XAny /\ u = n.
Proof.
  unfold read_data. intros H.
  apply attempt_unknown in H as [E1 H]; [|discriminate]. apply attempt_unknown in H as [E2 H]; [|discriminate].
  apply attempt_unknown in H as [E3 H]; [|discriminate]. apply attempt_unknown in H as [E4 H]; [|discriminate].
  apply attempt_unknown in H as [E5 H]; [|discriminate]. apply attempt_unknown in H as [E6 H]; [|discriminate].
  injection H as ->. split; [|reflexivity]. destruct x; try discriminate. reflexivity.
Qed.
Lemma data_unknown n t x u : read_data n t x = Ok (KUnknown u) <-> u = n /\ x = XAny /\ ~ file_crash t XAny /\ forall f, ~ file_is n t f.
Proof.
  split.
  - intros H. destruct (unknown_any n t x u H) as [-> ->]. split; [reflexivity|]. split; [reflexivity|]. split.
    + intros C. apply (data_panic n) in C. congruence.
    + intros f F. pose proof (file_known n t f F) as U.
      assert (R : read_data n t XAny = Ok f) by (apply data_known; [exact U|]; split; [exact F|]; apply within_iff; [exact U|]; destruct f; cbn; lia).
      rewrite H in R. injection R as <-. exact F.
  - intros (-> & -> & C & F). destruct (read_data n t XAny) as [f|e|] eqn:R.
    + destruct f; try (exfalso; apply data_known in R; [|discriminate]; destruct R as [R _]; exact (F _ R)). now apply unknown_any in R as [_ ->].
    + now apply any_no_err in R.
    + now apply data_panic in R.
Qed.
Lemma data_err n t x : (exists e, read_data n t x = Err e) <-> x <> XAny /\ ~ file_crash t x /\ forall f, file_is n t f -> ~ within f x.
Proof.
  split.
  - intros [e H]. split; [intros ->; now apply any_no_err in H|]. split; [intros C; apply (data_panic n) in C; congruence|].
    intros f F W. assert (R : read_data n t x = Ok f) by (apply data_known; [now apply (file_known n t)|auto]). congruence.
  - intros (X & C & F). destruct (read_data n t x) as [f|e|] eqn:R; [|now exists e|now apply data_panic in R].
    exfalso. destruct f; try (apply data_known in R; [|discriminate]; destruct R as [R W]; exact (F _ R W)). now apply unknown_any in R as [R _].
Qed.

Lemma file_known_iff fs n x f : (forall u, f <> KUnknown u) ->
  read_kicad_file fs n x = Ok f <-> exists t, fs n = Some t /\ file_is n t f /\ within f x.
Proof.
  intros U. unfold read_kicad_file, read_file. destruct (fs n) as [t|]; cbn [of_option bind].
  - rewrite data_known by exact U. split; [intros H; now exists t|intros (t' & [= <-] & H); exact H].
  - split; [discriminate|intros (t & [=] & _)].
Qed.
Lemma file_unknown_iff fs n x u : read_kicad_file fs n x = Ok (KUnknown u) <->
  exists t, fs n = Some t /\ u = n /\ x = XAny /\ ~ file_crash t XAny /\ forall f, ~ file_is n t f.
Proof.
  unfold read_kicad_file, read_file. destruct (fs n) as [t|]; cbn [of_option bind].
  - rewrite data_unknown. split; [intros H; now exists t|intros (t' & [= <-] & H); exact H].
  - split; [discriminate|intros (t & [=] & _)].
Qed.
Lemma file_panic_iff fs n x : read_kicad_file fs n x = Panic <-> exists t, fs n = Some t /\ file_crash t x.
Proof.
  unfold read_kicad_file, read_file. destruct (fs n) as [t|]; cbn [of_option bind].
  - rewrite data_panic. split; [intros H; now exists t|intros (t' & [= <-] & H); exact H].
  - split; [discriminate|intros (t & [=] & _)].
Qed.
Lemma file_err_iff fs n x : (exists e, read_kicad_file fs n x = Err e) <->
  fs n = None \/ exists t, fs n = Some t /\ x <> XAny /\ ~ file_crash t x /\ forall f, file_is n t f -> ~ within f x.
Proof.
  unfold read_kicad_file, read_file. destruct (fs n) as [t|]; cbn [of_option bind].
  - rewrite data_err. split; [intros H; right; now exists t|intros [[=]|(t' & [= <-] & H)]; exact H].
  - split; [now left|intros _; now exists EIo].
Qed.
Lemma file_one n t f g : file_is n t f -> file_is n t g -> f = g.
Proof. rewrite <- !accepted_iff. apply exclusive. Qed.
