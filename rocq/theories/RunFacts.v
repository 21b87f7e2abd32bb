(** All that the programs do: proofs for C94. *)
From Coq Require Import String Lia.
From Verif Require Import Base Str StrFacts SexpFacts Num F64 F64Text FpData FpSer LyData LySpec LyOps LyOpsFacts LySer SymData SymCheck SchData SchPrint FpCheck CheckFix CheckSpec
  DocText LibFns CutSpec CutFacts SchParse SymParse DocSpec TextSpec TextDocs F64Facts SchReadFacts KicadFile KfSpec KfFacts SpellSpec SpellFacts SpellKind RuleSpec RuleFacts Bins BinSpec BinFacts
  SchOut OutSpec OutFacts OutRun RunSpec.
Open Scope string_scope. Open Scope list_scope.

Lemma told_item i : dump_item 1 i = told i.
Proof. reflexivity. Qed.
Lemma dump_grouped l : flat_map (dump 1) (grouped l) = map told l.
Proof.
  destruct l as [|i [|j l]]; [reflexivity|reflexivity|]. cbn [grouped flat_map dump]. rewrite app_nil_r. generalize (i :: j :: l). clear.
  induction l as [|i l IH]; [reflexivity|]. cbn [map flat_map dump app]. now rewrite IH.
Qed.
Lemma dump_groups ls : flat_map (dump 1) (flat_map grouped ls) = map told (concat ls).
Proof. induction ls as [|l ls IH]; [reflexivity|]. cbn [flat_map concat]. now rewrite flat_map_app, dump_grouped, IH, map_app. Qed.
Lemma grouped_nil l : grouped l = [] <-> l = [].
Proof. destruct l as [|i [|j l]]; cbn; split; intros H; try reflexivity; discriminate. Qed.
Lemma groups_nil ls : flat_map grouped ls = [] <-> concat ls = [].
Proof.
  induction ls as [|l ls IH]; [split; reflexivity|]. cbn [flat_map concat]. split; intros H; apply app_eq_nil in H as [A B].
  - apply grouped_nil in A as ->. now apply IH.
  - apply IH in B. subst l. now rewrite B.
Qed.
Lemma report_log s ds : symbol_report s ds ->
  exists l, symbol_findings s l /\ match ds with [] => [] | v => (false, lit "Symbol " ++ sy_name s) :: flat_map (dump 1) v end = listed "Symbol " (sy_name s) l.
Proof.
  intros (fs & gs & F & G & ->). set (cs := map (bad_char_item _) _). exists (cs ++ concat fs ++ concat gs). split; [exists fs, gs; auto|].
  set (ds := grouped cs ++ _). assert (D : flat_map (dump 1) ds = map told (cs ++ concat fs ++ concat gs)) by
    (unfold ds; now rewrite !flat_map_app, dump_grouped, !dump_groups, !map_app).
  assert (E : ds = [] <-> cs ++ concat fs ++ concat gs = []).
  { unfold ds. split; intros H; apply app_eq_nil in H as [A B]; apply app_eq_nil in B as [B C].
    - apply grouped_nil in A. apply groups_nil in B, C. now rewrite A, B, C.
    - apply groups_nil in B, C. rewrite B, C, A. reflexivity. }
  clearbody ds. destruct ds as [|d ds].
  - rewrite (proj1 E eq_refl). reflexivity.
  - rewrite D. destruct (cs ++ concat fs ++ concat gs) as [|i l]; [discriminate (proj2 E eq_refl)|reflexivity].
Qed.
Lemma findings_fun s l l' : symbol_findings s l -> symbol_findings s l' -> l = l'.
Proof.
  assert (K : forall {A} (R : A -> rules) xs fs fs', Forall2 (fun f l => reported (R f) l) xs fs -> Forall2 (fun f l => reported (R f) l) xs fs' -> fs = fs').
  { intros A R xs fs fs' H. revert fs'. induction H as [|x f xs fs X H IH]; intros fs' H'; inversion H'; subst; [reflexivity|]. f_equal; [eapply reported_fun; eassumption|auto]. }
  intros (fs & gs & F & G & ->) (fs' & gs' & F' & G' & ->). rewrite (K _ _ _ _ _ F F'). destruct G as [[P ->]|(P & Q & G)], G' as [[P' ->]|(P' & Q' & G')].
  - reflexivity.
  - destruct P; contradiction.
  - destruct P'; contradiction.
  - now rewrite (K _ _ _ _ _ G G').
Qed.

Lemma arg_ok args n : arg args = Ok n <-> exists p r, args = p :: n :: r.
Proof. split; [apply arg_inv|]. intros (p & r & ->). reflexivity. Qed.
Lemma arg_panic args : arg args = Panic <-> (length args < 2)%nat.
Proof. destruct args as [|p [|n r]]; cbn; split; intros H; try lia; try reflexivity; try discriminate. Qed.
Lemma arg_err args e : arg args <> Err e.
Proof. destruct args as [|p [|n r]]; discriminate. Qed.
(** A program that reads one file and goes on without failing *)
Lemma program_ok {A} (read : files -> str -> res A) (parse : str -> str -> A -> Prop) (go : A -> str -> ran) fs args r :
  (forall n a, read fs n = Ok a <-> exists t, fs n = Some t /\ parse n t a) ->
  (do n <- arg args; do a <- unwrap (read fs n); Ok (go a n)) = Ok r <-> exists n t a, names fs args n t /\ parse n t a /\ r = go a n.
Proof.
  intros H. split.
  - intros E. apply bind_inv in E as (n & G & E). apply bind_inv in E as (a & U & [= <-]). apply unwrap_ok, H in U as (t & F & P). apply arg_ok in G.
    exists n, t, a. unfold names. auto.
  - intros (n & t & a & (G & F) & P & ->). apply arg_ok in G. rewrite G. cbn [bind]. rewrite (proj2 (unwrap_ok _ a)); [reflexivity|]. apply H. eauto.
Qed.
Lemma program_panic {A} (read : files -> str -> res A) (parse : str -> str -> A -> Prop) (go : A -> str -> ran) fs args :
  (forall n a, read fs n = Ok a <-> exists t, fs n = Some t /\ parse n t a) ->
  (do n <- arg args; do a <- unwrap (read fs n); Ok (go a n)) = Panic <-> forall n t a, names fs args n t -> ~ parse n t a.
Proof.
  intros H. split.
  - intros E n t a ((p & r & ->) & F) P. cbn [arg bind] in E. rewrite (proj2 (unwrap_ok _ a)) in E; [discriminate|]. apply H. eauto.
  - intros N. destruct (arg args) as [n|e|] eqn:G; [|destruct (arg_err _ _ G)|reflexivity]. cbn [bind]. rewrite (proj2 (unwrap_panic _)); [reflexivity|].
    intros a E. apply H in E as (t & F & P). apply (N n t a); [|exact P]. split; [now apply arg_ok|exact F].
Qed.
Lemma program_err {A} (read : files -> str -> res A) (go : A -> str -> ran) fs args e :
  (do n <- arg args; do a <- unwrap (read fs n); Ok (go a n)) <> Err e.
Proof.
  destruct (arg args) as [n|x|] eqn:G; [|destruct (arg_err _ _ G)|discriminate]. cbn [bind]. destruct (read fs n); discriminate.
Qed.

Lemma read_mod fs n m : read_module fs n = Ok m <-> exists t, fs n = Some t /\ file_is n t (KModule m).
Proof. rewrite read_module_iff. split; intros (t & F & P); exists t; (split; [exact F|]); now apply module_text. Qed.
Lemma read_ly fs n l : read_layout fs n = Ok l <-> exists t, fs n = Some t /\ file_is n t (KLayout l).
Proof. rewrite read_layout_iff. split; intros (t & F & P); exists t; (split; [exact F|]); now apply layout_text. Qed.
Lemma read_sym fs n l : read_symbol_lib fs n = Ok l <-> exists t, fs n = Some t /\ file_is n t (KSymbolLib l).
Proof. rewrite read_symbol_lib_iff. split; intros (t & F & P); exists t; (split; [exact F|]); now apply (accepted_iff n t (KSymbolLib l)). Qed.

(** ** klc_kicad_mod *)
Lemma fp_log m l : reported (footprint_rules klc m) l ->
  match fp_check klc m with [] => [] | v => (false, lit "Module " ++ m_name m) :: flat_map (dump 1) v end = listed "Module " (m_name m) l.
Proof.
  intros R. apply footprint_report in R. rewrite R. destruct l as [|i l]; [reflexivity|]. unfold listed. change (match map Item (i :: l) with [] => [] | v => (false, lit "Module " ++ m_name m) :: flat_map (dump 1) v end)
    with ((false, lit "Module " ++ m_name m) :: flat_map (dump 1) (map Item (i :: l))). f_equal. generalize (i :: l). clear.
  induction l as [|i l IH]; [reflexivity|]. cbn [map flat_map dump app]. now rewrite IH.
Qed.
Lemma klc_mod_ok fs args r : klc_kicad_mod fs args = Ok r <->
  exists n t m l, names fs args n t /\ file_is n t (KModule m) /\ reported (footprint_rules klc m) l /\ r = mk_ran [] (listed "Module " (m_name m) l).
Proof.
  unfold klc_kicad_mod. rewrite (program_ok read_module (fun n t m => file_is n t (KModule m)) _ fs args r (read_mod fs)). split.
  - intros (n & t & m & N & F & ->). destruct (footprint_some klc m) as [l E]. apply footprint_report in E. exists n, t, m, l. split; [exact N|]. split; [exact F|]. split; [exact E|]. f_equal. exact (fp_log m l E).
  - intros (n & t & m & l & N & F & R & ->). exists n, t, m. split; [exact N|]. split; [exact F|]. f_equal. symmetry. exact (fp_log m l R).
Qed.
Lemma klc_mod_panic fs args : klc_kicad_mod fs args = Panic <-> forall n t m, names fs args n t -> ~ file_is n t (KModule m).
Proof. apply (program_panic read_module (fun n t m => file_is n t (KModule m))). apply read_mod. Qed.
(** ** klc_symbol_lib *)
Lemma sym_log l : exists ls, Forall2 symbol_findings l ls /\
  flat_map (fun s => match symbol_check s with [] => [] | v => (false, lit "Symbol " ++ sy_name s) :: flat_map (dump 1) v end) l
  = concat (map (fun p => listed "Symbol " (sy_name (fst p)) (snd p)) (combine l ls)).
Proof.
  induction l as [|s l (ls & F & E)]; [exists []; split; [constructor|reflexivity]|].
  assert (R : symbol_report s (symbol_check s)) by now apply symbol_exact. destruct (report_log s _ R) as (x & X & L). exists (x :: ls). split; [now constructor|].
  cbn [flat_map combine map concat fst snd]. refine (f_equal2 (@app (bool * str)) _ E). rewrite <- L. now destruct (symbol_check s).
Qed.
Lemma findings_list l ls ls' : Forall2 symbol_findings l ls -> Forall2 symbol_findings l ls' -> ls = ls'.
Proof.
  intros H. revert ls'. induction H as [|s x l ls X H IH]; intros ls' H'; inversion H'; subst; [reflexivity|]. f_equal; [eapply findings_fun; eassumption|auto].
Qed.
Lemma klc_sym_ok fs args r : klc_symbol_lib fs args = Ok r <->
  exists n t l ls, names fs args n t /\ file_is n t (KSymbolLib l) /\ Forall2 symbol_findings l ls /\
    r = mk_ran [] (concat (map (fun p => listed "Symbol " (sy_name (fst p)) (snd p)) (combine l ls))).
Proof.
  unfold klc_symbol_lib. rewrite (program_ok read_symbol_lib (fun n t m => file_is n t (KSymbolLib m)) _ fs args r (read_sym fs)). split.
  - intros (n & t & l & N & F & ->). destruct (sym_log l) as (ls & S & E). exists n, t, l, ls. split; [exact N|]. split; [exact F|]. split; [exact S|]. f_equal. exact E.
  - intros (n & t & l & ls & N & F & S & ->). exists n, t, l. destruct (sym_log l) as (ls' & S' & E). rewrite (findings_list l ls ls' S S'). split; [exact N|]. split; [exact F|]. f_equal. symmetry. exact E.
Qed.
Lemma klc_sym_panic fs args : klc_symbol_lib fs args = Panic <-> forall n t l, names fs args n t -> ~ file_is n t (KSymbolLib l).
Proof. apply (program_panic read_symbol_lib (fun n t m => file_is n t (KSymbolLib m))). apply read_sym. Qed.
(** ** The dumps *)
Lemma dump_fp_ok nq fs args r : dump_footprint nq fs args = Ok r <->
  exists n t m, names fs args n t /\ file_is n t (KModule m) /\ r = mk_ran (m_name m ++ [10%N] ++ written nq 0 (ser_module m) ++ [10%N]) [].
Proof.
  unfold dump_footprint. rewrite (program_ok read_module (fun n t m => file_is n t (KModule m)) _ fs args r (read_mod fs)).
  split; intros (n & t & m & N & F & ->); exists n, t, m; cbv beta; rewrite module_written; auto.
Qed.
Lemma dump_fp_panic nq fs args : dump_footprint nq fs args = Panic <-> forall n t m, names fs args n t -> ~ file_is n t (KModule m).
Proof. apply (program_panic read_module (fun n t m => file_is n t (KModule m))). apply read_mod. Qed.
Lemma dump_ly_ok nq fs args r : (forall n t l, names fs args n t -> file_is n t (KLayout l) -> usual_layout l = true) -> dump_layout nq fs args = Ok r <->
  exists n t l, names fs args n t /\ file_is n t (KLayout l) /\ r = mk_ran (written nq 0 (ser_layout l) ++ [10%N; 10%N]) [(false, n)].
Proof.
  intros U. unfold dump_layout. rewrite (program_ok read_layout (fun n t m => file_is n t (KLayout m)) _ fs args r (read_ly fs)).
  split; intros (n & t & l & N & F & ->); exists n, t, l; cbv beta; rewrite layout_written by exact (U n t l N F); rewrite <- app_assoc; auto.
Qed.
Lemma wipe_usual e : usual_element (wipe e) = usual_element e.
Proof. destruct e as [m|n|c|x|x|x|x|x|x|x|z|s]; cbn [wipe]; try reflexivity; destruct x + destruct z; reflexivity. Qed.
Lemma usual_wipe e f : wipe e = wipe f -> usual_element e = usual_element f.
Proof. intros H. now rewrite <- (wipe_usual e), H, wipe_usual. Qed.
Lemma usual_moved x y l l' : moved x y l l' -> usual_layout l' = usual_layout l.
Proof.
  intros (H & W & _). unfold usual_layout. f_equal.
  - revert W. generalize (ly_elements l), (ly_elements l'). clear. induction l as [|e l IH]; intros [|f k]; cbn [map forallb]; try discriminate; [reflexivity|].
    intros [= E W]. rewrite (usual_wipe _ _ E). f_equal. auto.
  - unfold setup_names, ly_header in *. inversion H. reflexivity.
Qed.
Lemma moved_fun x y l k k' : moved x y l k -> moved x y l k' -> k = k'.
Proof.
  intros (H & W & P) (H' & W' & P'). assert (E : ly_elements k = ly_elements k').
  { rewrite <- W in W'. rewrite <- P in P'. revert W' P'. generalize (ly_elements k), (ly_elements k'). clear.
    induction l as [|e l IH]; intros [|f m]; cbn [map]; try discriminate; [reflexivity|]. intros [= A B] [= C D]. f_equal; [now apply views_det|now apply IH]. }
  rewrite <- H in H'. unfold ly_header in H'. destruct k, k'. cbn in *. inversion H'; subst. reflexivity.
Qed.
Lemma adjust_ok nq fs args r : (forall n t l, names fs args n t -> file_is n t (KLayout l) -> usual_layout l = true) -> adjust_program nq fs args = Ok r <->
  exists n t l l', names fs args n t /\ file_is n t (KLayout l) /\ moved (flit "100") (flit "0") l l' /\ r = mk_ran (written nq 0 (ser_layout l') ++ [10%N; 10%N]) [(false, n)].
Proof.
  intros U. unfold adjust_program. rewrite (program_ok read_layout (fun n t m => file_is n t (KLayout m)) _ fs args r (read_ly fs)).
  assert (Z : flit "100.0" = flit "100" /\ flit "0.0" = flit "0") by (split; apply fsame_eq; vm_compute; reflexivity). destruct Z as [-> ->]. split.
  - intros (n & t & l & N & F & ->). pose proof (adjust_layout_spec (flit "100") (flit "0") l) as M. exists n, t, l, (adjust_layout (flit "100") (flit "0") l).
    split; [exact N|]. split; [exact F|]. split; [exact M|]. rewrite layout_written; [now rewrite <- app_assoc|]. rewrite (usual_moved _ _ _ _ M). exact (U n t l N F).
  - intros (n & t & l & l' & N & F & M & ->). pose proof (adjust_layout_spec (flit "100") (flit "0") l) as M'. exists n, t, l. split; [exact N|]. split; [exact F|].
    rewrite (moved_fun _ _ _ _ _ M M'). rewrite layout_written; [now rewrite <- app_assoc|]. rewrite (usual_moved _ _ _ _ M'). exact (U n t l N F).
Qed.
Lemma dump_ly_panic nq fs args : dump_layout nq fs args = Panic <-> forall n t l, names fs args n t -> ~ file_is n t (KLayout l).
Proof. apply (program_panic read_layout (fun n t m => file_is n t (KLayout m))). apply read_ly. Qed.
Lemma adjust_panic nq fs args : adjust_program nq fs args = Panic <-> forall n t l, names fs args n t -> ~ file_is n t (KLayout l).
Proof. apply (program_panic read_layout (fun n t m => file_is n t (KLayout m))). apply read_ly. Qed.
(** ** identify *)
Lemma show_kind f : show_file f = kind_word f.
Proof. now destruct f. Qed.
Lemma named_read fs n t x : fs n = Some t -> read_kicad_file fs n x = read_data n t x.
Proof. intros F. unfold read_kicad_file, read_file. now rewrite F. Qed.
Lemma identify_ok fs args r : identify fs args = Ok r <->
  exists n t f, names fs args n t /\ (file_is n t f \/ (f = KUnknown n /\ ~ file_crash t XAny /\ forall g, ~ file_is n t g)) /\ r = mk_ran (lit "found: " ++ kind_word f ++ [10%N]) [].
Proof.
  unfold identify. rewrite (program_ok (fun fs n => read_kicad_file fs n XAny)
    (fun n t f => file_is n t f \/ (f = KUnknown n /\ ~ file_crash t XAny /\ forall g, ~ file_is n t g)) (fun f _ => mk_ran (lit "found: " ++ show_file f ++ nl) []) fs args r).
  - split; intros (n & t & f & N & F & ->); exists n, t, f; (split; [exact N|split; [exact F|]]); now destruct f.
  - intros n f. split.
    + intros E. assert (K : (exists u, f = KUnknown u) \/ forall u, f <> KUnknown u) by (destruct f; try (right; discriminate); left; eauto). destruct K as [[u ->]|K].
      * apply file_unknown_iff in E as (t & F & -> & _ & C & N). exists t. auto.
      * apply (file_known_iff fs n XAny f K) in E as (t & F & I & _). eauto.
    + intros (t & F & [I|(-> & C & N)]).
      * apply (file_known_iff fs n XAny f (file_known n t f I)). exists t. split; [exact F|]. split; [exact I|]. apply (within_iff f XAny (file_known n t f I)). cbn [rank]. destruct f; cbn; lia.
      * apply file_unknown_iff. exists t. auto 6.
Qed.
Lemma identify_panic fs args : identify fs args = Panic <-> (forall n t, ~ names fs args n t) \/ exists n t, names fs args n t /\ file_crash t XAny.
Proof.
  unfold identify. destruct (arg args) as [n|e|] eqn:G; [|destruct (arg_err _ _ G)|].
  - cbn [bind]. destruct (fs n) as [t|] eqn:F.
    + rewrite (named_read fs n t XAny F). assert (P := data_panic n t XAny). assert (M : names fs args n t) by (split; [now apply arg_ok|exact F]). split.
      * intros E. right. exists n, t. split; [exact M|]. apply P. destruct (read_data n t XAny) as [f|e|] eqn:R; [discriminate|destruct (any_no_err n t e R)|reflexivity].
      * intros [N|(n' & t' & (A & F') & C)]; [destruct (N n t M)|]. apply arg_ok in A. assert (n' = n) by congruence. subst n'. assert (t' = t) by congruence. subst t'.
        apply P in C. now rewrite C.
    + unfold read_kicad_file, read_file. rewrite F. cbn. split; [|reflexivity]. intros _. left. intros n' t' (A & F'). apply arg_ok in A. congruence.
  - cbn [bind]. split; [|reflexivity]. intros _. left. intros n t (A & _). apply arg_ok in A. congruence.
Qed.
(** ** Reports *)
Lemma reports_fun t m m' : reports_of t m -> reports_of t m' -> m = m'.
Proof.
  intros (ls & L & H) (ls' & L' & H'). apply lines_iff in L, L'. rewrite L in L'. subst ls'. clear L.
  destruct H as [[N ->]|(body & B & (l & r & E & G) & M)], H' as [[N' ->]|(body' & B' & (l' & r' & E' & G') & M')].
  - reflexivity.
  - destruct (N body' B').
  - destruct (N' body B).
  - assert (Y : body' = body). { destruct B as (a & e & A & S), B' as (a' & e' & A' & S'). rewrite A in A'. clear - A' S S'. unfold heading in A'. rewrite <- !app_comm_cons in A'. injection A' as A'. rewrite <- !app_assoc in A'.
      revert a' A'. induction a as [|x a IH]; intros [|x' a'] A'; cbn [map app] in A'.
      - now injection A'.
      - injection A' as -> _. cbn in S. discriminate.
      - injection A' as <- _. cbn in S'. discriminate.
      - injection A' as _ A'. exact (IH a' A'). }
    rewrite Y in *. clear body' Y. destruct (M' l r m E G) as [k K]. destruct (M l' r' m' E' G') as [k' K'].
    assert (Z : length k = 0%nat) by (apply (f_equal (@length str)) in K, K'; rewrite app_length in K, K'; lia).
    destruct k; [|discriminate]. now rewrite app_nil_r in K.
Qed.
Lemma headed_dec ls : (exists body, OutSpec.headed ls body) \/ forall body, ~ OutSpec.headed ls body.
Proof.
  assert (K : forall p, (exists libs e body, p = map (fun l => lit "LIBS:" ++ l) libs ++ e :: lit "EELAYER END" :: body /\ starts_with (lit "EELAYER ") e = true) \/
    ~ exists libs e body, p = map (fun l => lit "LIBS:" ++ l) libs ++ e :: lit "EELAYER END" :: body /\ starts_with (lit "EELAYER ") e = true).
  { induction p as [|s p IH]; [right; intros ([|? ?] & e & body & E & _); discriminate|].
    destruct (starts_with (lit "LIBS:") s) eqn:S.
    - apply starts_iff in S as [r ->]. destruct IH as [(libs & e & body & -> & E)|N].
      + left. exists (r :: libs), e, body. split; [reflexivity|exact E].
      + right. intros ([|l libs] & e & body & E & H); [injection E as <- _; discriminate|]. injection E as _ E. apply N. eauto.
    - destruct (starts_with (lit "EELAYER ") s) eqn:T.
      + destruct p as [|q p]; [right; intros ([|l libs] & e & body & E & H); [discriminate|injection E as -> _; discriminate S]|].
        destruct (str_eqb q (lit "EELAYER END")) eqn:Q.
        * apply str_eqb_eq in Q as ->. left. exists [], s, p. split; [reflexivity|exact T].
        * right. intros ([|l libs] & e & body & E & H); [injection E as _ -> _; now rewrite str_eqb_refl in Q|]. injection E as -> _. discriminate S.
      + right. intros ([|l libs] & e & body & E & H); [injection E as <- _; congruence|]. injection E as -> _. discriminate S. }
  destruct ls as [|h p]; [right; intros body (libs & e & E & _); discriminate|].
  destruct (str_eqb h (lit "EESchema Schematic File Version 2")) eqn:H.
  - apply str_eqb_eq in H as ->. destruct (K p) as [(libs & e & body & -> & E)|N].
    + left. exists body, libs, e. split; [|exact E]. unfold heading. cbn [app]. now rewrite <- app_assoc.
    + right. intros body (libs & e & E & H). unfold heading in E. cbn [app] in E. injection E as E. rewrite <- app_assoc in E. apply N. exists libs, e, body. split; [exact E|exact H].
  - right. intros body (libs & e & E & _). injection E as -> _. now rewrite str_eqb_refl in H.
Qed.
Lemma reports_read n t x : x <> XModule -> reports_of t (read_out n t x).
Proof.
  intros X. destruct (lines_total t) as [ls L]. exists ls. split; [exact L|]. unfold read_out.
  assert (D : (exists body, OutSpec.headed ls body) \/ forall body, ~ OutSpec.headed ls body).
  { destruct (headed_dec ls) as [H|H]; [now left|now right]. }
  destruct D as [[body B]|N].
  - right. exists body. split; [exact B|].
    assert (C : is_class t (class_of XSchematic)) by (destruct B as (a & e & A & _); cbn [class_of is_class]; unfold KfFacts.headed; apply lines_iff in L; rewrite L, A; eexists; reflexivity).
    destruct (others n t XSchematic C) as [M _]. destruct M as [e ->]; [discriminate|]. replace (expected_eqb x XModule) with false by (destruct x; try reflexivity; contradiction).
    exact (out_greatest (Some n) t ls body L B).
  - left. split; [exact N|]. destruct (parse_module t); try reflexivity. destruct (expected_eqb x XModule); [reflexivity|]. exact (out_none (Some n) t ls L N).
Qed.
Lemma read_reports n t x m : x <> XModule -> read_out n t x = m <-> reports_of t m.
Proof. intros X. split; [intros <-; now apply reports_read|]. intros R. exact (reports_fun t _ _ (reports_read n t x X) R). Qed.
Lemma stdout_reports fs args n t x m (r : res ran) : names fs args n t -> x <> XModule -> reports_of t m -> stdout fs args x r = unlines m ++ out_of r.
Proof.
  intros ((p & q & ->) & F) X R. unfold stdout. cbn [arg]. rewrite F. apply (read_reports n t x m X) in R. rewrite R. reflexivity.
Qed.
Lemma reports_one t : exists m, reports_of t m /\ forall k, reports_of t k -> k = m.
Proof. pose proof (reports_read [] t XAny ltac:(discriminate)) as R. eexists. split; [exact R|]. intros k K. exact (reports_fun t _ _ K R). Qed.
