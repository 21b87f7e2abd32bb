(** Saves that may fail. *)
From Coq Require Import String Lia.
From Verif Require Import Base Str StrFacts Sexp SexpFacts FpData FpSer FpDe FpWf LyData LySer LyDe LyWf FpLibTable Formatter FormatterSpec FormatterFacts DocSpec DocFacts DocText DocTextFacts
  TextSpec TextDocs KicadFile KfSpec KfFacts SpellSpec SpellFacts Said FileErr Disk DiskSpec TornSpec TornFacts.
Open Scope string_scope. Open Scope list_scope.

Lemma try_ends fs a n d fs' r : try_write fs a n d = (fs', r) -> only n fs fs' /\ save_ends fs fs' n d r.
Proof.
  unfold try_write, only. destruct a as [why|k why|]; intros [= <- <-].
  - split; [reflexivity|now constructor].
  - split; [intros m M; unfold write_file; now rewrite (proj2 (str_eqb_neq m n) M)|].
    apply (sv_part _ _ _ _ (firstn k d)); [unfold write_file; now rewrite str_eqb_refl|]. exists (skipn k d). symmetry. apply firstn_skipn.
  - split; [intros m M; unfold write_file; now rewrite (proj2 (str_eqb_neq m n) M)|]. constructor. unfold write_file. now rewrite str_eqb_refl.
Qed.
Lemma try_any fs n d fs' r : save_ends fs fs' n d r -> only n fs fs' -> exists a f, try_write fs a n d = (f, r) /\ forall k, f k = fs' k.
Proof.
  intros S O. destruct S as [F|why F|p why F [q ->]].
  - exists Stores. eexists. split; [reflexivity|]. intros k. unfold write_file. destruct (str_eqb k n) eqn:K; [apply str_eqb_eq in K; now subst|]. symmetry. apply O. now apply str_eqb_neq.
  - exists (Refuses why). eexists. split; [reflexivity|]. intros k. destruct (str_eqb k n) eqn:K; [apply str_eqb_eq in K; now subst|]. symmetry. apply O. now apply str_eqb_neq.
  - exists (Breaks (length p) why). eexists. split; [reflexivity|]. rewrite firstn_app, firstn_all, Nat.sub_diag. cbn [firstn]. rewrite app_nil_r. intros k. unfold write_file.
    destruct (str_eqb k n) eqn:K; [apply str_eqb_eq in K; now subst|]. symmetry. apply O. now apply str_eqb_neq.
Qed.
(** The texts end with a closing parenthesis. *)
Lemma lay_close nq anc d c s : match s with SList (SStr _ :: _) => exists x, lay nq anc d c s = x ++ [41%N] | _ => True end.
Proof. destruct s as [x|[|[h|l2|] l]|]; try exact I. cbn [lay]. match goal with |- context [40%N :: ?a ++ ?b ++ c ++ [41%N]] => exists (40%N :: a ++ b ++ c) end. cbn [app]. now rewrite <- !app_assoc. Qed.
Lemma cut_tree t p q : (exists x, t = x ++ [41%N]) -> t = p ++ q -> q <> [] -> torn p t.
Proof.
  intros [x X] E N. exists q. split; [exact E|]. intros B. destruct (exists_last N) as (m & c & ->). rewrite app_assoc, X in E. apply app_inj_tail in E as [_ <-].
  specialize (B 41%N). rewrite in_app_iff in B. discriminate (B (or_intror (or_introl eq_refl))).
Qed.
Lemma module_ends nq m n : exists x, module_to_string nq m n = x ++ [41%N].
Proof. rewrite module_written. unfold written. pose proof (lay_close nq [] n (match name_of (ser_module m) with Some h => if one_of ["module"; "kicad_pcb"; "fp_lib_table"] h then [10%N] else [] | None => [] end) (ser_module m)) as H. exact H. Qed.
Lemma module_cut nq m n p q : quote_contract nq -> forallb no_quote (module_strs m) = true -> module_to_string nq m n = p ++ q -> q <> [] -> parse_module p = Err ESexp.
Proof.
  intros Q S E N. pose proof (cut_tree _ _ _ (module_ends nq m n) E N) as T. refine (proj1 (tree_torn _ _ _ T)).
  unfold module_to_string. rewrite <- (app_nil_r (pretty _ _ _)). pose proof (doc_module _ S) as D. unfold ser_module, node in *. apply (saved_tree nq n _ Q D). intros c [].
Qed.
Lemma layout_cut nq l n p : quote_contract nq -> forallb no_quote (layout_strs l) = true -> forallb doc_ok (layout_other l) = true -> torn p (layout_to_string nq l n) -> parse_layout p = Err ESexp.
Proof.
  intros Q S O T. refine (proj1 (proj2 (tree_torn _ _ _ T))). unfold layout_to_string. pose proof (doc_layout _ S O) as D. unfold ser_layout, node in *. apply (saved_tree nq n _ Q D). intros c [<-|[]]. reflexivity.
Qed.
Lemma table_cut nq t n p : quote_contract nq -> forallb no_quote (flat_map flib_strs t) = true -> torn p (table_to_string nq t n) -> parse_table p = Err ESexp.
Proof.
  intros Q S T. refine (proj2 (proj2 (tree_torn _ _ _ T))). unfold table_to_string. rewrite <- (app_nil_r (pretty _ _ _)). pose proof (doc_table _ S) as D. unfold ser_fp_lib_table, node in *. apply (saved_tree nq n _ Q D). intros c [].
Qed.
(** A board of which only white space is missing *)
Lemma blank_dec q : {blank_text q} + {~ blank_text q}.
Proof.
  destruct (forallb is_ws q) eqn:E; [left; intros c I; rewrite forallb_forall in E; now apply E|right]. intros B. assert (forallb is_ws q = true) by (apply forallb_forall; exact B). congruence.
Qed.
Lemma tree_blank t p q : tree_text t -> t = p ++ q -> blank_text q -> read_sexp p = read_sexp t.
Proof.
  intros [l L] -> B. rewrite L. apply read_iff in L. apply document_inv in L as (w & a & u & E & W & Sp & U). apply read_iff.
  inversion Sp as [| |l0 b S0]; subst.
  assert (X : exists u', p = (w ++ [40%N] ++ b) ++ [41%N] ++ u' /\ blank_text u').
  { replace (w ++ ([40%N] ++ b ++ [41%N]) ++ u) with ((w ++ [40%N] ++ b) ++ [41%N] ++ u) in E by (rewrite <- !app_assoc; reflexivity). revert E. generalize (w ++ [40%N] ++ b) as v. intros v E.
    assert (LL : (1 + length v <= length p)%nat).
    { destruct (Nat.le_gt_cases (1 + length v)%nat (length p)) as [H|H]; [exact H|]. exfalso. assert (I41 : In 41%N q).
      { assert (Sk : skipn (length p) (v ++ [41%N] ++ u) = q) by (rewrite <- E, skipn_app, skipn_all, Nat.sub_diag; reflexivity). rewrite skipn_app in Sk. replace (length p - length v)%nat with 0%nat in Sk by lia.
        rewrite <- Sk. apply in_app_iff. right. now left. }
      apply B in I41. discriminate I41. }
    exists (skipn (1 + length v)%nat p). assert (F : firstn (1 + length v)%nat p = v ++ [41%N]).
    { assert (F : firstn (1 + length v)%nat (p ++ q) = firstn (1 + length v)%nat (v ++ [41%N] ++ u)) by now rewrite E. rewrite !firstn_app in F. replace (1 + length v - length p)%nat with 0%nat in F by lia.
      rewrite firstn_all2 with (l := v) in F by lia. replace (1 + length v - length v)%nat with 1%nat in F by lia. cbn [firstn app] in F. now rewrite app_nil_r in F. }
    split.
    - rewrite <- (firstn_skipn (1 + length v)%nat p) at 1. now rewrite F, <- app_assoc.
    - intros c I. apply U. assert (Sk : skipn (1 + length v)%nat (p ++ q) = skipn (1 + length v)%nat (v ++ [41%N] ++ u)) by now rewrite E. change ([41%N] ++ u) with (41%N :: u) in Sk. rewrite !skipn_app in Sk.
      rewrite skipn_all2 with (l := v) in Sk by lia. replace (1 + length v - length v)%nat with 1%nat in Sk by lia. cbn [skipn app] in Sk. rewrite <- Sk. apply in_app_iff. now left. }
  destruct X as (u' & -> & U'). replace ((w ++ [40%N] ++ b) ++ [41%N] ++ u') with (w ++ ([40%N] ++ b ++ [41%N]) ++ u') by (rewrite <- !app_assoc; reflexivity). constructor; [exact W|exact Sp|now constructor|].
  intros (t1 & c & d & u1 & A & _ & C & _). rewrite app_assoc in A. apply app_inj_tail in A as [_ <-]. destruct C as (_ & _ & C & _). now apply C.
Qed.

(** Opening after a save *)
Lemma part_read t p : tree_text t -> beginning p t -> read_sexp p = read_sexp t \/ torn p t.
Proof. intros T [q E]. destruct (blank_dec q) as [B|B]; [left; exact (tree_blank _ _ _ T E B)|right; now exists q]. Qed.
Lemma saved_module nq fs a m n fs' r : parse_module (module_to_string nq m 0) = Ok m -> try_write_module nq fs a m n = (fs', r) ->
  opens read_module fs fs' n m /\ (r = TFine tt -> read_module fs' n = Ok m).
Proof.
  intros P W. destruct (try_ends _ _ _ _ _ _ W) as [_ S]. pose proof (module_tree _ _ P) as T. unfold opens, read_module, read_kicad_file, read_file. destruct S as [F|why F|p why F B]; rewrite F; cbn [of_option bind].
  - unfold read_data. rewrite P. cbn. split; [now left|reflexivity].
  - split; [right; now left|intros [=]].
  - split; [|intros [=]]. destruct (part_read _ _ T B) as [E|E].
    + left. unfold read_data. replace (parse_module p) with (Ok m); [reflexivity|]. rewrite <- P. unfold parse_module. now rewrite E.
    + right. right. now rewrite (torn_kind n _ _ XModule T E).
Qed.
Lemma saved_layout nq fs a l n fs' r : parse_layout (layout_to_string nq l 0) = Ok l -> try_write_layout nq fs a l n = (fs', r) ->
  opens read_layout fs fs' n l /\ (r = TFine tt -> read_layout fs' n = Ok l).
Proof.
  intros P W. destruct (try_ends _ _ _ _ _ _ W) as [_ S]. pose proof (layout_tree _ _ P) as T.
  assert (K : forall p, parse_layout p = Ok l -> bind (read_data n p XLayout) (fun f => match f with KLayout m => Ok m | _ => Err EOther end) = Ok l).
  { intros p E. destruct (others n p XLayout (accepted_class n p (KLayout l) E)) as (M1 & M2 & _). destruct (M1 ltac:(discriminate)) as [e1 E1]. destruct (M2 ltac:(discriminate)) as [e2 E2]. clear M1 M2. unfold read_data. rewrite E1, E2, E. reflexivity. }
  unfold opens, read_layout, read_kicad_file, read_file. destruct S as [F|why F|p why F B]; rewrite F; cbn [of_option bind].
  - split; [left|intros _]; exact (K _ P).
  - split; [right; now left|intros [=]].
  - split; [|intros [=]]. destruct (part_read _ _ T B) as [E|E].
    + left. apply K. rewrite <- P. unfold parse_layout. now rewrite E.
    + right. right. now rewrite (torn_kind n _ _ XLayout T E).
Qed.
Lemma blank_tree l t p q : document (SList l) t -> t = p ++ q -> blank_text q ->
  parse_module p = parse_module t /\ parse_layout p = parse_layout t /\ parse_table p = parse_table t.
Proof.
  intros D E B. assert (T : tree_text t) by (exists l; now apply read_iff). unfold parse_module, parse_layout, parse_table. rewrite (tree_blank _ _ _ T E B). now split.
Qed.
Lemma existsb_in (c : N) l : existsb (N.eqb c) l = true -> In c l.
Proof. intros H. apply existsb_exists in H as (x & I & E). apply N.eqb_eq in E. now subst. Qed.
