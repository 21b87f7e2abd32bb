(** Opening and saving leaves exactly the documents of StaySpec.v as they are (C80). *)
From Coq Require Import String.
From Verif Require Import Base Str Num F64 F64Text Sexp SexpFacts FpData FpSer FpDe FpWf LyData LySer LyDe LyWf FpLibTable LibFacts Formatter FormatterSpec FormatterFacts DocSpec DocFacts DocText SxText ExactFacts ExactLy TextSpec TextMain TextDocs
  StaySpec StayFacts StayFp StayLy.
Open Scope string_scope. Open Scope list_scope.

Lemma stays_tree {A} (de : sexp -> res A) (ser : A -> sexp) ok (p : shape) : img ser ok p -> (forall v, de (ser v) = Ok v <-> ok v = true) ->
  forall t, (exists v, de t = Ok v /\ ser v = t) <-> p t.
Proof.
  intros I R t. split.
  - intros (v & D & <-). apply I. exists v. split; [reflexivity|]. now apply R.
  - intros H. apply I in H as (v & -> & H). exists v. split; [now apply R|reflexivity].
Qed.
Lemma stays_text {A} (nq : str -> bool) (de : sexp -> res A) (ser : A -> sexp) ok (p : shape) n w : quote_contract nq -> wsb w -> img ser ok p -> (forall v, de (ser v) = Ok v <-> ok v = true) ->
  (forall t v, doc_ok t = true -> de t = Ok v -> doc_ok (ser v) = true) ->
  forall s, (exists v, (do t <- read_sexp s; de t) = Ok v /\ pretty nq n (ser v) ++ w = s) <-> exists t, p t /\ doc_ok t = true /\ s = pretty nq n t ++ w.
Proof.
  intros Q W I R D s. split.
  - intros (v & H & E). apply bind_inv in H as (t & T & H). pose proof (D _ _ (read_doc_ok _ _ T) H) as V. rewrite <- E in T. rewrite read_pretty in T by assumption. injection T as <-.
    exists (ser v). split; [|split; [exact V|now symmetry]]. apply I. exists v. split; [reflexivity|]. now apply R.
  - intros (t & P & V & ->). apply I in P as (v & -> & P). exists v. rewrite read_pretty by assumption. split; [|reflexivity]. cbn [bind]. now apply R.
Qed.
Lemma stays_module t : (exists m, de_module t = Ok m /\ ser_module m = t) <-> footprint t.
Proof. exact (stays_tree _ _ _ _ i_footprint module_iff t). Qed.
Lemma stays_layout t : (exists m, de_layout t = Ok m /\ ser_layout m = t) <-> board t.
Proof. exact (stays_tree _ _ _ _ i_board layout_iff t). Qed.
Lemma table_always v : de_fp_lib_table (ser_fp_lib_table v) = Ok v <-> yes v = true.
Proof. split; [reflexivity|]. intros _. apply rt_fp_lib_table. Qed.
Lemma stays_table t : (exists m, de_fp_lib_table t = Ok m /\ ser_fp_lib_table m = t) <-> table t.
Proof. exact (stays_tree _ _ _ _ i_table table_always t). Qed.
Lemma footprint_regular t : footprint t -> regular t = true.
Proof. intros H. apply i_footprint in H as (m & -> & _). apply regular_module. Qed.
Lemma table_regular t : table t -> regular t = true.
Proof. intros H. apply i_table in H as (m & -> & _). apply regular_table. Qed.
Lemma stays_module_text nq n s : quote_contract nq ->
  (exists m, parse_module s = Ok m /\ module_to_string nq m n = s) <-> exists t, footprint t /\ doc_ok t = true /\ s = written nq n t.
Proof.
  intros Q. pose proof (stays_text nq de_module ser_module _ _ n [] Q eq_refl i_footprint module_iff (fun t v D H => doc_module v (cv_module t v D H)) s) as E.
  unfold parse_module, module_to_string. split.
  - intros (m & P & T). destruct (proj1 E) as (t & F & D & S).
    { exists m. split; [exact P|]. rewrite app_nil_r. exact T. }
    exists t. split; [exact F|]. split; [exact D|]. rewrite app_nil_r in S. rewrite S. apply pretty_written. now apply footprint_regular.
  - intros (t & F & D & S). destruct (proj2 E) as (m & P & T).
    { exists t. split; [exact F|]. split; [exact D|]. rewrite app_nil_r, pretty_written by (now apply footprint_regular). exact S. }
    exists m. split; [exact P|]. rewrite app_nil_r in T. exact T.
Qed.
Lemma doc_layout_of t l : doc_ok t = true -> de_layout t = Ok l -> doc_ok (ser_layout l) = true.
Proof. intros D H. destruct (cv_layout t l D H) as [A B]. now apply doc_layout. Qed.
Lemma stays_layout_text nq n s : quote_contract nq ->
  (exists l, parse_layout s = Ok l /\ layout_to_string nq l n = s) <-> exists t, board t /\ doc_ok t = true /\ s = pretty nq n t ++ [10%N].
Proof. intros Q. exact (stays_text nq de_layout ser_layout _ _ n [10%N] Q eq_refl i_board layout_iff doc_layout_of s). Qed.
Lemma stays_layout_written nq n t : quote_contract nq -> board t -> doc_ok t = true -> regular t = true ->
  exists l, parse_layout (written nq n t ++ [10%N]) = Ok l /\ layout_to_string nq l n = written nq n t ++ [10%N].
Proof. intros Q B D R. rewrite <- pretty_written by exact R. apply stays_layout_text; [exact Q|]. exists t. split; [exact B|]. split; [exact D|reflexivity]. Qed.
Lemma stays_table_text nq n s : quote_contract nq ->
  (exists t, parse_table s = Ok t /\ table_to_string nq t n = s) <-> exists t, table t /\ doc_ok t = true /\ s = written nq n t.
Proof.
  intros Q. pose proof (stays_text nq de_fp_lib_table ser_fp_lib_table _ _ n [] Q eq_refl i_table table_always (fun t v D H => doc_table v (cv_table t v D H)) s) as E.
  unfold parse_table, table_to_string. split.
  - intros (m & P & T). destruct (proj1 E) as (t & F & D & S).
    { exists m. split; [exact P|]. rewrite app_nil_r. exact T. }
    exists t. split; [exact F|]. split; [exact D|]. rewrite app_nil_r in S. rewrite S. apply pretty_written. now apply table_regular.
  - intros (t & F & D & S). destruct (proj2 E) as (m & P & T).
    { exists t. split; [exact F|]. split; [exact D|]. rewrite app_nil_r, pretty_written by (now apply table_regular). exact S. }
    exists m. split; [exact P|]. rewrite app_nil_r in T. exact T.
Qed.
