(** Property theorems: backslashes between quotes (C109). *)
From Coq Require Import String List NArith ZArith.
From Verif Require Import Base Str Sexp FpData FpSer FpWf LyData LySer LyWf FpLibTable Formatter FormatterSpec DocSpec DocText KeepSpec CharSpec Escape EscapeSpec EscapeFacts
  FpExamples LyExamples P_Formatter.
Import ListNotations.
Open Scope string_scope. Open Scope list_scope.

(** However a reader takes a backslash between quotes, it reads a text that has none as
    [read_sexp] does. *)
Theorem C109_same : forall esc t, unescaped t -> read_esc esc t = read_sexp t.
Proof. exact read_unescaped. Qed.
Print Assumptions C109_same.
(** So the files saved from texts without a backslash are read as they were by all of the
    readers, and a part of such a file by none. *)
Theorem C109_module : forall esc nq m n, quote_contract nq -> module_saves m = true -> ~ of_texts (module_strs m) 92%N ->
  module_esc esc (module_to_string nq m n) = Ok m /\
  forall p q, module_to_string nq m n = p ++ q -> q <> [] -> module_esc esc p = Err ESexp.
Proof. exact module_round. Qed.
Print Assumptions C109_module.
Theorem C109_layout : forall esc nq l n, quote_contract nq -> layout_saves l = true ->
  ~ of_texts (layout_strs l ++ flat_map tree_strs (layout_other l)) 92%N -> layout_esc esc (layout_to_string nq l n) = Ok l.
Proof. exact layout_round. Qed.
Print Assumptions C109_layout.
Theorem C109_table : forall esc nq t n, quote_contract nq -> forallb no_quote (flat_map flib_strs t) = true ->
  ~ of_texts (flat_map flib_strs t) 92%N -> table_esc esc (table_to_string nq t n) = Ok t.
Proof. exact table_round. Qed.
Print Assumptions C109_table.
(** Texts with backslashes: what stands between two quotes is one word exactly when it says
    one; a file comes back when each of its words that are put in quotes says itself. *)
Theorem C109_quoted : forall esc t s, read_esc esc ([34%N] ++ t ++ [34%N]) = Ok s <-> exists x, says esc t x /\ s = SStr x.
Proof. exact quoted_iff. Qed.
Print Assumptions C109_quoted.
Theorem C109_keep : forall t x, says keep_pair t x -> x = t.
Proof. exact keep_says. Qed.
Print Assumptions C109_keep.
Theorem C109_module_escaped : forall esc nq m n, quote_contract nq -> module_ok m = true ->
  (forall x, In x (tree_strs (ser_module m)) -> stands esc nq x) -> module_esc esc (module_to_string nq m n) = Ok m.
Proof. exact module_escaped. Qed.
Print Assumptions C109_module_escaped.
Theorem C109_layout_escaped : forall esc nq l n, quote_contract nq -> layout_ok l = true -> forallb solid (layout_other l) = true ->
  (forall x, In x (tree_strs (ser_layout l)) -> stands esc nq x) -> layout_esc esc (layout_to_string nq l n) = Ok l.
Proof. exact layout_escaped. Qed.
Print Assumptions C109_layout_escaped.
Theorem C109_table_escaped : forall esc nq t n, quote_contract nq -> (forall x, In x (tree_strs (ser_fp_lib_table t)) -> stands esc nq x) ->
  table_esc esc (table_to_string nq t n) = Ok t.
Proof. exact table_escaped. Qed.
Print Assumptions C109_table_escaped.

(** The readers differ on a text with a backslash between quotes: tests/data/layout1.kicad_pcb:1114.
    The one that keeps the pair writes back what it read, as tests/layout1.rs asks. *)
Definition quote_test : str := lit "(gr_text """ ++ lit "25\" ++ [34%N] ++ lit " (quote test!)"" (at 200.6 49.3) (layer Eco2.User))".
Definition quote_word : str := lit "25\" ++ [34%N] ++ lit " (quote test!)".
Definition quote_tree (w : str) : sexp := node "gr_text" [SStr w; node "at" [a_lit "200.6"; a_lit "49.3"]; kv "layer" (a_lit "Eco2.User")].
Example C109_ex_test : read_esc keep_pair quote_test = Ok (quote_tree quote_word) /\ compact quote_special (quote_tree quote_word) = quote_test /\
  read_esc drop_backslash quote_test = Ok (quote_tree (lit "25" ++ [34%N] ++ lit " (quote test!)")) /\ read_sexp quote_test = Err ESexp.
Proof. repeat (apply conj; [vm_compute; reflexivity|]). vm_compute. reflexivity. Qed.
Example C109_ex_says : says keep_pair quote_word quote_word /\ ~ says keep_pair (lit "a\") (lit "a\") /\ unescaped (lit "(a\b ""c d"")") /\ ~ unescaped quote_test.
Proof.
  assert (K : forall t x, read_esc keep_pair ([34%N] ++ t ++ [34%N]) = Ok (SStr x) <-> says keep_pair t x).
  { intros t x. rewrite C109_quoted. split; [intros (y & S & E); now injection E as ->|eauto]. }
  split; [apply K; vm_compute; reflexivity|]. split; [intros H; apply K in H; vm_compute in H; discriminate H|].
  split; [apply unescaped_iff; reflexivity|]. intros H. apply unescaped_iff in H. vm_compute in H. discriminate H.
Qed.
(** A footprint with this word as its description *)
Definition odd_module : module := mk_module (lit "R 1") (EDescr quote_word :: m_elements ex_module).
Example C109_ex_module : quote_contract quote_special /\ module_ok odd_module = true /\
  (forall x, In x (tree_strs (ser_module odd_module)) -> stands keep_pair quote_special x) /\
  module_saves ex_module = true /\ existsb (existsb (N.eqb 92)) (module_strs ex_module) = false.
Proof.
  split; [exact quote_special_ok|]. split; [vm_compute; reflexivity|].
  split; [apply standsb_all; vm_compute; reflexivity|]. split; vm_compute; reflexivity.
Qed.
