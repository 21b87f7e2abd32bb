(** Property theorems: which documents do not change when opened and saved (C80). *)
From Coq Require Import String Lia.
From Verif Require Import Base Str Num F64 F64Text F64Facts Sexp FpData FpSer FpDe FpWf LyData LySer LyDe LyWf FpLibTable Formatter FormatterSpec DocSpec DocText FpExamples LyExamples P_Formatter
  TextSpec StaySpec StayFacts StayFp StayLy StayText.
Open Scope string_scope. Open Scope list_scope.

(** ** C80 *)
(** The trees: [footprint], [board] and [table] (StaySpec.v) name the parts in order. *)
Theorem C80_module_tree : forall t, (exists m, de_module t = Ok m /\ ser_module m = t) <-> footprint t.
Proof. exact stays_module. Qed.
Print Assumptions C80_module_tree.
Theorem C80_layout_tree : forall t, (exists l, de_layout t = Ok l /\ ser_layout l = t) <-> board t.
Proof. exact stays_layout. Qed.
Print Assumptions C80_layout_tree.
Theorem C80_table_tree : forall t, (exists l, de_fp_lib_table t = Ok l /\ ser_fp_lib_table l = t) <-> table t.
Proof. exact stays_table. Qed.
Print Assumptions C80_table_tree.
(** The texts: those trees in the layout of C66. *)
Theorem C80_module : forall nq n s, quote_contract nq ->
  (exists m, parse_module s = Ok m /\ module_to_string nq m n = s) <-> exists t, footprint t /\ doc_ok t = true /\ s = written nq n t.
Proof. exact stays_module_text. Qed.
Print Assumptions C80_module.
Theorem C80_layout : forall nq n s, quote_contract nq ->
  (exists l, parse_layout s = Ok l /\ layout_to_string nq l n = s) <-> exists t, board t /\ doc_ok t = true /\ s = pretty nq n t ++ [10%N].
Proof. exact stays_layout_text. Qed.
Print Assumptions C80_layout.
Theorem C80_layout_written : forall nq n t, quote_contract nq -> board t -> doc_ok t = true -> regular t = true ->
  exists l, parse_layout (written nq n t ++ [10%N]) = Ok l /\ layout_to_string nq l n = written nq n t ++ [10%N].
Proof. exact stays_layout_written. Qed.
Print Assumptions C80_layout_written.
Theorem C80_table : forall nq n s, quote_contract nq ->
  (exists t, parse_table s = Ok t /\ table_to_string nq t n = s) <-> exists t, table t /\ doc_ok t = true /\ s = written nq n t.
Proof. exact stays_table_text. Qed.
Print Assumptions C80_table.

Example C80_ex_module : footprint (ser_module ex_module) /\ doc_ok (ser_module ex_module) = true /\ (1 < length (m_elements ex_module))%nat.
Proof.
  split; [apply i_footprint; exists ex_module; split; [reflexivity|vm_compute; reflexivity]|]. split; [vm_compute; reflexivity|]. vm_compute. lia.
Qed.
Example C80_ex_layout : board (ser_layout ex_layout) /\ doc_ok (ser_layout ex_layout) = true.
Proof. split; [apply i_board; exists ex_layout; split; [reflexivity|vm_compute; reflexivity]|vm_compute; reflexivity]. Qed.
Example C80_ex_table : table (ser_fp_lib_table [mk_flib (lit "A") (lit "KiCad") (lit "u") [] (lit "d")]).
Proof. apply i_table. eexists. split; reflexivity. Qed.
(** Not kept: time stamps with a leading zero or small letters, whole numbers with a plus sign. *)
Lemma not_stamp h : (exists r, h = 48%N :: 49%N :: r) -> ~ stamp (SStr h).
Proof. intros (r & ->) (g & [= <-] & (c & r' & [= <- <-] & Z) & _). discriminate (Z eq_refl). Qed.
Example C80_ex_stamp : stamp (SStr (lit "5A3B")) /\ ~ stamp (SStr (lit "01A")) /\ ~ stamp (SStr (lit "5a3b")).
Proof.
  split; [|split].
  - exists (lit "5A3B"). split; [reflexivity|]. split; [exists 53%N, (lit "A3B"); split; [reflexivity|discriminate]|].
    split; [|reflexivity]. vm_compute. repeat (apply Forall_cons; [(left; split; discriminate) || (right; split; discriminate)|]). apply Forall_nil.
  - apply not_stamp. now exists (lit "A").
  - intros (h & E & _ & F & _). injection E as <-. apply Forall_inv_tail, Forall_inv in F. vm_compute in F. destruct F as [[_ F]|[_ F]]; now apply F.
Qed.
Example C80_ex_int : whole (SStr (lit "-12")) /\ ~ whole (SStr (lit "+12")).
Proof.
  split.
  - exists (lit "12"), (-12)%Z. split; [repeat constructor; vm_compute; discriminate|]. split; [exists 49%N, (lit "2"); split; [reflexivity|discriminate]|].
    split; [split; reflexivity || discriminate|]. split; [exact I|]. right. split; [reflexivity|]. split; reflexivity.
  - intros (ds & z & D & _ & _ & _ & [(_ & E & _)|(_ & E & _)]).
    + injection E as <-. apply Forall_inv in D. destruct D as [D _]. now apply D.
    + discriminate E.
Qed.
