(** Property theorems: the characters of a saved file (C108). *)
From Coq Require Import String List NArith ZArith.
From Verif Require Import Base Str Sexp FpData FpSer LyData LySer FpLibTable Formatter FormatterSpec DocSpec DocText CharSpec CharFacts FpExamples LyExamples P_Formatter SchData SchPrint SymData SymPrint CharLineSpec CharLines P_Schematic P_Symbol.
Import ListNotations.
Open Scope string_scope. Open Scope list_scope.

Theorem C108_module : forall nq m n c, In c (module_to_string nq m n) -> of_program c \/ of_texts (module_strs m) c.
Proof. exact module_chars. Qed.
Print Assumptions C108_module.
Theorem C108_layout : forall nq l n c, In c (layout_to_string nq l n) ->
  of_program c \/ of_texts (layout_strs l ++ flat_map tree_strs (layout_other l)) c.
Proof. exact layout_chars. Qed.
Print Assumptions C108_layout.
Theorem C108_table : forall nq t n c, In c (table_to_string nq t n) -> of_program c \/ of_texts (flat_map flib_strs t) c.
Proof. exact table_chars. Qed.
Print Assumptions C108_table.
(** Texts of one byte per character give files of one byte per character. *)
Theorem C108_ascii : forall nq m n, (forall c, of_texts (module_strs m) c -> (c < 128)%N) -> Forall (fun c => (c < 128)%N) (module_to_string nq m n).
Proof. exact module_ascii. Qed.
Print Assumptions C108_ascii.
(** What the program writes of its own is of these 72 characters. *)
Theorem C108_own : forall c, of_program c <->
  In c (lit "ABCDEFGHIJKLMNOPQRSTUVWXYZabcdefghijklmnopqrstuvwxyz0123456789&*-._ ()" ++ [10; 34]%N).
Proof. exact own_list. Qed.
Print Assumptions C108_own.

(** A footprint named in Greek: the letter comes from its name, the tab is not in the file. *)
Definition greek : module := mk_module (lit "R" ++ [937]%N) (m_elements ex_module).
Example C108_ex : In 937%N (module_to_string quote_special greek 0) /\ of_texts (module_strs greek) 937%N /\ ~ of_program 937%N /\
  ~ In 9%N (module_to_string quote_special greek 0).
Proof.
  assert (K : existsb (N.eqb 937) (module_to_string quote_special greek 0) = true /\ existsb (N.eqb 9) (module_to_string quote_special greek 0) = false)
    by (split; vm_compute; reflexivity).
  destruct K as [K1 K2]. split.
  { apply existsb_exists in K1 as (c & C & E). apply N.eqb_eq in E. rewrite E. exact C. }
  split; [exact (ex_intro _ (lit "R" ++ [937]%N) (conj (or_introl eq_refl) (or_intror (or_introl eq_refl))))|]. split.
  - intros H. apply C108_own in H. assert (X : existsb (N.eqb 937) (lit "ABCDEFGHIJKLMNOPQRSTUVWXYZabcdefghijklmnopqrstuvwxyz0123456789&*-._ ()" ++ [10; 34]%N) = true)
      by (apply existsb_exists; exists 937%N; split; [exact H|reflexivity]). vm_compute in X. discriminate X.
  - intros I. assert (X : existsb (N.eqb 9) (module_to_string quote_special greek 0) = true) by (apply existsb_exists; exists 9%N; split; [exact I|reflexivity]).
    rewrite K2 in X. discriminate X.
Qed.

(** Schematics and symbol libraries *)
Theorem C108_schematic : forall s c, In c (print_schematic s) -> line_own c \/ of_texts (sch_strs s) c.
Proof. exact schematic_chars. Qed.
Print Assumptions C108_schematic.
Theorem C108_library : forall l t c, print_symbol_lib l = Ok t -> In c t -> line_own c \/ of_texts (flat_map symbol_strs l) c.
Proof. exact library_chars. Qed.
Print Assumptions C108_library.
(** What the program writes of its own is of these 72 characters. *)
Theorem C108_line_own : forall c, line_own c <->
  In c (lit "ABCDEFGHIJKLMNOPQRSTUVWXYZabcdefghijklmnopqrstuvwxyz0123456789-.:$#~ " ++ [34; 9; 10]%N).
Proof. exact line_own_list. Qed.
Print Assumptions C108_line_own.
(** The ampersand and the percent sign come from texts of the schematic, the tab from the program; there is no underscore. *)
Example C108_schematic_ex : existsb (N.eqb 38) (print_schematic ex_sch) = true /\ line_ownb 38 = false /\ existsb (N.eqb 38) (ds_comp (sc_description ex_sch)) = true /\ existsb (N.eqb 9) (print_schematic ex_sch) = true /\
  existsb (N.eqb 9) (concat (sch_strs ex_sch)) = false /\ existsb (N.eqb 95) (print_schematic ex_sch) = false.
Proof. repeat (apply conj; [vm_compute; reflexivity|]). vm_compute. reflexivity. Qed.
Example C108_library_ex : exists t, print_symbol_lib [ex_symbol; ex_power] = Ok t /\ existsb (N.eqb 36) t = false /\ existsb (N.eqb 35) t = true.
Proof. eexists. split; [vm_compute; reflexivity|]. split; vm_compute; reflexivity. Qed.
