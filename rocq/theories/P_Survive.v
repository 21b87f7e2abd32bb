(** Property theorems: exactly which schematics and symbol libraries survive saving, and which of
    their texts stay as they are (C82). *)
From Coq Require Import String.
From Verif Require Import Base Str StrFacts Num F64 SchData SchPrint SchParse SchWf SymData SymPrint SymParse SymWf SavedSpec SavedFacts SavedDocs SchExact SymExact P_Schematic P_Symbol.
Open Scope string_scope. Open Scope list_scope.

(** ** C82 *)
(** The schematics [sch_ok] lists are all those that are read back as they were written.  The bound
    keeps the numbers of sheet labels in an i32. *)
Theorem C82_schematic : forall s, (Z.of_nat (length (print_schematic s)) < 2 ^ 31)%Z ->
  parse_schematic (sc_filename s) (print_schematic s) = Ok s <-> sch_ok s = true.
Proof. exact survive_small. Qed.
Print Assumptions C82_schematic.
(** Of a schematic that was read before, [sch_clean] is all that has to be asked. *)
Theorem C82_schematic_read : forall fn t s, parse_schematic fn t = Ok s -> (Z.of_nat (length (print_schematic s)) < 2 ^ 31)%Z ->
  parse_schematic fn (print_schematic s) = Ok s <-> sch_clean s = true.
Proof. exact survive_read. Qed.
Print Assumptions C82_schematic_read.
Theorem C82_library : forall l, (exists t, print_symbol_lib l = Ok t /\ parse_symbol_lib t = Ok l) <-> symbol_lib_ok l = true.
Proof. exact survive_library. Qed.
Print Assumptions C82_library.
(** The texts that stay as they are when opened and saved: [saved_schematic] and [saved_library]
    (SavedSpec.v) list their lines and words. *)
Theorem C82_schematic_text : forall fn t, (Z.of_nat (length t) < 2 ^ 31)%Z ->
  ((exists s, parse_schematic fn t = Ok s /\ print_schematic s = t) <-> exists s, sch_ok s = true /\ sc_filename s = fn /\ saved_schematic s t).
Proof. exact same_schematic_text. Qed.
Print Assumptions C82_schematic_text.
Theorem C82_library_text : forall t, (exists l, parse_symbol_lib t = Ok l /\ print_symbol_lib l = Ok t) <-> exists l, symbol_lib_ok l = true /\ saved_library l t.
Proof. exact same_library_text. Qed.
Print Assumptions C82_library_text.

Example C82_ex : parse_schematic (sc_filename ex_sch) (print_schematic ex_sch) = Ok ex_sch.
Proof. apply C82_schematic; vm_compute; reflexivity. Qed.
(** A carriage return at the end of a library name, a text or a reference is lost; one inside is not. *)
Definition cr_text (s : str) : schematic := wit_sch [SText (mk_stext TNote 1 2 0 60 None false 12 s)] [].
Example C82_ex_cr : parse_schematic None (print_schematic (cr_text (lit "a" ++ [13%N]))) <> Ok (cr_text (lit "a" ++ [13%N])).
Proof. intros H. apply C82_schematic in H; [discriminate H|vm_compute; reflexivity]. Qed.
Example C82_ex_inside : parse_schematic None (print_schematic (cr_text (13%N :: lit "a"))) = Ok (cr_text (13%N :: lit "a")).
Proof. apply (C82_schematic (cr_text (13%N :: lit "a"))); vm_compute; reflexivity. Qed.
(** Two words as a reference do not survive. *)
Definition two_words : schematic := wit_sch [SComponent (mk_comp (lit "R") (lit "R 3") [] 0 0 [] [] (mk_rotation 1 0 0 1))] [].
Example C82_ex_words : parse_schematic None (print_schematic two_words) <> Ok two_words.
Proof. intros H. apply C82_schematic in H; [discriminate H|vm_compute; reflexivity]. Qed.
Example C82_ex_lib : exists t, print_symbol_lib [ex_symbol; ex_power] = Ok t /\ parse_symbol_lib t = Ok [ex_symbol; ex_power].
Proof. apply C82_library. vm_compute. reflexivity. Qed.
(** Bold fields are not read back. *)
Example C82_ex_lib_not : ~ exists t, print_symbol_lib [one_symbol bold_field []] = Ok t /\ parse_symbol_lib t = Ok [one_symbol bold_field []].
Proof. intros H. apply C82_library in H. vm_compute in H. discriminate H. Qed.
(** A drawing line that reads ENDDRAW before its carriage return ends the drawing early. *)
Definition cut_drawing : symbol := mk_symbol (lit "A") (lit "U") fzero true true 1 false false (sy_fields ex_power) [] [DOther (lit "ENDDRAW" ++ [13%N])].
Example C82_ex_draw : ~ exists t, print_symbol_lib [cut_drawing] = Ok t /\ parse_symbol_lib t = Ok [cut_drawing].
Proof. intros H. apply C82_library in H. vm_compute in H. discriminate H. Qed.
Example C82_ex_text : exists s, sch_ok s = true /\ sc_filename s = None /\ saved_schematic s (print_schematic (cr_text (lit "a b"))).
Proof. exists (cr_text (lit "a b")). split; [vm_compute; reflexivity|]. split; [reflexivity|]. now apply saved_schematic_iff. Qed.
