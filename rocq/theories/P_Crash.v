(** Property theorems: the texts at which the readers of schematics and symbol libraries
    abort, and those they refuse (C75). *)
From Coq Require Import String.
From Verif Require Import Base Str F64 F64Text LibFns LibSpec CutSpec CutFacts SchData SchPrint SchParse SchReadSpec SchReadFacts SymData SymParse SymReadSpec SymReadFacts CrashSpec CrashFacts SymCrashFacts P_Schematic.
Open Scope string_scope. Open Scope list_scope.

(** ** C75 *)
(** [schematic_crash] and [library_crash] (CrashSpec.v) say in terms of lines and words
    where the reader stands when it aborts. *)
Theorem C75_schematic : forall fn t, parse_schematic fn t = Panic <-> exists ls, text_lines t ls /\ schematic_crash ls.
Proof. exact schematic_panic_iff. Qed.
Print Assumptions C75_schematic.
Theorem C75_symbol : forall t, parse_symbol_lib t = Panic <-> exists ls, text_lines t ls /\ library_crash ls.
Proof. exact library_crash_iff. Qed.
Print Assumptions C75_symbol.
(** A text is refused when it is neither read nor leads to an abort. *)
Theorem C75_schematic_error : forall fn t, (exists e, parse_schematic fn t = Err e) <->
  forall ls, text_lines t ls -> ~ schematic_crash ls /\ forall c, ~ schematic_text fn ls c.
Proof. exact schematic_err_iff. Qed.
Print Assumptions C75_schematic_error.
Theorem C75_symbol_error : forall t, (exists e, parse_symbol_lib t = Err e) <->
  forall ls, text_lines t ls -> ~ library_crash ls /\ forall l, ~ library_text ls l.
Proof. exact library_err_iff. Qed.
Print Assumptions C75_symbol_error.

(** A component that has begun and is not ended, after a complete one *)
Definition start : list str := [lit "EESchema Schematic File Version 2"; lit "LIBS:power"; lit "EELAYER 25 0"; lit "EELAYER END"].
Definition some_comp : list str := [lit "$Comp"; lit "L R R1"; lit "P 100 200"; lit "$EndComp"].
Example C75_ends_ex : schematic_crash (start ++ some_comp ++ [lit "$Comp"; lit "L R R2"]).
Proof. apply (crash_lines None). vm_compute. reflexivity. Qed.
Lemma is_num (s : str) : match f64_of_str s with Some _ => true | None => false end = true -> exists x, f64_of_str s = Some x.
Proof. destruct (f64_of_str s) as [x|]; [now exists x|discriminate]. Qed.
(** By hand: the word F, a field with a letter missing *)
Example C75_field_ex : section_crash ([lit "$Comp"; lit "L R R1"] ++ [lit "F 0 R1 H 1 2 60 0000 C CN"; lit "$EndComp"]).
Proof.
  apply (sc_field (lit "$Comp") [lit "L R R1"] [KName (lit "R") (lit "R1")]).
  - apply word_is_iff. reflexivity.
  - apply cp_line; [discriminate| |constructor]. apply cl_name with [lit "L"; lit "R"; lit "R1"]; [apply word_is_iff; reflexivity|apply words_bw; reflexivity|reflexivity|reflexivity].
  - apply word_is_iff. reflexivity.
  - exists [lit "F"; lit "0"; lit "R1"; lit "H"; lit "1"; lit "2"; lit "60"; lit "0000"; lit "C"; lit "CN"], 0%Z. split; [apply words_bw; reflexivity|].
    split; [eexists; split; reflexivity|]. split; [right; split; [reflexivity|exists "Reference"; now left]|]. right.
    destruct (is_num (lit "1")) as [x X]; [vm_compute; reflexivity|]. destruct (is_num (lit "2")) as [y Y]; [vm_compute; reflexivity|].
    exists Horizontal, x, y, 60%Z, true. split; [exists (lit "H"), 72%N; repeat split; now left|]. split; [exists (lit "1"); split; [reflexivity|exact X]|].
    split; [exists (lit "2"); split; [reflexivity|exact Y]|]. split; [eexists; split; reflexivity|]. split; [exists "0000"; split; [reflexivity|now left]|].
    right. exists SJCenter, (lit "CN"). split; [exists (lit "C"), 67%N; repeat split; now left|]. split; [reflexivity|].
    right. exists 67%N, SJCenter. split; [now left|]. right. exists 78%N, false. split; [right; now left|reflexivity].
Qed.
Definition lib_start : list str := [lit "EESchema-LIBRARY Version 2.3"; lit "#encoding utf-8"; lit "#"].
Example C75_symbol_ex : symbols_crash [lit "# R"; lit "#"; lit "DEF R R 0 0 N Y 1 F N"; lit "$FPLIST"; lit " R_*"].
Proof.
  apply syc_here; [|discriminate]. apply (sy_fields_crash (lit "# R") (lit "DEF R R 0 0 N Y 1 F N") [] []); [|constructor|].
  - destruct (is_num (lit "0")) as [x X]; [vm_compute; reflexivity|].
    exists [lit "DEF"; lit "R"; lit "R"; lit "0"; lit "0"; lit "N"; lit "Y"; lit "1"; lit "F"; lit "N"], x, false, true, 1%Z, false, false.
    split; [apply words_bw; reflexivity|]. split; [reflexivity|]. split; [reflexivity|]. split; [exists (lit "0"); split; [reflexivity|exact X]|].
    split; [exists "N"; split; [reflexivity|right; now left]|]. split; [exists "Y"; split; [reflexivity|now left]|]. split; [eexists; split; reflexivity|].
    split; [exists "F"; split; [reflexivity|right; now left]|]. exists "N". split; [reflexivity|right; now left].
  - apply (af_open [lit " R_*"]). intros [H|[]]. discriminate H.
Qed.
(** Refused, not aborting: an unknown orientation *)
Example C75_error_ex : exists e, parse_schematic None (unlines (start ++ [lit "$Comp"; lit "F 0 R1 Q 1 2 60 0000 C CNN"; lit "$EndComp"])) = Err e.
Proof. exists EOther. vm_compute. reflexivity. Qed.
