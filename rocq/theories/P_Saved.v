(** Property theorems: what saved schematics (C73) and saved symbol libraries (C74) look like. *)
From Coq Require Import String.
From Verif Require Import Base Str F64 F64Text StrFacts SchData SchPrint SymData SymPrint SymOps SavedSpec SavedFacts SavedDocs P_Schematic P_Symbol.
Open Scope string_scope. Open Scope list_scope.

(** The text of a schematic has the lines and words [schematic_form] lists, and it is the
    only text that has them. *)
Theorem C73_exact : forall s t, print_schematic s = t <-> saved_schematic s t.
Proof. exact saved_schematic_iff. Qed.
Print Assumptions C73_exact.
Definition tail_of (s : schematic) : list str := skipn 16 (sch_lines s).
Example C73_ex : str_eqb (unlines (firstn 12 (tail_of ex_sch))) (unlines
  [lit "$EndDescr"; lit "Wire Bus Line"; [9%N] ++ lit "1 2 3 4"; lit "$Comp"; lit "L R R3"; lit "U 1 1 5A1B"; lit "P 1250 -300"; lit "AR Path=x";
   lit "F 0 " ++ quoted (lit "R3") ++ lit " H 100 0   50  0000 L CNB"; lit "F 1 " ++ quoted (lit "4k7 1%") ++ lit " H 100 0   50  0000 L CNB";
   lit "F 4 " ++ quoted (lit "a b") ++ lit " H 100 0   50  0000 L CNB " ++ quoted (lit "Part No"); [9%N] ++ lit "1    1250 -300"]) = true.
Proof. vm_compute. reflexivity. Qed.
(** Wrong widths, a missing blank or a missing line are told apart. *)
Example C73_ex_not : ~ saved_schematic ex_sch (lit "EESchema Schematic File Version 2").
Proof. intros H. apply C73_exact in H. apply (f_equal (@length N)) in H. vm_compute in H. discriminate H. Qed.

(** The same for symbol libraries, if every symbol has a second field. *)
Theorem C74_exact : forall l t, print_symbol_lib l = Ok t <-> saved_library l t.
Proof. exact saved_library_iff. Qed.
Print Assumptions C74_exact.
(** Without one, saving panics. *)
Theorem C74_panic : forall l, print_symbol_lib l = Panic <-> exists y, In y l /\ (length (sy_fields y) < 2)%nat.
Proof. exact library_panic_iff. Qed.
Print Assumptions C74_panic.
Example C74_ex : exists t, saved_library [ex_power] t /\ str_eqb t (unlines
  [lit "EESchema-LIBRARY Version 2.3"; lit "#encoding utf-8"; lit "#"; lit "# GND"; lit "#"; lit "DEF GND #PWR 0 0 Y Y 1 F P";
   lit "F0 " ++ quoted (lit "#PWR") ++ lit " 100 0 50 V V L CIN"; lit "F1 " ++ quoted (lit "GND") ++ lit " 100 0 50 V V L CIN"; lit "DRAW";
   lit "X GND 1 -300 100 200 R 50 50 1 1 W N"; lit "ENDDRAW"; lit "ENDDEF"; lit "#"; lit "#End Library"]) = true.
Proof. destruct (print_symbol_lib [ex_power]) as [t|e|] eqn:E; [|vm_compute in E; discriminate..]. exists t. split; [now apply C74_exact|]. vm_compute in E. injection E as <-. vm_compute. reflexivity. Qed.
Example C74_panic_ex : print_symbol_lib [ex_power; symbol_new (lit "A") (lit "U")] = Panic.
Proof. apply C74_panic. exists (symbol_new (lit "A") (lit "U")). split; [right; left; reflexivity|vm_compute; auto]. Qed.
