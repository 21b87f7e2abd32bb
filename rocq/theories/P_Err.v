(** Property theorems: what the errors of the schematic and the symbol library reader
    say, and those of opening a file (C95, C96, C97). *)
From Coq Require Import String.
From Verif Require Import Base Str StrFacts Num F64 F64Text LibFns LibSpec CutSpec CutFacts SchData SchPrint SchParse SchReadSpec SymData SymParse SymReadSpec SymReadFacts
  OutSpec KicadFile SpellSpec KindSpec Said SchErr SymErr ErrErase ErrSpec ErrFacts ErrWhole FileErr FileErrSpec FileErrFacts.
Open Scope string_scope. Open Scope list_scope.

Definition text_of (l : list string) : str := concat (map (fun s => lit s ++ [10%N]) l).

(** ** C95 *)
(** The readers with and without error texts do the same. *)
Theorem C95_same : forall fn t, Said.plain (schematic_said fn t) = parse_schematic fn t.
Proof. exact plain_schematic. Qed.
Print Assumptions C95_same.
(** The error names the first demand that the text does not meet. *)
Theorem C95_message : forall fn t m, schematic_said fn t = Says m <-> exists ls, text_lines t ls /\ refused ls (Some m).
Proof. exact schematic_says. Qed.
Print Assumptions C95_message.
(** It is a panic exactly if that demand cannot be complained about. *)
Theorem C95_panic : forall fn t, schematic_said fn t = Stops <-> exists ls, text_lines t ls /\ refused ls None.
Proof. exact schematic_stops. Qed.
Print Assumptions C95_panic.
Theorem C95_read : forall fn t c, schematic_said fn t = Fine c <-> exists ls, text_lines t ls /\ schematic_text fn ls c.
Proof. exact schematic_fine. Qed.
Print Assumptions C95_read.
(** There is one complaint, and none exactly about schematics. *)
Theorem C95_one : forall ls m k, refused ls m -> refused ls k -> m = k.
Proof. exact refused_fun. Qed.
Print Assumptions C95_one.
Theorem C95_complete : forall fn ls, (exists c, schematic_text fn ls c) <-> ~ exists m, refused ls m.
Proof. exact refused_or_read. Qed.
Print Assumptions C95_complete.
Definition sch_head : list string := ["EESchema Schematic File Version 2"; "LIBS:power"; "EELAYER 25 0"; "EELAYER END"].
Definition says_sch (l : list string) : said unit := try c <- schematic_said None (text_of l); Fine tt.
Example C95_message_ex :
  says_sch [] = Says (lit "end of file reached") /\
  says_sch ["hello"] = Says (lit "expected 'EESchema Schematic File Version 2', got 'hello'") /\
  says_sch ["EESchema Schematic File Version 2"; "LIBS:a"; "EELAYERS"] = Says (lit "expecting EELAYER, got EELAYERS") /\
  says_sch (sch_head ++ ["Wire Notes Line"; " 1 2 3 x"]) = Says (lit "int parse error in x; line:  1 2 3 x") /\
  says_sch (sch_head ++ ["Text Other 1 2 0 60 ~ 0"; "t"]) = Says (lit "Unknown text type Other at Text Other 1 2 0 60 ~ 0") /\
  says_sch (sch_head ++ ["$Comp"; "L R R1"; "F 4 ""x"" H 1 2 50 0000 C CNN"]) = Says (lit "expecting name for componentfield > 3") /\
  says_sch (sch_head ++ ["$Comp"; "L R R1"; "F 4 ""x"" Q 1 2 50 0000 C CNN MPN"]) = Says (lit "unknown orientation Q") /\
  says_sch (sch_head ++ ["$Comp"; "L R R1"; "F 4 ""x"" H 1 2 50 0002 C CNN MPN"]) = Says (lit "unknown boolean 0002, expected 0000 or 0001") /\
  says_sch (sch_head ++ ["$Sheet"; "F2 ""sig"" Q L 5 6 7"]) = Says (lit "unknown labelform Q").
Proof. repeat (apply conj; [vm_compute; reflexivity|]). vm_compute. reflexivity. Qed.
Example C95_panic_ex :
  says_sch ["EESchema Schematic File Version 2"] = Stops /\ says_sch (sch_head ++ [""]) = Stops /\ says_sch (sch_head ++ ["$Comp"; "L R R1"]) = Stops /\
  says_sch (sch_head ++ ["$Comp"; "L R R1"; "F 4 ""x"" H 1 2 50 0000 C C MPN"]) = Stops /\ says_sch (sch_head ++ ["$EndSCHEMATC"]) = Fine tt.
Proof. repeat (apply conj; [vm_compute; reflexivity|]). vm_compute. reflexivity. Qed.
Example C95_complete_ex : refused (map lit (sch_head ++ ["NoConn ~ 1 2"; "NoConn ~ 1"])) (Some (lit "expecting 4 elements in NoConn ~ 1")).
Proof.
  assert (H : schematic_said None (text_of (sch_head ++ ["NoConn ~ 1 2"; "NoConn ~ 1"])) = Says (lit "expecting 4 elements in NoConn ~ 1")) by (vm_compute; reflexivity).
  apply C95_message in H. destruct H as (ls & T & R). apply lines_iff in T. assert (E : lines (text_of (sch_head ++ ["NoConn ~ 1 2"; "NoConn ~ 1"])) = map lit (sch_head ++ ["NoConn ~ 1 2"; "NoConn ~ 1"])) by (vm_compute; reflexivity).
  rewrite <- E, T. exact R.
Qed.
(** The text need not say which line it is about: two texts, wrong in different lines,
    with the same complaint. *)
Theorem C95_line_refuted : exists (a b : str) (c : list str) m, a <> b /\ refused (c ++ [a; b]) (Some m) /\ refused (c ++ [b; a]) (Some m).
Proof.
  exists (lit "F 4 ""x"" H 1 2 50 0000 C CNN"), (lit "F 5 ""y"" V 3 4 60 0000 C CNN"), (map lit (sch_head ++ ["$Comp"])), (lit "expecting name for componentfield > 3").
  assert (X : forall l, says_sch l = Says (lit "expecting name for componentfield > 3") -> lines (text_of l) = map lit l -> refused (map lit l) (Some (lit "expecting name for componentfield > 3"))).
  { intros l E L. unfold says_sch in E. destruct (schematic_said None (text_of l)) as [c|m| |] eqn:S; try discriminate E. cbn in E. injection E as ->.
    apply C95_message in S. destruct S as (ls & T & R). apply lines_iff in T. rewrite <- L, T. exact R. }
  split; [discriminate|]. split.
  - apply (X (sch_head ++ ["$Comp"; "F 4 ""x"" H 1 2 50 0000 C CNN"; "F 5 ""y"" V 3 4 60 0000 C CNN"])); vm_compute; reflexivity.
  - apply (X (sch_head ++ ["$Comp"; "F 5 ""y"" V 3 4 60 0000 C CNN"; "F 4 ""x"" H 1 2 50 0000 C CNN"])); vm_compute; reflexivity.
Qed.
Print Assumptions C95_line_refuted.

(** ** C96 *)
Theorem C96_same : forall t, Said.plain (library_said t) = parse_symbol_lib t.
Proof. exact plain_library. Qed.
Print Assumptions C96_same.
Theorem C96_message : forall t m, library_said t = Says m <-> exists ls, text_lines t ls /\ lib_refused ls (Some m).
Proof. exact library_says. Qed.
Print Assumptions C96_message.
Theorem C96_panic : forall t, library_said t = Stops <-> exists ls, text_lines t ls /\ lib_refused ls None.
Proof. exact library_stops. Qed.
Print Assumptions C96_panic.
Theorem C96_read : forall t l, library_said t = Fine l <-> exists ls, text_lines t ls /\ library_text ls l.
Proof. exact library_fine. Qed.
Print Assumptions C96_read.
Theorem C96_one : forall ls m k, lib_refused ls m -> lib_refused ls k -> m = k.
Proof. exact lib_refused_fun. Qed.
Print Assumptions C96_one.
Theorem C96_complete : forall ls, (exists l, library_text ls l) <-> ~ exists m, lib_refused ls m.
Proof. exact lib_refused_or_read. Qed.
Print Assumptions C96_complete.
Definition lib_top : list string := ["EESchema-LIBRARY Version 2.3"; "#encoding utf-8"; "#"].
Definition a_def : list string := ["# R"; "#"; "DEF R R 0 40 Y N 1 F N"].
Definition says_lib (l : list string) : said unit := try c <- library_said (text_of l); Fine tt.
Example C96_message_ex :
  says_lib ["EESchema-LIBRARY Version 2.3"; "#"] = Says (lit "expected '#encoding utf-8', got '#'") /\
  says_lib (lib_top ++ ["# R"; "#"; "DEF R R 0 40 Y N 1 F"]) = Says (lit "unexpected elements in DEF R R 0 40 Y N 1 F") /\
  says_lib (lib_top ++ ["# R"; "#"; "DEF R R 0 40 Y X 1 F N"]) = Says (lit "unknown boolean X, expected Y or N") /\
  says_lib (lib_top ++ a_def ++ ["Fx ""R"" 0 0 50 H V C CNN"]) = Says (lit "int parse error in x; line: Fx ""R"" 0 0 50 H V C CNN") /\
  says_lib (lib_top ++ a_def ++ ["F0 ""R"" 0 0 50 H V C CNN"; "DRAW"; "X a 1 0 0 10 U 50 50 1 1 Z"]) = Says (lit "unknown pin type Z") /\
  says_lib (lib_top ++ a_def ++ ["DRAW"; "X a 1 0 0 10 U 50 50 1 1 I NQ"]) = Says (lit "unknown pinshape Q") /\
  says_lib (lib_top ++ a_def ++ ["$FPLIST"; " R_*"; "$ENDFPLIST"; "ALIAS R2"; "DRAW"; "S 0 0 1 1 0 0 0 Q"]) = Says (lit "unknown fill type Q") /\
  says_lib (lib_top ++ a_def ++ ["DRAW"]) = Says (lit "end of file reached") /\
  says_lib (lib_top ++ a_def ++ ["DRAW"; "ENDDRAW"; "ENDDEF"; "DEF"]) = Says (lit "expected '#', got 'DEF'").
Proof. repeat (apply conj; [vm_compute; reflexivity|]). vm_compute. reflexivity. Qed.
Example C96_panic_ex :
  says_lib (lib_top ++ ["# R"; "#"]) = Stops /\ says_lib (lib_top ++ a_def) = Stops /\ says_lib (lib_top ++ a_def ++ ["$FPLIST"; "DRAW"]) = Stops /\
  says_lib (lib_top ++ a_def ++ [""]) = Stops /\ says_lib (lib_top ++ a_def ++ ["DRAW"; "ENDDRAW"; "ENDDEF"; "#"]) = Fine tt.
Proof. repeat (apply conj; [vm_compute; reflexivity|]). vm_compute. reflexivity. Qed.
Example C96_complete_ex : lib_refused (map lit (lib_top ++ ["# R"; "DEF"])) (Some (lit "expected '#', got 'DEF'")).
Proof. apply (lr_symbol [] [] (map lit ["# R"; "DEF"]) _ wh_none); [apply yf_mark; apply wt_other; discriminate|discriminate]. Qed.

(** ** C97 *)
(** The readers with error texts do the same as those without. *)
Theorem C97_same : forall fs n, untold (module_told fs n) = read_module fs n /\ untold (schematic_told fs n) = read_schematic fs n /\
  untold (layout_told fs n) = read_layout fs n /\ untold (symbol_lib_told fs n) = read_symbol_lib fs n /\ untold (proj_told fs n) = read_project fs n /\
  untold (table_told fs n) = read_fp_lib_table fs n.
Proof. exact (fun fs n => conj (same_module fs n) (conj (same_schematic fs n) (conj (same_layout fs n) (conj (same_library fs n) (conj (same_project fs n) (same_table fs n)))))). Qed.
Print Assumptions C97_same.
Theorem C97_file : forall fs n x m, file_told fs n x = TSays m <-> file_says fs n x m.
Proof. exact file_says_iff. Qed.
Print Assumptions C97_file.
Theorem C97_module : forall fs n m, module_told fs n = TSays m <-> open_says fs n XModule m.
Proof. exact module_says. Qed.
Print Assumptions C97_module.
Theorem C97_schematic : forall fs n m, schematic_told fs n = TSays m <-> open_says fs n XSchematic m.
Proof. exact schematic_file_says. Qed.
Print Assumptions C97_schematic.
Theorem C97_layout : forall fs n m, layout_told fs n = TSays m <-> open_says fs n XLayout m.
Proof. exact layout_says. Qed.
Print Assumptions C97_layout.
Theorem C97_library : forall fs n m, symbol_lib_told fs n = TSays m <-> open_says fs n XSymbolLib m.
Proof. exact library_file_says. Qed.
Print Assumptions C97_library.
Theorem C97_project : forall fs n m, proj_told fs n = TSays m <-> open_says fs n XProject m.
Proof. exact project_says. Qed.
Print Assumptions C97_project.
Theorem C97_table : forall fs n m, table_told fs n = TSays m <-> open_says fs n XFpLibTable m.
Proof. exact table_says. Qed.
Print Assumptions C97_table.
(** There is one text, and there is one whenever the error is this library's own (C83). *)
Theorem C97_one : forall fs n x m k, x <> XAny -> open_says fs n x m -> open_says fs n x k -> m = k.
Proof. exact open_one. Qed.
Print Assumptions C97_one.
Theorem C97_worded : forall fs n x, x <> XAny -> open_fails fs n x EOther <-> exists m, open_says fs n x m.
Proof. exact open_worded. Qed.
Print Assumptions C97_worded.
Definition disk (n : str) : option str :=
  if str_eqb n (lit "a.mod") then Some (lit "(module R (layer F.Cu))")
  else if str_eqb n (lit "b.lib") then Some (text_of (lib_top ++ ["#End Library"]))
  else if str_eqb n (lit "c.lib") then Some (text_of (lib_top ++ ["# R"; "DEF"]))
  else None.
Definition heard {A} (r : told A) : told unit := tbind r (fun _ => TFine tt).
Example C97_ex :
  heard (schematic_told disk (lit "a.mod")) = TSays (lit "unexpected module in a.mod") /\
  heard (proj_told disk (lit "b.lib")) = TSays (lit "unexpected symbollib in b.lib") /\
  heard (symbol_lib_told disk (lit "b.lib")) = TFine tt /\
  heard (symbol_lib_told disk (lit "c.lib")) = TSays (lit "expected '#', got 'DEF'") /\
  heard (schematic_told disk (lit "c.lib")) = TSays (lit "expected 'EESchema Schematic File Version 2', got 'EESchema-LIBRARY Version 2.3'") /\
  heard (proj_told disk (lit "c.lib")) = TSays (lit "not a kicad project file!") /\
  heard (module_told disk (lit "b.lib")) = TElse ESexp /\ heard (module_told disk (lit "d")) = TElse EIo.
Proof. repeat (apply conj; [vm_compute; reflexivity|]). vm_compute. reflexivity. Qed.
(** Asked for a footprint, a file of another kind is not named: the other kinds are tried later. *)
Theorem C97_named_refuted : exists fs n t f, fs n = Some t /\ file_is n t f /\ ~ is_kind f XModule /\ forall m, ~ open_says fs n XModule m.
Proof.
  exists (fun _ => Some (lit "update=")), (lit "p"), (lit "update="), (KProject (lit "update=")). split; [reflexivity|].
  split; [split; [reflexivity|]; exists []; reflexivity|]. split; [exact (fun H => H)|].
  intros m [(t & _ & _ & C)|(t & f & y & k & _ & _ & _ & L & _)]; [exact C|]. destruct (PeanoNat.Nat.nlt_0_r _ L).
Qed.
Print Assumptions C97_named_refuted.
