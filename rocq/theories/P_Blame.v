(** Property theorems: which line of a schematic or of a symbol library an error is
    about (C105). *)
From Coq Require Import String.
From Verif Require Import Base Str StrFacts LibFns LibSpec CutSpec CutFacts SchData SchParse SchReadSpec SymData SymParse SymReadSpec
  OutSpec Said SchErr SymErr ErrErase ErrSpec ErrFacts ErrSch ErrWhole JoinSpec BlameSpec BlameFacts BlameLib P_Err P_Join.
Open Scope string_scope. Open Scope list_scope.

(** ** Schematics *)
(** Lines can be the beginning of a schematic, or the same complaint is made whatever
    follows them; not both. *)
Theorem C105_choice : forall ls, (may_go_on ls \/ exists o, lost ls o) /\ forall o, ~ (may_go_on ls /\ lost ls o).
Proof. exact choice. Qed.
Print Assumptions C105_choice.
(** All complaints but one are of this kind. *)
Theorem C105_lost : forall ls m, lost ls (Some m) <-> refused ls (Some m) /\ m <> too_short.
Proof. exact lost_iff. Qed.
Print Assumptions C105_lost.
(** The complaint is about the first line with which the text cannot be mended by what
    follows. *)
Theorem C105_line : forall fn t ls m, text_lines t ls -> schematic_said fn t = Says m -> m <> too_short ->
  exists p s r, ls = p ++ s :: r /\ may_go_on p /\ forall t' q, text_lines t' (p ++ s :: q) -> schematic_said fn t' = Says m.
Proof. exact says_line. Qed.
Print Assumptions C105_line.
Theorem C105_one : forall p s r p' s' r' o o', p ++ s :: r = p' ++ s' :: r' -> may_go_on p -> lost (p ++ [s]) o -> may_go_on p' -> lost (p' ++ [s']) o' -> p = p' /\ s = s' /\ o = o'.
Proof. exact line_one. Qed.
Print Assumptions C105_one.
(** The other one is about texts that are too short and nothing else. *)
Theorem C105_short : forall fn t ls, text_lines t ls -> schematic_said fn t = Says too_short -> may_go_on ls.
Proof. exact says_short. Qed.
Print Assumptions C105_short.
(** A panic is about one or the other. *)
Theorem C105_panic : forall fn t ls, text_lines t ls -> schematic_said fn t = Stops ->
  may_go_on ls \/ exists p s r, ls = p ++ s :: r /\ may_go_on p /\ forall t' q, text_lines t' (p ++ s :: q) -> schematic_said fn t' = Stops.
Proof. exact stops_line. Qed.
Print Assumptions C105_panic.
(** Sections that can be read change nothing in the error about what follows them. *)
Theorem C105_rest : forall fn libs e a b t t1 t2 s1, starts_with (lit "EELAYER ") e = true ->
  text_lines t (sch_heading libs e ++ a ++ b) -> text_lines t1 (sch_heading libs e ++ a) -> text_lines t2 (sch_heading libs e ++ b) -> schematic_said fn t1 = Fine s1 ->
  (forall m, schematic_said fn t = Says m <-> schematic_said fn t2 = Says m) /\ (schematic_said fn t = Stops <-> schematic_said fn t2 = Stops).
Proof. exact sch_rest. Qed.
Print Assumptions C105_rest.

(** A schematic with a wire that has a wrong number in it *)
Definition wire_lines_bad : list string := sch_head ++ ["NoConn ~ 1 2"; "Wire Wire Line"; " 1 2 3 x"].
Definition wire_bad : str := lit "int parse error in x; line:  1 2 3 x".
Lemma refused_by l m : says_sch l = Says m -> lines (text_of l) = map lit l -> refused (map lit l) (Some m).
Proof.
  intros E L. unfold says_sch in E. destruct (schematic_said None (text_of l)) as [c|k| |] eqn:Q; try discriminate E. cbn in E. injection E as ->.
  apply C95_message in Q. destruct Q as (ls & T & R). apply lines_iff in T. rewrite <- L, T. exact R.
Qed.
Lemma goes_by l r : (match says_sch (l ++ r) with Fine _ => true | _ => false end) = true -> lines (text_of (l ++ r)) = map lit (l ++ r) -> may_go_on (map lit l).
Proof.
  intros E L. unfold says_sch in E. destruct (schematic_said None (text_of (l ++ r))) as [c|k| |] eqn:Q; try discriminate E.
  apply C95_read in Q. destruct Q as (ls & T & R). apply lines_iff in T. exists (map lit r), None, c. rewrite <- map_app, <- L, T. exact R.
Qed.
Example C105_line_ex : lost (map lit wire_lines_bad) (Some wire_bad) /\ may_go_on (map lit (sch_head ++ ["NoConn ~ 1 2"; "Wire Wire Line"])) /\
  says_sch (wire_lines_bad ++ [""; "$Comp"; "rubbish"]) = Says wire_bad /\ says_sch (sch_head ++ ["NoConn ~ 1 2"; "Wire Wire Line"]) = Stops.
Proof.
  apply conj. { apply C105_lost. split; [apply refused_by; vm_compute; reflexivity|discriminate]. }
  apply conj. { apply (goes_by (sch_head ++ ["NoConn ~ 1 2"; "Wire Wire Line"]) [" 1 2 3 4"]); vm_compute; reflexivity. }
  apply conj; [vm_compute; reflexivity|]. vm_compute. reflexivity.
Qed.
Example C105_short_ex : says_sch ["EESchema Schematic File Version 2"; "LIBS:a"; "EELAYER 25 0"] = Says too_short /\
  may_go_on (map lit ["EESchema Schematic File Version 2"; "LIBS:a"; "EELAYER 25 0"]) /\ ~ may_go_on (map lit wire_lines_bad).
Proof.
  apply conj; [vm_compute; reflexivity|]. apply conj.
  - apply (goes_by ["EESchema Schematic File Version 2"; "LIBS:a"; "EELAYER 25 0"] ["EELAYER END"]); vm_compute; reflexivity.
  - intros G. exact (proj2 (C105_choice _) _ (conj G (proj1 C105_line_ex))).
Qed.
(** A panic of each kind *)
Example C105_panic_ex : says_sch (sch_head ++ ["$Comp"; "L R R1"]) = Stops /\ says_sch (sch_head ++ ["$Comp"; "L R R1"; "$EndComp"]) = Fine tt /\
  says_sch (sch_head ++ [""]) = Stops /\ says_sch (sch_head ++ [""; "$Descr"]) = Stops.
Proof. repeat (apply conj; [vm_compute; reflexivity|]). vm_compute. reflexivity. Qed.
Example C105_rest_ex : text_lines (text_of (sch_head ++ ["NoConn ~ 1 2"])) (sch_heading [lit "power"] (lit "EELAYER 25 0") ++ [lit "NoConn ~ 1 2"]) /\
  says_sch (sch_head ++ ["NoConn ~ 1 2"]) = Fine tt /\ says_sch wire_lines_bad = Says wire_bad /\ says_sch (sch_head ++ ["Wire Wire Line"; " 1 2 3 x"]) = Says wire_bad.
Proof. apply conj; [apply lines_iff; vm_compute; reflexivity|]. repeat (apply conj; [vm_compute; reflexivity|]). vm_compute. reflexivity. Qed.

(** ** Symbol libraries *)
Theorem C105_lib_choice : forall ls, (lib_may_go_on ls \/ exists o, lib_lost ls o) /\ forall o, ~ (lib_may_go_on ls /\ lib_lost ls o).
Proof. exact lib_choice. Qed.
Print Assumptions C105_lib_choice.
Theorem C105_lib_lost : forall ls m, lib_lost ls (Some m) <-> lib_refused ls (Some m) /\ m <> too_short.
Proof. exact lib_lost_iff. Qed.
Print Assumptions C105_lib_lost.
Theorem C105_lib_line : forall t ls m, text_lines t ls -> library_said t = Says m -> m <> too_short ->
  exists p s r, ls = p ++ s :: r /\ lib_may_go_on p /\ forall t' q, text_lines t' (p ++ s :: q) -> library_said t' = Says m.
Proof. exact lib_says_line. Qed.
Print Assumptions C105_lib_line.
Theorem C105_lib_one : forall p s r p' s' r' o o', p ++ s :: r = p' ++ s' :: r' -> lib_may_go_on p -> lib_lost (p ++ [s]) o -> lib_may_go_on p' -> lib_lost (p' ++ [s']) o' -> p = p' /\ s = s' /\ o = o'.
Proof. exact lib_line_one. Qed.
Print Assumptions C105_lib_one.
Theorem C105_lib_short : forall t ls, text_lines t ls -> library_said t = Says too_short -> lib_may_go_on ls.
Proof. exact lib_says_short. Qed.
Print Assumptions C105_lib_short.
Theorem C105_lib_panic : forall t ls, text_lines t ls -> library_said t = Stops ->
  lib_may_go_on ls \/ exists p s r, ls = p ++ s :: r /\ lib_may_go_on p /\ forall t' q, text_lines t' (p ++ s :: q) -> library_said t' = Stops.
Proof. exact lib_stops_line. Qed.
Print Assumptions C105_lib_panic.
Theorem C105_lib_rest : forall a b t t1 t2 xs, text_lines t (lib_heading ++ a ++ b) -> text_lines t1 (lib_heading ++ a) -> text_lines t2 (lib_heading ++ b) ->
  ~ In (lit "#End Library") a -> library_said t1 = Fine xs ->
  (forall m, library_said t = Says m <-> library_said t2 = Says m) /\ (library_said t = Stops <-> library_said t2 = Stops).
Proof. exact lib_rest. Qed.
Print Assumptions C105_lib_rest.
Definition pin_bad : str := lit "unknown pin type Z".
Example C105_lib_line_ex :
  says_lib (lib_top ++ a_def ++ ["DRAW"; "X a 1 0 0 10 U 50 50 1 1 Z"]) = Says pin_bad /\ says_lib (lib_top ++ a_def ++ ["DRAW"; "X a 1 0 0 10 U 50 50 1 1 Z"; ""; "rubbish"]) = Says pin_bad /\
  says_lib (lib_top ++ a_def ++ ["DRAW"]) = Says too_short /\ says_lib (lib_top ++ a_def ++ ["DRAW"; "ENDDRAW"; "ENDDEF"; "#"]) = Fine tt.
Proof. repeat (apply conj; [vm_compute; reflexivity|]). vm_compute. reflexivity. Qed.
Example C105_lib_panic_ex : says_lib (lib_top ++ a_def) = Stops /\ says_lib (lib_top ++ a_def ++ ["DRAW"; "ENDDRAW"; "ENDDEF"; "#"]) = Fine tt /\
  says_lib (lib_top ++ a_def ++ [""]) = Stops /\ says_lib (lib_top ++ a_def ++ [""; "DRAW"; "ENDDRAW"; "ENDDEF"; "#"]) = Stops.
Proof. repeat (apply conj; [vm_compute; reflexivity|]). vm_compute. reflexivity. Qed.
Example C105_lib_rest_ex : says_lib (lib_top ++ ex_sym) = Fine tt /\ ~ In "#End Library" ex_sym /\
  says_lib (lib_top ++ ex_sym ++ a_def ++ ["DRAW"; "X a 1 0 0 10 U 50 50 1 1 Z"]) = Says pin_bad /\ says_lib (lib_top ++ a_def ++ ["DRAW"; "X a 1 0 0 10 U 50 50 1 1 Z"]) = Says pin_bad.
Proof. apply conj; [vm_compute; reflexivity|]. apply conj; [intros I; cbn in I; repeat destruct I as [I|I]; try discriminate I; exact I|]. apply conj; [vm_compute; reflexivity|]. vm_compute. reflexivity. Qed.
(** Without it, what follows a closing line is not complained about. *)
Lemma rest_witness : exists a b t t1 t2 xs ys m, text_lines t (lib_heading ++ a ++ b) /\ text_lines t1 (lib_heading ++ a) /\ text_lines t2 (lib_heading ++ b) /\
  library_said t1 = Fine xs /\ library_said t = Fine ys /\ library_said t2 = Says m.
Proof.
  set (x := ["#End Library"]). set (y := ["# R"; "DEF"]).
  assert (F : forall l, match says_lib l with Fine _ => true | _ => false end = true -> exists v, library_said (text_of l) = Fine v).
  { intros l E. unfold says_lib in E. destruct (library_said (text_of l)) as [v|k| |]; try discriminate E. now exists v. }
  destruct (F (lib_top ++ x) ltac:(vm_compute; reflexivity)) as [xs X]. destruct (F (lib_top ++ x ++ y) ltac:(vm_compute; reflexivity)) as [ys Y].
  exists (map lit x), (map lit y), (text_of (lib_top ++ x ++ y)), (text_of (lib_top ++ x)), (text_of (lib_top ++ y)), xs, ys, (lit "expected '#', got 'DEF'").
  repeat (apply conj; [apply lines_iff; vm_compute; reflexivity|]). apply conj; [exact X|]. apply conj; [exact Y|]. vm_compute. reflexivity.
Qed.
Theorem C105_closed_refuted : exists a b t t1 t2 xs ys m, text_lines t (lib_heading ++ a ++ b) /\ text_lines t1 (lib_heading ++ a) /\ text_lines t2 (lib_heading ++ b) /\
  library_said t1 = Fine xs /\ library_said t = Fine ys /\ library_said t2 = Says m.
Proof. exact rest_witness. Qed.
Print Assumptions C105_closed_refuted.
