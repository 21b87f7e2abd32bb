(** Property theorems: which lines of a schematic the reader reports while it reads (C92). *)
From Coq Require Import String.
From Verif Require Import Base Str StrFacts F64 F64Text Num LibFns DocText CutSpec SchData SchPrint SchParse SchWf SchReadSpec KicadFile KfSpec Bins BinSpec BinFacts
  SchOut OutSpec OutFacts OutSaved OutRun P_Bins P_Schematic.
Open Scope string_scope. Open Scope list_scope.

(** A text that reads: every line between the ends of a component or a sheet that begins
    with none of its words is reported, in order, and nothing else is. *)
Theorem C92_whole fn s n : ((exists c, parse_schematic fn s = Ok c) /\ schematic_out fn s = n) <->
  exists ls body, text_lines s ls /\ headed ls body /\ secs_told body n.
Proof. exact (out_whole fn s n). Qed.
Print Assumptions C92_whole.
(** A text that does not read: the reports are those of a beginning that reads, and those
    of every other such beginning come first among them. *)
Theorem C92_stopped fn s ls body : text_lines s ls -> headed ls body ->
  (exists l r, body = l ++ r /\ goes l (schematic_out fn s)) /\
  (forall l r n, body = l ++ r -> goes l n -> exists m, schematic_out fn s = n ++ m).
Proof. exact (out_greatest fn s ls body). Qed.
Print Assumptions C92_stopped.
Theorem C92_bare fn s ls : text_lines s ls -> (forall body, ~ headed ls body) -> schematic_out fn s = [].
Proof. exact (out_none fn s ls). Qed.
Print Assumptions C92_bare.
Definition ls_out : list str := map lit
  ["EESchema Schematic File Version 2"; "EELAYER 25 0"; "EELAYER END"; "$Descr A4 100 200"; "encoding utf-8"; "Sheet 1 2"; "Title """""; "Date """"";
   "Rev """""; "Comp """""; "Comment1 """""; "Comment2 """""; "Comment3 """""; "Comment4 """""; "$EndDescr";
   "$Comp"; "L R R1"; "Q 1"; "U 1 1 5"; "P 1 2"; ""; "$EndComp"; "$Sheet"; "S 1 2 3 4"; "X"; "$EndSheet"; "$EndSCHEMATC"].
Definition said_out : list str := [lit "skipping unknown component line Q 1"; lit "skipping unknown component line "; lit "skipping unknown sheet line X"].
Example C92_ex : schematic_out None (unlines ls_out) = said_out /\ is_ok (parse_schematic None (unlines ls_out)) = true
  /\ schematic_out None (unlines (firstn 20 ls_out)) = [lit "skipping unknown component line Q 1"] /\ is_ok (parse_schematic None (unlines (firstn 20 ls_out))) = false
  /\ schematic_out None (unlines (skipn 1 ls_out)) = [].
Proof. split; [|split; [|split; [|split]]]; vm_compute; reflexivity. Qed.

(** Reading what was saved reports one empty line per component without unit line,
    nothing else. *)
Theorem C92_saved s : sch_ok s = true -> schematic_out (sc_filename s) (print_schematic s) =
  flat_map (fun e => match e with SComponent c => if is_empty (co_u c) then [lit "skipping unknown component line "] else [] | _ => [] end) (sc_elements s).
Proof. exact (out_saved s). Qed.
Print Assumptions C92_saved.
Example C92_ex_saved : sch_ok ex_sch = true /\ schematic_out (sc_filename ex_sch) (print_schematic ex_sch) = [].
Proof. split; vm_compute; reflexivity. Qed.
Theorem C92_saved_quiet_refuted : exists s, sch_ok s = true /\ schematic_out (sc_filename s) (print_schematic s) <> [].
Proof.
  exists (mk_sch None [] (sc_description ex_sch) [SComponent (mk_comp (co_name ex_comp) (co_reference ex_comp) [] 1 2 [] (co_fields ex_comp) (co_rotation ex_comp))] [] (lit "EELAYER 25 0")).
  split; [vm_compute; reflexivity|]. vm_compute. discriminate.
Qed.
Print Assumptions C92_saved_quiet_refuted.

(** Lines are also lost without a report: the reader takes both texts for the same. *)
Theorem C92_silent_refuted : exists a b l, parse_schematic None (unlines (a ++ b)) = parse_schematic None (unlines (a ++ l :: b)) /\
  is_ok (parse_schematic None (unlines (a ++ b))) = true /\ schematic_out None (unlines (a ++ b)) = schematic_out None (unlines (a ++ l :: b)).
Proof. exists (firstn 16 ls_out), (skipn 16 ls_out), (lit "L C C7"). split; [|split]; vm_compute; reflexivity. Qed.
Print Assumptions C92_silent_refuted.

(** ** The programs *)
(** A file of another kind is read without a report, whatever is asked for; so is every
    file that is asked for as a footprint. *)
Theorem C92_kinds n d f x : accepted n d f -> kind f <> XSchematic -> read_out n d x = [].
Proof. exact (other_quiet n d f x). Qed.
Print Assumptions C92_kinds.
Theorem C92_module n d : read_out n d XModule = [].
Proof. exact (module_quiet n d). Qed.
Print Assumptions C92_module.
(** All that identify prints for a schematic *)
Theorem C92_identify fs p n rest d ls body m : fs n = Some d -> text_lines d ls -> headed ls body -> secs_told body m ->
  stdout fs (p :: n :: rest) XAny (identify fs (p :: n :: rest)) = unlines m ++ lit "found: schematic" ++ nl.
Proof. exact (identify_all fs p n rest d ls body m). Qed.
Print Assumptions C92_identify.
(** All that it prints for any other file *)
Theorem C92_identify_other fs p n rest d f : fs n = Some d -> accepted n d f -> kind f <> XSchematic ->
  stdout fs (p :: n :: rest) XAny (identify fs (p :: n :: rest)) = lit "found: " ++ word (kind f) ++ nl.
Proof. exact (identify_other fs p n rest d f). Qed.
Print Assumptions C92_identify_other.
(** dump_layout and adjust_layout print nothing but the layout, dump_footprint nothing but
    the footprint: reading adds nothing. *)
Theorem C92_dump nq fs args r :
  (dump_layout nq fs args = Ok r -> stdout fs args XLayout (dump_layout nq fs args) = r_out r) /\
  (adjust_program nq fs args = Ok r -> stdout fs args XLayout (adjust_program nq fs args) = r_out r) /\
  (klc_symbol_lib fs args = Ok r -> stdout fs args XSymbolLib (klc_symbol_lib fs args) = []) /\
  stdout fs args XModule (dump_footprint nq fs args) = out (dump_footprint nq fs args) /\
  stdout fs args XModule (klc_kicad_mod fs args) = [].
Proof. exact (dump_all nq fs args r). Qed.
Print Assumptions C92_dump.
(** A program that wanted a layout and was given a schematic prints the reports of the
    schematic before it aborts. *)
Theorem C92_aborted_refuted : exists fs args, dump_layout (fun _ => true) fs args = Panic /\ stdout fs args XLayout (dump_layout (fun _ => true) fs args) <> [].
Proof. exists (one_file (lit "f") (unlines ls_out)), [lit "x"; lit "f"]. split; [vm_compute; reflexivity|]. vm_compute. discriminate. Qed.
Print Assumptions C92_aborted_refuted.
Example C92_ex_run :
  stdout (one_file (lit "f") (unlines ls_out)) [lit "x"; lit "f"] XAny (identify (one_file (lit "f") (unlines ls_out)) [lit "x"; lit "f"]) =
    unlines said_out ++ lit "found: schematic" ++ nl /\
  stdout (one_file (lit "f") (lit "update=1")) [lit "x"; lit "f"] XAny (identify (one_file (lit "f") (lit "update=1")) [lit "x"; lit "f"]) =
    lit "found: project" ++ nl.
Proof. split; vm_compute; reflexivity. Qed.
