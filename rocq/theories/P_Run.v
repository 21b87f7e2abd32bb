(** Property theorems: all that the programs do (C94). *)
From Coq Require Import String.
From Verif Require Import Base Str StrFacts Num F64 F64Text FpData FpSer LyData LySer SymData SymPrint SchPrint KicadFile CheckFix FpCheck RuleSpec TextSpec TextDocs SpellSpec SpellKind
  Formatter DocText Bins SchOut OutSpec RunSpec RunFacts FpExamples P_Symbol P_Bins P_Out.
Open Scope string_scope. Open Scope list_scope.

(** The rule checkers: the log is that of the rule table, applied to what the text means.
    They abort exactly if no such file is named. *)
Theorem C94_klc_kicad_mod fs args r : klc_kicad_mod fs args = Ok r <->
  exists n t m l, names fs args n t /\ file_is n t (KModule m) /\ reported (footprint_rules klc m) l /\ r = mk_ran [] (listed "Module " (m_name m) l).
Proof. exact (klc_mod_ok fs args r). Qed.
Print Assumptions C94_klc_kicad_mod.
Theorem C94_klc_symbol_lib fs args r : klc_symbol_lib fs args = Ok r <->
  exists n t l ls, names fs args n t /\ file_is n t (KSymbolLib l) /\ Forall2 symbol_findings l ls /\
    r = mk_ran [] (concat (map (fun p => listed "Symbol " (sy_name (fst p)) (snd p)) (combine l ls))).
Proof. exact (klc_sym_ok fs args r). Qed.
Print Assumptions C94_klc_symbol_lib.
Theorem C94_klc_aborts fs args :
  (klc_kicad_mod fs args = Panic <-> forall n t m, names fs args n t -> ~ file_is n t (KModule m)) /\
  (klc_symbol_lib fs args = Panic <-> forall n t l, names fs args n t -> ~ file_is n t (KSymbolLib l)).
Proof. exact (conj (klc_mod_panic fs args) (klc_sym_panic fs args)). Qed.
Print Assumptions C94_klc_aborts.
(** A symbol has one list of findings. *)
Theorem C94_one_list s l l' : symbol_findings s l -> symbol_findings s l' -> l = l'.
Proof. exact (findings_fun s l l'). Qed.
Print Assumptions C94_one_list.
Definition text_r : str := match print_symbol_lib [ex_symbol; ex_power] with Ok t => t | _ => [] end.
Example C94_ex_klc : log (klc_symbol_lib (one_file (lit "f") text_r) [lit "x"; lit "f"]) =
  [(false, lit "Symbol ~LM358"); (true, lit "  4.7 ~CS:A1:Pin should be visible");
   (false, lit "Symbol GND"); (true, lit "  4.9 GND:value field should be invisible for power")].
Proof. vm_compute. reflexivity. Qed.

(** The dumps: the text of C66 for what the file means.  For boards: unless one holds
    something named like a footprint, track or board in an unusual place. *)
Theorem C94_dump_footprint nq fs args r : dump_footprint nq fs args = Ok r <->
  exists n t m, names fs args n t /\ file_is n t (KModule m) /\ r = mk_ran (m_name m ++ [10%N] ++ written nq 0 (ser_module m) ++ [10%N]) [].
Proof. exact (dump_fp_ok nq fs args r). Qed.
Print Assumptions C94_dump_footprint.
Theorem C94_dump_layout nq fs args r : (forall n t l, names fs args n t -> file_is n t (KLayout l) -> usual_layout l = true) -> dump_layout nq fs args = Ok r <->
  exists n t l, names fs args n t /\ file_is n t (KLayout l) /\ r = mk_ran (written nq 0 (ser_layout l) ++ [10%N; 10%N]) [(false, n)].
Proof. exact (dump_ly_ok nq fs args r). Qed.
Print Assumptions C94_dump_layout.
Theorem C94_adjust_layout nq fs args r : (forall n t l, names fs args n t -> file_is n t (KLayout l) -> usual_layout l = true) -> adjust_program nq fs args = Ok r <->
  exists n t l l', names fs args n t /\ file_is n t (KLayout l) /\ moved (flit "100") (flit "0") l l' /\ r = mk_ran (written nq 0 (ser_layout l') ++ [10%N; 10%N]) [(false, n)].
Proof. exact (adjust_ok nq fs args r). Qed.
Print Assumptions C94_adjust_layout.
Theorem C94_moved_one x y l k k' : moved x y l k -> moved x y l k' -> k = k'.
Proof. exact (moved_fun x y l k k'). Qed.
Print Assumptions C94_moved_one.
Theorem C94_dump_aborts nq fs args :
  (dump_footprint nq fs args = Panic <-> forall n t m, names fs args n t -> ~ file_is n t (KModule m)) /\
  (dump_layout nq fs args = Panic <-> forall n t l, names fs args n t -> ~ file_is n t (KLayout l)) /\
  (adjust_program nq fs args = Panic <-> forall n t l, names fs args n t -> ~ file_is n t (KLayout l)).
Proof. exact (conj (dump_fp_panic nq fs args) (conj (dump_ly_panic nq fs args) (adjust_panic nq fs args))). Qed.
Print Assumptions C94_dump_aborts.

(** identify: the kind of the file, or unknown if it is of none; it aborts if no file is
    named or the text is one of those that stop a reader (C75). *)
Theorem C94_identify fs args r : identify fs args = Ok r <->
  exists n t f, names fs args n t /\ (file_is n t f \/ (f = KUnknown n /\ ~ file_crash t XAny /\ forall g, ~ file_is n t g)) /\
    r = mk_ran (lit "found: " ++ kind_word f ++ [10%N]) [].
Proof. exact (identify_ok fs args r). Qed.
Print Assumptions C94_identify.
Theorem C94_identify_aborts fs args : identify fs args = Panic <-> (forall n t, ~ names fs args n t) \/ exists n t, names fs args n t /\ file_crash t XAny.
Proof. exact (identify_panic fs args). Qed.
Print Assumptions C94_identify_aborts.
(** Whatever the outcome, standard output begins with the reports about the text as a
    schematic (C92), unless a footprint is asked for; there is one such list per text. *)
Theorem C94_reports fs args n t x m (r : res ran) : names fs args n t -> x <> XModule -> reports_of t m -> stdout fs args x r = unlines m ++ out r.
Proof. exact (stdout_reports fs args n t x m r). Qed.
Print Assumptions C94_reports.
Theorem C94_reports_one t : exists m, reports_of t m /\ forall k, reports_of t k -> k = m.
Proof. exact (reports_one t). Qed.
Print Assumptions C94_reports_one.
Example C94_ex : names (one_file (lit "f") (unlines ls_out)) [lit "x"; lit "f"] (lit "f") (unlines ls_out) /\ reports_of (unlines ls_out) said_out.
Proof. split; [split; [eauto|reflexivity]|]. apply (read_reports [] (unlines ls_out) XAny); [discriminate|]. vm_compute. reflexivity. Qed.
