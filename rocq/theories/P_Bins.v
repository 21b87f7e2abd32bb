(** Property theorems: the programs of src/bin (C53). *)
From Coq Require Import String.
From Verif Require Import Base Str StrFacts F64 F64Text Sexp FpData FpWf LyData LyWf LyOps Formatter FormatterSpec DocText LibFns SchData SchParse SymData SymPrint SymParse
  KicadFile KfSpec CheckFix SymCheck FpCheck CheckSpec Bins BinSpec BinFacts P_Formatter P_Save P_Check P_Symbol.
Open Scope string_scope. Open Scope list_scope.

(** ** identify *)
(** It prints the kind whose reader accepts the file ... *)
Theorem C53_identify : forall fs p n rest d f, fs n = Some d -> accepted n d f ->
  identify fs (p :: n :: rest) = Ok (mk_ran (lit "found: " ++ word (kind f) ++ nl) []).
Proof. exact identify_known. Qed.
Print Assumptions C53_identify.
(** ... and prints nothing else: "unknown" only if no reader accepts. *)
Theorem C53_identify_sound : forall fs args r, identify fs args = Ok r -> exists p n rest d, args = p :: n :: rest /\ fs n = Some d /\ r_log r = [] /\
  ((exists f, accepted n d f /\ r_out r = lit "found: " ++ word (kind f) ++ nl) \/
   ((forall f, ~ accepted n d f) /\ r_out r = lit "found: unknown: " ++ n ++ nl)).
Proof. exact identify_sound. Qed.
Print Assumptions C53_identify_sound.
(** When it aborts *)
Theorem C53_identify_aborts : forall fs args, identify fs args = Panic <->
  (length args < 2)%nat \/ exists p n rest, args = p :: n :: rest /\
  (fs n = None \/ exists d, fs n = Some d /\ (forall f, ~ accepted n d f) /\ (parse_schematic (Some n) d = Panic \/ parse_symbol_lib d = Panic)).
Proof. exact identify_aborts. Qed.
Print Assumptions C53_identify_aborts.
Definition one_file (n d : str) : files := fun x => if str_eqb x n then Some d else None.
Definition out (r : res ran) : str := match r with Ok x => r_out x | _ => [] end.
Definition log (r : res ran) : list (bool * str) := match r with Ok x => r_log x | _ => [] end.
Example C53_ex_identify :
  out (identify (one_file (lit "f") text_m) [lit "identify"; lit "f"]) = lit "found: module" ++ nl /\
  out (identify (one_file (lit "f") text_l) [lit "identify"; lit "f"]) = lit "found: layout" ++ nl /\
  out (identify (one_file (lit "f") (lit "what?")) [lit "identify"; lit "f"]) = lit "found: unknown: f" ++ nl /\
  identify (one_file (lit "f") (lit "$Comp")) [lit "identify"] = Panic.
Proof. split; [|split; [|split]]; vm_compute; reflexivity. Qed.
(** There are texts that make it abort. *)
Theorem C53_identify_abort_refuted : exists d, identify (one_file (lit "f") d) [lit "identify"; lit "f"] = Panic.
Proof. exists (lit "EESchema Schematic File Version 2" ++ nl). vm_compute. reflexivity. Qed.
Print Assumptions C53_identify_abort_refuted.

(** ** dump_footprint, dump_layout, adjust_layout *)
(** The dump is the name and a text that reads as the same footprint. *)
Theorem C53_dump_footprint : forall nq fs p n rest d m, quote_contract nq -> fs n = Some d -> parse_module d = Ok m -> module_clean m = true ->
  exists t, dump_footprint nq fs (p :: n :: rest) = Ok (mk_ran (m_name m ++ nl ++ t) []) /\ parse_module t = Ok m.
Proof. exact dump_fp. Qed.
Print Assumptions C53_dump_footprint.
(** The dump of a layout reads as the same layout, and dumping the dump gives the
    same text. *)
Theorem C53_dump_layout : forall nq fs p n rest d l, quote_contract nq -> fs n = Some d -> parse_layout d = Ok l -> layout_clean l = true ->
  exists t, dump_layout nq fs (p :: n :: rest) = Ok (mk_ran t [(false, n)]) /\ parse_layout t = Ok l
  /\ forall fs', fs' n = Some t -> dump_layout nq fs' (p :: n :: rest) = Ok (mk_ran t [(false, n)]).
Proof. exact dump_ly. Qed.
Print Assumptions C53_dump_layout.
Theorem C53_dump_layout_aborts : forall nq fs p n rest, dump_layout nq fs (p :: n :: rest) = Panic <-> forall d l, fs n = Some d -> parse_layout d <> Ok l.
Proof. exact dump_ly_aborts. Qed.
Print Assumptions C53_dump_layout_aborts.
(** What adjust_layout prints reads as the layout moved by (100, 0) (see C18). *)
Theorem C53_adjust_layout : forall nq fs p n rest d l, quote_contract nq -> fs n = Some d -> parse_layout d = Ok l -> layout_clean l = true ->
  exists t, adjust_program nq fs (p :: n :: rest) = Ok (mk_ran t [(false, n)]) /\ parse_layout t = Ok (adjust_layout (flit "100.0") (flit "0.0") l).
Proof. exact adjust_run. Qed.
Print Assumptions C53_adjust_layout.
Example C53_ex_dump :
  match parse_module text_m, parse_layout text_l with Ok m, Ok l => module_clean m && layout_clean l | _, _ => false end = true /\
  starts_with (lit "R (1)" ++ nl ++ lit "(module ") (out (dump_footprint quote_special (one_file (lit "f") text_m) [lit "x"; lit "f"])) = true /\
  starts_with (lit "(kicad_pcb (version 4)") (out (dump_layout quote_special (one_file (lit "f") text_l) [lit "x"; lit "f"])) = true.
Proof. split; [|split]; vm_compute; reflexivity. Qed.
(** The whole output of dump_footprint is no footprint file: the name comes first. *)
Theorem C53_dump_footprint_refuted : exists fs r, dump_footprint quote_special fs [lit "x"; lit "f"] = Ok r /\ is_ok (parse_module (r_out r)) = false.
Proof.
  exists (one_file (lit "f") text_m). destruct (dump_footprint quote_special (one_file (lit "f") text_m) [lit "x"; lit "f"]) as [r| |] eqn:E.
  - exists r. split; [reflexivity|]. assert (O : r_out r = out (Ok r)) by reflexivity. rewrite O, <- E. vm_compute. reflexivity.
  - assert (K : is_ok (dump_footprint quote_special (one_file (lit "f") text_m) [lit "x"; lit "f"]) = true) by (vm_compute; reflexivity). rewrite E in K. discriminate K.
  - assert (K : is_ok (dump_footprint quote_special (one_file (lit "f") text_m) [lit "x"; lit "f"]) = true) by (vm_compute; reflexivity). rewrite E in K. discriminate K.
Qed.
Print Assumptions C53_dump_footprint_refuted.

(** ** klc_kicad_mod, klc_symbol_lib *)
(** Silent exactly if no rule is broken; else the name and one line per finding. *)
Theorem C53_klc_kicad_mod : forall fs p n rest d m, fs n = Some d -> parse_module d = Ok m ->
  exists log, klc_kicad_mod fs (p :: n :: rest) = Ok (mk_ran [] log) /\
  (log = [] <-> forall i, ~ violation klc m i) /\
  (log = [] \/ log = (false, lit "Module " ++ m_name m) :: map (dump_item 1) (all_findings (fp_check klc m))).
Proof. exact klc_fp. Qed.
Print Assumptions C53_klc_kicad_mod.
Theorem C53_klc_symbol_lib : forall fs p n rest d l, fs n = Some d -> parse_symbol_lib d = Ok l ->
  exists log, klc_symbol_lib fs (p :: n :: rest) = Ok (mk_ran [] log) /\ symbol_log l log.
Proof. exact klc_sym. Qed.
Print Assumptions C53_klc_symbol_lib.
Theorem C53_klc_symbol_silent : forall l log, symbol_log l log -> (log = [] <-> Forall symbol_accepted l).
Proof. exact log_empty. Qed.
Print Assumptions C53_klc_symbol_silent.
Example C53_ex_klc :
  map snd (log (klc_kicad_mod (one_file (lit "f") (lit "(module a)")) [lit "x"; lit "f"])) =
    [lit "Module a"; lit "  7.3 a:reference missing"; lit "  7.4 a:value missing"; lit "  7.4 a:reference 2 missing"; lit "  7.5 a:missing courtyard on CrtYd layer"] /\
  match print_symbol_lib [ex_power] with
  | Ok t => match log (klc_symbol_lib (one_file (lit "f") t) [lit "x"; lit "f"]) with (false, h) :: _ :: _ => str_eqb h (lit "Symbol GND") | _ => false end
  | _ => false
  end = true.
Proof. split; vm_compute; reflexivity. Qed.
