(** Property theorems: the records of the logger (C114). *)
From Coq Require Import String.
From Verif Require Import Base Str Num F64 F64Text Sexp FpData FpDe LyData LyDe LyWf Formatter FormatterSpec DocText DocSpec KicadFile KfSpec CheckFix FpCheck CheckSpec Bins
  LyLog LogSpec LogFacts LyExamples FpExamples P_Formatter P_Bins P_Check.
Import ListNotations.
Open Scope string_scope. Open Scope list_scope.

(** ** C114 *)
(** Reading a board gives one record for each part kept without having been understood, in
    the order of the board: the elements of an unknown name, and what is left in a zone. *)
Theorem C114_board : forall show t l, parse_layout t = Ok l -> text_log show t = unread show l.
Proof. exact text_logs. Qed.
Print Assumptions C114_board.
(** So the logger is silent exactly if all was understood. *)
Theorem C114_silent : forall show t l, parse_layout t = Ok l -> (text_log show t = [] <-> Forall understood (ly_elements l)).
Proof. exact silent. Qed.
Print Assumptions C114_silent.
(** A board that cannot be read gives the records of the entries before the first one that
    cannot, of which there is one longest list. *)
Theorem C114_broken : forall show es, exists l, readable es l /\ layout_log show (board_of es) = unread show l.
Proof. exact any_logs. Qed.
Print Assumptions C114_broken.
Theorem C114_broken_one : forall es l l', readable es l -> readable es l' -> l = l'.
Proof. exact readable_one. Qed.
Print Assumptions C114_broken_one.
(** A file that is found to be of another kind gives none, whatever was asked for. *)
Theorem C114_other_kinds : forall show fs n f x, read_kicad_file fs n x = Ok f -> kind f <> XLayout -> kind f <> XAny -> read_log show fs n x = [].
Proof. exact read_silent. Qed.
Print Assumptions C114_other_kinds.
(** A board gives its records whatever was asked for, unless it was a footprint or a
    schematic. *)
Theorem C114_asked : forall show fs n l x, read_layout fs n = Ok l -> x <> XModule -> x <> XSchematic -> read_log show fs n x = unread show l.
Proof. exact read_logs. Qed.
Print Assumptions C114_asked.
(** A saved board gives the same records when it is read again. *)
Theorem C114_again : forall show nq fs n l x, quote_contract nq -> layout_ok l = true -> forallb no_quote (layout_strs l) = true -> forallb doc_ok (layout_other l) = true ->
  x <> XModule -> x <> XSchematic -> read_log show (write_layout nq fs l n) n x = unread show l.
Proof. exact again. Qed.
Print Assumptions C114_again.
(** The board programs: these records, at level debug, then the name of the file if the
    board could be read; if not, they abort after the records. *)
Theorem C114_dump_layout : forall show nq fs a n rest t es, fs n = Some t -> read_sexp t = Ok (board_of es) ->
  exists l, readable es l /\ program_log show XLayout (dump_layout nq) fs (a :: n :: rest) =
    map (fun s => (Debug, s)) (unread show l) ++ (if is_ok (parse_layout t) then [(Info, n)] else []).
Proof. exact dump_logs. Qed.
Print Assumptions C114_dump_layout.
Theorem C114_adjust_layout : forall show nq fs a n rest t es, fs n = Some t -> read_sexp t = Ok (board_of es) ->
  exists l, readable es l /\ program_log show XLayout (adjust_program nq) fs (a :: n :: rest) =
    map (fun s => (Debug, s)) (unread show l) ++ (if is_ok (parse_layout t) then [(Info, n)] else []).
Proof. exact adjust_logs. Qed.
Print Assumptions C114_adjust_layout.
(** The rule checkers: only the findings of C94. *)
Theorem C114_klc_kicad_mod : forall show fs args r, klc_kicad_mod fs args = Ok r ->
  program_log show XModule klc_kicad_mod fs args = map (fun b : bool * str => (if fst b then Warn else Info, snd b)) (r_log r).
Proof. exact klc_mod_logs. Qed.
Print Assumptions C114_klc_kicad_mod.
Theorem C114_klc_symbol_lib : forall show fs args r, klc_symbol_lib fs args = Ok r ->
  program_log show XSymbolLib klc_symbol_lib fs args = map (fun b : bool * str => (if fst b then Warn else Info, snd b)) (r_log r).
Proof. exact klc_sym_logs. Qed.
Print Assumptions C114_klc_symbol_lib.
(** The footprint fix: one record if it adds a courtyard, with the corners of the lines it
    adds, and none if it adds none. *)
Theorem C114_fix : forall c m m', fp_fix c m = Ok m' ->
  ((4 <= length (courtyard_list m))%nat /\ lines_of m' = lines_of m /\ fix_log c m = []) \/
  ((length (courtyard_list m) < 4)%nat /\ exists l1 l2 l3 l4, lines_of m' = lines_of m ++ [l1; l2; l3; l4] /\ fix_log c m = [(Info, says_courtyard l1 l2)]).
Proof. exact fix_logs. Qed.
Print Assumptions C114_fix.

(** *** Examples *)
Definition by_name (s : sexp) : str := match s with SList (SStr n :: _) => n | _ => lit "?" end.
Definition log_zone : list str := map lit
  ["(zone (net 0) (net_name """") (layer F.Cu) (tstamp 0) (hatch edge 0.5) (connect_pads (clearance 0.2)) (min_thickness 0.25)";
   " (fill yes (arc_segments 16) (thermal_gap 0.5) (thermal_bridge_width 0.5))"; " (polygon (pts (xy 1 0) (xy 2 0))) (zebra 1) (polygon 7))"].
Definition log_board (last : str) : str :=
  concat (map (fun l => l ++ [10%N]) ([lit "(kicad_pcb (version 4) (target plus)"; lit "(net 1 GND)"] ++ log_zone ++ [lit "(logo)"; last; lit "(later))"])).
Example C114_ex_board : text_log by_name (log_board (lit "(net 2 A)")) =
  [lit "Element::Other: target"; lit "'zone': not parsing zebra"; lit "'zone': not parsing polygon"; lit "Element::Other: logo"; lit "Element::Other: later"]
  /\ is_ok (parse_layout (log_board (lit "(net 2 A)"))) = true.
Proof. split; vm_compute; reflexivity. Qed.
Example C114_ex_broken : text_log by_name (log_board (lit "(net x A)")) =
  [lit "Element::Other: target"; lit "'zone': not parsing zebra"; lit "'zone': not parsing polygon"; lit "Element::Other: logo"]
  /\ is_ok (parse_layout (log_board (lit "(net x A)"))) = false.
Proof. split; vm_compute; reflexivity. Qed.
(** The reader of symbol libraries tries a board first, so a board given to the checker of
    symbols is reported on before the program aborts. *)
Example C114_ex_wrong_kind : program_log by_name XSymbolLib klc_symbol_lib (one_file (lit "f") (log_board (lit "(net 2 A)"))) [lit "x"; lit "f"] =
  map (fun s => (Debug, s)) [lit "Element::Other: target"; lit "'zone': not parsing zebra"; lit "'zone': not parsing polygon"; lit "Element::Other: logo"; lit "Element::Other: later"].
Proof. vm_compute. reflexivity. Qed.
Example C114_ex_dump : program_log by_name XLayout (dump_layout quote_special) (one_file (lit "f") (log_board (lit "(net x A)"))) [lit "x"; lit "f"] =
  map (fun s => (Debug, s)) [lit "Element::Other: target"; lit "'zone': not parsing zebra"; lit "'zone': not parsing polygon"; lit "Element::Other: logo"].
Proof. vm_compute. reflexivity. Qed.
Example C114_ex_again : layout_ok ex_layout = true /\ forallb no_quote (layout_strs ex_layout) = true /\ forallb doc_ok (layout_other ex_layout) = true /\
  unread by_name ex_layout = [lit "'zone': not parsing unknown"; lit "Element::Other: target"].
Proof. repeat (apply conj; [vm_compute; reflexivity|]). vm_compute. reflexivity. Qed.
Example C114_ex_fix : fix_log klc ex_module = [(Info, lit "Creating courtyard: -2,-0.75 -> 3.75,4.75")] /\ is_ok (fp_fix klc ex_module) = true /\ length (courtyard_list ex_module) = 0%nat.
Proof. repeat (apply conj; [vm_compute; reflexivity|]). vm_compute. reflexivity. Qed.
