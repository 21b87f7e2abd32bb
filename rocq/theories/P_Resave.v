(** Property theorems: saving and opening again does not change boxes, reports and fixes (C126). *)
From Coq Require Import String.
From Verif Require Import Base Str StrFacts Num F64 Sexp FpData FpSer FpDe FpFacts FpExamples FpOps Bound CheckFix SymCheck FpCheck LyData LyOps
  Formatter FormatterSpec DocSpec DocText KeepSpec FixFacts ResaveSpec ResaveLySpec P_Formatter P_Exact ResaveFacts ResaveLy Bins ResaveBin.
Open Scope string_scope. Open Scope list_scope.

(** ** C126 *)
(** A footprint is opened, saved and opened again.  Saving may change it (C63), but not its box, ... *)
Theorem C126_box : forall nq s m n m', quote_contract nq -> parse_module s = Ok m -> parse_module (module_to_string nq m n) = Ok m' ->
  module_bound m' = module_bound m.
Proof. exact resave_box. Qed.
Print Assumptions C126_box.
(** ... nor the box of a board, ... *)
Theorem C126_board_box : forall nq s l n l', quote_contract nq -> parse_layout s = Ok l -> parse_layout (layout_to_string nq l n) = Ok l' ->
  layout_bound l' = layout_bound l.
Proof. exact resave_board_box. Qed.
Print Assumptions C126_board_box.
(** ... nor what the rules report about it, if no font has a size below zero, ... *)
Theorem C126_report : forall nq s m n m' c, quote_contract nq -> parse_module s = Ok m -> parse_module (module_to_string nq m n) = Ok m' ->
  (forall t, In (EFpText t) (m_elements m) -> font_counts t = true) -> fp_check c m' = fp_check c m.
Proof. exact resave_report. Qed.
Print Assumptions C126_report.
(** ... nor the file and the box that edits make of it: it does not matter whether it is saved before it
    is turned over, turned, moved, renamed, fixed or added to, in any order ([change_all], ResaveSpec.v). *)
Theorem C126_edits : forall nq s m n m' l, quote_contract nq -> parse_module s = Ok m -> parse_module (module_to_string nq m n) = Ok m' ->
  exists f f', change_all m l = Ok f /\ change_all m' l = Ok f' /\ (forall k, module_to_string nq f' k = module_to_string nq f k) /\ module_bound f' = module_bound f.
Proof. exact resave_edits. Qed.
Print Assumptions C126_edits.
(** The same for boards: the edits fail alike, and the file and the box afterwards are the same
    ([board_all], ResaveLySpec.v). *)
Theorem C126_board_edits : forall nq s l n l' cs, quote_contract nq -> parse_layout s = Ok l -> parse_layout (layout_to_string nq l n) = Ok l' ->
  snd (board_all l' cs) = snd (board_all l cs) /\ (forall k, layout_to_string nq (fst (board_all l' cs)) k = layout_to_string nq (fst (board_all l cs)) k)
  /\ layout_bound (fst (board_all l' cs)) = layout_bound (fst (board_all l cs)).
Proof. exact resave_board_edits. Qed.
Print Assumptions C126_board_edits.
(** So the programs print the same about a file and about the file saved over it. *)
Theorem C126_dump_footprint : forall nq fs fs' p f rest s m n m', quote_contract nq -> parse_module s = Ok m -> parse_module (module_to_string nq m n) = Ok m' ->
  fs f = Some s -> fs' f = Some (module_to_string nq m n) -> dump_footprint nq fs' (p :: f :: rest) = dump_footprint nq fs (p :: f :: rest).
Proof. exact resave_dump. Qed.
Print Assumptions C126_dump_footprint.
Theorem C126_klc_kicad_mod : forall nq fs fs' p f rest s m n m', quote_contract nq -> parse_module s = Ok m -> parse_module (module_to_string nq m n) = Ok m' ->
  (forall t, In (EFpText t) (m_elements m) -> font_counts t = true) ->
  fs f = Some s -> fs' f = Some (module_to_string nq m n) -> klc_kicad_mod fs' (p :: f :: rest) = klc_kicad_mod fs (p :: f :: rest).
Proof. exact resave_klc. Qed.
Print Assumptions C126_klc_kicad_mod.
Theorem C126_board_programs : forall nq fs fs' p f rest s l n l', quote_contract nq -> parse_layout s = Ok l -> parse_layout (layout_to_string nq l n) = Ok l' ->
  fs f = Some s -> fs' f = Some (layout_to_string nq l n) ->
  dump_layout nq fs' (p :: f :: rest) = dump_layout nq fs (p :: f :: rest) /\ adjust_program nq fs' (p :: f :: rest) = adjust_program nq fs (p :: f :: rest).
Proof. exact resave_layouts. Qed.
Print Assumptions C126_board_programs.
(** With a font of negative width saving does change the report: the size is not written, and the
    finding about the aspect ratio is gone. *)
Lemma once_spec s (P : module -> module -> bool) : match once s with Some (m, m') => P m m' | None => false end = true ->
  exists m m', parse_module s = Ok m /\ parse_module (module_to_string quote_special m 0) = Ok m' /\ P m m' = true.
Proof.
  unfold once. destruct (parse_module s) as [m| |] eqn:E; [|discriminate..].
  destruct (parse_module (module_to_string quote_special m 0)) as [m'| |] eqn:E'; [|discriminate..]. intros H. now exists m, m'.
Qed.
Definition fewer (m m' : module) : bool := Nat.ltb (length (fp_check klc m')) (length (fp_check klc m)).
Lemma odd_fewer : match once text_odd with Some (m, m') => fewer m m' | None => false end = true.
Proof. vm_compute. reflexivity. Qed.
Theorem C126_report_refuted : exists nq s m m', quote_contract nq /\ parse_module s = Ok m /\ parse_module (module_to_string nq m 0) = Ok m' /\
  fp_check klc m' <> fp_check klc m.
Proof.
  destruct (once_spec text_odd fewer odd_fewer) as (m & m' & H & R & L). exists quote_special, text_odd, m, m'.
  split; [exact quote_special_ok|]. split; [exact H|]. split; [exact R|].
  intros E. unfold fewer in L. rewrite E, Nat.ltb_irrefl in L. discriminate L.
Qed.
Print Assumptions C126_report_refuted.

(** A footprint that saving changes, with sizes that count, findings and a box *)
Definition text_turned : str := lit "(module a (layer F.Cu) (at 1 2 -0) (fp_text reference a (at 0 1 -0) (layer F.SilkS) (effects (font (size 2 0) (thickness 0.1)))) (fp_text value b (at 0 1) (layer F.Fab) (effects (font (size 0 -0) (thickness 0.1)))) (pad 1 smd rect (at 0 0 -0) (size 1 2) (layers F.Cu)))".
Definition all_count (m : module) : bool := forallb (fun e => match e with EFpText t => font_counts t | _ => true end) (m_elements m).
Example C126_ex : match once text_turned with
  | Some (m, m') => negb (module_saves m) && module_saves m' && all_count m && Nat.ltb 8 (length (fp_check klc m)) && Nat.eqb (length (fp_check klc m')) (length (fp_check klc m))
  | None => false
  end = true.
Proof. vm_compute. reflexivity. Qed.
Definition edits : list change := [Rotate (fl "90"); Flip; Fix klc; Move (fl "3") (fl "-2"); Reference (lit "REF**") (lit "R1")].
Example C126_ex_edits : match once text_turned with
  | Some (m, m') => match change_all m edits, change_all m' edits with
    | Ok f, Ok f' => Nat.ltb (length (m_elements m)) (length (m_elements f)) && Nat.ltb 300 (length (module_to_string quote_special f 0))
                     && str_eqb (module_to_string quote_special f' 0) (module_to_string quote_special f 0)
    | _, _ => false end
  | None => false
  end = true.
Proof. vm_compute. reflexivity. Qed.
Example C126_ex_board : match parse_layout text_odd_ly with
  | Ok l => match parse_layout (layout_to_string quote_special l 0) with Ok l' => negb (layout_saves l) && layout_saves l' && bounded (layout_bound l) | _ => false end
  | _ => false
  end = true.
Proof. vm_compute. reflexivity. Qed.

Definition text_board : str := lit "(kicad_pcb (version 4) (net 1 A) (via (at 1 2 -0) (size 1) (drill -0) (layers F.Cu B.Cu) (net 1)) (module a (layer F.Cu) (at 1 2 -0) (fp_text reference R1 (at 0 1 -0) (layer F.SilkS) (effects (font (size 0 -0) (thickness 0.1)))) (pad 1 smd rect (at 0 0 -0) (size 1 2) (layers F.Cu) (net 1 A))))".
Definition refuse : name_update := fun s => (s ++ lit "2", if str_eqb s (lit "A2") then Some EOther else None).
Definition board_edits : list board_change :=
  [BoardMove (fl "3") (fl "-2"); BoardNames refuse; BoardNames refuse; BoardModule (lit "R1") [Rotate (fl "90"); Flip]; BoardModule (lit "R2") [Flip]; BoardNet 2 (lit "B"); BoardSetup (lit "zone_clearance") (lit "0.2")].
Example C126_ex_board_edits : match parse_layout text_board with
  | Ok l => match parse_layout (layout_to_string quote_special l 0) with
    | Ok l' => match board_all l board_edits with
      | (f, [None; None; Some EOther; None; Some EOther; None; None]) => negb (layout_saves l) && layout_saves l' && bounded (layout_bound f)
          && str_eqb (layout_to_string quote_special (fst (board_all l' board_edits)) 0) (layout_to_string quote_special f 0)
          && negb (str_eqb (layout_to_string quote_special l 0) (layout_to_string quote_special f 0))
      | _ => false end
    | _ => false end
  | _ => false
  end = true.
Proof. vm_compute. reflexivity. Qed.
Definition on_file (s : str) : list str -> res ran := klc_kicad_mod (fun _ => Some s).
Example C126_ex_program : match once text_turned with
  | Some (m, m') => let t := module_to_string quote_special m 0 in
    match on_file text_turned [lit "x"; lit "f"], on_file t [lit "x"; lit "f"] with
    | Ok a, Ok b => negb (str_eqb t text_turned) && all_count m && Nat.ltb 8 (length (r_log a)) && Nat.eqb (length (r_log b)) (length (r_log a))
    | _, _ => false end
  | None => false
  end = true.
Proof. vm_compute. reflexivity. Qed.
