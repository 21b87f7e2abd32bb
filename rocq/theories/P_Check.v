(** Property theorems: rule checks and automatic fixes (C34-C38, C47-C49). *)
From Coq Require Import String.
From Verif Require Import Base Str StrFacts Num F64 F64Text Sexp FpData FpLayer FpSer FpDe FpWf FpFacts FpOps FpOpsSpec FpExamples SchData SymData SymOps CheckFix SymCheck FpCheck
  CheckSpec CheckFacts FixFacts CourtFacts ReportFacts FpOpsWit CheckWit.
Open Scope string_scope. Open Scope list_scope.

(** ** C38: flattening and listing check results *)
Theorem C38_flatter_keeps : forall d, findings (flatter d) = findings d.
Proof. exact findings_flatter. Qed.
Print Assumptions C38_flatter_keeps.
Theorem C38_flatter_unwraps : forall d, flatter (More [d]) = d.
Proof. reflexivity. Qed.
Print Assumptions C38_flatter_unwraps.
Theorem C38_flatter_others : forall d, (forall x, d <> More [x]) -> flatter d = d.
Proof. intros [i|[|x [|y l]]] H; try reflexivity. destruct (H x eq_refl). Qed.
Print Assumptions C38_flatter_others.
(** Logging writes one line per finding, in order, whatever the nesting. *)
Theorem C38_dump : forall d n, Forall2 (fun line i => exists k, line = dump_item k i) (dump n d) (findings d).
Proof. exact dump_findings. Qed.
Print Assumptions C38_dump.
(** ... and shows how deep in the tree it is. *)
Theorem C38_dump_lines : forall d n, dump n d = map (finding_line n) (findings_in 0 d) /\ map snd (findings_in 0 d) = findings d.
Proof. intros d n. exact (conj (dump_lines d n) (findings_in_snd d 0)). Qed.
Print Assumptions C38_dump_lines.
(** The sections of the rule book have different names, and the numbers 1 to 10. *)
Theorem C38_sections : forall n, (exists k, klc_number k = n) <-> (1 <= n <= 10)%Z.
Proof. exact klc_range. Qed.
Print Assumptions C38_sections.
Theorem C38_sections_differ : forall j k, klc_number j = klc_number k \/ klc_show j = klc_show k -> j = k.
Proof. exact klc_inj. Qed.
Print Assumptions C38_sections_differ.
Example C38_sections_ex : klc_number KTHTRules = 9%Z /\ klc_show KSMDRules = lit "Rules for SMD Footprints".
Proof. split; reflexivity. Qed.
Definition f_item (k : Z) : cf_item := mk_item 4 k (lit "R1") (lit "wrong") false.
Example C38_ex : findings (More [Item (f_item 1); More [Item (f_item 2); More []; Item (f_item 3)]]) = [f_item 1; f_item 2; f_item 3]
  /\ flatter (More [More [Item (f_item 2); Item (f_item 3)]]) = More [Item (f_item 2); Item (f_item 3)]
  /\ map snd (dump 0 (More [Item (f_item 1); More [Item (f_item 2)]])) = [lit "4.1 R1:wrong"; lit "  4.2 R1:wrong"].
Proof. vm_compute. repeat split. Qed.
(** Contrary to its comment, flattening does not always reach an item: a list holding
    a list with one item stays a list. *)
Theorem C38_flatter_item_refuted : exists d i, findings d = [i] /\ flatter d <> Item i.
Proof. exists (More [More [Item (f_item 1)]]), (f_item 1). split; [reflexivity|discriminate]. Qed.
Print Assumptions C38_flatter_item_refuted.

(** ** C36: names *)
Theorem C36_reports : forall s, allowed_1_7_items s = map (fun p => Item (bad_char_item s p)) (bad_chars s).
Proof. exact items_spec. Qed.
Print Assumptions C36_reports.
(** A pair (position, character) is listed iff the character is there and is not a
    name character. *)
Theorem C36_positions : forall s k c, In (k, c) (bad_chars s) <-> nth_error s k = Some c /\ ~ name_char c.
Proof. exact bad_chars_in. Qed.
Print Assumptions C36_positions.
Theorem C36_accepts : forall s, is_allowed_1_7 s = true <-> Forall name_char s.
Proof. exact allowed_spec. Qed.
Print Assumptions C36_accepts.
Example C36_ex : all_findings (allowed_1_7_items (lit "A b/c_9.-")) =
  [mk_item 1 7 (lit "A b/c_9.-") (lit "Invalid char ' ' at 1 in 'A b/c_9.-'") false;
   mk_item 1 7 (lit "A b/c_9.-") (lit "Invalid char '/' at 3 in 'A b/c_9.-'") false]
  /\ is_allowed_1_7 (lit "Hello_world_1.23-4") = true.
Proof. vm_compute. repeat split. Qed.

(** ** C37: pins, rectangles, fields, symbols *)
Theorem C37_pin_reports : forall p i, In i (all_findings (pin_check p)) <->
     (~ on_grid 10 (pn_x p) /\ i = pin_finding p 4 1 "pin x not on 100mil grid" false)
  \/ (~ on_grid 10 (pn_y p) /\ i = pin_finding p 4 1 "pin y not on 100mil grid" false)
  \/ (~ on_grid 5 (pn_len p) /\ i = pin_finding p 4 1 "pin length not on 50mil grid" false)
  \/ ((pn_len p < 100)%Z /\ i = pin_finding p 4 1 "pin length < 100mil" true)
  \/ ((300 < pn_len p)%Z /\ i = pin_finding p 4 1 "pin length > 300mil" true)
  \/ ((reads_nc (pn_name p) /\ pn_type p <> PTNotConnected) /\ i = pin_finding p 4 7 "Pin should be of type Not Connected" false)
  \/ ((pn_type p = PTNotConnected /\ pn_visible p = true) /\ i = pin_finding p 4 7 "Pin should be invisible" false)
  \/ ((pn_type p <> PTNotConnected /\ pn_visible p = false) /\ i = pin_finding p 4 7 "Pin should be visible" false)
  \/ (pn_num_size p <> 50%Z /\ i = pin_finding p 4 8 "Pin Number should be 50mil" false)
  \/ (pn_name_size p <> 50%Z /\ i = pin_finding p 4 8 "Pin Name should be 50mil" false).
Proof. exact pin_reports. Qed.
Print Assumptions C37_pin_reports.
Theorem C37_pin_silent : forall p, pin_check p = [] <-> pin_accepted p.
Proof. exact pin_silent. Qed.
Print Assumptions C37_pin_silent.
Theorem C37_symbol_silent : forall s, symbol_check s = [] <-> symbol_accepted s.
Proof. exact symbol_silent. Qed.
Print Assumptions C37_symbol_silent.
Definition k_pin (x y len : Z) (name : string) (t : pin_type) : pin :=
  mk_pin (lit name) (lit "7") x y len PRight 50 50 1 1 t true PSLine.
Definition k_field (i : Z) (vis : bool) : sfield := mk_sfield i (lit "U") fzero fzero 50 Horizontal vis SJCenter SJCenter false false (lit "").
Definition k_symbol : symbol :=
  mk_symbol (lit "~LM358") (lit "U") fzero true true 1 false false [k_field 0 true; k_field 1 true; k_field 2 false] []
    [DPin (k_pin 300 (-200) 150 "IN" PTInput); DRect (mk_rect 0 0 100 100 1 1 10 FillBg); DOther (lit "T")].
Example C37_ex : symbol_check k_symbol = []
  /\ map it_message (all_findings (pin_check (k_pin 3 0 99 "sync" PTInput))) =
       map lit ["pin x not on 100mil grid"; "pin length not on 50mil grid"; "pin length < 100mil"; "Pin should be of type Not Connected"]%string.
Proof. vm_compute. split; reflexivity. Qed.
(** A pin on the documented grids gets no grid finding. *)
Theorem C37_no_false_alarm : forall p, on_grid 100 (pn_x p) -> on_grid 100 (pn_y p) -> on_grid 50 (pn_len p) -> (100 <= pn_len p <= 300)%Z ->
  forall i, In i (all_findings (pin_check p)) -> it_rule i <> 1%Z.
Proof. exact pin_no_false_alarm. Qed.
Print Assumptions C37_no_false_alarm.
Example C37_alarm_ex : let p := k_pin 300 (-200) 150 "nc" PTInput in
  map it_rule (all_findings (pin_check p)) = [7%Z].
Proof. vm_compute. reflexivity. Qed.
(** Silence does not mean that the pin is on the grids the messages name: the code
    tests multiples of 10 and 5, not of 100 and 50. *)
Theorem C37_grid_refuted : exists p, pin_check p = [] /\ ~ on_grid 100 (pn_x p) /\ ~ on_grid 100 (pn_y p) /\ ~ on_grid 50 (pn_len p).
Proof. exact pin_grid_refuted. Qed.
Print Assumptions C37_grid_refuted.

(** ** C49: the footprint check *)
Theorem C49_footprint_reports : forall c m i, In i (all_findings (fp_check c m)) <-> violation c m i.
Proof. exact reports. Qed.
Print Assumptions C49_footprint_reports.
Example C49_ex : map it_message (all_findings (fp_check klc ex_module)) =
  map lit ["reference should be REF**"; "reference label font aspect ratio should be 1:1"; "reference label should have height 1";
   "value text has to match footprint name"; "value text should not be hidden"; "value label should have height 1";
   "reference 2 missing"; "missing courtyard on CrtYd layer"]%string.
Proof. vm_compute. reflexivity. Qed.

(** ** C34: fixing converges *)
Theorem C34_fix_total : forall c m, exists m', fp_fix c m = Ok m'.
Proof. exact fix_total. Qed.
Print Assumptions C34_fix_total.
Theorem C34_fix_twice : forall c m m', fp_fix c m = Ok m' -> fp_fix c m' = Ok m'.
Proof. exact fix_idempotent. Qed.
Print Assumptions C34_fix_twice.
Theorem C34_fix_remaining : forall c m m' i, fp_fix c m = Ok m' -> (In i (all_findings (fp_check c m')) <-> unfixable m i).
Proof. exact remain. Qed.
Print Assumptions C34_fix_remaining.
Definition fixed : module := match fp_fix klc ex_module with Ok m => m | _ => ex_module end.
Lemma fixed_eq : fp_fix klc ex_module = Ok fixed.
Proof. destruct (fix_total klc ex_module) as (m' & E). unfold fixed. rewrite E. reflexivity. Qed.
Example C34_ex : length (m_elements fixed) = 23%nat /\ fp_check klc fixed = [].
Proof. split; vm_compute; reflexivity. Qed.

(** ** C35: what fixing leaves alone *)
Theorem C35_fix_frame : forall c m m', fp_fix c m = Ok m' ->
  (forall k e, nth_error (m_elements m) k = Some e -> nth_error (m_elements m') k = Some e
     \/ exists t t', first_text (m_elements m) k t /\ e = EFpText t /\ nth_error (m_elements m') k = Some (EFpText t')
        /\ text_frame t t' /\ as_ruled c (m_name m) t')
  /\ exists old new, m_elements m' = old ++ new /\ length old = length (m_elements m) /\ appended m new.
Proof. exact fix_elements. Qed.
Print Assumptions C35_fix_frame.
Theorem C35_fix_name : forall c m m', fp_fix c m = Ok m' -> m_name m' = m_name m.
Proof. exact fix_name. Qed.
Print Assumptions C35_fix_name.
Theorem C35_fix_untouched : forall c m m', fp_fix c m = Ok m' -> filter untouched (m_elements m') = filter untouched (m_elements m).
Proof. exact fix_untouched. Qed.
Print Assumptions C35_fix_untouched.
Example C35_ex : length (filter untouched (m_elements fixed)) = 14%nat.
Proof. vm_compute. reflexivity. Qed.
(** The content of the first user text is lost, whatever it says. *)
Theorem C35_user_text_refuted : exists m m' t t' k, fp_fix klc m = Ok m' /\ nth_error (m_elements m) k = Some (EFpText t) /\ nth_error (m_elements m') k = Some (EFpText t')
  /\ tx_name t = lit "user" /\ tx_value t' <> tx_value t.
Proof. exact user_text_lost. Qed.
Print Assumptions C35_user_text_refuted.
(** The lines added to a footprint that lies on the back are on the front. *)
Theorem C35_side_refuted : exists m m' l, fp_fix klc m = Ok m' /\ In (ELayer (mk_layer SBack LCu)) (m_elements m)
  /\ forallb back_only (m_elements m) = true /\ In (EFpLine l) (m_elements m') /\ la_side (li_layer l) = SFront.
Proof. exact side_lost. Qed.
Print Assumptions C35_side_refuted.

(** ** C47: a fixed footprint can be saved *)
Theorem C47_fix_saves : forall c m m', module_ok m = true -> fgtb (cg_font_size c) fzero = true -> fp_fix c m = Ok m' ->
  module_ok m' = true /\ de_module (ser_module m') = Ok m'.
Proof. exact fix_saves. Qed.
Print Assumptions C47_fix_saves.
Example C47_ex : module_ok ex_module = true /\ fgtb (cg_font_size klc) fzero = true.
Proof. split; vm_compute; reflexivity. Qed.

(** ** C48: the courtyard *)
(** When there are fewer than four courtyard lines, exactly the lines of [courtyard]
    are added at the end; else none. *)
Theorem C48_courtyard_added : forall c m m', fp_fix c m = Ok m' ->
  lines_of m' = lines_of m ++ (if Nat.ltb (length (courtyard_list m)) 4 then courtyard m else []).
Proof. exact fix_lines_spec. Qed.
Print Assumptions C48_courtyard_added.
Theorem C48_courtyard_encloses : forall m x y, module_at m = (x, y) -> moderate x -> moderate y ->
  forallb geo_ok (m_elements m) = true -> forallb ascending (m_elements m) = true ->
  exists x1 y1 x2 y2, rectangle_of x1 y1 x2 y2 (courtyard m) /\
  forall e p, In e (m_elements m) -> In p (fab_points e) -> moderate (fst p) -> moderate (snd p) ->
  fleb x1 (fst p) = true /\ fleb (fst p) x2 = true /\ fleb y1 (snd p) = true /\ fleb (snd p) y2 = true.
Proof. exact courtyard_encloses. Qed.
Print Assumptions C48_courtyard_encloses.
Example C48_ex : module_at ex_asc = (fl "10", fl "20") /\ moderate (fl "10") /\ moderate (fl "20") /\ forallb geo_ok (m_elements ex_asc) = true /\ forallb ascending (m_elements ex_asc) = true
  /\ Nat.ltb (length (courtyard_list ex_asc)) 4 = true.
Proof.
  split; [reflexivity|]. do 2 (split; [apply small_moderate; vm_compute; reflexivity|]). split; [apply ex_asc_ok|]. split; [apply ex_asc_ok|]. vm_compute. reflexivity.
Qed.
(** Without the condition that lines are drawn towards larger coordinates a point of
    the Fab layer lies right of every corner of the courtyard. *)
Theorem C48_courtyard_refuted : exists m e p l, forallb geo_ok (m_elements m) = true /\ In e (m_elements m) /\ In p (fab_points e) /\ smallb (fst p) = true /\ smallb (snd p) = true
  /\ In l (courtyard m) /\ fltb (xy_x (li_start l)) (fst p) = true /\ forall l', In l' (courtyard m) -> fltb (xy_x (li_start l')) (fst p) = true.
Proof. exact courtyard_refuted. Qed.
Print Assumptions C48_courtyard_refuted.
