(** Property theorems: the reports of the rule checks and the outcome of the fixes (C79). *)
From Coq Require Import Reals String.
From Flocq Require Import Core IEEE754.BinarySingleNaN.
From Verif Require Import Base Str Num F64 F64Text FpData FpOps FpExamples SchData SymData CheckFix SymCheck FpCheck CheckSpec RuleSpec RuleFacts RuleFix KlcFacts.
Open Scope string_scope. Open Scope list_scope.

(** The report about a footprint is a flat list, and it holds the findings of the rule table
    whose conditions are met, each once, in the order of the table. *)
Theorem C79_footprint : forall c m,
  (exists l, fp_check c m = map Item l) /\ forall l, fp_check c m = map Item l <-> reported (footprint_rules c m) l.
Proof. exact (fun c m => conj (footprint_some c m) (footprint_report c m)). Qed.
Print Assumptions C79_footprint.
Example C79_footprint_ex : exists l, fp_check klc ex_module = map Item l /\
  map (fun i => (it_section i, it_rule i, it_info i)) l
  = [(7, 3, false); (7, 3, false); (7, 3, true); (7, 4, false); (7, 4, false); (7, 3, true); (7, 4, false); (7, 5, false)]%Z.
Proof.
  destruct (footprint_some klc ex_module) as (l & E). exists l. split; [exact E|].
  assert (A : all_findings (fp_check klc ex_module) = l).
  { rewrite E. clear E. induction l as [|i l IH]; [reflexivity|]. cbn. unfold all_findings in IH. now rewrite IH. }
  rewrite <- A. vm_compute. reflexivity.
Qed.

(** The settings the programs check with: fonts of exactly one millimetre, drawn with the number nearest to
    0.15 millimetres (half the distance between neighbouring numbers there is [2^-56]). *)
Theorem C79_settings : is_finite (cg_font_size klc) = true /\ B2R (cg_font_size klc) = 1%R /\ is_finite (cg_font_thickness klc) = true /\
  (Rabs (B2R (cg_font_thickness klc) - 15 / 100) <= / 2 * bpow radix2 (-55))%R.
Proof. exact klc_settings. Qed.
Print Assumptions C79_settings.

(** A table gives one report. *)
Theorem C79_one_report : forall r l l', reported r l -> reported r l' -> l = l'.
Proof. exact reported_fun. Qed.
Print Assumptions C79_one_report.

(** The report about a symbol: the characters of its name, then field by field, then (unless
    it is a power or graphics symbol) drawing by drawing; several findings about one thing
    are put in a list. *)
Theorem C79_symbol : forall s ds, symbol_check s = ds <-> symbol_report s ds.
Proof. exact symbol_exact. Qed.
Print Assumptions C79_symbol.
Definition r_field (i d : Z) (vis : bool) : sfield := mk_sfield i (lit "U") fzero fzero d Horizontal vis SJCenter SJCenter false false (lit "").
Definition r_symbol : symbol :=
  mk_symbol (lit "~LM 358") (lit "U") fzero true true 1 false false [r_field 0 50 false; r_field 1 60 false; r_field 2 50 false] []
    [DPin (mk_pin (lit "IN") (lit "7") 300 5 150 PRight 50 50 1 1 PTInput true PSLine); DRect (mk_rect 0 0 100 100 1 1 6 FillFg); DOther (lit "T")].
Example C79_symbol_ex : map (fun d => match d with Item i => [it_message i] | More l => map it_message (all_findings l) end) (symbol_check r_symbol)
  = [[lit "Invalid char ' ' at 2 in 'LM 358'"]; [lit "reference field should be visible for normal symbols"];
     [lit "field text is not 50mil"; lit "value field should be visible for normal symbols"];
     [lit "pin y not on 100mil grid"]; [lit "Rectangle is not filled"; lit "Rectangle is not using a 10mil line"]].
Proof. vm_compute. reflexivity. Qed.

(** The fixed footprint is exactly the one described by [fixed_as]: place for place the old
    elements, the first text of each kind as the rules want it, and at the end the label, the
    attribute and the four lines of the courtyard if they are missing. *)
Theorem C79_fix : forall c m m', fp_fix c m = Ok m' <-> fixed_as c m m'.
Proof. exact fix_iff. Qed.
Print Assumptions C79_fix.
Theorem C79_fix_one : forall c m, exists m', fixed_as c m m' /\ forall x, fixed_as c m x -> x = m'.
Proof. exact fixed_one. Qed.
Print Assumptions C79_fix_one.
Definition r_fixed : module := match fp_fix klc ex_module with Ok m => m | _ => ex_module end.
Definition kind (e : element) : Z := match e with EFpText _ => 1 | EFpLine _ => 2 | EPad _ => 3 | EAttr _ => 4 | _ => 0 end%Z.
Example C79_fix_ex : fixed_as klc ex_module r_fixed
  /\ map kind (skipn (length (m_elements ex_module)) (m_elements r_fixed)) = [1; 2; 2; 2; 2]%Z.
Proof.
  split; [|vm_compute; reflexivity]. apply fix_iff. unfold r_fixed. destruct (FixFacts.fix_total klc ex_module) as (m' & E). rewrite E. reflexivity.
Qed.

(** ** C38: the sections are numbered as they are listed in the rule book, with its names. *)
Theorem C38_section_names : forall n s,
  (exists k, klc_number k = Z.of_nat (S n) /\ klc_show k = s) <-> option_map lit (nth_error section_names n) = Some s.
Proof. exact section_show. Qed.
Print Assumptions C38_section_names.
Example C38_section_names_ex : exists k, klc_number k = 9%Z /\ klc_show k = lit "Rules for Through-hole Footprints".
Proof. apply (C38_section_names 8). reflexivity. Qed.
