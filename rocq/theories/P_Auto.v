(** Property theorems: it does not matter when a document is saved while it is edited (C127). *)
From Coq Require Import String Relations.
From Verif Require Import Base Str StrFacts Num F64 Sexp FpData FpFacts FpExamples FpOps Bound CheckFix FpCheck LyData LyWf LyOps Formatter FormatterSpec DocSpec DocText KeepSpec
  SchData SchPrint SchParse SchWf SchEnds SchOps SymData SymPrint SymParse SymWf SymOps ResaveSpec ResaveLySpec AutoSpec P_Formatter P_Exact P_Schematic P_Symbol P_Resave AutoFacts.
Open Scope string_scope. Open Scope list_scope.

(** ** C127 *)
(** Open a footprint that can be saved and opened again.  Edit it, saving and opening it again as often and
    whenever you like ([work_module], AutoSpec.v): no step fails, and the file and the box at the end are
    those of the edits alone.  [change_safe]: new texts hold no quote, new elements can be saved. *)
Theorem C127_module : forall nq s m n m' l, quote_contract nq -> parse_module s = Ok m -> parse_module (module_to_string nq m n) = Ok m' ->
  (forall ch, In ch (edits_of l) -> change_safe ch = true) ->
  exists f g, work_module nq m l = Ok f /\ change_all m (edits_of l) = Ok g /\ (forall k, module_to_string nq f k = module_to_string nq g k) /\ module_bound f = module_bound g.
Proof. exact work_module_same. Qed.
Print Assumptions C127_module.
(** The same for boards, whose edits may stop with an error: they do so at the same places. *)
Theorem C127_layout : forall nq s l n l' cs, quote_contract nq -> parse_layout s = Ok l -> parse_layout (layout_to_string nq l n) = Ok l' ->
  (forall ch, In ch (edits_of cs) -> board_safe ch) ->
  exists f, work_board nq l cs = Ok (f, snd (board_all l (edits_of cs))) /\ (forall k, layout_to_string nq f k = layout_to_string nq (fst (board_all l (edits_of cs))) k)
  /\ layout_bound f = layout_bound (fst (board_all l (edits_of cs))).
Proof. exact work_board_same. Qed.
Print Assumptions C127_layout.
(** For schematics that survive saving: every history of edits and saves ends well, in a schematic that
    the edits lead to without any save. *)
Theorem C127_schematic : forall fn t s r, parse_schematic fn t = Ok s -> sch_clean s = true -> sch_history s r -> exists s', r = Ok s' /\ clos_refl_trans _ sch_edit s s'.
Proof. exact sch_history_same. Qed.
Print Assumptions C127_schematic.

(** The same for symbol libraries, in which symbols get other names. *)
Theorem C127_library : forall l t r, print_symbol_lib l = Ok t -> parse_symbol_lib t = Ok l -> lib_history l r -> exists l', r = Ok l' /\ clos_refl_trans _ lib_edit l l'.
Proof. exact lib_history_same. Qed.
Print Assumptions C127_library.

(** A quote in a new reference makes it matter: the file saved after the edit cannot be opened. *)
Definition quoting : list (act change) := [Edit (Reference (lit "a") (lit "a""b")); Save 0].
Definition breaks (m m' : module) : bool := negb (is_ok (work_module quote_special m quoting)).
Lemma quoting_breaks : match once text_turned with Some (m, m') => breaks m m' | None => false end = true.
Proof. vm_compute. reflexivity. Qed.
Theorem C127_module_refuted : exists nq s m m' l, quote_contract nq /\ parse_module s = Ok m /\ parse_module (module_to_string nq m 0) = Ok m' /\ is_ok (work_module nq m l) = false.
Proof.
  destruct (once_spec text_turned breaks quoting_breaks) as (m & m' & H & R & B). exists quote_special, text_turned, m, m', quoting.
  split; [exact quote_special_ok|]. split; [exact H|]. split; [exact R|]. unfold breaks in B. destruct (is_ok _); [discriminate B|reflexivity].
Qed.
Print Assumptions C127_module_refuted.

(** A footprint that saving changes, with saves before, between and after edits *)
Definition acts : list (act change) := [Edit (Rotate (fl "90")); Save 0; Edit Flip; Save 1; Save 0; Edit (Fix klc); Edit (Move (fl "3") (fl "-2")); Save 2; Edit (Reference (lit "REF**") (lit "R1"))].
Example C127_ex_module : forallb change_safe (edits_of acts) = true /\ match once text_turned with
  | Some (m, m') => match work_module quote_special m acts, change_all m edits with
    | Ok f, Ok g => negb (module_saves m) && Nat.ltb (length (m_elements m)) (length (m_elements f)) && Nat.ltb 300 (length (module_to_string quote_special g 0))
                    && str_eqb (module_to_string quote_special f 0) (module_to_string quote_special g 0)
    | _, _ => false end
  | None => false
  end = true.
Proof. split; vm_compute; reflexivity. Qed.
Definition board_acts : list (act board_change) := flat_map (fun e => [Edit e; Save 0]) board_edits.
Example C127_ex_layout : (forall ch, In ch (edits_of board_acts) -> board_safe ch) /\ match parse_layout text_board with
  | Ok l => match work_board quote_special l board_acts with
    | Ok (f, [None; None; Some EOther; None; Some EOther; None; None]) => negb (layout_saves l) && layout_saves f
          && str_eqb (layout_to_string quote_special f 0) (layout_to_string quote_special (fst (board_all l board_edits)) 0)
    | _ => false end
  | _ => false
  end = true.
Proof.
  split; [|vm_compute; reflexivity].
  assert (R : forall s, no_quote s = true -> no_quote (fst (refuse s)) = true).
  { intros s H. cbn [refuse fst]. unfold no_quote in *. rewrite forallb_app, H. reflexivity. }
  change (edits_of board_acts) with board_edits. intros ch I. cbn [board_edits In] in I.
  destruct I as [<-|[<-|[<-|[<-|[<-|[<-|[<-|[]]]]]]]]; cbn [board_safe]; try exact R; try exact I; try reflexivity; try (split; reflexivity).
  split; [discriminate|split; reflexivity].
Qed.
Definition first_edit (c : component) : component := update_reference c (lit "R99").
Definition refs (s : schematic) : list str := flat_map (fun e => match e with SComponent c => [co_reference c] | _ => [] end) (sc_elements s).
Example C127_ex_schematic : sch_history ex_sch (Ok (SchOps.modify_components ex_sch first_edit)) /\ sch_ok ex_sch = true
  /\ refs (SchOps.modify_components ex_sch first_edit) <> refs ex_sch.
Proof.
  assert (O : sch_ok ex_sch = true) by (vm_compute; reflexivity).
  split; [|split; [exact O|intros H; vm_compute in H; discriminate H]].
  apply sh_next with ex_sch; [rewrite <- (rt_schematic ex_sch O); apply sw_save|].
  apply sh_next with (SchOps.modify_components ex_sch first_edit); [|apply sh_done].
  apply sw_edit. apply he_all. intros c _. apply rt_step. apply ce_reference. reflexivity.
Qed.
Example C127_ex_library : symbol_lib_ok ([ex_power] ++ ex_symbol :: []) = true /\
  exists s', set_name (lit "LM2904") ex_symbol = Ok s' /\ str_eqb (sy_name s') (sy_name ex_symbol) = false /\ lib_history ([ex_power] ++ ex_symbol :: []) (Ok ([ex_power] ++ s' :: [])).
Proof.
  split; [vm_compute; reflexivity|].
  assert (K : match set_name (lit "LM2904") ex_symbol with Ok s' => negb (str_eqb (sy_name s') (sy_name ex_symbol)) | _ => false end = true) by (vm_compute; reflexivity).
  destruct (set_name (lit "LM2904") ex_symbol) as [s'|k|] eqn:E; [|discriminate K..]. exists s'. split; [reflexivity|].
  split; [now apply negb_true_iff in K|]. apply lh_next with ([ex_power] ++ s' :: []); [|apply lh_done].
  apply lw_edit. apply li_rename with (lit "LM2904"); [reflexivity|exact E].
Qed.
