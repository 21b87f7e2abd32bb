(** Examples for the meaning of documents (C69). *)
From Coq Require Import String Lia.
From Verif Require Import Base Str Num F64 F64Text Sexp DecSpec FpData FpLayer FpDe LyData LyDe GramSpec GramRead GramWit MeanSpec MeanFacts MeanBoard.
Open Scope string_scope. Open Scope list_scope.

(** A line whose end stands before its start *)
Definition swapped : sexp :=
  node "module" [a_lit "R"; node "fp_line" [node "end" [a_lit "3"; a_lit "4"]; node "start" [a_lit "1"; a_lit "2"]; node "layer" [a_lit "F.Cu"]; node "width" [a_lit "1"]]].
Definition starts_at (t : string) (m : module) : bool :=
  match m_elements m with [EFpLine l] => feqb (xy_x (li_start l)) (flit t) | _ => false end.
Lemma order_matters : exists s m, de_module s = Ok m /\ m <> module_of s.
Proof.
  exists swapped. assert (K : match de_module swapped with Ok m => starts_at "1" m | _ => true end = false) by (vm_compute; reflexivity).
  destruct (de_module swapped) as [m| |] eqn:E; [|discriminate K|discriminate K]. exists m. split; [reflexivity|]. intros ->.
  assert (S : starts_at "1" (module_of swapped) = true) by (vm_compute; reflexivity). rewrite S in K. discriminate K.
Qed.

(** A board with hardly anything in it, its parts in unusual order *)
Definition bare_board : sexp :=
  node "kicad_pcb" [node "net_class" [a_lit "Default"; a_lit "all"; node "add_net" [a_lit "GND"]; node "clearance" [a_lit "1"]; node "clearance" [a_lit "2"]]; node "target" [a_lit "x"]; node "page" [a_lit "A3"]].
Lemma bare_follows : follows (g_board readable) bare_board.
Proof.
  apply fo_named; [reflexivity|]. apply fa_rep with (g := g_net_class readable); [cbn; tauto| |apply fa_rep with (g := Named (fun s => ~ exists k, In k board_names /\ s = lit k) [Rep [Any]]); [cbn; tauto| |apply fa_rep with (g := fld "page" text); [cbn; tauto| |apply fa_end, fa_nil]]].
  - apply fo_named; [reflexivity|]. apply fa_one; [now apply fo_word|]. apply fa_one; [now apply fo_word|].
    apply fa_rep with (g := fld "add_net" text); [cbn; tauto| |]. { apply fo_named; [reflexivity|]. apply fa_one; [now apply fo_word|apply fa_nil]. }
    apply fa_rep with (g := fld "clearance" (num readable)); [cbn; tauto| |]. { named. apply fa_one; [nm|apply fa_nil]. }
    apply fa_rep with (g := fld "clearance" (num readable)); [cbn; tauto| |]. { named. apply fa_one; [nm|apply fa_nil]. }
    apply fa_end, fa_nil.
  - apply fo_named; [|eapply fa_rep; [now left|apply fo_any|apply fa_end, fa_nil] ]. intros (k & I & E). cbn [In board_names] in I. repeat destruct I as [<-|I]; try contradiction; discriminate E.
  - apply fo_named; [reflexivity|]. apply fa_one; [now apply fo_word|apply fa_nil].
Qed.
