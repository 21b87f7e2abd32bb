(** Property theorems: saving schematics and symbol libraries settles after two
    times, not after one (C65). *)
From Coq Require Import String.
From Verif Require Import Base Str StrFacts Num F64 SchData SchPrint SchParse SchWf SymData SymPrint SymParse SymWf SettleText SettleSch SettleSym P_Schematic P_Symbol.
Open Scope string_scope. Open Scope list_scope.

(** ** C65 *)
(** Open a schematic, save it, open the result: this is from then on read back
    unchanged from its saved text.  [few_labels]: each sheet has fewer than 2^31 - 2
    labels (they are numbered). *)
Theorem C65_schematic : forall fn t s s2, parse_schematic fn t = Ok s -> ~ In 13%N (print_schematic s) ->
  forallb few_labels (sc_sheets s) = true -> parse_schematic fn (print_schematic s) = Ok s2 ->
  parse_schematic fn (print_schematic s2) = Ok s2.
Proof. exact settle_schematic. Qed.
Print Assumptions C65_schematic.
Theorem C65_symbol_lib : forall t l t2 l2, parse_symbol_lib t = Ok l -> print_symbol_lib l = Ok t2 -> ~ In 13%N t2 ->
  parse_symbol_lib t2 = Ok l2 -> exists t3, print_symbol_lib l2 = Ok t3 /\ parse_symbol_lib t3 = Ok l2.
Proof. exact settle_library. Qed.
Print Assumptions C65_symbol_lib.

(** One time is not enough: the quotes around a component name that holds a blank are
    not written again, and then its second word is read as the reference. *)
Definition odd_sch : str := print_schematic (wit_sch [SComponent (mk_comp (quoted (lit "a b")) (lit "R1") (lit "U 1 1 5A1B") 0 0 []
  [ex_field 0 "R1" "Reference"] (mk_rotation 1 0 0 (-1)))] [ex_sheet]).
Theorem C65_schematic_once_refuted : exists t u v, rounds save_sch 1 t = Ok u /\ rounds save_sch 2 t = Ok v /\ v <> u.
Proof.
  exists odd_sch. do 2 eexists. split; [vm_compute; reflexivity|]. split; [vm_compute; reflexivity|]. discriminate.
Qed.
Print Assumptions C65_schematic_once_refuted.
Definition odd_lib : str := unlines (sy_header ++ [lit "# x"; lit "#"; lit "DEF " ++ quoted (lit "A ") ++ lit " U 0 0 Y Y 1 F N"; sy_f0; sy_f1]
  ++ sy_end ++ [lit "#End Library"]).
Theorem C65_symbol_once_refuted : exists t u v, rounds save_lib 1 t = Ok u /\ rounds save_lib 2 t = Ok v /\ v <> u.
Proof.
  exists odd_lib. do 2 eexists. split; [vm_compute; reflexivity|]. split; [vm_compute; reflexivity|]. discriminate.
Qed.
Print Assumptions C65_symbol_once_refuted.
(** These texts meet the hypotheses above. *)
Definition calm13 (t : str) : bool := forallb (fun c => negb (c =? 13)%N) t.
Example C65_ex : match parse_schematic None odd_sch with
  | Ok s => calm13 (print_schematic s) && forallb few_labels (sc_sheets s) && negb (sch_clean s)
            && match parse_schematic None (print_schematic s) with Ok _ => true | _ => false end
  | _ => false
  end = true.
Proof. vm_compute. reflexivity. Qed.
Example C65_symbol_ex : match parse_symbol_lib odd_lib with
  | Ok l => match print_symbol_lib l with
    | Ok u => calm13 u && negb (symbol_lib_clean l) && match parse_symbol_lib u with Ok _ => true | _ => false end
    | _ => false end
  | _ => false
  end = true.
Proof. vm_compute. reflexivity. Qed.

(** With carriage returns in the saved text no number of times is enough. *)
Theorem C65_schematic_unbounded_refuted : forall n, exists t u v, rounds save_sch n t = Ok u /\ rounds save_sch (S n) t = Ok v /\ v <> u.
Proof. exact sch_unbounded. Qed.
Print Assumptions C65_schematic_unbounded_refuted.
Theorem C65_symbol_unbounded_refuted : forall n, exists t u v, rounds save_lib n t = Ok u /\ rounds save_lib (S n) t = Ok v /\ v <> u.
Proof. exact lib_unbounded. Qed.
Print Assumptions C65_symbol_unbounded_refuted.
Example C65_unbounded_ex : rounds save_sch 2 (print_schematic (cr_sch (lit "x" ++ [13; 13]%N))) = Ok (print_schematic (cr_sch (lit "x"))).
Proof. vm_compute. reflexivity. Qed.
