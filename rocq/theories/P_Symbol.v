(** Property theorems: symbol library text round trip (C10), crashes of the symbol
    library reader (C41), the pins of a symbol (C45), finding and renaming symbols
    (C46). *)
From Coq Require Import String.
From Verif Require Import Base Str StrFacts Num F64 SchData SchPrint SchParse SchTotal SymData SymPrint SymParse SymWf SymFacts SymReread SymOps SymSpec SymTotal.
Open Scope string_scope. Open Scope list_scope.

(** ** C10 *)
(** [symbol_lib_ok] (SymWf.v) lists the libraries the text format can hold. *)
Theorem C10_symbol_round_trip : forall l, symbol_lib_ok l = true ->
  exists t, print_symbol_lib l = Ok t /\ parse_symbol_lib t = Ok l.
Proof. exact rt_library. Qed.
Print Assumptions C10_symbol_round_trip.

Definition sy_field (i : Z) (v n : string) : sfield :=
  mk_sfield i (lit v) (f64_of_Z 100) fzero 50 Vertical true SJLeft SJCenter true false (lit n).
Definition sy_pin (name number : string) (vis : bool) (s : pin_shape) : pin :=
  mk_pin (lit name) (lit number) (-300) 100 200 PRight 50 50 1 1 PTPowerInput vis s.
Definition ex_symbol : symbol :=
  mk_symbol (lit "~LM358") (lit "U") (f64_of_Z 40) true false 2 true false
    [sy_field 0 "U" "Reference"; sy_field 1 "LM 358" "Value"; sy_field 4 "a b" "Part No"]
    [lit "LM2904"; lit "TL072"]
    [DPin (sy_pin "VCC" "8" true PSLine); DPin (sy_pin "~CS" "A1" false PSInvertedClock); DRect (mk_rect (-10) 20 30 40 1 1 10 FillBg);
     DOther (lit "P 4 0 1 0 0 0 0 0 N")].
Definition ex_power : symbol :=
  mk_symbol (lit "GND") (lit "#PWR") fzero true true 1 false true [sy_field 0 "#PWR" "Reference"; sy_field 1 "GND" "Value"] [] [DPin (sy_pin "GND" "1" false PSLine)].
Example C10_ex : symbol_lib_ok [ex_symbol; ex_power] = true. Proof. vm_compute. reflexivity. Qed.
Example C10_ex_lines : exists t, print_symbol_lib [ex_symbol; ex_power] = Ok t /\
  forallb (fun x => existsb (str_eqb x) (lines t))
   [lit "DEF ~LM358 U 0 40 Y N 2 L N"; lit "ALIAS LM2904 TL072"; lit "X VCC 8 -300 100 200 R 50 50 1 1 W";
    lit "X ~CS A1 -300 100 200 R 50 50 1 1 W NCI"; lit "S -10 20 30 40 1 1 10 f"; lit "X GND 1 -300 100 200 R 50 50 1 1 W N";
    lit "F4 " ++ quoted (lit "a b") ++ lit " 100 0 50 V V L CIN " ++ quoted (lit "Part No")] = true.
Proof. eexists. split; vm_compute; reflexivity. Qed.

(** What was read can be written and read again, unless it is one of the values
    [symbol_lib_clean] excludes. *)
Theorem C10_symbol_reread : forall t l, parse_symbol_lib t = Ok l -> symbol_lib_clean l = true ->
  exists t', print_symbol_lib l = Ok t' /\ parse_symbol_lib t' = Ok l.
Proof. exact reread_library. Qed.
Print Assumptions C10_symbol_reread.
Lemma ok_if {A} (P : A -> bool) (r : res A) : match r with Ok a => P a | _ => false end = true -> exists a, r = Ok a /\ P a = true.
Proof. destruct r as [a| |]; try discriminate. eauto. Qed.
(** Reading and writing again *)
Definition rewrite_lib (t : str) : res str := do l <- parse_symbol_lib t; print_symbol_lib l.
Definition sy_header : list str := [lit "EESchema-LIBRARY Version 2.3"; lit "#encoding utf-8"; lit "#"].
Definition sy_f0 : str := lit "F0 " ++ quoted (lit "U") ++ lit " 0  1.50 50 H V C CNN".
Definition sy_f1 : str := lit "F1 " ++ quoted (lit "LM 358") ++ lit " 0 1 50 H I C CNN".
Definition sy_end : list str := [lit "DRAW"; lit "X A 1 0 0 100 U 50 50 1 1 I"; lit "T 0 0 text"; lit "ENDDRAW"; lit "ENDDEF"; lit "#"].
Example C10_reread_ex : exists t l, parse_symbol_lib t = Ok l /\ symbol_lib_clean l = true /\ print_symbol_lib l <> Ok t.
Proof.
  set (t := (unlines (sy_header ++ [lit "# any"; lit "#"; lit "DEF  LM358 U 7 40 Y Y 1 F N"; sy_f0; sy_f1] ++ sy_end ++ [lit "#End Library"; lit "junk"]))).
  destruct (ok_if (fun l => symbol_lib_clean l && match print_symbol_lib l with Ok u => negb (str_eqb u t) | _ => false end) (parse_symbol_lib t)) as (l & H & C);
    [vm_compute; reflexivity|].
  apply andb_prop in C as [C D]. exists t, l. split; [exact H|]. split; [exact C|]. intros E. rewrite E, str_eqb_refl in D. discriminate.
Qed.

(** *** Outside the domain the round trip fails. *)
(** A library with a bold field is written to a text that cannot be read: bold is
    written as "I" and looked for as "B". *)
Definition bold_field : sfield := mk_sfield 1 (lit "x") fzero fzero 50 Horizontal true SJLeft SJLeft false true (lit "Value").
Definition one_symbol (f : sfield) (d : list draw) : symbol :=
  mk_symbol (lit "A") (lit "U") fzero true true 1 false false [sy_field 0 "U" "Reference"; f] [] d.
Definition unreadable (t : str) : bool := match parse_symbol_lib t with Err EOther => true | _ => false end.
Lemma unreadable_eq t : unreadable t = true -> parse_symbol_lib t = Err EOther.
Proof. unfold unreadable. destruct (parse_symbol_lib t) as [|[]|]; try discriminate. reflexivity. Qed.
Theorem C10_bold_refuted : exists t t', rewrite_lib t = Ok t' /\ parse_symbol_lib t' = Err EOther.
Proof.
  set (t := unlines (sy_header ++ [lit "# x"; lit "#"; lit "DEF A U 0 0 Y Y 1 F N"; sy_f0; lit "F1 " ++ quoted (lit "x") ++ lit " 0 0 50 H V L LNB"]
                   ++ sy_end ++ [lit "#End Library"])).
  destruct (ok_if unreadable (rewrite_lib t)) as (t' & H & C); [vm_compute; reflexivity|].
  exists t, t'. split; [exact H|]. now apply unreadable_eq.
Qed.
Print Assumptions C10_bold_refuted.
(** A new symbol has no fields and writing it aborts; so does writing what was read
    from a file with one field only. *)
Theorem C10_new_symbol_refuted : print_symbol_lib [symbol_new (lit "A") (lit "U")] = Panic.
Proof. vm_compute. reflexivity. Qed.
Print Assumptions C10_new_symbol_refuted.
Theorem C10_one_field_refuted : exists t l, parse_symbol_lib t = Ok l /\ print_symbol_lib l = Panic.
Proof.
  set (t := unlines (sy_header ++ [lit "# x"; lit "#"; lit "DEF A U 0 0 Y Y 1 F N"; sy_f0] ++ sy_end ++ [lit "#End Library"])).
  destruct (ok_if (fun l => match print_symbol_lib l with Panic => true | _ => false end) (parse_symbol_lib t)) as (l & H & C);
    [vm_compute; reflexivity|].
  exists t, l. split; [exact H|]. now destruct (print_symbol_lib l).
Qed.
Print Assumptions C10_one_field_refuted.
(** The footprint filter list and the third word of a DEF line are dropped when a
    text is read and written again. *)
Definition sy_text (third : string) (fplist : list str) : str :=
  unlines (sy_header ++ [lit "# x"; lit "#"; lit "DEF A U " ++ lit third ++ lit " 0 Y Y 1 F N"; sy_f0; sy_f1] ++ fplist ++ sy_end ++ [lit "#End Library"]).
Theorem C10_dropped_refuted : exists t,
  rewrite_lib (sy_text "0" []) = Ok t /\ rewrite_lib (sy_text "9" []) = Ok t /\
  rewrite_lib (sy_text "0" [lit "$FPLIST"; lit " SOIC*"; lit "$ENDFPLIST"]) = Ok t.
Proof.
  set (a := sy_text "0" []). set (b := sy_text "9" []). set (c := sy_text "0" [lit "$FPLIST"; lit " SOIC*"; lit "$ENDFPLIST"]).
  assert (E : match rewrite_lib a, rewrite_lib b, rewrite_lib c with Ok x, Ok y, Ok z => str_eqb x y && str_eqb x z | _, _, _ => false end = true)
    by (vm_compute; reflexivity).
  destruct (rewrite_lib a) as [x| |], (rewrite_lib b) as [y| |], (rewrite_lib c) as [z| |]; try discriminate.
  apply andb_prop in E as [E F]. apply str_eqb_eq in E, F. subst y z. now exists x.
Qed.
Print Assumptions C10_dropped_refuted.
(** A pin name read from quotes is written without: the text cannot be read. *)
Theorem C10_pin_name_refuted : exists s p t, sy_draw s = [DPin p] /\ symbol_ok (one_symbol (sy_field 1 "x" "Value") []) = true /\
  print_symbol_lib [s] = Ok t /\ parse_symbol_lib t = Err EOther.
Proof.
  set (s := one_symbol (sy_field 1 "x" "Value") [DPin (sy_pin "a b" "1" true PSLine)]).
  destruct (ok_if unreadable (print_symbol_lib [s])) as (t & H & C); [vm_compute; reflexivity|].
  exists s. eexists. exists t. split; [reflexivity|]. split; [reflexivity|]. split; [exact H|]. now apply unreadable_eq.
Qed.
Print Assumptions C10_pin_name_refuted.
(** The name of a field with number 0 to 3 is not written. *)
Definition sy_field_names (r : res (list symbol)) : list str :=
  match r with Ok l => flat_map (fun s => map sf_name (sy_fields s)) l | _ => [] end.
Theorem C10_field_name_refuted : exists l t, print_symbol_lib l = Ok t /\
  sy_field_names (Ok l) = [lit "Reference"; lit "MPN"] /\ sy_field_names (parse_symbol_lib t) = [lit "Reference"; lit "Value"].
Proof.
  exists [one_symbol (sy_field 1 "x" "MPN") []]. eexists. split; [vm_compute; reflexivity|]. split; vm_compute; reflexivity.
Qed.
Print Assumptions C10_field_name_refuted.

(** ** C41 (symbol library reader) *)
(** The claim is false: texts on which the reader aborts. *)
Definition sym_aborts (l : list str) : Prop := parse_symbol_lib (unlines (sy_header ++ l)) = Panic.
Theorem C41_symbol_refuted :
  sym_aborts [lit "# x"; lit "#"] /\
  sym_aborts [lit "# x"; lit "#"; lit "DEF A U 0 0 Y Y 1 F N"] /\
  sym_aborts [lit "# x"; lit "#"; lit "DEF A U 0 0 Y Y 1 F N"; []] /\
  sym_aborts [lit "# x"; lit "#"; lit "DEF A U 0 0 Y Y 1 F N"; lit "F0 U 0 0 50 H V C CN"] /\
  sym_aborts [lit "# x"; lit "#"; lit "DEF A U 0 0 Y Y 1 F N"; lit "$FPLIST"; lit "x"].
Proof. vm_compute. repeat split. Qed.
Print Assumptions C41_symbol_refuted.
(** Otherwise the reader returns a value or an error: no blank lines, letter groups
    of full length, closed footprint lists and the end line ([sym_calm], SymSpec.v). *)
Theorem C41_symbol_calm : forall t, sym_calm t = true -> parse_symbol_lib t <> Panic.
Proof. exact np_library. Qed.
Print Assumptions C41_symbol_calm.
Example C41_symbol_calm_ex :
  sym_calm (sy_text "0" [lit "$FPLIST"; lit " SOIC*"; lit "$ENDFPLIST"]) = true /\
  sym_calm (unlines (sy_header ++ [lit "# x"; lit "#"; lit "DEF A U"; lit "F0 U 0"; lit "$ENDFPLIST"; lit "#End Library"])) = true.
Proof. vm_compute. auto. Qed.
Theorem C41_symbol_total : forall t, parse_symbol_lib t <> Err EFuel.
Proof. exact nf_library. Qed.
Print Assumptions C41_symbol_total.

(** ** C45 (pins) *)
(** The pins are the pin drawings, in order, and nothing else. *)
Theorem C45_pins : forall s, picks (fun d p => d = DPin p) (fun d => forall p, d <> DPin p) (sy_draw s) (pins s).
Proof. exact pins_picks. Qed.
Print Assumptions C45_pins.
Example C45_pins_ex : map pn_name (pins ex_symbol) = [lit "VCC"; lit "~CS"] /\ length (sy_draw ex_symbol) = 4%nat.
Proof. split; reflexivity. Qed.

(** ** C46: finding and renaming *)
(** [find] gives the first symbol that fits and nothing only if none fits. *)
Theorem C46_find : forall f l, match lib_find f l with
  | Some s => exists a b, l = a ++ s :: b /\ f s = true /\ forallb (fun x => negb (f x)) a = true
  | None => forallb (fun x => negb (f x)) l = true
  end.
Proof. exact find_spec. Qed.
Print Assumptions C46_find.
Example C46_find_ex : lib_find (fun s => str_eqb (sy_name s) (lit "GND")) [ex_symbol; ex_power; ex_power] = Some ex_power /\
  lib_find (fun s => str_eqb (sy_name s) (lit "R")) [ex_symbol; ex_power] = None.
Proof. split; reflexivity. Qed.
(** Renaming sets the name (behind the tilde, if there is one) and the value field
    and changes nothing else ([renamed], SymSpec.v). *)
Theorem C46_set_name : forall name s s', set_name name s = Ok s' -> renamed name s s'.
Proof. exact set_name_spec. Qed.
Print Assumptions C46_set_name.
Theorem C46_set_name_total : forall name s, sy_name s <> [] -> (2 <= length (sy_fields s))%nat -> exists s', set_name name s = Ok s'.
Proof. exact set_name_total. Qed.
Print Assumptions C46_set_name_total.
Example C46_set_name_ex : exists s', set_name (lit "LM324") ex_symbol = Ok s' /\ sy_name s' = lit "~LM324".
Proof. eexists. split; reflexivity. Qed.
(** These are all cases: it renames exactly so, and aborts exactly without a name or a
    second field. *)
Theorem C46_set_name_exact : forall name s s', set_name name s = Ok s' <-> sy_name s <> [] /\ renamed name s s'.
Proof. exact set_name_iff. Qed.
Print Assumptions C46_set_name_exact.
Theorem C46_set_name_abort : forall name s, set_name name s = Panic <-> sy_name s = [] \/ (length (sy_fields s) < 2)%nat.
Proof. exact set_name_panic. Qed.
Print Assumptions C46_set_name_abort.
(** It aborts on a new symbol. *)
Theorem C46_new_refuted : exists name s, s = symbol_new (lit "A") (lit "U") /\ set_name name s = Panic.
Proof. exists (lit "B"), (symbol_new (lit "A") (lit "U")). split; reflexivity. Qed.
Print Assumptions C46_new_refuted.
(** The basic parts are inductors, resistors, capacitors and diodes, by name. *)
Theorem C46_basic : forall s, sym_is_basic s = true <-> In (sy_name s) [lit "L"; lit "R"; lit "C"; lit "D"].
Proof. exact basic_spec. Qed.
Print Assumptions C46_basic.
Example C46_basic_ex : sym_is_basic (symbol_new (lit "C") (lit "C")) = true /\ sym_is_basic (symbol_new (lit "CP") (lit "C")) = false.
Proof. split; reflexivity. Qed.
