(** Property theorems: schematic text round trip (C09) and crashes of the
    schematic reader (C41). *)
From Coq Require Import String.
From Verif Require Import Base Str Num F64 SchData SchPrint SchParse SchWf SchEnds SchReread SchSpec SchTotal.
Open Scope string_scope. Open Scope list_scope.

(** ** C09 *)
(** [sch_ok] (SchWf.v) lists the schematics the text format can hold. *)
Theorem C09_schematic_round_trip : forall s, sch_ok s = true ->
  parse_schematic (sc_filename s) (print_schematic s) = Ok s.
Proof. exact rt_schematic. Qed.
Print Assumptions C09_schematic_round_trip.

Definition ex_descr : description :=
  mk_descr (lit "A4") 11693 8268 (lit "main board") (lit "9 jun 2015") [] (lit "P & Co") [] [] [] (lit "x") 1 2.
Definition ex_field (i : Z) (v n : string) : cfield :=
  mk_cfield i (lit v) Horizontal (f64_of_Z 100) fzero 50 true SJLeft SJCenter false true (lit n).
Definition ex_comp : component :=
  mk_comp (lit "R") (lit "R3") (lit "U 1 1 5A1B") 1250 (-300) [lit "AR Path=x"]
    [ex_field 0 "R3" "Reference"; ex_field 1 "4k7 1%" "Value"; ex_field 4 "a b" "Part No"] (mk_rotation 1 0 0 (-1)).
Definition ex_sheet : sheet :=
  mk_sheet 10 20 300 400 (lit "5A1C") (lit "power supply") 60 (lit "ps.sch") 60
    [mk_slabel (lit "VIN 2") FInput DLeft 10 30 60; mk_slabel (lit "VOUT") FTriState DBottom 10 40 60].
Definition ex_sch : schematic :=
  mk_sch (Some (lit "d/top.sch")) [lit "power"; lit "my lib"] ex_descr
    [SWire (mk_wire WBus 1 2 3 4); SComponent ex_comp; SConnection (mk_spoint 5 6); SNoConnect (mk_spoint (-1) 0);
     SText (mk_stext TGlobal 1 2 0 60 (Some (lit "BiDi")) true 0 (lit "a net"));
     SText (mk_stext TNote 1 2 0 60 None false 12 (lit "hello  world")); SOther (lit "Entry Wire Line")]
    [ex_sheet] (lit "EELAYER 25 0").
Example C09_ex : sch_ok ex_sch = true. Proof. vm_compute. reflexivity. Qed.
Example C09_ex_lines :
  forallb (fun x => existsb (str_eqb x) (sch_lines ex_sch))
   [lit "EESchema Schematic File Version 2"; lit "LIBS:my lib"; lit "L R R3";
    lit "F 4 " ++ quoted (lit "a b") ++ lit " H 100 0   50  0000 L CNB " ++ quoted (lit "Part No");
    lit "F0 " ++ quoted (lit "power supply") ++ lit " 60"] = true.
Proof. vm_compute. reflexivity. Qed.

(** What was read can be written and read again, unless it is one of the values
    [sch_clean] excludes. *)
Theorem C09_schematic_reread : forall fn t s, parse_schematic fn t = Ok s -> sch_clean s = true ->
  parse_schematic fn (print_schematic s) = Ok s.
Proof. exact reread_schematic. Qed.
Print Assumptions C09_schematic_reread.
Example C09_reread_ex : exists t s, parse_schematic None t = Ok s /\ sch_clean s = true /\ print_schematic s <> t.
Proof.
  exists (unlines [lit "EESchema Schematic File Version 2"; lit "EELAYER 25 0"; lit "EELAYER END"; lit "$Descr A4 10  20 portrait";
    lit "x"; lit "Sheet 1 1"; lit "Title " ++ quoted (lit "t"); lit "Date d"; lit "Rev " ++ quoted []; lit "Comp " ++ quoted [];
    lit "Comment1 " ++ quoted []; lit "Comment2 " ++ quoted []; lit "Comment3 " ++ quoted []; lit "Comment4 " ++ quoted []; lit "$EndDescr";
    lit "NoConn ~ 3 4"; lit "Connection   ~ 1 2"]).
  eexists. split; [vm_compute; reflexivity|]. split; [reflexivity|vm_compute; discriminate].
Qed.

(** *** Outside the domain the round trip fails. *)
(** The default schematic: the written file has no EELAYER line. *)
Theorem C09_default_refuted : parse_schematic None (print_schematic sch_default) = Err EOther.
Proof. vm_compute. reflexivity. Qed.
Print Assumptions C09_default_refuted.
(** A new sheet (default values) gives an unreadable file. *)
Definition wit_sch (e : list selement) (h : list sheet) : schematic :=
  mk_sch None [] ex_descr e h (lit "EELAYER 25 0").
Theorem C09_new_sheet_refuted : sch_ok (wit_sch [] []) = true /\
  parse_schematic None (print_schematic (wit_sch [] [sheet_default])) = Err EOther.
Proof. vm_compute. auto. Qed.
Print Assumptions C09_new_sheet_refuted.
(** The name of a field with number 0 to 3 is not written: it comes back as the
    standard name. *)
Definition names_of (r : res schematic) : list str :=
  match r with Ok s => flat_map (fun c => map cf_name (co_fields c)) (own (sc_elements s)) | _ => [] end.
Definition with_one (f : cfield) : component :=
  mk_comp (lit "R") (lit "R3") (lit "U 1 1 5A1B") 0 0 [] [f] (mk_rotation 1 0 0 (-1)).
Theorem C09_field_name_refuted : exists s n, names_of (Ok s) = [n] /\
  names_of (parse_schematic None (print_schematic s)) = [lit "Value"] /\ n <> lit "Value".
Proof.
  exists (wit_sch [SComponent (with_one (ex_field 1 "x" "MPN"))] []), (lit "MPN"). split; [reflexivity|]. split; [vm_compute; reflexivity|discriminate].
Qed.
Print Assumptions C09_field_name_refuted.
(** A quote in a field value: the file cannot be read, or holds another value. *)
Definition values_of (r : res schematic) : list str :=
  match r with Ok s => flat_map (fun c => map cf_value (co_fields c)) (own (sc_elements s)) | _ => [] end.
Definition quote_field (v : str) : cfield :=
  mk_cfield 1 v Horizontal fzero fzero 50 true SJLeft SJCenter false true (lit "Value").
Theorem C09_quote_refuted : 
  (exists v, parse_schematic None (print_schematic (wit_sch [SComponent (with_one (quote_field v))] [])) = Err EOther) /\
  (exists v w, values_of (parse_schematic None (print_schematic (wit_sch [SComponent (with_one (quote_field v))] []))) = [w] /\ w <> v).
Proof.
  split.
  - exists (lit "3" ++ [34%N] ++ lit " x"). vm_compute. reflexivity.
  - exists (lit "3" ++ [34%N; 34%N] ++ lit "x"), (lit "3x"). vm_compute. split; [reflexivity|discriminate].
Qed.
Print Assumptions C09_quote_refuted.

(** ** C41 (schematic reader) *)
(** The claim is false: texts on which the reader aborts. *)
Definition header : list str := [lit "EESchema Schematic File Version 2"; lit "EELAYER 25 0"; lit "EELAYER END"].
Definition aborts (l : list str) : Prop := parse_schematic None (unlines (header ++ l)) = Panic.
Theorem C41_schematic_refuted :
  parse_schematic None (unlines [lit "EESchema Schematic File Version 2"]) = Panic /\
  aborts [[]] /\
  aborts [lit "$Comp"] /\
  aborts [lit "$Sheet"] /\
  aborts [lit "$Descr A4 1 2"] /\
  aborts [lit "Wire Wire Line"] /\
  aborts [lit "Text GLabel 1 2 0 60 BiDi ~"] /\
  aborts [lit "$Comp"; lit "F 0 " ++ quoted [] ++ lit " H 0 0 60 0000 C CN"; lit "$EndComp"].
Proof. vm_compute. repeat split. Qed.
Print Assumptions C41_schematic_refuted.
(** Otherwise the reader returns a value or an error: no blank lines, blocks that
    are closed, letter groups of full length ([calm], SchSpec.v). *)
Theorem C41_schematic_calm : forall fn t, calm t = true -> parse_schematic fn t <> Panic.
Proof. exact np_parse. Qed.
Print Assumptions C41_schematic_calm.
Example C41_calm_ex : calm (print_schematic ex_sch) = true /\
  calm (unlines (header ++ [lit "$Comp"; lit "F garbage"; lit "$EndComp"; lit "what"; lit "Text GLabel"; lit "x"])) = true /\
  calm (unlines [lit "no schematic"; lit "at all"]) = true.
Proof. vm_compute. auto. Qed.
(** The bound on the reader's loop is never reached, so [EFuel] stands for no
    behaviour of the program. *)
Theorem C41_schematic_total : forall fn t, parse_schematic fn t <> Err EFuel.
Proof. exact nf_parse. Qed.
Print Assumptions C41_schematic_total.
