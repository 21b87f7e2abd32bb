(** Property theorems: exactly which texts are cut and read how (C11, C70, C71). *)
From Coq Require Import String.
From Verif Require Import Base Str Num F64 F64Text LibFns LibSpec CutSpec CutFacts SchData SchParse SchReadSpec SchReadFacts SymData SymParse SymReadSpec SymReadFacts SymOps NewSymFacts.
Open Scope string_scope. Open Scope list_scope.

(** ** C11 *)
(** Every line is cut, into exactly its words; an open quote runs to the end. *)
Theorem C11_exact : forall s v, split_quote_aware s = Ok v <-> line_words s v.
Proof. exact words_iff. Qed.
Print Assumptions C11_exact.
Theorem C11_total : forall s, exists v, line_words s v /\ split_quote_aware s = Ok v.
Proof. exact words_exist. Qed.
Print Assumptions C11_total.
Example C11_exact_ex : line_words (lit "a ""b c""d  ""e f") [lit "a"; lit "b cd"; lit "e f"].
Proof. apply C11_exact. vm_compute. reflexivity. Qed.
(** With a count, the first [k] words are those of the line, and a line with fewer words
    is an error. *)
Theorem C11_count_exact : forall k s w, line_words s w ->
  ((k <= length w)%nat /\ exists v, split_quote_aware_n k s = Ok v /\ forall i, (i < k)%nat -> nth_error v i = nth_error w i) \/
  ((length w < k)%nat /\ split_quote_aware_n k s = Err EOther).
Proof. exact n_words. Qed.
Print Assumptions C11_count_exact.
(** White space, and lines *)
Theorem C11_white : forall s v, split_ws s = v <-> ws_words s v.
Proof. exact ws_iff. Qed.
Print Assumptions C11_white.
Theorem C11_lines : forall s v, lines s = v <-> text_lines s v.
Proof. exact lines_iff. Qed.
Print Assumptions C11_lines.
Example C11_lines_ex : text_lines (lit "ab" ++ [13; 10; 10]%N ++ lit "c d") [lit "ab"; []; lit "c d"] /\ ws_words (lit " c" ++ [9]%N ++ lit "d ") [lit "c"; lit "d"].
Proof. split; [apply C11_lines|apply C11_white]; vm_compute; reflexivity. Qed.

(** ** C70 *)
(** A text is read as the schematic [c] exactly when it is made of the sections of a
    schematic and [c] is what they say. *)
Theorem C70_exact : forall fn s c, parse_schematic fn s = Ok c <-> exists ls, text_lines s ls /\ schematic_text fn ls c.
Proof. exact schematic_iff. Qed.
Print Assumptions C70_exact.
Theorem C70_one_meaning : forall fn ls c d, schematic_text fn ls c -> schematic_text fn ls d -> c = d.
Proof. exact schematic_fun. Qed.
Print Assumptions C70_one_meaning.
Definition sch_ex : list string :=
  ["EESchema Schematic File Version 2"; "LIBS:power"; "LIBS:device"; "EELAYER 25 0"; "EELAYER END";
   "$Comp"; "L R R1"; "U 1 1 5"; "P 10 -20"; "F 0 ""R1"" H 1.5 2 50  0000 C CNN"; "F 4 ""x y"" V 1 2 50  0001 L BIB ""MPN"""; "  1 10 -20"; "  0 1 1 0"; "P 30 40"; "$EndComp";
   "$Sheet"; "S 1 2 3 4"; "F0 ""name"" 55"; "F2 ""sig"" I L 5 6 7"; "note"; "$EndSheet";
   "Wire Bus Line"; "	1 2 3 4"; "Text GLabel 1 2 0 50 BiDi Italic 12"; "some text"; "$Bitmap"; "$EndSCHEMATC"].
Example C70_exact_ex : exists c, schematic_text None (map lit sch_ex) c /\
  match c with
  | mk_sch None [a; b] d [SComponent k; SWire w; SText t; SOther o] [h] e =>
      str_eqb (ds_title d) (lit "Normal") && (co_x k =? 30)%Z && (co_y k =? 40)%Z && str_eqb (co_name k) (lit "R") &&
      (match co_fields k, co_rotation k with [f; g], mk_rotation 0 1 1 0 => str_eqb (cf_name f) (lit "Reference") && feqb (cf_x f) (flit "1.5") && str_eqb (cf_value g) (lit "x y") && cf_italic g | _, _ => false end) &&
      (match wi_t w with WBus => true | _ => false end) && te_italic t && (te_thickness t =? 12)%Z && str_eqb (te_text t) (lit "some text") &&
      (sh_name_size h =? 55)%Z && (sh_filename_size h =? 60)%Z && (match sh_labels h with [mk_slabel _ FInput DLeft 5 6 7] => true | _ => false end) && str_eqb e (lit "EELAYER 25 0")
  | _ => false
  end = true.
Proof. apply sch_by. vm_compute. reflexivity. Qed.

(** ** C71 *)
Theorem C71_exact : forall s l, parse_symbol_lib s = Ok l <-> exists ls, text_lines s ls /\ library_text ls l.
Proof. exact library_iff. Qed.
Print Assumptions C71_exact.
Theorem C71_one_meaning : forall ls l m, library_text ls l -> library_text ls m -> l = m.
Proof. exact library_fun. Qed.
Print Assumptions C71_one_meaning.
(** C46: a new symbol is what is read from a definition without fields and drawings,
    with one unlocked unit, text offset 0, and neither pin numbers nor pin names shown. *)
Theorem C46_new : forall name reference a d,
  line_words d (lit "DEF" :: name :: reference :: map lit ["0"; "0"; "N"; "N"; "1"; "F"; "N"]) ->
  symbol_text [a; lit "#"; d; lit "DRAW"; lit "ENDDRAW"; lit "ENDDEF"; lit "#"] (symbol_new name reference).
Proof. exact new_symbol_text. Qed.
Print Assumptions C46_new.
Example C46_new_ex : line_words (lit "DEF LM741 U 0 0 N N 1 F N") (map lit ["DEF"; "LM741"; "U"; "0"; "0"; "N"; "N"; "1"; "F"; "N"]).
Proof. apply words_iff. vm_compute. reflexivity. Qed.
Definition lib_ex : list string :=
  ["EESchema-LIBRARY Version 2.3"; "#encoding utf-8"; "#"; "# anything"; "#"; "DEF R R 0 40 N Y 1 F N"; "F0 ""R"" 80 0 50 V V C CNN"; "F4 ""x"" 0 1 50 H I L TIB ""MPN""";
   "$FPLIST"; " R_*"; "$ENDFPLIST"; "ALIAS R1 R2"; "DRAW"; "S 1 2 3 4 0 1 10 f"; "X A 1 0 150 50 D 50 50 1 1 P"; "X B 2 0 150 50 U 50 50 1 1 W NCL"; "C 1 2 3"; "ENDDRAW"; "ENDDEF"; "#";
   "#End Library"; "not looked at"].
Example C71_exact_ex : exists l, library_text (map lit lib_ex) l /\
  match l with
  | [y] =>
      str_eqb (sy_name y) (lit "R") && feqb (sy_text_offset y) (flit "40") && negb (sy_pinnumber y) && sy_pinname y &&
      (match sy_fields y, sy_aliases y with [f; g], [a; b] => str_eqb (sf_name f) (lit "Reference") && str_eqb (sf_name g) (lit "MPN") && sf_bold g && str_eqb b (lit "R2") | _, _ => false end) &&
      (match sy_draw y with
       | [DRect (mk_rect 1 2 3 4 0 1 10 FillBg); DPin p; DPin q; DOther o] =>
           pn_visible p && negb (pn_visible q) && (match pn_shape q, pn_type q with PSClockLow, PTPowerInput => true | _, _ => false end) && str_eqb o (lit "C 1 2 3")
       | _ => false
       end)
  | _ => false
  end = true.
Proof. apply lib_by. vm_compute. reflexivity. Qed.
