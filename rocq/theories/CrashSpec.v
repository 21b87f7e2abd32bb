(** Specification: the texts at which the readers of schematics and symbol libraries
    panic (C41).  Reading goes from the front, so everything before the place is in
    order; what follows it does not matter. *)
From Coq Require Import String.
From Verif Require Import Base Str Num F64 F64Text LibSpec CutSpec SchData SchReadSpec SymData SymReadSpec.
Open Scope string_scope. Open Scope list_scope.

(** ** Schematics *)
(** The text ends inside a section: a beginning of one, with lines missing. *)
Definition unfinished (l : list str) : Prop := l <> [] /\ exists m s, m <> [] /\ section_text (l ++ m) s.
(** The letters for vertical justification, italic and bold, less than three *)
Definition style_short (w : str) : Prop :=
  w = [] \/ exists c j, In (c, j) justifications /\ (w = [c] \/ exists d b, In (d, b) [(73%N, true); (78%N, false)] /\ w = [c; d]).
Definition names_field (n : nat) (v : list str) (i : Z) : Prop := length v = S n \/ (length v = n /\ exists k, In (i, k) usual_names).
(** A field of a component in which a letter is missing, in order up to there *)
Definition field_short (s : str) : Prop :=
  exists v i, line_words s v /\ at_int v 1 i /\ names_field 10 v i /\
    (at_word v 3 [] \/
     exists o x y z b, at_char v 3 0 orientations o /\ at_num v 4 x /\ at_num v 5 y /\ at_int v 6 z /\ at_name v 7 [("0000", true); ("0001", false)] b /\
       (at_word v 8 [] \/ exists h w, at_char v 8 0 justifications h /\ at_word v 9 w /\ style_short w)).
(** A global or hierarchical label without thickness *)
Definition text_short (s : str) : Prop :=
  exists v t x y o z, ws_words s v /\ length v = 8%nat /\ at_word v 0 (lit "Text") /\ at_name v 1 [("GLabel", TGlobal); ("HLabel", THier)] t /\
    at_int v 2 x /\ at_int v 3 y /\ at_int v 4 o /\ at_int v 5 z.
Inductive section_crash : list str -> Prop :=
| sc_blank s r : ws_words s [] -> section_crash (s :: r)
| sc_ends l : unfinished l -> section_crash l
| sc_field a l p s r : begins_with a "$Comp" -> comp_parts l p -> begins_with s "F" -> field_short s -> section_crash (a :: l ++ s :: r)
| sc_text s r : text_short s -> section_crash (s :: r).
(** Nothing follows the list of libraries, or a section goes wrong. *)
Definition schematic_crash (ls : list str) : Prop :=
  exists libs rest, ls = lit "EESchema Schematic File Version 2" :: map (fun l => lit "LIBS:" ++ l) libs ++ rest /\
    (rest = [] \/
     exists e body secs last, rest = e :: lit "EELAYER END" :: body ++ last /\ starts_with (lit "EELAYER ") e = true /\ sections body secs /\ section_crash last).

(** ** Symbol libraries *)
Definition sfield_short (s : str) : Prop :=
  starts_with (lit "F") s = true /\
  exists v i n, line_words s v /\ at_word v 0 (lit "F" ++ i) /\ i64_of_str i = Some n /\ names_field 9 v n /\
    exists x y z, at_num v 2 x /\ at_num v 3 y /\ at_int v 4 z /\
    (at_word v 5 [] \/
     exists o b, at_char v 5 0 orientations o /\ at_name v 6 (yes_no "V" "I") b /\
       (at_word v 7 [] \/ exists h w, at_char v 7 0 justifications h /\ at_word v 8 w /\ style_short w)).
Definition def_line (d : str) : Prop :=
  exists v x b1 b2 n b3 b4, line_words d v /\ length v = 10%nat /\ at_word v 0 (lit "DEF") /\ at_num v 4 x /\ at_name v 5 (yes_no "Y" "N") b1 /\
    at_name v 6 (yes_no "Y" "N") b2 /\ at_int v 7 n /\ at_name v 8 (yes_no "L" "F") b3 /\ at_name v 9 (yes_no "P" "N") b4.
(** After the fields: the end, an empty line, a field in which a letter is missing, or
    a list of footprints that does not end or after which nothing follows *)
Inductive after_fields : list str -> Prop :=
| af_end : after_fields []
| af_empty r : after_fields ([] :: r)
| af_field s r : sfield_short s -> after_fields (s :: r)
| af_open m : ~ In (lit "$ENDFPLIST") m -> after_fields (lit "$FPLIST" :: m)
| af_list m : ~ In (lit "$ENDFPLIST") m -> after_fields (lit "$FPLIST" :: m ++ [lit "$ENDFPLIST"]).
Inductive symbol_crash : list str -> Prop :=
| sy_alone a : symbol_crash [a; lit "#"]
| sy_fields_crash a d fl fs r : def_line d -> Forall2 sfield_line fl fs -> after_fields r -> symbol_crash (a :: lit "#" :: d :: fl ++ r).
(** Symbols in order, then one that goes wrong *)
Inductive symbols_crash : list str -> Prop :=
| syc_here l : symbol_crash l -> hd_error l <> Some (lit "#End Library") -> symbols_crash l
| syc_more l y r : symbol_text l y -> hd_error l <> Some (lit "#End Library") -> symbols_crash r -> symbols_crash (l ++ r).
Definition library_crash (ls : list str) : Prop :=
  exists r, ls = lit "EESchema-LIBRARY Version 2.3" :: lit "#encoding utf-8" :: lit "#" :: r /\ symbols_crash r.
