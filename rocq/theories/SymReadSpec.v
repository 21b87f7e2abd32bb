(** Specification: which texts are symbol libraries, and what they mean (C71). *)
From Coq Require Import String.
From Verif Require Import Base Str Num F64 F64Text LibSpec CutSpec SchData SchReadSpec SymData.
Open Scope string_scope. Open Scope list_scope.

(** ** Names *)
Definition fills : list (string * fill) := [("F", FillFg); ("f", FillBg); ("N", FillNone)].
Definition pin_orientations : list (string * pin_orientation) := [("U", PUp); ("D", PDown); ("L", PLeft); ("R", PRight)].
Definition pin_types : list (string * pin_type) :=
  [("I", PTInput); ("O", PTOutput); ("B", PTBidi); ("T", PTTristate); ("P", PTPassive); ("U", PTUnspecified); ("W", PTPowerInput); ("w", PTPowerOutput);
   ("C", PTOpenCollector); ("E", PTOpenEmitter); ("N", PTNotConnected)].
Definition pin_shapes : list (string * pin_shape) :=
  [("", PSLine); ("I", PSInverted); ("C", PSClock); ("CI", PSInvertedClock); ("L", PSInputLow); ("CL", PSClockLow); ("V", PSOutputLow);
   ("F", PSFallingEdgeClock); ("X", PSNonLogic)].
(** A shape, with an N before it when the pin is hidden; an empty word hides it as well. *)
Definition shape_word (w : str) (visible : bool) (shape : pin_shape) : Prop :=
  exists k, In (k, shape) pin_shapes /\ ((w = lit k /\ visible = negb (String.eqb k "")) \/ (w = lit "N" ++ lit k /\ visible = false)).
Definition yes_no (t f : string) : list (string * bool) := [(t, true); (f, false)].

(** ** Lines *)
Definition sfield_line (s : str) (f : sfield) : Prop :=
  exists v i, starts_with (lit "F") s = true /\ line_words s v /\ at_word v 0 (lit "F" ++ i) /\ i64_of_str i = Some (sf_i f) /\ at_word v 1 (sf_value f) /\
    at_num v 2 (sf_x f) /\ at_num v 3 (sf_y f) /\ at_int v 4 (sf_dim f) /\ at_char v 5 0 orientations (sf_orient f) /\
    at_name v 6 (yes_no "V" "I") (sf_visible f) /\ at_char v 7 0 justifications (sf_hjust f) /\ at_char v 8 0 justifications (sf_vjust f) /\
    at_char v 8 1 [(73%N, true); (78%N, false)] (sf_italic f) /\ at_char v 8 2 [(66%N, true); (78%N, false)] (sf_bold f) /\
    ((length v = 10%nat /\ at_word v 9 (sf_name f)) \/ (length v = 9%nat /\ exists k, In (sf_i f, k) usual_names /\ sf_name f = lit k)).
Definition pin_line (s : str) (p : pin) : Prop :=
  exists v, line_words s v /\ at_word v 1 (pn_name p) /\ at_word v 2 (pn_number p) /\ at_int v 3 (pn_x p) /\ at_int v 4 (pn_y p) /\ at_int v 5 (pn_len p) /\
    at_name v 6 pin_orientations (pn_orient p) /\ at_int v 7 (pn_num_size p) /\ at_int v 8 (pn_name_size p) /\ at_int v 9 (pn_unit p) /\ at_int v 10 (pn_convert p) /\
    at_name v 11 pin_types (pn_type p) /\
    ((length v = 13%nat /\ exists w, at_word v 12 w /\ shape_word w (pn_visible p) (pn_shape p)) \/ (length v = 12%nat /\ pn_visible p = true /\ pn_shape p = PSLine)).
Definition rect_line (s : str) (r : rectangle) : Prop :=
  exists v, line_words s v /\ length v = 9%nat /\ at_int v 1 (rc_x1 r) /\ at_int v 2 (rc_y1 r) /\ at_int v 3 (rc_x2 r) /\ at_int v 4 (rc_y2 r) /\
    at_int v 5 (rc_unit r) /\ at_int v 6 (rc_convert r) /\ at_int v 7 (rc_thickness r) /\ at_name v 8 fills (rc_fill r).
Inductive drawing : str -> draw -> Prop :=
| dr_pin s p : starts_with (lit "X ") s = true -> pin_line s p -> drawing s (DPin p)
| dr_rect s r : starts_with (lit "S ") s = true -> rect_line s r -> drawing s (DRect r)
| dr_other s : starts_with (lit "X ") s = false -> starts_with (lit "S ") s = false -> drawing s (DOther s).

(** ** Symbols *)
(** The list of footprints, of which nothing is kept *)
Inductive fplist : list str -> Prop :=
| fp_none : fplist []
| fp_lines m : ~ In (lit "$ENDFPLIST") m -> fplist (lit "$FPLIST" :: m ++ [lit "$ENDFPLIST"]).
Inductive alias_lines : list str -> list str -> Prop :=
| al_none : alias_lines [] []
| al_line s w l : starts_with (lit "ALIAS") s = true -> line_words s (w :: l) -> alias_lines [s] l.
Inductive symbol_text : list str -> symbol -> Prop :=
| sym_lines a d v fl fp al dl y :
    line_words d v -> length v = 10%nat -> at_word v 0 (lit "DEF") -> at_word v 1 (sy_name y) -> at_word v 2 (sy_reference y) -> at_num v 4 (sy_text_offset y) ->
    at_name v 5 (yes_no "Y" "N") (sy_pinnumber y) -> at_name v 6 (yes_no "Y" "N") (sy_pinname y) -> at_int v 7 (sy_unit_count y) ->
    at_name v 8 (yes_no "L" "F") (sy_unit_locked y) -> at_name v 9 (yes_no "P" "N") (sy_is_power y) ->
    Forall2 sfield_line fl (sy_fields y) -> fplist fp -> alias_lines al (sy_aliases y) -> Forall2 drawing dl (sy_draw y) -> ~ In (lit "ENDDRAW") dl ->
    symbol_text (a :: lit "#" :: d :: fl ++ fp ++ al ++ lit "DRAW" :: dl ++ [lit "ENDDRAW"; lit "ENDDEF"; lit "#"]) y.
(** Symbols up to the end of the text or the closing line; what follows the closing
    line is not looked at. *)
Inductive symbols_text : list str -> list symbol -> Prop :=
| sy_eof : symbols_text [] []
| sy_close r : symbols_text (lit "#End Library" :: r) []
| sy_more l y r ys : symbol_text l y -> hd_error l <> Some (lit "#End Library") -> symbols_text r ys -> symbols_text (l ++ r) (y :: ys).
Definition library_text (ls : list str) (l : list symbol) : Prop :=
  exists r, ls = lit "EESchema-LIBRARY Version 2.3" :: lit "#encoding utf-8" :: lit "#" :: r /\ symbols_text r l.
