(** Specification: what the error says when a schematic or a symbol library is refused
    (C95, C96).  A line has to meet a list of demands; the first one that is not met is
    the one complained about.  Some cannot be complained about: not meeting them is a
    panic. *)
From Coq Require Import String.
From Verif Require Import Base Str Num F64 F64Text LibSpec CutSpec SchData SchReadSpec SymData SymReadSpec OutSpec.
Open Scope string_scope. Open Scope list_scope.

(** ** Demands *)
(** What is demanded, and the complaint ([None]: a panic) *)
Definition must : Type := Prop * option str.
Definition met (m : must) : Prop := fst m.
Inductive blamed : list must -> option str -> Prop :=
| bl_here P m r : ~ P -> blamed ((P, m) :: r) m
| bl_later (P : Prop) m r x : P -> blamed r x -> blamed ((P, m) :: r) x.

Definition word (v : list str) (i : nat) : str := nth i v [].
Definition m_int (s : str) (v : list str) (i : nat) : must := (exists z, at_int v i z, Some (lit "int parse error in " ++ word v i ++ lit "; line: " ++ s)).
Definition m_num (s : str) (v : list str) (i : nat) : must := (exists x, at_num v i x, Some (lit "float parse error in " ++ word v i ++ lit "; line: " ++ s)).
Definition m_count (n : nat) (s : str) (v : list str) : must := ((n <= length v)%nat, Some (lit "expecting " ++ show_Z (Z.of_nat n) ++ lit " elements in " ++ s)).
(** A word, or a letter of one, that is in a table *)
Definition m_name {A} (t : list (string * A)) (before : string) (v : list str) (i : nat) (after : str) : must :=
  (exists a, at_name v i t a, Some (lit before ++ word v i ++ after)).
Definition m_letter {A} (t : list (N * A)) (before : string) (v : list str) (i j : nat) (after : str) : list must :=
  [((j < length (word v i))%nat, None); (exists a, at_char v i j t a, Some (lit before ++ [nth j (word v i) 0%N] ++ after))].
Definition or_else (t f : str) : str := lit ", expected " ++ t ++ lit " or " ++ f.
Definition m_bool (t f : string) (v : list str) (i : nat) : must := m_name (yes_no t f) "unknown boolean " v i (or_else (lit t) (lit f)).
Definition m_flag (t f : N) (v : list str) (i j : nat) : list must := m_letter [(t, true); (f, false)] "unknown boolean " v i j (or_else [t] [f]).
Definition m_orientation (v : list str) (i : nat) : list must := m_letter orientations "unknown orientation " v i 0 [].
Definition m_justify (v : list str) (i j : nat) : list must := m_letter justifications "unexpected justify: " v i j [].
(** A field has a name of its own behind its [n] parts, or a usual one; [w] is its number *)
Definition m_field_name (n : nat) (v : list str) (w : str) : must :=
  (length v = S n \/ (exists i k, i64_of_str w = Some i /\ In (i, k) usual_names), Some (lit "expecting name for componentfield > 3")).

(** ** Lines *)
Definition checker : Type := str -> list must -> Prop.
Definition by_quotes (f : str -> list str -> list must) : checker := fun s d => exists v, line_words s v /\ d = f s v.
Definition by_blanks (f : str -> list str -> list must) : checker := fun s d => exists v, ws_words s v /\ d = f s v.
Definition as_is (f : str -> list must) : checker := fun s d => d = f s.
Definition fails (c : checker) (s : str) (m : option str) : Prop := exists d, c s d /\ blamed d m.
Definition passes (c : checker) (s : str) : Prop := exists d, c s d /\ Forall met d.
(** Lines one after the other; a panic if there are too few *)
Inductive runs : list checker -> list str -> option str -> Prop :=
| rn_few c cs : runs (c :: cs) [] None
| rn_here c cs s r m : fails c s m -> runs (c :: cs) (s :: r) m
| rn_later c cs s r m : passes c s -> runs cs r m -> runs (c :: cs) (s :: r) m.
Definition free : checker := as_is (fun _ => []).
Definition ints (s : str) (v : list str) (l : list nat) : list must := map (m_int s v) l.

(** Four numbers *)
Definition four_line : checker := by_blanks (fun s v => (length v = 4%nat, Some (lit "expecting 4 elements in " ++ s)) :: ints s v [0; 1; 2; 3]%nat).
Definition wire_lines : list checker := [by_blanks (fun s v => [(length v = 3%nat, Some (lit "expecting 3 elements in " ++ s))]); four_line].
Definition point_lines : list checker := [by_blanks (fun s v => (length v = 4%nat, Some (lit "expecting 4 elements in " ++ s)) :: ints s v [2; 3]%nat)].
(** The thickness of a label is behind its shape; without it, a panic *)
Definition m_thickness (s : str) (v : list str) : list must :=
  [(at_word v 1 (lit "Label") \/ at_word v 1 (lit "Notes") \/ (8 < length v)%nat, None);
   ((at_word v 1 (lit "Label") \/ at_word v 1 (lit "Notes") -> exists z, at_int v 7 z) /\ (at_word v 1 (lit "GLabel") \/ at_word v 1 (lit "HLabel") -> exists z, at_int v 8 z),
    Some (lit "int parse error in " ++ word v (if str_eqb (word v 1) (lit "Label") || str_eqb (word v 1) (lit "Notes") then 7 else 8) ++ lit "; line: " ++ s))].
Definition text_lines_of : list checker :=
  [by_blanks (fun s v => (8 <= length v, Some (lit "expecting 8 or 9 elements in " ++ s))%nat ::
     m_name text_kinds "Unknown text type " v 1 (lit " at " ++ s) :: ints s v [2; 3; 4; 5]%nat ++ m_thickness s v); free].
Definition named_checks (k : string) : checker :=
  by_quotes (fun s v => [m_count 2 s v; (at_word v 0 (lit k), Some (lit "expecting: " ++ lit k ++ lit ", actually: " ++ word v 0))]).
Definition descr_lines_of : list checker :=
  [by_quotes (fun s v => m_count 4 s v :: ints s v [2; 3]%nat); free;
   by_quotes (fun s v => m_count 3 s v :: (at_word v 0 (lit "Sheet"), Some (lit "Expecting 'Sheet'")) :: ints s v [1; 2]%nat);
   named_checks "Title"; named_checks "Date"; named_checks "Rev"; named_checks "Comp"; named_checks "Comment1"; named_checks "Comment2";
   named_checks "Comment3"; named_checks "Comment4";
   as_is (fun s => [(s = lit "$EndDescr", Some (lit "expecting: $EndDescr, actually: " ++ s))])].

(** ** Components and sheets *)
Definition field_checks : checker :=
  by_quotes (fun s v => (length v = 10 \/ length v = 11, Some (lit "expecting 10 or 11 parts got " ++ show_Z (Z.of_nat (length v)) ++ lit " in " ++ s))%nat ::
    m_int s v 1 :: m_field_name 10 v (word v 1) :: m_orientation v 3 ++ [m_num s v 4; m_num s v 5; m_int s v 6; m_bool "0000" "0001" v 7] ++
    m_justify v 8 0 ++ m_justify v 9 0 ++ m_flag 73 78 v 9 1 ++ m_flag 66 78 v 9 2).
Inductive comp_line_fails : str -> option str -> Prop :=
| clf_name s m : begins_with s "L" -> fails (by_quotes (fun s v => [m_count 3 s v])) s m -> comp_line_fails s m
| clf_pos s m : begins_with s "P" -> fails (by_quotes (fun s v => m_count 3 s v :: ints s v [1; 2]%nat)) s m -> comp_line_fails s m
| clf_field s m : begins_with s "F" -> fails field_checks s m -> comp_line_fails s m.
(** Where the lines of a component stop *)
Inductive comp_stops : list str -> option str -> Prop :=
| cs_end : comp_stops [] None
| cs_line s r m : comp_line_fails s m -> comp_stops (s :: r) m
| cs_turn s r m : begins_with s "1" \/ begins_with s "0" -> runs [four_line] r m -> comp_stops (s :: r) m.
Definition label_checks : checker :=
  by_quotes (fun s v => m_count 7 s v :: m_name [("I", FInput); ("O", FOutput); ("B", FBiDi); ("T", FTriState); ("U", FUnspecified)] "unknown labelform " v 2 [] ::
    m_name [("L", DLeft); ("R", DRight); ("T", DTop); ("B", DBottom)] "unknown labelside " v 3 [] :: ints s v [4; 5; 6]%nat).
Inductive sheet_line_fails : str -> option str -> Prop :=
| slf_box s m : begins_with s "S" -> fails (by_quotes (fun s v => m_count 5 s v :: ints s v [1; 2; 3; 4]%nat)) s m -> sheet_line_fails s m
| slf_unique s m : begins_with s "U" -> fails (by_quotes (fun s v => [m_count 2 s v])) s m -> sheet_line_fails s m
| slf_number s i : begins s (70%N :: i) -> i64_of_str i = None -> sheet_line_fails s (Some (lit "int parse error in " ++ i ++ lit "; line: " ++ s))
| slf_name s i k m : begins s (70%N :: i) -> i64_of_str i = Some k -> k = 0%Z \/ k = 1%Z ->
    fails (by_quotes (fun s v => [m_count 3 s v; m_int s v 2])) s m -> sheet_line_fails s m
| slf_label s i k m : begins s (70%N :: i) -> i64_of_str i = Some k -> k <> 0%Z -> k <> 1%Z -> fails label_checks s m -> sheet_line_fails s m.
Inductive sheet_stops : list str -> option str -> Prop :=
| hs_end : sheet_stops [] None
| hs_line s r m : sheet_line_fails s m -> sheet_stops (s :: r) m.

(** ** The whole text *)
Definition single_kinds : list (string * list checker) :=
  [("$Descr", descr_lines_of); ("Wire", wire_lines); ("Connection", point_lines); ("NoConn", point_lines); ("Text", text_lines_of)].
Inductive section_fails : list str -> option str -> Prop :=
| sf_blank s r : ws_words s [] -> section_fails (s :: r) None
| sf_lines s r k cs m : begins_with s k -> In (k, cs) single_kinds -> runs cs (s :: r) m -> section_fails (s :: r) m
| sf_comp s l p r m : begins_with s "$Comp" -> comp_parts l p -> comp_stops r m -> section_fails (s :: l ++ r) m
| sf_sheet s l p r m : begins_with s "$Sheet" -> Forall2 sheet_line_text l p -> ~ In (lit "$EndSheet") l -> sheet_stops r m -> section_fails (s :: l ++ r) m.
(** Fixed lines *)
Inductive wants : list string -> list str -> str -> Prop :=
| wt_none k ks : wants (k :: ks) [] (lit "end of file reached")
| wt_other k ks s r : s <> lit k -> wants (k :: ks) (s :: r) (lit "expected '" ++ lit k ++ lit "', got '" ++ s ++ lit "'")
| wt_next k ks r m : wants ks r m -> wants (k :: ks) (lit k :: r) m.
Definition libraries (libs : list str) : list str := lit "EESchema Schematic File Version 2" :: map (fun l => lit "LIBS:" ++ l) libs.
Inductive refused : list str -> option str -> Prop :=
| rf_first ls m : wants ["EESchema Schematic File Version 2"] ls m -> refused ls (Some m)
| rf_ends libs : refused (libraries libs) None
| rf_layer libs s r : starts_with (lit "LIBS:") s = false -> starts_with (lit "EELAYER ") s = false ->
    refused (libraries libs ++ s :: r) (Some (lit "expecting EELAYER, got " ++ s))
| rf_layers libs e r m : starts_with (lit "EELAYER ") e = true -> wants ["EELAYER END"] r m -> refused (libraries libs ++ e :: r) (Some m)
| rf_section libs e a secs b m : starts_with (lit "EELAYER ") e = true -> sections a secs -> section_fails b m -> refused (heading libs e ++ a ++ b) m.

(** ** Symbol libraries *)
Definition m_parts (P : Prop) (s : str) : must := (P, Some (lit "unexpected elements in " ++ s)).
(** The number of a field stands behind the F *)
Definition m_number (s w : str) : must := (exists i, i64_of_str w = Some i, Some (lit "int parse error in " ++ w ++ lit "; line: " ++ s)).
Definition sfield_checks : checker :=
  by_quotes (fun s v => m_parts (length v = 9 \/ length v = 10)%nat s :: m_number s (tl (word v 0)) :: m_field_name 9 v (tl (word v 0)) ::
    [m_num s v 2; m_num s v 3; m_int s v 4] ++ m_orientation v 5 ++ [m_bool "V" "I" v 6] ++ m_justify v 7 0 ++ m_justify v 8 0 ++ m_flag 73 78 v 8 1 ++ m_flag 66 78 v 8 2).
(** The complaint about a shape leaves out a leading N *)
Definition shown_shape (w : str) : str := match w with 78%N :: r => r | _ => w end.
Definition m_shape (v : list str) : must :=
  (length v = 13%nat -> exists b k, shape_word (word v 12) b k, Some (lit "unknown pinshape " ++ shown_shape (word v 12))).
Definition pin_checks : checker :=
  by_quotes (fun s v => m_parts (length v = 12 \/ length v = 13)%nat s :: ints s v [3; 4; 5]%nat ++ m_name pin_orientations "unknown pin orientation " v 6 [] ::
    ints s v [7; 8; 9; 10]%nat ++ [m_name pin_types "unknown pin type " v 11 []; m_shape v]).
Definition rect_checks : checker :=
  by_quotes (fun s v => m_parts (length v = 9%nat) s :: ints s v [1; 2; 3; 4; 5; 6; 7]%nat ++ [m_name fills "unknown fill type " v 8 []]).
Definition def_checks : checker :=
  by_quotes (fun s v => m_parts (length v = 10%nat) s :: (at_word v 0 (lit "DEF"), Some (lit "expecting: DEF, actually: " ++ word v 0)) ::
    [m_num s v 4; m_bool "Y" "N" v 5; m_bool "Y" "N" v 6; m_int s v 7; m_bool "L" "F" v 8; m_bool "P" "N" v 9]).
(** The fields: a panic at an empty line and at the end *)
Inductive fields_stop : list str -> option str -> Prop :=
| fs_end : fields_stop [] None
| fs_empty r : fields_stop ([] :: r) None
| fs_line s r m : starts_with (lit "F") s = true -> fails sfield_checks s m -> fields_stop (s :: r) m.
Inductive drawing_fails : str -> option str -> Prop :=
| df_pin s m : starts_with (lit "X ") s = true -> fails pin_checks s m -> drawing_fails s m
| df_rect s m : starts_with (lit "S ") s = true -> fails rect_checks s m -> drawing_fails s m.
(** Behind the fields and the list of footprints *)
Inductive body_fails : list str -> option str -> Prop :=
| bf_draw s r m : starts_with (lit "ALIAS") s = false -> wants ["DRAW"] (s :: r) m -> body_fails (s :: r) (Some m)
| bf_alias s r m : starts_with (lit "ALIAS") s = true -> wants ["DRAW"] r m -> body_fails (s :: r) (Some m)
| bf_line al l dl ds s r m : alias_lines al l -> Forall2 drawing dl ds -> ~ In (lit "ENDDRAW") dl -> drawing_fails s m -> body_fails (al ++ lit "DRAW" :: dl ++ s :: r) m
| bf_open al l dl ds : alias_lines al l -> Forall2 drawing dl ds -> ~ In (lit "ENDDRAW") dl -> body_fails (al ++ lit "DRAW" :: dl) (Some (lit "end of file reached"))
| bf_close al l dl ds r m : alias_lines al l -> Forall2 drawing dl ds -> ~ In (lit "ENDDRAW") dl -> wants ["ENDDEF"; "#"] r m ->
    body_fails (al ++ lit "DRAW" :: dl ++ lit "ENDDRAW" :: r) (Some m).
Inductive symbol_fails : list str -> option str -> Prop :=
| yf_mark a r m : wants ["#"] r m -> symbol_fails (a :: r) (Some m)
| yf_ends a : symbol_fails [a; lit "#"] None
| yf_def a d r m : fails def_checks d m -> symbol_fails (a :: lit "#" :: d :: r) m
| yf_fields a d fl fs r m : passes def_checks d -> Forall2 sfield_line fl fs -> fields_stop r m -> symbol_fails (a :: lit "#" :: d :: fl ++ r) m
| yf_open a d fl fs r : passes def_checks d -> Forall2 sfield_line fl fs -> ~ In (lit "$ENDFPLIST") r -> symbol_fails (a :: lit "#" :: d :: fl ++ lit "$FPLIST" :: r) None
| yf_last a d fl fs r : passes def_checks d -> Forall2 sfield_line fl fs -> ~ In (lit "$ENDFPLIST") r ->
    symbol_fails (a :: lit "#" :: d :: fl ++ lit "$FPLIST" :: r ++ [lit "$ENDFPLIST"]) None
| yf_listed a d fl fs x r m : passes def_checks d -> Forall2 sfield_line fl fs -> ~ In (lit "$ENDFPLIST") x -> body_fails r m ->
    symbol_fails (a :: lit "#" :: d :: fl ++ lit "$FPLIST" :: x ++ lit "$ENDFPLIST" :: r) m
| yf_body a d fl fs s r m : passes def_checks d -> Forall2 sfield_line fl fs -> s <> [] -> starts_with (lit "F") s = false -> s <> lit "$FPLIST" -> body_fails (s :: r) m ->
    symbol_fails (a :: lit "#" :: d :: fl ++ s :: r) m.
(** Symbols that can be read *)
Inductive whole : list str -> list symbol -> Prop :=
| wh_none : whole [] []
| wh_more l y r ys : symbol_text l y -> hd_error l <> Some (lit "#End Library") -> whole r ys -> whole (l ++ r) (y :: ys).
Definition library_head : list string := ["EESchema-LIBRARY Version 2.3"; "#encoding utf-8"; "#"].
Inductive lib_refused : list str -> option str -> Prop :=
| lr_head ls m : wants library_head ls m -> lib_refused ls (Some m)
| lr_symbol a ys b m : whole a ys -> symbol_fails b m -> hd_error b <> Some (lit "#End Library") -> lib_refused (map lit library_head ++ a ++ b) m.
