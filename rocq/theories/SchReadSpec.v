(** Specification: which texts are schematics, and what they mean (C70).  A text is cut
    into sections; the meaning of a section is found by looking for its lines. *)
From Coq Require Import String.
From Verif Require Import Base Str Num F64 F64Text LibSpec CutSpec SchData.
Open Scope string_scope. Open Scope list_scope.

(** ** Words *)
Definition at_word (v : list str) (i : nat) (w : str) : Prop := nth_error v i = Some w.
Definition at_int (v : list str) (i : nat) (z : Z) : Prop := exists w, at_word v i w /\ i64_of_str w = Some z.
Definition at_num (v : list str) (i : nat) (x : f64) : Prop := exists w, at_word v i w /\ f64_of_str w = Some x.
(** The character [j] of the word [i] stands for [a]. *)
Definition at_char {A} (v : list str) (i j : nat) (t : list (N * A)) (a : A) : Prop := exists w c, at_word v i w /\ nth_error w j = Some c /\ In (c, a) t.
(** The word [i] stands for [a]. *)
Definition at_name {A} (v : list str) (i : nat) (t : list (string * A)) (a : A) : Prop := exists k, at_word v i (lit k) /\ In (k, a) t.
(** The first word of a line *)
Definition begins (s : str) (w : str) : Prop := exists v, ws_words s (w :: v).
Definition begins_with (s : str) (k : string) : Prop := begins s (lit k).
(** The last value in a list *)
Fixpoint last_of {A B} (f : A -> option B) (d : B) (l : list A) : B :=
  match l with [] => d | x :: r => last_of f (match f x with Some b => b | None => d end) r end.

(** ** Title block *)
Definition named_line (k : string) (s t : str) : Prop := exists v, line_words s v /\ at_word v 0 (lit k) /\ at_word v 1 t.
Inductive descr_text : list str -> description -> Prop :=
| descr_lines a va x b vb l_title l_date l_rev l_comp l1 l2 l3 l4 size dx dy sheet count title date rev comp c1 c2 c3 c4 :
    begins_with a "$Descr" ->
    line_words a va -> at_word va 1 size -> at_int va 2 dx -> at_int va 3 dy ->
    line_words b vb -> at_word vb 0 (lit "Sheet") -> at_int vb 1 sheet -> at_int vb 2 count ->
    named_line "Title" l_title title -> named_line "Date" l_date date -> named_line "Rev" l_rev rev -> named_line "Comp" l_comp comp ->
    named_line "Comment1" l1 c1 -> named_line "Comment2" l2 c2 -> named_line "Comment3" l3 c3 -> named_line "Comment4" l4 c4 ->
    descr_text [a; x; b; l_title; l_date; l_rev; l_comp; l1; l2; l3; l4; lit "$EndDescr"]
      (mk_descr size dx dy title date rev comp c1 c2 c3 c4 sheet count).

(** ** Components *)
Definition orientations : list (N * orientation) := [(72%N, Horizontal); (86%N, Vertical)].
Definition justifications : list (N * sjustify) := [(67%N, SJCenter); (82%N, SJRight); (76%N, SJLeft); (66%N, SJBottom); (84%N, SJTop)].
Definition usual_names : list (Z * string) := [(0%Z, "Reference"); (1%Z, "Value"); (2%Z, "Footprint"); (3%Z, "UserDocLink")].
Definition field_line (s : str) (f : cfield) : Prop :=
  exists v, line_words s v /\ at_int v 1 (cf_i f) /\ at_word v 2 (cf_value f) /\ at_char v 3 0 orientations (cf_orient f) /\
    at_num v 4 (cf_x f) /\ at_num v 5 (cf_y f) /\ at_int v 6 (cf_size f) /\ at_name v 7 [("0000", true); ("0001", false)] (cf_visible f) /\
    at_char v 8 0 justifications (cf_hjust f) /\ at_char v 9 0 justifications (cf_vjust f) /\
    at_char v 9 1 [(73%N, true); (78%N, false)] (cf_italic f) /\ at_char v 9 2 [(66%N, true); (78%N, false)] (cf_bold f) /\
    ((length v = 11%nat /\ at_word v 10 (cf_name f)) \/ (length v = 10%nat /\ exists k, In (cf_i f, k) usual_names /\ cf_name f = lit k)).
Inductive comp_part :=
| KName (name reference : str) | KUnit (s : str) | KPos (x y : Z) | KField (f : cfield) | KAr (s : str) | KTurn (r : rotation) | KNone.
Definition comp_words : list string := ["L"; "U"; "P"; "F"; "AR"; "1"; "0"].
Inductive comp_line : str -> comp_part -> Prop :=
| cl_name s v n r : begins_with s "L" -> line_words s v -> at_word v 1 n -> at_word v 2 r -> comp_line s (KName n r)
| cl_unit s : begins_with s "U" -> comp_line s (KUnit s)
| cl_pos s v x y : begins_with s "P" -> line_words s v -> at_int v 1 x -> at_int v 2 y -> comp_line s (KPos x y)
| cl_field s f : begins_with s "F" -> field_line s f -> comp_line s (KField f)
| cl_ar s : begins_with s "AR" -> comp_line s (KAr s)
| cl_none s : (forall k, In k comp_words -> ~ begins_with s k) -> comp_line s KNone.
Definition four_ints (s : str) (a b c d : Z) : Prop :=
  exists v, ws_words s v /\ length v = 4%nat /\ at_int v 0 a /\ at_int v 1 b /\ at_int v 2 c /\ at_int v 3 d.
Inductive comp_parts : list str -> list comp_part -> Prop :=
| cp_nil : comp_parts [] []
| cp_line s l x r : s <> lit "$EndComp" -> comp_line s x -> comp_parts l r -> comp_parts (s :: l) (x :: r)
| cp_turn s m l a b c d r : begins_with s "1" \/ begins_with s "0" -> four_ints m a b c d -> comp_parts l r -> comp_parts (s :: m :: l) (KTurn (mk_rotation a b c d) :: r).
Definition comp_of (l : list comp_part) : component :=
  mk_comp (last_of (fun p => match p with KName n _ => Some n | _ => None end) (lit "DUMMY") l)
    (last_of (fun p => match p with KName _ r => Some r | _ => None end) (lit "U1") l)
    (last_of (fun p => match p with KUnit s => Some s | _ => None end) [] l)
    (last_of (fun p => match p with KPos x _ => Some x | _ => None end) 0%Z l)
    (last_of (fun p => match p with KPos _ y => Some y | _ => None end) 0%Z l)
    (flat_map (fun p => match p with KAr s => [s] | _ => [] end) l)
    (flat_map (fun p => match p with KField f => [f] | _ => [] end) l)
    (last_of (fun p => match p with KTurn r => Some r | _ => None end) (mk_rotation 0 0 0 0) l).

(** ** Sheets *)
Definition label_line (s : str) (l : sheet_label) : Prop :=
  exists v, line_words s v /\ at_word v 1 (sl_name l) /\
    at_name v 2 [("I", FInput); ("O", FOutput); ("B", FBiDi); ("T", FTriState); ("U", FUnspecified)] (sl_form l) /\
    at_name v 3 [("L", DLeft); ("R", DRight); ("T", DTop); ("B", DBottom)] (sl_side l) /\
    at_int v 4 (sl_x l) /\ at_int v 5 (sl_y l) /\ at_int v 6 (sl_size l).
Inductive sheet_part := HBox (x y dx dy : Z) | HUnique (u : str) | HName (n : str) (z : Z) | HFile (n : str) (z : Z) | HLabel (l : sheet_label) | HNone.
Inductive sheet_line_text : str -> sheet_part -> Prop :=
| hl_box s v x y dx dy : begins_with s "S" -> line_words s v -> at_int v 1 x -> at_int v 2 y -> at_int v 3 dx -> at_int v 4 dy -> sheet_line_text s (HBox x y dx dy)
| hl_unique s v u : begins_with s "U" -> line_words s v -> at_word v 1 u -> sheet_line_text s (HUnique u)
| hl_name s i v n z : begins s (70%N :: i) -> i64_of_str i = Some 0%Z -> line_words s v -> at_word v 1 n -> at_int v 2 z -> sheet_line_text s (HName n z)
| hl_file s i v n z : begins s (70%N :: i) -> i64_of_str i = Some 1%Z -> line_words s v -> at_word v 1 n -> at_int v 2 z -> sheet_line_text s (HFile n z)
| hl_label s i k l : begins s (70%N :: i) -> i64_of_str i = Some k -> k <> 0%Z -> k <> 1%Z -> label_line s l -> sheet_line_text s (HLabel l)
| hl_none s : ~ begins_with s "S" -> ~ begins_with s "U" -> (forall i, ~ begins s (70%N :: i)) -> sheet_line_text s HNone.
Definition sheet_of (l : list sheet_part) : sheet :=
  let box f := last_of (fun p => match p with HBox x y dx dy => Some (f x y dx dy) | _ => None end) 0%Z l in
  mk_sheet (box (fun x _ _ _ => x)) (box (fun _ y _ _ => y)) (box (fun _ _ dx _ => dx)) (box (fun _ _ _ dy => dy))
    (last_of (fun p => match p with HUnique u => Some u | _ => None end) [] l)
    (last_of (fun p => match p with HName n _ => Some n | _ => None end) (lit "DUMMY") l)
    (last_of (fun p => match p with HName _ z => Some z | _ => None end) 60%Z l)
    (last_of (fun p => match p with HFile n _ => Some n | _ => None end) [] l)
    (last_of (fun p => match p with HFile _ z => Some z | _ => None end) 60%Z l)
    (flat_map (fun p => match p with HLabel x => [x] | _ => [] end) l).

(** ** Single elements *)
Definition wire_kind (k : str) (t : wire_type) : Prop :=
  (k = lit "Notes" /\ t = WNotes) \/ (k = lit "Bus" /\ t = WBus) \/ (k <> lit "Notes" /\ k <> lit "Bus" /\ t = WWire).
Definition text_kinds : list (string * text_type) := [("Label", TLabel); ("Notes", TNote); ("GLabel", TGlobal); ("HLabel", THier)].
(** Global and hierarchical labels have a shape before the style. *)
Definition text_style (v : list str) (t : text_type) (shape : option str) (italic : bool) (thickness : Z) : Prop :=
  match t with
  | TNote | TLabel => shape = None /\ (exists w, at_word v 6 w /\ italic = str_eqb w (lit "Italic")) /\ at_int v 7 thickness
  | TGlobal | THier => (exists f, at_word v 6 f /\ shape = Some f) /\ (exists w, at_word v 7 w /\ italic = str_eqb w (lit "Italic")) /\ at_int v 8 thickness
  end.
Inductive single : list str -> selement -> Prop :=
| si_wire a k b c t x1 y1 x2 y2 : ws_words a [lit "Wire"; k; b] -> wire_kind k t -> four_ints c x1 y1 x2 y2 -> single [a; c] (SWire (mk_wire t x1 y1 x2 y2))
| si_connection s v x y : ws_words s v -> at_word v 0 (lit "Connection") -> length v = 4%nat -> at_int v 2 x -> at_int v 3 y -> single [s] (SConnection (mk_spoint x y))
| si_no_connect s v x y : ws_words s v -> at_word v 0 (lit "NoConn") -> length v = 4%nat -> at_int v 2 x -> at_int v 3 y -> single [s] (SNoConnect (mk_spoint x y))
| si_text a v t x y o z shape italic thickness text : ws_words a v -> at_word v 0 (lit "Text") -> at_name v 1 text_kinds t ->
    at_int v 2 x -> at_int v 3 y -> at_int v 4 o -> at_int v 5 z -> text_style v t shape italic thickness ->
    single [a; text] (SText (mk_stext t x y o z shape italic thickness text)).

(** ** The whole text *)
Inductive section := SecDescr (d : description) | SecSheet (s : sheet) | SecElement (e : selement) | SecNone.
Definition sec_words : list string := ["$Descr"; "$Comp"; "$Sheet"; "$EndSCHEMATC"; "Wire"; "Connection"; "NoConn"; "Text"].
Inductive section_text : list str -> section -> Prop :=
| st_descr l d : descr_text l d -> section_text l (SecDescr d)
| st_comp a l p : begins_with a "$Comp" -> comp_parts l p -> section_text (a :: l ++ [lit "$EndComp"]) (SecElement (SComponent (comp_of p)))
| st_sheet a l p : begins_with a "$Sheet" -> Forall2 sheet_line_text l p -> ~ In (lit "$EndSheet") l -> section_text (a :: l ++ [lit "$EndSheet"]) (SecSheet (sheet_of p))
| st_end a : begins_with a "$EndSCHEMATC" -> section_text [a] SecNone
| st_single l e : single l e -> section_text l (SecElement e)
| st_other a w : begins a w -> (forall k, In k sec_words -> w <> lit k) -> section_text [a] (SecElement (SOther a)).
Inductive sections : list str -> list section -> Prop :=
| ss_nil : sections [] []
| ss_cons a b s r : section_text a s -> sections b r -> sections (a ++ b) (s :: r).
Definition schematic_text (fn : option str) (ls : list str) (c : schematic) : Prop :=
  exists libs e body secs,
    ls = lit "EESchema Schematic File Version 2" :: map (fun l => lit "LIBS:" ++ l) libs ++ e :: lit "EELAYER END" :: body /\
    starts_with (lit "EELAYER ") e = true /\ sections body secs /\
    c = mk_sch fn libs (last_of (fun s => match s with SecDescr d => Some d | _ => None end) (mk_descr [] 0 0 (lit "Normal") (lit "Tue 19 May 2015") [] [] [] [] [] [] 1 1) secs)
          (flat_map (fun s => match s with SecElement x => [x] | _ => [] end) secs)
          (flat_map (fun s => match s with SecSheet x => [x] | _ => [] end) secs) e.
