(** Property theorems: the order of lines in a symbol (C111). *)
From Coq Require Import String Permutation.
From Verif Require Import Base Str Num F64 F64Text CutSpec CutFacts LibSpec SchData SchReadSpec SymData SymParse SymReadSpec SymReadFacts Said SchErr SymErr ErrSpec ErrFacts ErrSym BlameLib P_Err P_Join SymOrderSpec SymOrderFacts.
Import ListNotations.
Open Scope string_scope. Open Scope list_scope.

(** ** C111 *)
(** Moving the field lines or the drawing lines of a symbol moves the fields or drawings,
    and nothing else; the comment line and the list of footprints do not count. *)
Theorem C111_moved : forall t t' pre a d a' fl fl' fp fp' al dl dl' lib,
  differ_symbol t t' pre (symbol_lines a d fl fp al dl) (symbol_lines a' d fl' fp' al dl') -> parts_read fl fp al dl ->
  a <> lit "#End Library" -> a' <> lit "#End Library" -> Permutation fl fl' -> fplist fp' -> Permutation dl dl' ->
  parse_symbol_lib t = Ok lib -> exists y y' post, lib = pre ++ y :: post /\ parse_symbol_lib t' = Ok (pre ++ y' :: post) /\ same_unordered y y' /\
    (fl = fl' -> dl = dl' -> y = y').
Proof. exact symbol_moved. Qed.
Print Assumptions C111_moved.
(** A symbol with its alias line before its list of footprints, which is how KiCad writes
    them, is refused: whatever the list and whatever follows. *)
Theorem C111_alias_first : forall t ls pre a d fl fs s fp rest y r, whole ls pre -> symbol_text (a :: lit "#" :: d :: r) y -> a <> lit "#End Library" -> Forall2 sfield_line fl fs ->
  starts_with (lit "ALIAS") s = true -> fplist fp -> fp <> [] -> text_lines t (map lit library_head ++ ls ++ a :: lit "#" :: d :: fl ++ s :: fp ++ rest) ->
  library_said t = Says (lit "expected 'DRAW', got '$FPLIST'").
Proof. exact alias_first. Qed.
Print Assumptions C111_alias_first.

(** *** Examples *)
Definition y_f0 : string := "F0 ""R"" 0 0 50 H V C CNN".
Definition y_f1 : string := "F1 ""RES"" 0 10 50 H V C CNN".
Definition y_pin : string := "X ~ 1 0 150 50 D 60 60 1 1 P".
Definition y_rect : string := "S -40 -100 40 100 0 1 8 N".
Definition y_fp : list string := ["$FPLIST"; " R_*"; "$ENDFPLIST"].
Definition y_lines (a : string) (fl fp al dl : list string) : list string := [a; "#"; "DEF R R 0 40 Y N 1 F N"] ++ fl ++ fp ++ al ++ "DRAW" :: dl ++ ["ENDDRAW"; "ENDDEF"; "#"].
Definition y_one : list string := y_lines "# R" [y_f0; y_f1] y_fp ["ALIAS RES R_EU"] [y_rect; y_pin].
Definition y_two : list string := y_lines "# other" [y_f1; y_f0] [] ["ALIAS RES R_EU"] [y_pin; y_rect].
Definition y_kicad : list string := y_lines "# R" [y_f0; y_f1] ("ALIAS RES R_EU" :: y_fp) [] [y_rect; y_pin].
Definition y_end : list string := ["#End Library"].
Definition y_text (l : list string) : str := text_of (lib_top ++ l ++ y_end).
Lemma y_field s : starts_with (lit "F") s = true -> match sfield_said s with Fine _ => true | _ => false end = true -> exists f, sfield_line s f.
Proof. intros S H. destruct (sfield_said s) as [f| | |] eqn:E; try discriminate H. exists f. now apply sfield_fine. Qed.
Lemma y_fields : exists fs, Forall2 sfield_line (map lit [y_f0; y_f1]) fs.
Proof.
  destruct (y_field (lit y_f0)) as [f0 F0]; [reflexivity|vm_compute; reflexivity|]. destruct (y_field (lit y_f1)) as [f1 F1]; [reflexivity|vm_compute; reflexivity|].
  exists [f0; f1]. constructor; [exact F0|]. constructor; [exact F1|constructor].
Qed.
Lemma y_drawing s : match draw_line_said s with Fine _ => true | _ => false end = true -> exists f, drawing s f.
Proof. intros H. destruct (draw_line_said s) as [f| | |] eqn:E; try discriminate H. exists f. now apply draw_fine. Qed.
Lemma y_drawings : exists ds, Forall2 drawing (map lit [y_rect; y_pin]) ds.
Proof.
  destruct (y_drawing (lit y_rect)) as [f0 F0]; [vm_compute; reflexivity|]. destruct (y_drawing (lit y_pin)) as [f1 F1]; [vm_compute; reflexivity|].
  exists [f0; f1]. constructor; [exact F0|]. constructor; [exact F1|constructor].
Qed.
Lemma y_list : fplist (map lit y_fp).
Proof. apply (fp_lines [lit " R_*"]). intros [H|[]]. discriminate H. Qed.
Lemma y_alias : alias_lines [lit "ALIAS RES R_EU"] [lit "RES"; lit "R_EU"].
Proof. apply (al_line _ (lit "ALIAS")); [reflexivity|]. apply words_iff. vm_compute. reflexivity. Qed.
Lemma y_no_end : ~ In (lit "ENDDRAW") (map lit [y_rect; y_pin]).
Proof. intros [H|[H|[]]]; discriminate H. Qed.
Definition names (l : list symbol) : list (list Z * list bool) := map (fun y => (map sf_i (sy_fields y), map (fun d => match d with DPin _ => true | _ => false end) (sy_draw y))) l.
Definition names_read (t : str) : res (list (list Z * list bool)) := do l <- parse_symbol_lib t; Ok (names l).
(** Fields and drawings moved, the comment changed and the list left out *)
Example C111_moved_ex : differ_symbol (y_text y_one) (y_text y_two) [] (map lit y_one) (map lit y_two) /\
  names_read (y_text y_one) = Ok [([0; 1]%Z, [false; true])] /\ names_read (y_text y_two) = Ok [([1; 0]%Z, [true; false])] /\
  forall lib, parse_symbol_lib (y_text y_one) = Ok lib -> exists y y', parse_symbol_lib (y_text y_two) = Ok [y'] /\ lib = [y] /\ same_unordered y y'.
Proof.
  assert (D : differ_symbol (y_text y_one) (y_text y_two) [] (map lit y_one) (map lit y_two)).
  { exists [], (map lit y_end). split; [constructor|]. split; [apply (by_lines (lib_top ++ y_one ++ y_end))|apply (by_lines (lib_top ++ y_two ++ y_end))]; vm_compute; reflexivity. }
  split; [exact D|]. split; [vm_compute; reflexivity|]. split; [vm_compute; reflexivity|]. intros lib P.
  assert (L : length lib = 1%nat). { assert (X : (do l <- parse_symbol_lib (y_text y_one); Ok (length l)) = Ok 1%nat) by (vm_compute; reflexivity). rewrite P in X. now injection X. }
  destruct (C111_moved (y_text y_one) (y_text y_two) [] (lit "# R") (lit "DEF R R 0 40 Y N 1 F N") (lit "# other") (map lit [y_f0; y_f1]) (map lit [y_f1; y_f0]) (map lit y_fp) []
    [lit "ALIAS RES R_EU"] (map lit [y_rect; y_pin]) (map lit [y_pin; y_rect]) lib D) as (y & y' & post & E & Q & S & _).
  - split; [exact y_fields|]. split; [exact y_list|]. split; [eexists; exact y_alias|]. split; [exact y_drawings|exact y_no_end].
  - discriminate.
  - discriminate.
  - apply perm_swap.
  - constructor.
  - apply perm_swap.
  - exact P.
  - rewrite E in L. destruct post as [|z post]; [|discriminate L]. exists y, y'. split; [exact Q|]. split; [exact E|exact S].
Qed.
Example C111_alias_first_ex : (exists y, symbol_text (map lit y_one) y) /\ library_said (y_text y_kicad) = Says (lit "expected 'DRAW', got '$FPLIST'").
Proof.
  destruct y_fields as [fs F]. destruct y_drawings as [ds DD].
  destruct (sym_read (lit "# R") a_def_line _ fs _ _ _ _ ds a_def_passes F y_list y_alias DD y_no_end) as [y Y]. split; [exists y; exact Y|].
  apply (C111_alias_first (y_text y_kicad) [] [] (lit "# R") a_def_line (map lit [y_f0; y_f1]) fs (lit "ALIAS RES R_EU") (map lit y_fp)
    (lit "DRAW" :: map lit [y_rect; y_pin] ++ a_rest ++ map lit y_end) y _ wh_none Y); [discriminate|exact F|reflexivity|exact y_list|discriminate|].
  apply (by_lines (lib_top ++ y_kicad ++ y_end)). vm_compute. reflexivity.
Qed.
