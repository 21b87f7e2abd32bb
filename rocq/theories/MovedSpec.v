(** Specification: moving the lines of a component or a sheet (C110). *)
From Coq Require Import String List NArith ZArith.
From Verif Require Import Base Str Num CutSpec LibSpec SchData SchReadSpec JoinSpec.
Import ListNotations.
Open Scope string_scope. Open Scope list_scope.

(** ** Components
    An entry is one line, known by its first word, or the two lines of the position and
    orientation, the first of which begins with 1 or 0. *)
Inductive comp_entry : string -> list str -> Prop :=
| ce_line k s : In k ["L"; "U"; "P"; "F"; "AR"] -> begins_with s k -> comp_entry k [s]
| ce_turn s m : begins_with s "1" \/ begins_with s "0" -> comp_entry "1" [s; m]
| ce_other s : (forall k, In k comp_words -> ~ begins_with s k) -> comp_entry "other" [s].
Inductive comp_entries : list str -> Prop :=
| es_nil : comp_entries []
| es_cons k x l : comp_entry k x -> comp_entries l -> comp_entries (x ++ l).
Inductive comp_moved : list str -> list str -> Prop :=
| cm_swap a x y b k k' : comp_entries a -> comp_entry k x -> comp_entry k' y -> k <> k' -> comp_moved (a ++ x ++ y ++ b) (a ++ y ++ x ++ b)
| cm_drop a x b : comp_entries a -> comp_entry "other" x -> comp_moved (a ++ x ++ b) (a ++ b)
| cm_add a x b : comp_entries a -> comp_entry "other" x -> x <> [lit "$EndComp"] -> comp_moved (a ++ b) (a ++ x ++ b)
| cm_early a x m y b k : In k ["L"; "U"; "P"; "1"] -> comp_entries a -> comp_entry k x -> comp_entries m -> comp_entry k y ->
    comp_moved (a ++ x ++ m ++ y ++ b) (a ++ m ++ y ++ b)
| cm_then l m n : comp_moved l m -> comp_moved m n -> comp_moved l n.

(** ** Sheets
    The lines that begin with F and a number are the name (0), the file (1) and labels. *)
Inductive sheet_entry : string -> str -> Prop :=
| se_box s : begins_with s "S" -> sheet_entry "S" s
| se_unique s : begins_with s "U" -> sheet_entry "U" s
| se_name s i : begins s (70%N :: i) -> i64_of_str i = Some 0%Z -> sheet_entry "F0" s
| se_file s i : begins s (70%N :: i) -> i64_of_str i = Some 1%Z -> sheet_entry "F1" s
| se_label s i k : begins s (70%N :: i) -> i64_of_str i = Some k -> k <> 0%Z -> k <> 1%Z -> sheet_entry "F" s
| se_other s : ~ begins_with s "S" -> ~ begins_with s "U" -> (forall i, ~ begins s (70%N :: i)) -> sheet_entry "other" s.
Inductive sheet_moved : list str -> list str -> Prop :=
| hm_swap a x y b k k' : sheet_entry k x -> sheet_entry k' y -> k <> k' -> sheet_moved (a ++ x :: y :: b) (a ++ y :: x :: b)
| hm_drop a x b : sheet_entry "other" x -> sheet_moved (a ++ x :: b) (a ++ b)
| hm_add a x b : sheet_entry "other" x -> x <> lit "$EndSheet" -> sheet_moved (a ++ b) (a ++ x :: b)
| hm_early a x m y b k : In k ["S"; "U"; "F0"; "F1"] -> sheet_entry k x -> sheet_entry k y -> sheet_moved (a ++ x :: m ++ y :: b) (a ++ m ++ y :: b)
| hm_then l m n : sheet_moved l m -> sheet_moved m n -> sheet_moved l n.

(** Two texts that differ in the lines [l] and [l'] of one component or sheet.  The lines
    [pre] before it are whole sections, so that its first line is not inside another. *)
Inductive differ (first last : string) (t t' : str) (l l' : list str) : Prop :=
| differ_intro libs e pre secs a post :
    text_lines t (sch_heading libs e ++ pre ++ a :: l ++ lit last :: post) ->
    text_lines t' (sch_heading libs e ++ pre ++ a :: l' ++ lit last :: post) ->
    starts_with (lit "EELAYER ") e = true -> sections pre secs -> begins_with a first -> ~ In (lit last) l ->
    differ first last t t' l l'.

(** ** Whole sections
    Elements of all sorts are of one kind: their order is kept. *)
Definition section_kind (s : section) : string :=
  match s with SecDescr _ => "description" | SecSheet _ => "sheet" | SecElement _ => "element" | SecNone => "end" end.
Inductive sections_moved : list str -> list str -> Prop :=
| sm_swap a sa x sx y sy b : sections a sa -> section_text x sx -> section_text y sy -> section_kind sx <> section_kind sy ->
    sections_moved (a ++ x ++ y ++ b) (a ++ y ++ x ++ b)
| sm_drop a sa x b : sections a sa -> begins_with x "$EndSCHEMATC" -> sections_moved (a ++ x :: b) (a ++ b)
| sm_add a sa x b : sections a sa -> begins_with x "$EndSCHEMATC" -> sections_moved (a ++ b) (a ++ x :: b)
| sm_early a sa x d m sm y d' b : sections a sa -> descr_text x d -> sections m sm -> descr_text y d' -> sections_moved (a ++ x ++ m ++ y ++ b) (a ++ m ++ y ++ b)
| sm_then l m n : sections_moved l m -> sections_moved m n -> sections_moved l n.
