(** Specification: which lines of a schematic the reader reports (C92). *)
From Coq Require Import String.
From Verif Require Import Base Str CutSpec SchData SchReadSpec.
Open Scope string_scope. Open Scope list_scope.

(** The lines between the ends of a component, and the reports about them: one for every
    line that begins with none of the words of a component.  The line after one that
    begins with 1 or 0 is not looked at. *)
Inductive comp_told : list str -> list str -> Prop :=
| ct_nil : comp_told [] []
| ct_said s l n : (forall k, In k comp_words -> ~ begins_with s k) -> comp_told l n -> comp_told (s :: l) ((lit "skipping unknown component line " ++ s) :: n)
| ct_quiet s l n k : In k ["L"; "U"; "P"; "F"; "AR"] -> begins_with s k -> comp_told l n -> comp_told (s :: l) n
| ct_turn s m l n : begins_with s "1" \/ begins_with s "0" -> comp_told l n -> comp_told (s :: m :: l) n.
(** The same for a sheet, whose words are S, U and all that start with F. *)
Inductive sheet_told : list str -> list str -> Prop :=
| ht_nil : sheet_told [] []
| ht_said s l n : ~ begins_with s "S" -> ~ begins_with s "U" -> (forall i, ~ begins s (70%N :: i)) -> sheet_told l n ->
    sheet_told (s :: l) ((lit "skipping unknown sheet line " ++ s) :: n)
| ht_quiet s l n : begins_with s "S" \/ begins_with s "U" \/ (exists i, begins s (70%N :: i)) -> sheet_told l n -> sheet_told (s :: l) n.

(** A section: there are reports about components and sheets only. *)
Inductive sec_told : list str -> list str -> Prop :=
| sct_comp a l n : begins_with a "$Comp" -> comp_told l n -> sec_told (a :: l ++ [lit "$EndComp"]) n
| sct_sheet a l n : begins_with a "$Sheet" -> sheet_told l n -> sec_told (a :: l ++ [lit "$EndSheet"]) n
| sct_other a l : ~ begins_with a "$Comp" -> ~ begins_with a "$Sheet" -> sec_told (a :: l) [].
Inductive secs_told : list str -> list str -> Prop :=
| sst_nil : secs_told [] []
| sst_cons a b s n m : section_text a s -> sec_told a n -> secs_told b m -> secs_told (a ++ b) (n ++ m).

(** A beginning that reads: whole sections, and perhaps the lines of one more component or
    sheet up to some line. *)
Inductive goes : list str -> list str -> Prop :=
| go_whole l n : secs_told l n -> goes l n
| go_comp a n h l k m : secs_told a n -> begins_with h "$Comp" -> comp_parts l k -> comp_told l m -> goes (a ++ h :: l) (n ++ m)
| go_sheet a n h l k m : secs_told a n -> begins_with h "$Sheet" -> Forall2 sheet_line_text l k -> ~ In (lit "$EndSheet") l -> sheet_told l m ->
    goes (a ++ h :: l) (n ++ m)
.

(** The lines before the sections *)
Definition heading (libs : list str) (e : str) : list str :=
  lit "EESchema Schematic File Version 2" :: map (fun l => lit "LIBS:" ++ l) libs ++ [e; lit "EELAYER END"].
Definition headed (ls body : list str) : Prop :=
  exists libs e, ls = heading libs e ++ body /\ starts_with (lit "EELAYER ") e = true.
