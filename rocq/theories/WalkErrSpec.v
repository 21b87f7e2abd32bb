(** Specification: what errors of operations say (C100). *)
From Coq Require Import String.
From Verif Require Import Base Str FpData LyData SchData SchParse SchOps SchSpec CutSpec SchReadSpec ErrSpec FileErr WalkSpec LySpec.
Open Scope string_scope. Open Scope list_scope.

(** A sheet cannot be opened. *)
Inductive sheet_says (fs : fsys) (s : schematic) (h : sheet) : str -> Prop :=
| ss_name : sc_filename s = None -> sheet_says fs s h (lit "can't load sheet when there is no filename for the schematic")
| ss_dir p : sc_filename s = Some p -> fs_join fs p (sh_filename h) = None ->
    sheet_says fs s h (lit "can't load sheet when I don't know the dir of the schematic")
| ss_text p f t ls m : sc_filename s = Some p -> fs_join fs p (sh_filename h) = Some f -> fs_read fs f = Ok t -> text_lines t ls -> refused ls (Some m) ->
    sheet_says fs s h m.
(** Collecting all components: the complaint about the first sheet that cannot be opened *)
Inductive walk_says (fs : fsys) : schematic -> str -> Prop :=
| ws_at s a h b m : sc_sheets s = a ++ h :: b -> Forall (gathered fs s) a -> sheet_says fs s h m -> walk_says fs s m
| ws_in s t m : goes_into fs s t -> walk_says fs t m -> walk_says fs s m.
(** Looking for a reference: only complaints about the schematic's own sheets *)
Inductive search_says (fs : fsys) (r : str) (s : schematic) : str -> Prop :=
| se_none : lacks_own r s -> missed fs r s (sc_sheets s) -> search_says fs r s (lit "could not find component " ++ r ++ lit " in schematic")
| se_sheet a h b m : lacks_own r s -> sc_sheets s = a ++ h :: b -> missed fs r s a -> sheet_says fs s h m -> search_says fs r s m.
(** A name made for a net without one (C25) *)
Definition unnamed_form (n a b : str) : Prop :=
  exists c d t, n = lit "Net-(" ++ a ++ c :: b ++ d :: t /\ (c = 45 \/ c = 40 \/ c = 41)%N /\ (d = 45 \/ d = 40 \/ d = 41)%N /\
    LySpec.plain_name a = true /\ LySpec.plain_name b = true /\ LySpec.plain_name t = true.
