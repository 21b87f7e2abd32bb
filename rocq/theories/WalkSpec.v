(** Specification for C84 and C85: what happens when a schematic is walked
    through its sheets.  No step counter: results that exist are inductive
    relations, walks that never end are a coinductive one. *)
From Verif Require Import Base Str SchData SchParse SchOps SchSpec.

(** One or more steps *)
Inductive plus {A} (R : A -> A -> Prop) : A -> A -> Prop :=
| plus_one s t : R s t -> plus R s t
| plus_more s t u : R s t -> plus R t u -> plus R s u.

(** Sheet [h] of [s] can be opened and gives [t]. *)
Definition opens (fs : fsys) (s : schematic) (h : sheet) (t : schematic) : Prop := parse_file_for_sheet fs s h = Ok t.

(** ** Collecting all components (C84) *)
(** A sheet that was collected completely *)
Definition gathered (fs : fsys) (s : schematic) (h : sheet) : Prop := exists t l, opens fs s h t /\ comps_of fs t l.
(** The walk gets from [s] into [t]: all sheets before were collected. *)
Definition goes_into (fs : fsys) (s t : schematic) : Prop :=
  exists a h b, sc_sheets s = a ++ h :: b /\ Forall (gathered fs s) a /\ opens fs s h t.
(** The walk ends at a sheet that cannot be opened, with outcome [x]. *)
Inductive stops (fs : fsys) : schematic -> res schematic -> Prop :=
| stop_at s a h b x : sc_sheets s = a ++ h :: b -> Forall (gathered fs s) a -> parse_file_for_sheet fs s h = x ->
    (forall t, x <> Ok t) -> stops fs s x
| stop_in s t x : goes_into fs s t -> stops fs t x -> stops fs s x.
(** The walk goes deeper without end. *)
CoInductive endless (fs : fsys) (s : schematic) : Prop :=
| endless_in t : goes_into fs s t -> endless fs t -> endless fs s.
(** ** Looking for a reference (C85) *)
Definition lacks_own (r : str) (s : schematic) : Prop := forall c, In c (own (sc_elements s)) -> co_reference c <> r.
(** The search fails with error [e]: nothing found although every sheet could be
    opened, or a sheet of the schematic itself cannot be opened.  What goes wrong
    further down only counts as not found. *)
Inductive fails (fs : fsys) (r : str) : schematic -> ekind -> Prop :=
| fail_all s : lacks_own r s -> missed fs r s (sc_sheets s) -> fails fs r s EOther
| fail_at s a h b e : lacks_own r s -> sc_sheets s = a ++ h :: b -> missed fs r s a ->
    parse_file_for_sheet fs s h = Err e -> fails fs r s e
with missed (fs : fsys) (r : str) : schematic -> list sheet -> Prop :=
| missed_nil s : missed fs r s []
| missed_cons s h t e l : opens fs s h t -> fails fs r t e -> missed fs r s l -> missed fs r s (h :: l).
(** The search gets from [s] into [t]. *)
Definition looks_into (fs : fsys) (r : str) (s t : schematic) : Prop :=
  lacks_own r s /\ exists a h b, sc_sheets s = a ++ h :: b /\ missed fs r s a /\ opens fs s h t.
Inductive finds (fs : fsys) (r : str) : schematic -> component -> Prop :=
| find_own s a c b : own (sc_elements s) = a ++ c :: b -> Forall (fun d => co_reference d <> r) a -> co_reference c = r ->
    finds fs r s c
| find_in s t c : looks_into fs r s t -> finds fs r t c -> finds fs r s c.
Inductive breaks (fs : fsys) (r : str) : schematic -> Prop :=
| break_at s a h b : lacks_own r s -> sc_sheets s = a ++ h :: b -> missed fs r s a ->
    parse_file_for_sheet fs s h = Panic -> breaks fs r s
| break_in s t : looks_into fs r s t -> breaks fs r t -> breaks fs r s.
CoInductive hunts (fs : fsys) (r : str) (s : schematic) : Prop :=
| hunts_in t : looks_into fs r s t -> hunts fs r t -> hunts fs r s.
(** ** Finitely many files *)
(** [t] is [s] or somewhere below it. *)
Inductive reaches (fs : fsys) : schematic -> schematic -> Prop :=
| reaches_here s : reaches fs s s
| reaches_sheet s h t u : In h (sc_sheets s) -> opens fs s h t -> reaches fs t u -> reaches fs s u.
(** The name of every readable sheet file anywhere below [s] is in the list. *)
Definition files_among (fs : fsys) (s : schematic) (P : list str) : Prop :=
  forall t h p u, reaches fs s t -> In h (sc_sheets t) -> filename_for_sheet fs t h = Ok p -> parse_file fs p = Ok u -> In p P.
