(** Specification: moving the lines of a symbol (C111). *)
From Coq Require Import String Permutation.
From Verif Require Import Base Str Num F64 F64Text CutSpec LibSpec SchData SchReadSpec SymData SymReadSpec ErrSpec.
Import ListNotations.
Open Scope string_scope. Open Scope list_scope.

(** The lines of a symbol, put together *)
Definition symbol_lines (a d : str) (fl fp al dl : list str) : list str :=
  a :: lit "#" :: d :: fl ++ fp ++ al ++ lit "DRAW" :: dl ++ [lit "ENDDRAW"; lit "ENDDEF"; lit "#"].
(** Lines behind the definition that can be read *)
Definition parts_read (fl fp al dl : list str) : Prop :=
  (exists fs, Forall2 sfield_line fl fs) /\ fplist fp /\ (exists als, alias_lines al als) /\ (exists ds, Forall2 drawing dl ds) /\ ~ In (lit "ENDDRAW") dl.
(** Two texts that differ in the lines of one symbol *)
Definition differ_symbol (t t' : str) (pre : list symbol) (l l' : list str) : Prop :=
  exists ls post, whole ls pre /\ text_lines t (map lit library_head ++ ls ++ l ++ post) /\ text_lines t' (map lit library_head ++ ls ++ l' ++ post).
(** The same symbol but for the order of fields and drawings *)
Definition same_unordered (y y' : symbol) : Prop :=
  exists fs ds, Permutation (sy_fields y) fs /\ Permutation (sy_draw y) ds /\
    y' = mk_symbol (sy_name y) (sy_reference y) (sy_text_offset y) (sy_pinnumber y) (sy_pinname y) (sy_unit_count y) (sy_unit_locked y) (sy_is_power y) fs (sy_aliases y) ds.
