(** Specification: files put together from parts (C104). *)
From Coq Require Import String Permutation.
From Verif Require Import Base Str Sexp FpData LyData FpLibTable SchData SymData MeanSpec SchReadSpec LySpec.
Open Scope string_scope. Open Scope list_scope.

(** ** Trees *)
Definition footprint_tree (n : str) (es : list sexp) : sexp := SList (SStr (lit "module") :: SStr n :: es).
Definition board_tree (es : list sexp) : sexp := SList (SStr (lit "kicad_pcb") :: es).
Definition table_tree (es : list sexp) : sexp := SList (SStr (lit "fp_lib_table") :: es).
(** The entries of a board that exist once, and which of two values holds after a list of
    entries: the second if there is such an entry *)
Definition heads : list string := ["version"; "host"; "general"; "page"; "setup"; "layers"].
Definition later {A} (k : string) (b : list sexp) (x y : A) : A := if existsb (called k) b then y else x.
Definition board_joined (b : list sexp) (l1 l2 : layout) : layout :=
  mk_layout (later "version" b (ly_version l1) (ly_version l2)) (later "host" b (ly_host l1) (ly_host l2))
    (later "general" b (ly_general l1) (ly_general l2)) (later "page" b (ly_page l1) (ly_page l2))
    (later "setup" b (ly_setup l1) (ly_setup l2)) (later "layers" b (ly_layers l1) (ly_layers l2))
    (ly_elements l1 ++ ly_elements l2).
Definition heads_once (a : list sexp) : Prop := forall k, In k heads -> (length (filter (called k) a) <= 1)%nat.

(** ** Lines *)
Definition sch_heading (libs : list str) (e : str) : list str :=
  lit "EESchema Schematic File Version 2" :: map (fun l => lit "LIBS:" ++ l) libs ++ [e; lit "EELAYER END"].
Definition lib_heading : list str := [lit "EESchema-LIBRARY Version 2.3"; lit "#encoding utf-8"; lit "#"].
(** A description stands among these lines, at a place where a section begins. *)
Definition described (b : list str) : Prop := exists p l q sp d, b = p ++ l ++ q /\ sections p sp /\ descr_text l d.
Definition sch_joined (b : list str) (s1 s2 s : schematic) : Prop :=
  sc_filename s = sc_filename s1 /\ sc_libraries s = sc_libraries s1 /\ sc_eelayer s = sc_eelayer s1 /\
  sc_elements s = sc_elements s1 ++ sc_elements s2 /\ sc_sheets s = sc_sheets s1 ++ sc_sheets s2 /\
  (described b -> sc_description s = sc_description s2) /\ (~ described b -> sc_description s = sc_description s1).
