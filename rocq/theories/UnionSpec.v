(** Specification: boards and schematics put together from parts (C122). *)
From Verif Require Import Base Str FpData LyData SchData.
Open Scope list_scope.

(** The board with these elements instead *)
Definition holding (l : layout) (es : list ly_element) : layout :=
  mk_layout (ly_version l) (ly_host l) (ly_general l) (ly_page l) (ly_setup l) (ly_layers l) es.
(** The schematic with these elements instead *)
Definition sch_holding (s : schematic) (es : list selement) : schematic :=
  mk_sch (sc_filename s) (sc_libraries s) (sc_description s) es (sc_sheets s) (sc_eelayer s).
(** The footprint with these elements instead *)
Definition fp_holding (m : module) (es : list element) : module := mk_module (m_name m) es.
(** An element of a footprint that is no pad, no place and not drawn on a fabrication layer *)
Definition unboxed (e : element) : Prop :=
  match e with
  | EPad _ | EAt _ => False
  | EFpPoly x => la_t (po_layer x) <> LFab
  | EFpLine x => la_t (li_layer x) <> LFab
  | EFpCircle x => la_t (ci_layer x) <> LFab
  | EFpArc x => la_t (ar_layer x) <> LFab
  | _ => True
  end.
