(** Specification: footprints and boards that differ in names of nets only (C121). *)
From Coq Require Import String.
From Verif Require Import Base Str F64 FpData LyData SchData CheckFix.
Open Scope string_scope. Open Scope list_scope.

(** The same element, or the same pad with another net or none *)
Inductive same_but_net : element -> element -> Prop :=
| sbn_same e : same_but_net e e
| sbn_pad p n : same_but_net (EPad p)
    (EPad (mk_pad (pa_name p) (pa_t p) (pa_shape p) (pa_size p) (pa_rect_delta p) (pa_at p) (pa_layers p) n
       (pa_zone_connect p) (pa_drill p) (pa_paste_margin p) (pa_mask_margin p) (pa_clearance p) (pa_thermal_gap p))).
Definition rewired (m m' : module) : Prop := m_name m' = m_name m /\ Forall2 same_but_net (m_elements m) (m_elements m').

(** The same for the elements of a board; nets and net classes may be anything *)
Inductive board_but_net : ly_element -> ly_element -> Prop :=
| bbn_same e : board_but_net e e
| bbn_module m m' : rewired m m' -> board_but_net (YModule m) (YModule m')
| bbn_net n n' : board_but_net (YNet n) (YNet n')
| bbn_class n n' : board_but_net (YNetClass n) (YNetClass n')
| bbn_zone z s : board_but_net (YZone z)
    (YZone (mk_zone (zo_net z) s (zo_layer z) (zo_tstamp z) (zo_hatch z) (zo_priority z) (zo_connect z) (zo_min z) (zo_keepout z) (zo_fill z)
       (zo_polygons z) (zo_filled z) (zo_segments z) (zo_other z))).
Definition rewired_board (l l' : layout) : Prop := Forall2 board_but_net (ly_elements l) (ly_elements l').

(** The finding about a reference that is not the placeholder: it is there or not. *)
Definition star_finding (n : str) (l : list cf_data) : Prop := l = [] \/ l = [cf_new 7 3 n (lit "reference should be REF**")].
(** A change of components that keeps their places *)
Definition stays_put (f : component -> component) : Prop := forall c, co_x (f c) = co_x c /\ co_y (f c) = co_y c.
