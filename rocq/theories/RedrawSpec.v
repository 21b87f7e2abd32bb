(** Specification: symbols drawn elsewhere (C124). *)
From Coq Require Import String.
From Verif Require Import Base Str SymData CheckFix CheckSpec.
Open Scope list_scope.

(** Both numbers are on the grid, or neither is *)
Definition same_grid (g x y : Z) : Prop := on_grid g x <-> on_grid g y.
(** Pins that differ at most in place, orientation, unit, body style and shape *)
Definition like_pin (p q : pin) : Prop :=
  pn_name q = pn_name p /\ pn_number q = pn_number p /\ pn_len q = pn_len p /\ pn_num_size q = pn_num_size p /\ pn_name_size q = pn_name_size p
  /\ pn_type q = pn_type p /\ pn_visible q = pn_visible p.
(** and whose places are on the grid alike *)
Definition same_pin (p q : pin) : Prop := like_pin p q /\ same_grid 10 (pn_x p) (pn_x q) /\ same_grid 10 (pn_y p) (pn_y q).
Definition same_draw (d e : draw) : Prop :=
  match d, e with
  | DPin p, DPin q => same_pin p q
  | DRect r, DRect t => rc_thickness t = rc_thickness r /\ rc_fill t = rc_fill r
  | DOther _, DOther _ => True
  | _, _ => False
  end.
Definition same_sfield (f g : sfield) : Prop := sf_i g = sf_i f /\ sf_dim g = sf_dim f /\ sf_visible g = sf_visible f.
Definition redrawn (s t : symbol) : Prop :=
  sy_name t = sy_name s /\ sy_reference t = sy_reference s /\ Forall2 same_sfield (sy_fields s) (sy_fields t) /\ Forall2 same_draw (sy_draw s) (sy_draw t).
(** Only the pins are elsewhere *)
Definition same_pins (d e : draw) : Prop := match d with DPin p => exists q, e = DPin q /\ same_pin p q | _ => e = d end.
Definition repinned (s t : symbol) : Prop :=
  sy_name t = sy_name s /\ sy_reference t = sy_reference s /\ sy_fields t = sy_fields s /\ Forall2 same_pins (sy_draw s) (sy_draw t).
(** A finding without the text of what it is about *)
Fixpoint forget (d : cf_data) : cf_data :=
  match d with
  | Item i => Item (mk_item (it_section i) (it_rule i) [] (it_message i) (it_info i))
  | More l => More (map forget l)
  end.
(** All pins placed by a function *)
Definition place_pin (f : Z * Z -> Z * Z) (p : pin) : pin :=
  let '(x, y) := f (pn_x p, pn_y p) in
  mk_pin (pn_name p) (pn_number p) x y (pn_len p) (pn_orient p) (pn_num_size p) (pn_name_size p) (pn_unit p) (pn_convert p) (pn_type p) (pn_visible p) (pn_shape p).
Definition place_pins (f : Z * Z -> Z * Z) (s : symbol) : symbol :=
  mk_symbol (sy_name s) (sy_reference s) (sy_text_offset s) (sy_pinnumber s) (sy_pinname s) (sy_unit_count s) (sy_unit_locked s) (sy_is_power s) (sy_fields s) (sy_aliases s)
    (map (fun d => match d with DPin p => DPin (place_pin f p) | _ => d end) (sy_draw s)).
