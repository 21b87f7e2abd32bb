(** Building footprints (/repo/src/footprint/data.rs); [pad_new], [text_new] and the
    defaults are in FpData.v. *)
From Coq Require Import String.
From Verif Require Import Base Str F64 FpData.

(** data.rs:40-45, 47-49 *)
Definition module_new (name : str) : module := mk_module name [].
Definition module_append (e : element) (m : module) : module := mk_module (m_name m) (m_elements m ++ [e]).
(** data.rs:566-568, 570-572 *)
Definition text_set_effects (e : effects) (t : fp_text) : fp_text :=
  mk_text (tx_name t) (tx_value t) (tx_at t) (tx_layer t) e (tx_hide t).
Definition text_set_layer (l : layer) (t : fp_text) : fp_text :=
  mk_text (tx_name t) (tx_value t) (tx_at t) l (tx_effects t) (tx_hide t).
(** data.rs:990-992 *)
Definition layers_append (l : layer) (v : layers) : layers := v ++ [l].
(** data.rs:1125-1127, 1130-1132 *)
Definition pad_set_net (n : fnet) (p : pad) : pad :=
  mk_pad (pa_name p) (pa_t p) (pa_shape p) (pa_size p) (pa_rect_delta p) (pa_at p) (pa_layers p) (Some n) (pa_zone_connect p)
    (pa_drill p) (pa_paste_margin p) (pa_mask_margin p) (pa_clearance p) (pa_thermal_gap p).
Definition pad_set_drill (d : drill) (p : pad) : pad :=
  mk_pad (pa_name p) (pa_t p) (pa_shape p) (pa_size p) (pa_rect_delta p) (pa_at p) (pa_layers p) (pa_net p) (pa_zone_connect p)
    (Some d) (pa_paste_margin p) (pa_mask_margin p) (pa_clearance p) (pa_thermal_gap p).
