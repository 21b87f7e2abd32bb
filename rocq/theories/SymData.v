(** Symbol library data types (/repo/src/symbol_lib.rs). *)
From Coq Require Import String.
From Verif Require Import Base Str F64 SchData.
Open Scope string_scope.

(** symbol_lib.rs:58-83 *)
Record sfield := mk_sfield {
  sf_i : Z; sf_value : str; sf_x : f64; sf_y : f64; sf_dim : Z; sf_orient : orientation;
  sf_visible : bool; sf_hjust : sjustify; sf_vjust : sjustify; sf_italic : bool; sf_bold : bool; sf_name : str }.

(** symbol_lib.rs:97-109, 112-135, 139-158 *)
Inductive pin_orientation := PUp | PDown | PLeft | PRight.
Inductive pin_type :=
| PTInput | PTOutput | PTBidi | PTTristate | PTPassive | PTUnspecified | PTPowerInput | PTPowerOutput
| PTOpenCollector | PTOpenEmitter | PTNotConnected.
Inductive pin_shape :=
| PSLine | PSInverted | PSClock | PSInvertedClock | PSInputLow | PSClockLow | PSOutputLow | PSFallingEdgeClock | PSNonLogic.
(** symbol_lib.rs:165-192 *)
Record pin := mk_pin {
  pn_name : str; pn_number : str; pn_x : Z; pn_y : Z; pn_len : Z; pn_orient : pin_orientation;
  pn_num_size : Z; pn_name_size : Z; pn_unit : Z; pn_convert : Z; pn_type : pin_type; pn_visible : bool;
  pn_shape : pin_shape }.
(** symbol_lib.rs:199-227 *)
Inductive fill := FillFg | FillBg | FillNone.
Record rectangle := mk_rect {
  rc_x1 : Z; rc_y1 : Z; rc_x2 : Z; rc_y2 : Z; rc_unit : Z; rc_convert : Z; rc_thickness : Z; rc_fill : fill }.
(** symbol_lib.rs:86-95 *)
Inductive draw := DPin (p : pin) | DRect (r : rectangle) | DOther (s : str).

(** symbol_lib.rs:26-52 *)
Record symbol := mk_symbol {
  sy_name : str; sy_reference : str; sy_text_offset : f64; sy_pinnumber : bool; sy_pinname : bool;
  sy_unit_count : Z; sy_unit_locked : bool; sy_is_power : bool; sy_fields : list sfield; sy_aliases : list str;
  sy_draw : list draw }.
(** symbol_lib.rs:19-24: a library is its list of symbols *)
