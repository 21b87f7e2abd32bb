(** Property theorems: footprint files (C01-C05). *)
From Coq Require Import String.
From Verif Require Import Base Str Num F64 F64Text Sexp FpData FpLayer FpSer FpDe FpWf
  SexpFacts FpFacts FpExamples.
Open Scope string_scope. Open Scope list_scope.

(** C01: writing a representable footprint and reading it gives the footprint. *)
Theorem C01_footprint_round_trip (m : module) :
  module_ok m = true -> de_module (ser_module m) = Ok m.
Proof. exact (rt_module m). Qed.
Print Assumptions C01_footprint_round_trip.

Example C01_ex : module_ok ex_module = true /\ length (m_elements ex_module) = 18%nat.
Proof. vm_compute. split; reflexivity. Qed.

(** C02: a footprint that was read is written and read back unchanged. *)
Theorem C02_footprint_reread (s : sexp) (m : module) :
  de_module s = Ok m -> module_clean m = true -> de_module (ser_module m) = Ok m.
Proof. exact (reread_module s m). Qed.
Print Assumptions C02_footprint_reread.

Example C02_ex : exists m, de_module (ser_module ex_module) = Ok m /\ module_clean m = true.
Proof. exact ex_reread. Qed.

(** C03: the text written for any pad with a rect_delta is rejected. *)
Theorem C03_rect_delta_refuted (p : pad) (r : xy) :
  pa_rect_delta p = Some r -> xy_t r = XRectDelta -> at_ok (pa_at p) = true ->
  opt_ok drill_ok (pa_drill p) = true ->
  de_pad (ser_pad p) = Err ESexp.
Proof. exact (pad_rect_delta_fails p r). Qed.
Print Assumptions C03_rect_delta_refuted.

(** ... although such a pad can be read (rect_delta in place of the size). *)
Theorem C03_rect_delta_readable_refuted :
  exists s p, de_pad s = Ok p /\ de_pad (ser_pad p) = Err ESexp.
Proof. exact rect_delta_witness. Qed.
Print Assumptions C03_rect_delta_readable_refuted.

(** C04: what is read back for every drill with an acceptable shape word. *)
Theorem C04_drill_exact (shape : option str) (w h ox oy : f64) :
  shape = None \/ shape = Some (lit "oval") ->
  let hw := (fgtb h fzero && fgtb (fabs (fsub h w)) (flit "2.220446049250313e-16"))%bool in
  let ow := (fneb ox fzero || fneb oy fzero)%bool in
  let rest a b := mk_drill shape a b (if ow then ox else fzero) (if ow then oy else fzero) in
  de_drill (ser_drill (mk_drill shape w h ox oy)) =
    if fgtb w fzero then Ok (rest w (if hw then h else w))
    else if hw then Ok (rest h h)
    else Err ESexp.
Proof. exact (drill_exact' shape w h ox oy). Qed.
Print Assumptions C04_drill_exact.

(** Drills in the supported range are kept. *)
Theorem C04_drill_round_trip (d : drill) : drill_ok d = true -> de_drill (ser_drill d) = Ok d.
Proof. exact (rt_drill d). Qed.
Print Assumptions C04_drill_round_trip.
Example C04_ex : drill_ok ex_drill = true.
Proof. vm_compute. reflexivity. Qed.

(** A drill of width 0 and height 2 silently becomes 2 x 2; one of width 0 and
    height 0 is unreadable; a height within 2^-52 of the width is lost. *)
Theorem C04_drill_refuted :
  (exists d d', de_drill (ser_drill d) = Ok d' /\ dr_width d' <> dr_width d)
  /\ (exists d, de_drill (ser_drill d) = Err ESexp)
  /\ (exists d d', fgtb (dr_width d) fzero = true /\ fgtb (dr_height d) fzero = true
       /\ de_drill (ser_drill d) = Ok d' /\ dr_height d' <> dr_height d).
Proof. exact drill_witnesses. Qed.
Print Assumptions C04_drill_refuted.

(** C05: printing a layer and reading the name gives the layer exactly when a
    free-form name has no dot and is not a standard name. *)
Theorem C05_layer_round_trip (l : layer) :
  layer_of_str (show_layer l) = Some l <->
  match la_t l with
  | LOther s => ~ In 46%N s /\ ~ In s std_types
  | _ => True
  end.
Proof. exact (layer_rt_iff l). Qed.
Print Assumptions C05_layer_round_trip.

(** A name with at most one dot that is accepted prints back as it was. *)
Theorem C05_layer_text_stable (s : str) (l : layer) :
  (length (filter (N.eqb 46) s) <= 1)%nat -> layer_of_str s = Some l -> show_layer l = s.
Proof. exact (layer_text_stable' s l). Qed.
Print Assumptions C05_layer_text_stable.

(** With two dots all but the first part is dropped. *)
Theorem C05_layer_text_refuted :
  exists s l, layer_of_str s = Some l /\ show_layer l <> s.
Proof. exact layer_text_witness. Qed.
Print Assumptions C05_layer_text_refuted.

Example C05_ex :
  layer_of_str (lit "F.SilkS") = Some (mk_layer SFront LSilkS)
  /\ layer_of_str (lit "*.Mask") = Some (mk_layer SBoth LMask)
  /\ layer_of_str (lit "Rescue") = Some (mk_layer SNone (LOther (lit "Rescue")))
  /\ layer_of_str (lit "In3.Cu") = None.
Proof. vm_compute. repeat split; reflexivity. Qed.
