(** Property theorems: footprint operations (C18-C21, C44, C45). *)
From Coq Require Import String Reals.
From Flocq Require Import Core.Core IEEE754.BinarySingleNaN.
From Verif Require Import Base Str F64 F64Text FpData FpLayer FpSer FpOps FpOpsSpec F64Grid FpOpsFacts FpEqFacts
  FpExamples FpOpsWit.
Open Scope string_scope. Open Scope list_scope.

(** C18 (footprint): moving changes exactly the position element. *)
Theorem C18_module_adjust (x y : f64) (m : module) :
  let m' := adjust_module x y m in
  m_name m' = m_name m /\ length (m_elements m') = length (m_elements m)
  /\ forall i e, nth_error (m_elements m) i = Some e ->
     (forall a, e = EAt a ->
        nth_error (m_elements m') i = Some (EAt (mk_at (fadd (at_x a) x) (fadd (at_y a) y) (at_rot a))))
     /\ ((forall a, e <> EAt a) -> nth_error (m_elements m') i = Some e).
Proof. exact (adjust_module_spec x y m). Qed.
Print Assumptions C18_module_adjust.
Example C18_ex : nth_error (m_elements ex_module) 14 = Some (EAt (mkat "10" "20" "180")).
Proof. reflexivity. Qed.

(** C19: flipping twice restores a footprint whose angles are multiples of
    2^-43 within one turn and whose texts are unjustified or mirrored. *)
Theorem C19_flip_twice (m : module) :
  Forall flips (m_elements m) -> flip_module (flip_module m) = m.
Proof. exact (flip_module_twice m). Qed.
Print Assumptions C19_flip_twice.
Example C19_ex : Forall flips (m_elements ex_module).
Proof. exact ex_module_flips. Qed.

(** Layers, layer lists and points flip back without condition. *)
Theorem C19_flip_parts (l : layer) (ls : layers) (p : pts) :
  flip_layer (flip_layer l) = l /\ flip_layers (flip_layers ls) = ls /\ flip_pts (flip_pts p) = p.
Proof. exact (conj (flip_layer_twice l) (conj (flip_layers_twice ls) (flip_pts_twice p))). Qed.
Print Assumptions C19_flip_parts.

(** In general it is false: a rotation of 0.1 comes back different, and a text
    justified left comes back mirrored. *)
Theorem C19_flip_rotation_refuted : exists a, flip_at (flip_at a) <> a.
Proof. exact flip_at_tenth. Qed.
Print Assumptions C19_flip_rotation_refuted.
Theorem C19_flip_justify_refuted : exists e, flip_effects (flip_effects e) <> e.
Proof. exact flip_effects_left. Qed.
Print Assumptions C19_flip_justify_refuted.

(** Flipping moves the footprint to the other side. *)
Theorem C19_flip_changes_side (m : module) :
  (exists l1 la l2, m_elements m = l1 ++ ELayer la :: l2
     /\ (forall e, In e l1 -> forall x, e <> ELayer x)
     /\ (la_side la = SFront \/ la_side la = SBack)) ->
  is_front (flip_module m) = negb (is_front m).
Proof. exact (flip_is_front m). Qed.
Print Assumptions C19_flip_changes_side.
Example C19_ex_side : exists l1 la l2, m_elements ex_module = l1 ++ ELayer la :: l2
     /\ (forall e, In e l1 -> forall x, e <> ELayer x)
     /\ (la_side la = SFront \/ la_side la = SBack).
Proof. exact ex_module_front. Qed.

(** C20: the range [0,360) is left for a tiny negative delta. *)
Theorem C20_rotate_range_refuted :
  exists a d, fleb fzero (at_rot a) = true /\ fltb (at_rot a) f360 = true
    /\ fleb (fneg f360) d = true /\ fleb d f360 = true /\ feqb (at_rot (rotate_at d a)) f360 = true.
Proof. exact rotate_360. Qed.
Print Assumptions C20_rotate_range_refuted.
(** [0,360] always holds. *)
Theorem C20_rotate_range (a d x y : f64) :
  is_finite a = true -> is_finite d = true ->
  (0 <= B2R a < 360)%R -> (-360 <= B2R d <= 360)%R ->
  let r := at_rot (rotate_at d (mk_at x y a)) in
  is_finite r = true /\ (0 <= B2R r <= 360)%R.
Proof. exact (rotate_range a d x y). Qed.
Print Assumptions C20_rotate_range.
(** On multiples of 2^-43 rotation is exact modulo one turn, stays in [0,360),
    and rotating back restores the angle. *)
Theorem C20_rotate_exact (a d x y : f64) :
  grid a -> grid d -> (0 <= B2R a < 360)%R -> (-360 <= B2R d <= 360)%R ->
  let r := at_rot (rotate_at d (mk_at x y a)) in
  grid r /\ (0 <= B2R r < 360)%R /\ same_angle (B2R r) (B2R a + B2R d).
Proof. exact (fun Ha Hd Ba Bd => rotate_exact a d Ha Hd Ba Bd x y). Qed.
Print Assumptions C20_rotate_exact.
Theorem C20_rotate_back (a d x y : f64) :
  grid a -> grid d -> (0 <= B2R a < 360)%R -> (-360 <= B2R d <= 360)%R ->
  feqb (at_rot (rotate_at (fneg d) (rotate_at d (mk_at x y a)))) a = true.
Proof. exact (rotate_back a d x y). Qed.
Print Assumptions C20_rotate_back.
Example C20_ex : grid (fl "337.5") /\ grid (fl "-0.125").
Proof. split; apply gridb_grid; vm_compute; reflexivity. Qed.
Example C20_ex_value : feqb (at_rot (rotate_at (fl "90") (mkat "0" "0" "337.5"))) (fl "67.5") = true.
Proof. vm_compute. reflexivity. Qed.

(** C21: set_reference changes the value of exactly the matching texts. *)
Theorem C21_set_reference (old new : str) (m : module) :
  let m' := set_reference old new m in
  m_name m' = m_name m /\ length (m_elements m') = length (m_elements m)
  /\ forall i e, nth_error (m_elements m) i = Some e ->
     (forall t, e = EFpText t -> tx_name t = lit "reference" -> tx_value t = old ->
        nth_error (m_elements m') i =
          Some (EFpText (mk_text (tx_name t) new (tx_at t) (tx_layer t) (tx_effects t) (tx_hide t))))
     /\ (~ ref_reads old e -> nth_error (m_elements m') i = Some e).
Proof. exact (set_reference_spec old new m). Qed.
Print Assumptions C21_set_reference.
Theorem C21_old_gone (old new : str) (m : module) : old <> new ->
  is_reference_with_name (set_reference old new m) old = false.
Proof. exact (set_reference_gone old new m). Qed.
Print Assumptions C21_old_gone.
Theorem C21_new_present (old new : str) (m : module) :
  is_reference_with_name m old = true ->
  is_reference_with_name (set_reference old new m) new = true.
Proof. exact (set_reference_present old new m). Qed.
Print Assumptions C21_new_present.
Theorem C21_undo (old new : str) (m : module) : is_reference_with_name m new = false ->
  set_reference new old (set_reference old new m) = m.
Proof. exact (set_reference_back old new m). Qed.
Print Assumptions C21_undo.
Theorem C21_get_reference (old new : str) (m : module) (r : str) : get_reference m = Some r ->
  get_reference (set_reference old new m) = Some (if str_eqb r old then new else r).
Proof. exact (get_reference_set old new m r). Qed.
Print Assumptions C21_get_reference.
(** What carrying a reference means. *)
Theorem C21_is_reference (m : module) (r : str) :
  is_reference_with_name m r = true <-> exists e, In e (m_elements m) /\ ref_reads r e.
Proof. exact (is_ref_iff m r). Qed.
Print Assumptions C21_is_reference.
(** Lookup gives the first text of that name ... *)
Theorem C21_get_text (m : module) (w : str) (t : fp_text) :
  get_text m w = Some t <->
  exists l1 l2, m_elements m = l1 ++ EFpText t :: l2 /\ tx_name t = w
                /\ forall e, In e l1 -> ~ text_named w e.
Proof. exact (find_text_spec w (m_elements m) t). Qed.
Print Assumptions C21_get_text.
(** ... and a change through the mutable lookup changes that text only. *)
Theorem C21_modify_text (m : module) (w : str) (f : fp_text -> fp_text) :
  match get_text m w with
  | None => modify_text m w f = None
  | Some t => exists l1 l2, m_elements m = l1 ++ EFpText t :: l2 /\ (forall e, In e l1 -> ~ text_named w e)
              /\ tx_name t = w
              /\ modify_text m w f = Some (mk_module (m_name m) (l1 ++ EFpText (f t) :: l2))
  end.
Proof. exact (modify_text_spec m w f). Qed.
Print Assumptions C21_modify_text.
Example C21_ex : is_reference_with_name ex_module (lit "U1") = true
  /\ is_reference_with_name ex_module (lit "U2") = false /\ get_reference ex_module = Some (lit "U1").
Proof. vm_compute. auto. Qed.

(** C44: symmetric and transitive; reflexive exactly without NaN. *)
Theorem C44_layer_equivalence :
  (forall a, layer_eqb a a = true) /\ (forall a b, layer_eqb a b = layer_eqb b a)
  /\ (forall a b c, layer_eqb a b = true -> layer_eqb b c = true -> layer_eqb a c = true).
Proof. exact (conj layer_self per_layer). Qed.
Print Assumptions C44_layer_equivalence.
Theorem C44_pad_equivalence :
  (forall a, pad_eqb a a = pad_num a) /\ (forall a b, pad_eqb a b = pad_eqb b a)
  /\ (forall a b c, pad_eqb a b = true -> pad_eqb b c = true -> pad_eqb a c = true).
Proof. exact (conj pad_self per_pad). Qed.
Print Assumptions C44_pad_equivalence.
Theorem C44_text_equivalence :
  (forall a, text_eqb a a = special (tx_name a) || text_num a) /\ (forall a b, text_eqb a b = text_eqb b a)
  /\ (forall a b c, text_eqb a b = true -> text_eqb b c = true -> text_eqb a c = true).
Proof. exact (conj text_self per_text). Qed.
Print Assumptions C44_text_equivalence.
Example C44_ex : pad_num ex_pad1 = true /\ text_num ex_ref = true.
Proof. split; vm_compute; reflexivity. Qed.
(** Equal parts are not interchangeable. *)
Theorem C44_layer_refuted : exists a b, layer_eqb a b = true /\ show_layer a <> show_layer b.
Proof. exact layer_not_interchangeable. Qed.
Print Assumptions C44_layer_refuted.
Theorem C44_pad_refuted : exists a b, pad_eqb a b = true /\ ser_pad a <> ser_pad b.
Proof. exact pad_not_interchangeable. Qed.
Print Assumptions C44_pad_refuted.
Theorem C44_text_refuted : exists a b, text_eqb a b = true /\ tx_value a <> tx_value b.
Proof. exact text_not_interchangeable. Qed.
Print Assumptions C44_text_refuted.

(** C45 (footprint): the pad and line views are the elements of that kind in
    order. *)
Theorem C45_pads (m : module) : map EPad (pads m) = filter elem_is_pad (m_elements m).
Proof. exact (pads_view m). Qed.
Print Assumptions C45_pads.
Theorem C45_fp_lines (m : module) : map EFpLine (fp_lines m) = filter elem_is_line (m_elements m).
Proof. exact (lines_view m). Qed.
Print Assumptions C45_fp_lines.
Example C45_ex : pads ex_module = [ex_pad1; ex_pad2].
Proof. reflexivity. Qed.
