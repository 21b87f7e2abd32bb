(** Which footprint values the writer can represent (specification side, used
    in the hypotheses of the round trip theorems).  All predicates are boolean. *)
From Coq Require Import String.
From Verif Require Import Base Str Num F64 F64Text FpData FpLayer.
Open Scope string_scope.

Definition is_negzero (x : f64) : bool := fsame x fnegzero.
Definition is_poszero (x : f64) : bool := fsame x fzero.

(** A rotation of exactly -0.0 is written like +0.0. *)
Definition at_ok (a : at_t) : bool := negb (is_negzero (at_rot a)).

(** The standard type names; an [Other] text may not be one of them nor contain
    a dot. *)
Definition std_types : list str :=
  map lit ["Cu"; "Paste"; "Mask"; "SilkS"; "User"; "Adhes"; "Cuts"; "CrtYd"; "Fab"; "Margin"].
Definition layer_ok (l : layer) : bool :=
  match la_t l with
  | LOther s => forallb (fun c => negb (is_dot c)) s && negb (existsb (str_eqb s) std_types)
  | _ => true
  end.

(** The reader always yields the point type [Xy] for a font size, and a size is
    only written when one of its numbers is positive. *)
Definition font_ok (f : font) : bool :=
  let s := fo_size f in
  xy_type_eqb (xy_t s) XXy
  && (fgtb (xy_x s) fzero || fgtb (xy_y s) fzero || (is_poszero (xy_x s) && is_poszero (xy_y s))).
Definition effects_ok (e : effects) : bool := font_ok (ef_font e).

(** f64::EPSILON = 2^-52 *)
Definition f_eps : f64 := flit "2.220446049250313e-16".

Definition drill_ok (d : drill) : bool :=
  match dr_shape d with None => true | Some s => str_eqb s (lit "oval") end
  && fgtb (dr_width d) fzero
  && (fsame (dr_height d) (dr_width d)
      || (fgtb (dr_height d) fzero && fgtb (fabs (fsub (dr_height d) (dr_width d))) f_eps))
  && (fneb (dr_ox d) fzero || fneb (dr_oy d) fzero
      || (is_poszero (dr_ox d) && is_poszero (dr_oy d))).

Definition opt_ok {A} (f : A -> bool) (o : option A) : bool :=
  match o with Some x => f x | None => true end.

Definition fnet_ok (n : fnet) : bool := i64_ok (fn_num n).

Definition pad_ok (p : pad) : bool :=
  xy_type_eqb (xy_t (pa_size p)) XSize
  && match pa_rect_delta p with None => true | Some _ => false end
  && at_ok (pa_at p) && forallb layer_ok (pa_layers p)
  && opt_ok fnet_ok (pa_net p) && opt_ok i64_ok (pa_zone_connect p)
  && opt_ok drill_ok (pa_drill p).

Definition text_ok (t : fp_text) : bool :=
  at_ok (tx_at t) && layer_ok (tx_layer t) && effects_ok (tx_effects t).
Definition fpline_ok (l : fp_line) : bool :=
  xy_type_eqb (xy_t (li_start l)) XStart && xy_type_eqb (xy_t (li_end l)) XEnd
  && layer_ok (li_layer l).
Definition circle_ok (c : fp_circle) : bool :=
  xy_type_eqb (xy_t (ci_center c)) XCenter && xy_type_eqb (xy_t (ci_end c)) XEnd
  && layer_ok (ci_layer c).
Definition arc_ok (a : fp_arc) : bool :=
  xy_type_eqb (xy_t (ar_start a)) XStart && xy_type_eqb (xy_t (ar_end a)) XEnd
  && layer_ok (ar_layer a).

(** Time stamps are written as the unsigned bit pattern but read as a signed
    number, so negative ones are lost. *)
Definition stamp_ok (z : Z) : bool := ((0 <=? z) && (z <=? i64_max))%Z.

Definition element_ok (e : element) : bool :=
  match e with
  | ELayer l => layer_ok l
  | EFpText t => text_ok t
  | EPad p => pad_ok p
  | EFpPoly p => layer_ok (po_layer p)
  | EFpLine l => fpline_ok l
  | EFpCircle c => circle_ok c
  | EFpArc a => arc_ok a
  | ETEdit z | ETStamp z => stamp_ok z
  | EAt a => at_ok a
  | _ => true
  end.

Definition module_ok (m : module) : bool := forallb element_ok (m_elements m).

(** What a footprint read from a file must additionally satisfy to be written
    back unchanged (specification side): no rect_delta pad, no negative time
    stamp, no rotation of -0.0, font sizes and drills in the range the writer
    keeps. *)
Definition font_clean (f : font) : bool :=
  let s := fo_size f in
  fgtb (xy_x s) fzero || fgtb (xy_y s) fzero || (is_poszero (xy_x s) && is_poszero (xy_y s)).
Definition drill_clean (d : drill) : bool :=
  fgtb (dr_width d) fzero
  && (fsame (dr_height d) (dr_width d)
      || (fgtb (dr_height d) fzero && fgtb (fabs (fsub (dr_height d) (dr_width d))) f_eps))
  && (fneb (dr_ox d) fzero || fneb (dr_oy d) fzero
      || (is_poszero (dr_ox d) && is_poszero (dr_oy d))).
Definition element_clean (e : element) : bool :=
  match e with
  | EFpText t => at_ok (tx_at t) && font_clean (ef_font (tx_effects t))
  | EPad p => match pa_rect_delta p with None => true | Some _ => false end
              && at_ok (pa_at p) && opt_ok drill_clean (pa_drill p)
  | ETEdit z | ETStamp z => (0 <=? z)%Z
  | EAt a => at_ok a
  | _ => true
  end.
Definition module_clean (m : module) : bool := forallb element_clean (m_elements m).
