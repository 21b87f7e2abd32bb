(** C91: what stands for the parts a file does not give, and what the constructors build. *)
From Coq Require Import String.
From Verif Require Import Base Str Num F64 F64Text Sexp FpData FpLayer FpSer FpDe FpNew FpWf LyData LyDe SchData SchParse BareSpec BareFacts.
Open Scope string_scope. Open Scope list_scope.

(** Every choice of optional parts of a text: what is written is kept, what is not is the
    origin, the front copper layer and plain letters, and the text is shown. *)
Theorem C91_text : forall n v a l (h : bool) e,
  opt_ok at_ok a = true -> opt_ok layer_ok l = true -> opt_ok effects_ok e = true ->
  de_text (node "fp_text" ([SStr n; SStr v] ++ part ser_at a ++ part (fun l => kv "layer" (ser_layer l)) l
    ++ part a_lit (if h then Some "hide" else None) ++ part ser_effects e))
  = Ok (mk_text n v (given nowhere a) (given front_copper l) (given plain_letters e) h).
Proof. exact text_parts. Qed.
Print Assumptions C91_text.
Example C91_text_ex : de_text (node "fp_text" [a_lit "user"; a_lit "A"; a_lit "hide"])
  = Ok (mk_text (lit "user") (lit "A") nowhere front_copper plain_letters true).
Proof. exact (C91_text (lit "user") (lit "A") None None true None eq_refl eq_refl eq_refl). Qed.

(** The same for outlines. *)
Theorem C91_poly : forall p l w, opt_ok layer_ok l = true ->
  de_poly (node "fp_poly" (part ser_pts p ++ part (fun l => kv "layer" (ser_layer l)) l ++ part (fun w => kv "width" (a_f w)) w))
  = Ok (mk_poly (given [] p) (given fzero w) (given front_copper l)).
Proof. exact poly_parts. Qed.
Print Assumptions C91_poly.
Example C91_poly_ex : de_poly (node "fp_poly" [kv "layer" (a_lit "B.SilkS")]) = Ok (mk_poly [] fzero (mk_layer SBack LSilkS)).
Proof. exact (C91_poly None (Some (mk_layer SBack LSilkS)) None eq_refl). Qed.

(** Lines, circles and arcs with both points. *)
Theorem C91_shapes :
  (forall a b l w, xy_t a = XStart -> xy_t b = XEnd -> opt_ok layer_ok l = true ->
    de_line (node "fp_line" ([ser_xy a; ser_xy b] ++ part (fun l => kv "layer" (ser_layer l)) l ++ part (fun w => kv "width" (a_f w)) w))
    = Ok (mk_line a b (given front_copper l) (given fzero w)))
  /\ (forall a b l w, xy_t a = XCenter -> xy_t b = XEnd -> opt_ok layer_ok l = true ->
    de_circle (node "fp_circle" ([ser_xy a; ser_xy b] ++ part (fun l => kv "layer" (ser_layer l)) l ++ part (fun w => kv "width" (a_f w)) w))
    = Ok (mk_circle a b (given front_copper l) (given fzero w)))
  /\ (forall a b g l w, xy_t a = XStart -> xy_t b = XEnd -> opt_ok layer_ok l = true ->
    de_arc (node "fp_arc" ([ser_xy a; ser_xy b] ++ part (fun g => kv "angle" (a_f g)) g
      ++ part (fun l => kv "layer" (ser_layer l)) l ++ part (fun w => kv "width" (a_f w)) w))
    = Ok (mk_arc a b (given fzero g) (given front_copper l) (given fzero w))).
Proof. exact (conj line_parts (conj circle_parts arc_parts)). Qed.
Print Assumptions C91_shapes.
Example C91_shapes_ex : xy_t (mk_xy (flit "1") (flit "2") XStart) = XStart
  /\ de_line (node "fp_line" [node "start" [a_lit "0"; a_lit "0"]; node "end" [a_lit "0"; a_lit "0"]]) = Ok line_default.
Proof. split; [reflexivity|]. exact (proj1 C91_shapes (origin XStart) (origin XEnd) None None eq_refl eq_refl eq_refl). Qed.

(** A shape that gives its end but not its first point loses the end: the file is accepted
    and reads as if it gave no point at all. *)
Theorem C91_lost_end : forall p, xy_t p = XEnd ->
  de_line (node "fp_line" [ser_xy p]) = Ok (mk_line (origin XStart) (origin XEnd) front_copper fzero)
  /\ de_circle (node "fp_circle" [ser_xy p]) = Ok (mk_circle (origin XCenter) (origin XEnd) front_copper fzero)
  /\ de_arc (node "fp_arc" [ser_xy p]) = Ok (mk_arc (origin XStart) (origin XEnd) fzero front_copper fzero).
Proof. exact (fun p H => conj (line_lost p H) (conj (circle_lost p H) (arc_lost p H))). Qed.
Print Assumptions C91_lost_end.
Example C91_lost_end_ex : xy_t (mk_xy (flit "1") (flit "2") XEnd) = XEnd /\ feqb (flit "2") fzero = false.
Proof. split; vm_compute; reflexivity. Qed.

(** Pads, up to the layers. *)
Theorem C91_pad : forall n t sh a z d l,
  opt_ok at_ok a = true -> opt_ok (fun z => xy_type_eqb (xy_t z) XSize) z = true ->
  opt_ok drill_ok d = true -> opt_ok (forallb layer_ok) l = true ->
  de_pad (node "pad" ([SStr n; a_lit (show_pad_type t); a_lit (show_pad_shape sh)]
    ++ part ser_at a ++ part ser_xy z ++ part ser_drill d ++ part ser_layers l))
  = Ok (mk_pad n t sh (given (origin XSize) z) None (given nowhere a) (given [] l) None None d None None None None).
Proof. exact pad_parts_written. Qed.
Print Assumptions C91_pad.
Example C91_pad_ex : de_pad (node "pad" [a_lit "1"; a_lit "smd"; a_lit "rect"; node "layers" [a_lit "F.Cu"]])
  = Ok (mk_pad (lit "1") Smd Rect (origin XSize) None nowhere [front_copper] None None None None None None None).
Proof. exact (C91_pad (lit "1") Smd Rect None None None (Some [front_copper]) eq_refl eq_refl eq_refl eq_refl). Qed.

(** What the constructors build is what the barest element of its kind reads as. *)
Theorem C91_built :
  (forall n v, de_text (node "fp_text" [SStr n; SStr v]) = Ok (text_new n v))
  /\ (forall n t sh, de_pad (node "pad" [SStr n; a_lit (show_pad_type t); a_lit (show_pad_shape sh)]) = Ok (pad_new n t sh))
  /\ de_poly (node "fp_poly" []) = Ok poly_default
  /\ de_line (node "fp_line" []) = Ok line_default
  /\ de_circle (node "fp_circle" []) = Ok circle_default
  /\ de_arc (node "fp_arc" []) = Ok arc_default
  /\ (forall n, de_module (node "module" [SStr n]) = Ok (module_new n))
  /\ de_layout (node "kicad_pcb" []) = Ok layout_default
  /\ layout_default = untouched_board.
Proof.
  exact (conj (fun n v => text_parts n v None None false None eq_refl eq_refl eq_refl)
    (conj (fun n t sh => pad_parts_written n t sh None None None None eq_refl eq_refl eq_refl eq_refl)
    (conj (poly_parts None None None eq_refl) (conj eq_refl (conj eq_refl (conj eq_refl (conj empty_module (conj empty_board eq_refl)))))))).
Qed.
Print Assumptions C91_built.
Example C91_built_ex : ly_version untouched_board = 4%Z /\ ly_page untouched_board = lit "A4" /\ tx_hide (text_new (lit "a") (lit "b")) = false.
Proof. split; [reflexivity|split; reflexivity]. Qed.

(** Adding a layer to a pad's list puts it last, in memory and in the file. *)
Theorem C91_layers : forall ls l, forallb layer_ok ls = true -> layer_ok l = true ->
  de_layers (ser_layers (layers_append l ls)) = Ok (ls ++ [l])
  /\ ser_layers (layers_append l ls) = SList (SStr (lit "layers") :: map ser_layer ls ++ [ser_layer l]).
Proof. exact layers_grow. Qed.
Print Assumptions C91_layers.
Example C91_layers_ex : ser_layers (layers_append (mk_layer SFront LMask) [front_copper]) = node "layers" [a_lit "F.Cu"; a_lit "F.Mask"].
Proof. exact (proj2 (C91_layers [front_copper] (mk_layer SFront LMask) eq_refl eq_refl)). Qed.

(** A component or sheet that says nothing before its end. *)
Theorem C91_schematic : forall h r,
  parse_component (h :: lit "$EndComp" :: r)
  = Ok (mk_comp (lit "DUMMY") (lit "U1") [] 0 0 [] [] (mk_rotation 0 0 0 0), lit "$EndComp" :: r)
  /\ parse_sheet (h :: lit "$EndSheet" :: r) = Ok (mk_sheet 0 0 0 0 [] (lit "DUMMY") 60 [] 60 [], lit "$EndSheet" :: r).
Proof. exact (fun _ _ => conj eq_refl eq_refl). Qed.
Print Assumptions C91_schematic.
Example C91_schematic_ex : exists c, parse_component [lit "$Comp"; lit "$EndComp"] = Ok (c, [lit "$EndComp"]) /\ co_reference c = lit "U1".
Proof. eexists. split; [exact (proj1 (C91_schematic (lit "$Comp") []))|reflexivity]. Qed.
