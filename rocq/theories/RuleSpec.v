(** Specification: the reports of the rule checks, finding by finding, and the exact outcome
    of the automatic fixes (C79). *)
From Coq Require Import String.
From Verif Require Import Base Str Num F64 F64Text FpData FpOps Bound SymData SymPrint CheckFix CheckSpec.
Open Scope string_scope. Open Scope list_scope.

(** A table of rules: when is a finding reported.  The report is what the table says, in the
    order of the table. *)
Definition rules : Type := list (Prop * cf_item).
Inductive reported : rules -> list cf_item -> Prop :=
| rp_nil : reported [] []
| rp_yes (P : Prop) i r l : P -> reported r l -> reported ((P, i) :: r) (i :: l)
| rp_no (P : Prop) i r l : ~ P -> reported r l -> reported ((P, i) :: r) l.

(** ** Footprints *)
Definition says (m : module) (w : string) (P : fp_text -> Prop) : Prop := exists t, the_text m w t /\ P t.
Definition measure_rules (c : config) (m : module) (w what : string) : rules :=
  [ (says m w (fun t => differ (xy_y (text_size t)) (cg_font_size c)),
     fp_finding m 7 3 (lit what ++ lit " label should have height " ++ f64_to_str (cg_font_size c)) true);
    (says m w (fun t => differ (xy_x (text_size t)) (cg_font_size c)),
     fp_finding m 7 3 (lit what ++ lit " label should have width " ++ f64_to_str (cg_font_size c)) true);
    (says m w (fun t => differ (fo_thickness (ef_font (tx_effects t))) (cg_font_thickness c)),
     fp_finding m 7 3 (lit what ++ lit " label thickness should be " ++ f64_to_str (cg_font_thickness c)) true) ].
Definition reference_rules (c : config) (m : module) : rules :=
  [ (no_text m "reference", fp_finding m 7 3 (lit "reference missing") false);
    (says m "reference" (fun t => tx_value t <> lit "REF**"), fp_finding m 7 3 (lit "reference should be REF**") false);
    (says m "reference" (fun t => la_t (tx_layer t) <> LSilkS), fp_finding m 7 3 (lit "reference should be on SilkS layertype") false);
    (says m "reference" (fun t => tx_hide t = true), fp_finding m 7 3 (lit "reference should not be hidden") false);
    (says m "reference" (fun t => differ (xy_x (text_size t)) (xy_y (text_size t))),
     fp_finding m 7 3 (lit "reference label font aspect ratio should be 1:1") false) ]
  ++ measure_rules c m "reference" "reference".
Definition value_rules (c : config) (m : module) : rules :=
  [ (no_text m "value", fp_finding m 7 4 (lit "value missing") false);
    (says m "value" (fun t => tx_value t <> m_name m), fp_finding m 7 4 (lit "value text has to match footprint name") false);
    (says m "value" (fun t => la_t (tx_layer t) <> LFab), fp_finding m 7 4 (lit "value text has to be on Fab layer") false);
    (says m "value" (fun t => tx_hide t = true), fp_finding m 7 4 (lit "value text should not be hidden") false) ]
  ++ measure_rules c m "value" "value".
Definition user_rules (c : config) (m : module) : rules :=
  [ (no_text m "user", fp_finding m 7 4 (lit "reference 2 missing") false);
    (says m "user" (fun t => tx_value t <> lit "%R"), fp_finding m 7 4 (lit "reference 2 should be %R") false);
    (says m "user" (fun t => la_t (tx_layer t) <> LFab), fp_finding m 7 4 (lit "reference 2 should be on Fab layertype") false);
    (says m "user" (fun t => differ (xy_x (text_size t)) (xy_y (text_size t))),
     fp_finding m 7 4 (lit "reference 2 label font aspect ratio should be 1:1") false) ]
  ++ measure_rules c m "user" "reference 2".
Definition lone_smd (m : module) : Prop := has_pad m Smd /\ ~ has_pad m Pth /\ ~ In (EAttr (lit "smd")) (m_elements m).
Definition footprint_rules (c : config) (m : module) : rules :=
  reference_rules c m ++ value_rules c m ++ user_rules c m
  ++ [ ((length (courtyard_list m) < 4)%nat, fp_finding m 7 5 (lit "missing courtyard on CrtYd layer") false);
       (lone_smd m, fp_finding m 8 1 (lit placement_message) false);
       (has_pad m Pth /\ ~ has_pad m Smd /\ In (EAttr (lit "smd")) (m_elements m), fp_finding m 9 1 (lit placement_message) false) ].

(** ** Symbols *)
Definition pin_rules (p : pin) : rules :=
  [ (~ on_grid 10 (pn_x p), pin_finding p 4 1 "pin x not on 100mil grid" false);
    (~ on_grid 10 (pn_y p), pin_finding p 4 1 "pin y not on 100mil grid" false);
    (~ on_grid 5 (pn_len p), pin_finding p 4 1 "pin length not on 50mil grid" false);
    ((pn_len p < 100)%Z, pin_finding p 4 1 "pin length < 100mil" true);
    ((300 < pn_len p)%Z, pin_finding p 4 1 "pin length > 300mil" true);
    (reads_nc (pn_name p) /\ pn_type p <> PTNotConnected, pin_finding p 4 7 "Pin should be of type Not Connected" false);
    (pn_type p = PTNotConnected /\ pn_visible p = true, pin_finding p 4 7 "Pin should be invisible" false);
    (pn_type p <> PTNotConnected /\ pn_visible p = false, pin_finding p 4 7 "Pin should be visible" false);
    (pn_num_size p <> 50%Z, pin_finding p 4 8 "Pin Number should be 50mil" false);
    (pn_name_size p <> 50%Z, pin_finding p 4 8 "Pin Name should be 50mil" false) ].
Definition rect_rules (r : rectangle) : rules :=
  [ (rc_fill r <> FillBg, mk_item 4 2 (print_rect r) (lit "Rectangle is not filled") false);
    (rc_thickness r <> 10%Z, mk_item 4 2 (print_rect r) (lit "Rectangle is not using a 10mil line") false) ].
Definition field_rules (s : symbol) (f : sfield) : rules :=
  let show (m : string) := mk_item 4 9 (sy_name s) (lit m) false in
  [ (sf_dim f <> 50%Z, mk_item 4 8 (print_sfield f) (lit "field text is not 50mil") false);
    (sf_i f = 0%Z /\ graphics s /\ sf_visible f = true, show "reference field should be invisible for graphics");
    (sf_i f = 0%Z /\ ~ graphics s /\ ~ power s /\ sf_visible f = false, show "reference field should be visible for normal symbols");
    (sf_i f = 1%Z /\ graphics s /\ sf_visible f = true, show "value field should be invisible for graphics");
    (sf_i f = 1%Z /\ ~ graphics s /\ power s /\ sf_visible f = true, show "value field should be invisible for power");
    (sf_i f = 1%Z /\ ~ graphics s /\ ~ power s /\ sf_visible f = false, show "value field should be visible for normal symbols");
    (sf_i f = 2%Z /\ sf_visible f = true, show "Footprint field should be invisible");
    (sf_i f = 3%Z /\ sf_visible f = true, show "Datasheet field should be invisible") ].
Definition draw_rules (d : draw) : rules := match d with DPin p => pin_rules p | DRect r => rect_rules r | DOther _ => [] end.
(** Findings about one thing: none, one as it is, several as a list *)
Definition grouped (l : list cf_item) : list cf_data :=
  match l with [] => [] | [i] => [Item i] | _ => [More (map Item l)] end.
Definition symbol_report (s : symbol) (ds : list cf_data) : Prop :=
  exists fs gs, Forall2 (fun f l => reported (field_rules s f) l) (sy_fields s) fs
  /\ (((power s \/ graphics s) /\ gs = []) \/ (~ power s /\ ~ graphics s /\ Forall2 (fun d l => reported (draw_rules d) l) (sy_draw s) gs))
  /\ ds = grouped (map (bad_char_item (without_tilde (sy_name s))) (bad_chars (without_tilde (sy_name s))))
          ++ flat_map grouped fs ++ flat_map grouped gs.

(** ** The fixed footprint *)
(** Place for place: the first text of each of the three names as the rules want it, all else as it was *)
Definition places_fixed (c : config) (m : module) (old : list element) : Prop :=
  length old = length (m_elements m) /\
  forall k e e', nth_error (m_elements m) k = Some e -> nth_error old k = Some e' ->
    (exists t t', first_text (m_elements m) k t /\ e' = EFpText t' /\ text_frame t t' /\ as_ruled c (m_name m) t')
    \/ ((forall t, ~ first_text (m_elements m) k t) /\ e' = e).
(** The label added when there is no text named user *)
Definition label (c : config) : fp_text :=
  mk_text (lit "user") (lit "%R") (mk_at fzero fzero fzero) (mk_layer SFront LFab)
    (mk_effects (mk_font (mk_xy (cg_font_size c) (cg_font_size c) XXy) (cg_font_thickness c) false) None) false.
(** The margin: 0.15 for boxes below 2 by 2, else 0.1 for names starting with BGA and 0.25 for the others *)
Definition margin (m : module) (o : f64) : Prop :=
  let b := module_bound m in
  let small := fltb (bound_width b) (f64_of_Z 2) = true /\ fltb (bound_height b) (f64_of_Z 2) = true in
  let bga := exists r, m_name m = lit "BGA" ++ r in
  (small /\ o = f64_of_dec 15 (-2)) \/ (~ small /\ bga /\ o = f64_of_dec 1 (-1)) \/ (~ small /\ ~ bga /\ o = f64_of_dec 25 (-2)).
(** The four lines: the box of the footprint seen from its position, widened by the margin *)
Definition yard (m : module) (ls : list fp_line) : Prop :=
  exists o, margin m o /\
  let b := module_bound m in let x := fst (module_at m) in let y := snd (module_at m) in
  rectangle_of (fsub (fmin (fsub (bx1 b) x) (fsub (bx2 b) x)) o) (fsub (fmin (fsub (by1 b) y) (fsub (by2 b) y)) o)
               (fadd (fmax (fsub (bx1 b) x) (fsub (bx2 b) x)) o) (fadd (fmax (fsub (by1 b) y) (fsub (by2 b) y)) o) ls
  /\ Forall (fun l => li_layer l = mk_layer SFront LCrtYd /\ li_width l = f64_of_dec 5 (-2)
                      /\ xy_t (li_start l) = XStart /\ xy_t (li_end l) = XEnd) ls.
Definition if_holds (P : Prop) (some : list element -> Prop) (l : list element) : Prop := (P /\ some l) \/ (~ P /\ l = []).
Definition fixed_as (c : config) (m m' : module) : Prop :=
  m_name m' = m_name m /\ exists old a b d, m_elements m' = old ++ a ++ b ++ d
  /\ places_fixed c m old
  /\ if_holds (no_text m "user") (fun l => l = [EFpText (label c)]) a
  /\ if_holds (lone_smd m) (fun l => l = [EAttr (lit "smd")]) b
  /\ if_holds (length (courtyard_list m) < 4)%nat (fun l => exists ls, yard m ls /\ l = map EFpLine ls) d.

(** The sections of the rule book, first to last. *)
Definition section_names : list string :=
  ["General Rules"; "Symbol Library Names"; "Symbol Names"; "General Rules for Symbols"; "Footprint Library Names"; "Footprint Names";
   "General Rules for Footprints"; "Rules for SMD Footprints"; "Rules for Through-hole Footprints"; "Footprint Properties"].
