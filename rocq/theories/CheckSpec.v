(** Specifications for rule checks and fixes (C34-C38, C47, C48). *)
From Coq Require Import String Reals.
From Flocq Require Import Core.Core IEEE754.BinarySingleNaN.
From Verif Require Import Base Str Num F64 F64Text FpData FpOpsSpec SymData CheckFix.
Open Scope string_scope. Open Scope list_scope.

(** ** Check results: the findings in a tree, left to right *)
Fixpoint findings (d : cf_data) : list cf_item :=
  match d with Item i => [i] | More l => flat_map findings l end.
(** ... with the number of lists around each *)
Fixpoint findings_in (k : nat) (d : cf_data) : list (nat * cf_item) :=
  match d with Item i => [(k, i)] | More l => flat_map (findings_in (S k)) l end.
(** The line for a finding: two blanks for each list around it except the outermost *)
Definition finding_line (n : nat) (p : nat * cf_item) : bool * str :=
  let i := snd p in
  (negb (it_info i),
   repeat 32%N (2 * (n + (fst p - 1))) ++ show_Z (it_section i) ++ lit "." ++ show_Z (it_rule i) ++ lit " " ++ it_item i ++ lit ":" ++ it_message i).
Definition all_findings (l : list cf_data) : list cf_item := flat_map findings l.

(** ** Names *)
Definition in_range (a b : string) (c : N) : Prop := (hd 0 (lit a) <= c <= hd 0 (lit b))%N.
Definition name_char (c : N) : Prop :=
  in_range "A" "Z" c \/ in_range "a" "z" c \/ in_range "0" "9" c \/ In c (lit "_-.").
Definition name_charb (c : N) : bool :=
  ((65 <=? c) && (c <=? 90) || (97 <=? c) && (c <=? 122) || (48 <=? c) && (c <=? 57) || (c =? 95) || (c =? 45) || (c =? 46))%N.
(** The disallowed characters with their positions, in order *)
Definition bad_chars (s : str) : list (nat * N) :=
  filter (fun p => negb (name_charb (snd p))) (combine (seq 0 (length s)) s).
Definition bad_char_item (s : str) (p : nat * N) : cf_item :=
  mk_item 1 7 s (lit "Invalid char '" ++ [snd p] ++ lit "' at " ++ show_Z (Z.of_nat (fst p)) ++ lit " in '" ++ s ++ lit "'") false.
Definition without_tilde (s : str) : str := match s with 126%N :: r => r | _ => s end.

(** ** Pins *)
Definition reads_nc (s : str) : Prop :=
  exists a n c b, s = a ++ n :: c :: b /\ In n (lit "nN") /\ In c (lit "cC").
Definition on_grid (g x : Z) : Prop := exists k, x = (g * k)%Z.
(** The rules the code enforces *)
Definition pin_accepted (p : pin) : Prop :=
  on_grid 10 (pn_x p) /\ on_grid 10 (pn_y p) /\ on_grid 5 (pn_len p) /\ (100 <= pn_len p <= 300)%Z
  /\ (reads_nc (pn_name p) -> pn_type p = PTNotConnected)
  /\ (pn_visible p = true <-> pn_type p <> PTNotConnected)
  /\ pn_num_size p = 50%Z /\ pn_name_size p = 50%Z.
Definition rect_accepted (r : rectangle) : Prop := rc_fill r = FillBg /\ rc_thickness r = 10%Z.
(** [power]: a symbol with reference #PWR and one pin; [graphics]: a reference
    beginning with # and no pin *)
Definition pin_draws (s : symbol) : nat := length (filter (fun d => match d with DPin _ => true | _ => false end) (sy_draw s)).
Definition power (s : symbol) : Prop := sy_reference s = lit "#PWR" /\ pin_draws s = 1%nat.
Definition graphics (s : symbol) : Prop := hd_error (sy_reference s) = Some 35%N /\ pin_draws s = 0%nat.
Definition field_accepted (s : symbol) (f : sfield) : Prop :=
  sf_dim f = 50%Z
  /\ (sf_i f = 0%Z -> (graphics s -> sf_visible f = false) /\ (~ graphics s -> ~ power s -> sf_visible f = true))
  /\ (sf_i f = 1%Z -> (graphics s \/ power s -> sf_visible f = false) /\ (~ graphics s -> ~ power s -> sf_visible f = true))
  /\ (sf_i f = 2%Z \/ sf_i f = 3%Z -> sf_visible f = false).
Definition symbol_accepted (s : symbol) : Prop :=
  Forall name_char (without_tilde (sy_name s))
  /\ Forall (field_accepted s) (sy_fields s)
  /\ (power s \/ graphics s \/ Forall (fun d => match d with DPin p => pin_accepted p | DRect r => rect_accepted r | DOther _ => True end) (sy_draw s)).

(** ** Fixing a footprint *)
Definition fixable : list str := map lit ["reference"; "value"; "user"].
(** Everything of a text but its value, layer type, visibility and font measures *)
Definition text_frame (t t' : fp_text) : Prop :=
  tx_name t' = tx_name t /\ tx_at t' = tx_at t /\ la_side (tx_layer t') = la_side (tx_layer t)
  /\ fo_italic (ef_font (tx_effects t')) = fo_italic (ef_font (tx_effects t)) /\ ef_justify (tx_effects t') = ef_justify (tx_effects t)
  /\ xy_t (fo_size (ef_font (tx_effects t'))) = xy_t (fo_size (ef_font (tx_effects t))).
(** What the rules ask of the text [w] of the footprint [name] *)
Definition rule_text (name w : str) : str :=
  if str_eqb w (lit "reference") then lit "REF**" else if str_eqb w (lit "value") then name else lit "%R".
Definition rule_layer (w : str) : layer_type := if str_eqb w (lit "reference") then LSilkS else LFab.
Definition as_ruled (c : config) (name : str) (t : fp_text) : Prop :=
  tx_value t = rule_text name (tx_name t) /\ la_t (tx_layer t) = rule_layer (tx_name t) /\ tx_hide t = false
  /\ xy_x (fo_size (ef_font (tx_effects t))) = cg_font_size c /\ xy_y (fo_size (ef_font (tx_effects t))) = cg_font_size c
  /\ fo_thickness (ef_font (tx_effects t)) = cg_font_thickness c.
(** The element at place [k] is the first text of one of the three names *)
Definition first_text (l : list element) (k : nat) (t : fp_text) : Prop :=
  nth_error l k = Some (EFpText t) /\ In (tx_name t) fixable
  /\ forall j e, (j < k)%nat -> nth_error l j = Some e -> ~ text_named (tx_name t) e.
(** The elements a fix may append *)
Definition is_courtyard (l : fp_line) : Prop := la_t (li_layer l) = LCrtYd.
Definition appended (m : module) (new : list element) : Prop :=
  exists a b d, new = a ++ b ++ d
  /\ (a = [] \/ (forall e, In e (m_elements m) -> ~ text_named (lit "user") e) /\ exists t, a = [EFpText t] /\ tx_name t = lit "user")
  /\ (b = [] \/ ~ In (EAttr (lit "smd")) (m_elements m) /\ b = [EAttr (lit "smd")])
  /\ (d = [] \/ exists l1 l2 l3 l4, d = map EFpLine [l1; l2; l3; l4] /\ Forall is_courtyard [l1; l2; l3; l4]).
Definition untouched (e : element) : bool := match e with EFpText _ | EAttr _ | EFpLine _ => false | _ => true end.

(** A closed rectangle with the given corners *)
Definition corner (x y : f64) (p : xy) : Prop := xy_x p = x /\ xy_y p = y.
Definition segment (x1 y1 x2 y2 : f64) (l : fp_line) : Prop := corner x1 y1 (li_start l) /\ corner x2 y2 (li_end l).
Definition rectangle_of (x1 y1 x2 y2 : f64) (ls : list fp_line) : Prop :=
  exists a b c d, ls = [a; b; c; d]
  /\ segment x1 y1 x2 y1 a /\ segment x2 y1 x2 y2 b /\ segment x2 y2 x1 y2 c /\ segment x1 y2 x1 y1 d.
(** Coordinates of sizes up to 2^40 mm *)
Definition big : R := bpow radix2 40.
Definition moderate (x : f64) : Prop := is_finite x = true /\ (Rabs (B2R x) <= big)%R.
Definition smallb (x : f64) : bool := is_finite x && fleb (f64_of_Z (-1000000)) x && fleb x (f64_of_Z 1000000).

(** One finding about a pin *)
Definition pin_finding (p : pin) (section rule : Z) (message : string) (info : bool) : cf_item :=
  mk_item section rule (pn_name p ++ lit ":" ++ pn_number p) (lit message) info.

(** ** The footprint rules *)
(** [t] is the first text named [w] *)
Definition the_text (m : module) (w : string) (t : fp_text) : Prop :=
  exists l1 l2, m_elements m = l1 ++ EFpText t :: l2 /\ tx_name t = lit w /\ (forall e, In e l1 -> ~ text_named (lit w) e).
Definition no_text (m : module) (w : string) : Prop := forall e, In e (m_elements m) -> ~ text_named (lit w) e.
Definition has_pad (m : module) (k : pad_type) : Prop := exists p, In (EPad p) (m_elements m) /\ pa_t p = k.
Definition courtyard_list (m : module) : list element :=
  filter (fun e => match e with EFpLine l => match la_t (li_layer l) with LCrtYd => true | _ => false end | _ => false end) (m_elements m).
(** The numbers differ by more than the machine epsilon, as floats *)
Definition differ (a b : f64) : Prop := fgtb (fabs (fsub a b)) (f64_of_dec 2220446049250313 (-31)) = true.
Definition text_size (t : fp_text) : xy := fo_size (ef_font (tx_effects t)).
Definition fp_finding (m : module) (section rule : Z) (message : str) (info : bool) : cf_item := mk_item section rule (m_name m) message info.
Definition placement_message : string := "SMD components need to have placement Smd (Normal+Insert in Properties)".
(** The measures of a text, whose kind of text is called [what] *)
Inductive measure_violation (c : config) (m : module) (what : string) (t : fp_text) : cf_item -> Prop :=
| mv_height : differ (xy_y (text_size t)) (cg_font_size c) ->
    measure_violation c m what t (fp_finding m 7 3 (lit what ++ lit " label should have height " ++ f64_to_str (cg_font_size c)) true)
| mv_width : differ (xy_x (text_size t)) (cg_font_size c) ->
    measure_violation c m what t (fp_finding m 7 3 (lit what ++ lit " label should have width " ++ f64_to_str (cg_font_size c)) true)
| mv_thick : differ (fo_thickness (ef_font (tx_effects t))) (cg_font_thickness c) ->
    measure_violation c m what t (fp_finding m 7 3 (lit what ++ lit " label thickness should be " ++ f64_to_str (cg_font_thickness c)) true).
Inductive violation (c : config) (m : module) : cf_item -> Prop :=
| v_ref_missing : no_text m "reference" -> violation c m (fp_finding m 7 3 (lit "reference missing") false)
| v_ref_value t : the_text m "reference" t -> tx_value t <> lit "REF**" -> violation c m (fp_finding m 7 3 (lit "reference should be REF**") false)
| v_ref_layer t : the_text m "reference" t -> la_t (tx_layer t) <> LSilkS -> violation c m (fp_finding m 7 3 (lit "reference should be on SilkS layertype") false)
| v_ref_hidden t : the_text m "reference" t -> tx_hide t = true -> violation c m (fp_finding m 7 3 (lit "reference should not be hidden") false)
| v_ref_aspect t : the_text m "reference" t -> differ (xy_x (text_size t)) (xy_y (text_size t)) ->
    violation c m (fp_finding m 7 3 (lit "reference label font aspect ratio should be 1:1") false)
| v_ref_measure t i : the_text m "reference" t -> measure_violation c m "reference" t i -> violation c m i
| v_val_missing : no_text m "value" -> violation c m (fp_finding m 7 4 (lit "value missing") false)
| v_val_value t : the_text m "value" t -> tx_value t <> m_name m -> violation c m (fp_finding m 7 4 (lit "value text has to match footprint name") false)
| v_val_layer t : the_text m "value" t -> la_t (tx_layer t) <> LFab -> violation c m (fp_finding m 7 4 (lit "value text has to be on Fab layer") false)
| v_val_hidden t : the_text m "value" t -> tx_hide t = true -> violation c m (fp_finding m 7 4 (lit "value text should not be hidden") false)
| v_val_measure t i : the_text m "value" t -> measure_violation c m "value" t i -> violation c m i
| v_user_missing : no_text m "user" -> violation c m (fp_finding m 7 4 (lit "reference 2 missing") false)
| v_user_value t : the_text m "user" t -> tx_value t <> lit "%R" -> violation c m (fp_finding m 7 4 (lit "reference 2 should be %R") false)
| v_user_layer t : the_text m "user" t -> la_t (tx_layer t) <> LFab -> violation c m (fp_finding m 7 4 (lit "reference 2 should be on Fab layertype") false)
| v_user_aspect t : the_text m "user" t -> differ (xy_x (text_size t)) (xy_y (text_size t)) ->
    violation c m (fp_finding m 7 4 (lit "reference 2 label font aspect ratio should be 1:1") false)
| v_user_measure t i : the_text m "user" t -> measure_violation c m "reference 2" t i -> violation c m i
| v_courtyard : (length (courtyard_list m) < 4)%nat -> violation c m (fp_finding m 7 5 (lit "missing courtyard on CrtYd layer") false)
| v_smd : has_pad m Smd -> ~ has_pad m Pth -> ~ In (EAttr (lit "smd")) (m_elements m) -> violation c m (fp_finding m 8 1 (lit placement_message) false)
| v_tht : has_pad m Pth -> ~ has_pad m Smd -> In (EAttr (lit "smd")) (m_elements m) -> violation c m (fp_finding m 9 1 (lit placement_message) false).
(** The violations no fix repairs *)
Inductive unfixable (m : module) : cf_item -> Prop :=
| u_ref : no_text m "reference" -> unfixable m (fp_finding m 7 3 (lit "reference missing") false)
| u_val : no_text m "value" -> unfixable m (fp_finding m 7 4 (lit "value missing") false)
| u_tht : has_pad m Pth -> ~ has_pad m Smd -> In (EAttr (lit "smd")) (m_elements m) -> unfixable m (fp_finding m 9 1 (lit placement_message) false).
(** The lines of a footprint *)
Definition lines_of (m : module) : list fp_line := flat_map (fun e => match e with EFpLine l => [l] | _ => [] end) (m_elements m).
(** The layers an element names are on the back *)
Definition on_back (l : layer) : bool := match la_side l with SBack => true | _ => false end.
Definition back_only (e : element) : bool :=
  match e with
  | ELayer l => on_back l | EFpText t => on_back (tx_layer t) | EFpLine l => on_back (li_layer l) | EPad p => forallb on_back (pa_layers p)
  | EFpPoly _ | EFpCircle _ | EFpArc _ => false | _ => true
  end.
