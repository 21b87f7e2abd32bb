(** Specification: what a saved schematic (C73) and a saved symbol library (C74) look like.
    A document gives the list of its lines, a line the list of its words; words are told
    apart by one blank. *)
From Coq Require Import String.
From Verif Require Import Base Str F64 F64Text DecSpec ShortSpec LibSpec SchData SymData SchReadSpec SymReadSpec.
Open Scope string_scope. Open Scope list_scope.

(** ** Words *)
Definition form := str -> Prop.
(** The shortest decimal text of an integer *)
Definition numeral (z : Z) : form := fun w =>
  exists ds, Forall is_digit ds /\ no_lead ds /\ dec ds = Z.abs z /\ w = if (z <? 0)%Z then 45%N :: ds else ds.
(** The shortest decimal text of a number, see C64 *)
Definition float (x : f64) : form := fun w => w = f64_to_str x.
Definition text (s : str) : form := fun w => w = s.
Definition word (k : string) : form := fun w => w = lit k.
Definition in_quotes (s : str) : form := fun w => w = [34%N] ++ s ++ [34%N].
Definition letter {A} (t : list (N * A)) (a : A) : form := fun w => exists c, In (c, a) t /\ w = [c].
Definition name_of {A} (t : list (string * A)) (a : A) : form := fun w => exists k, In (k, a) t /\ w = lit k.
Definition then_ (p q : form) : form := fun w => exists a b, p a /\ q b /\ w = a ++ b.
(** At least [n] wide *)
Definition wide (n : nat) (p : form) : form := fun w => exists a, p a /\ w = a ++ blanks (n - length a).

(** ** Lines *)
Inductive one_blank : list str -> str -> Prop :=
| ob_one w : one_blank [w] w
| ob_more w v s : one_blank v s -> one_blank (w :: v) (w ++ 32%N :: s).
Definition row (l : list form) : form := fun s => exists v, Forall2 (fun p w => p w) l v /\ one_blank v s.
Definition when {A} (b : bool) (l : list A) : list A := if b then l else [].
Definition tabbed (p : form) : form := then_ (text [9%N]) p.

(** ** Texts *)
Inductive in_lines : list form -> str -> Prop :=
| il_nil : in_lines [] []
| il_cons (p : form) l s t : p s -> in_lines l t -> in_lines (p :: l) (s ++ [10%N] ++ t).

(** ** Schematics *)
Definition descr_form (d : description) : list form :=
  [row [word "$Descr"; text (ds_size d); numeral (ds_dimx d); numeral (ds_dimy d)];
   word "encoding utf-8";
   row [word "Sheet"; numeral (ds_sheet d); numeral (ds_count d)]]
  ++ map (fun '(k, s) => row [word k; in_quotes s])
       [("Title", ds_title d); ("Date", ds_date d); ("Rev", ds_rev d); ("Comp", ds_comp d);
        ("Comment1", ds_comment1 d); ("Comment2", ds_comment2 d); ("Comment3", ds_comment3 d); ("Comment4", ds_comment4 d)]
  ++ [word "$EndDescr"].
Definition on_off (a b : N) : list (N * bool) := [(a, true); (b, false)].
Definition field_form (f : cfield) : form :=
  row ([word "F"; numeral (cf_i f); in_quotes (cf_value f); letter orientations (cf_orient f);
        wide 3 (float (cf_x f)); wide 3 (float (cf_y f)); wide 3 (numeral (cf_size f)); name_of [("0000", true); ("0001", false)] (cf_visible f);
        letter justifications (cf_hjust f);
        then_ (letter justifications (cf_vjust f)) (then_ (letter (on_off 73 78) (cf_italic f)) (letter (on_off 66 78) (cf_bold f)))]
       ++ when (4 <=? cf_i f)%Z [in_quotes (cf_name f)]).
Definition comp_form (c : component) : list form :=
  [word "$Comp"; row [word "L"; text (co_name c); text (co_reference c)]; text (co_u c); row [word "P"; numeral (co_x c); numeral (co_y c)]]
  ++ map text (co_ar c)
  ++ map field_form (co_fields c)
  ++ [tabbed (row [wide 4 (word "1"); wide 4 (numeral (co_x c)); wide 4 (numeral (co_y c))]);
      tabbed (row (map (fun z => wide 4 (numeral z)) [ro_a (co_rotation c); ro_b (co_rotation c); ro_c (co_rotation c); ro_d (co_rotation c)]));
      word "$EndComp"].
Definition label_forms : list (string * label_form) := [("I", FInput); ("O", FOutput); ("B", FBiDi); ("T", FTriState); ("U", FUnspecified)].
Definition label_sides : list (string * label_side) := [("L", DLeft); ("R", DRight); ("T", DTop); ("B", DBottom)].
Definition label_row (i : nat) (l : sheet_label) : form :=
  row [then_ (word "F") (numeral (Z.of_nat i)); in_quotes (sl_name l); name_of label_forms (sl_form l); name_of label_sides (sl_side l);
       numeral (sl_x l); numeral (sl_y l); numeral (sl_size l)].
(** Labels are counted from 2 on: 0 and 1 are the sheet's name and its file. *)
Definition sheet_form (s : sheet) : list form :=
  [word "$Sheet"; row [word "S"; numeral (sh_x s); numeral (sh_y s); numeral (sh_dimx s); numeral (sh_dimy s)];
   row [word "U"; text (sh_unique s)];
   row [word "F0"; in_quotes (sh_name s); numeral (sh_name_size s)]; row [word "F1"; in_quotes (sh_filename s); numeral (sh_filename_size s)]]
  ++ map (fun '(i, l) => label_row i l) (combine (seq 2 (length (sh_labels s))) (sh_labels s))
  ++ [word "$EndSheet"].
Definition wire_names : list (string * wire_type) := [("Wire", WWire); ("Notes", WNotes); ("Bus", WBus)].
Definition element_form (e : selement) : list form :=
  match e with
  | SComponent c => comp_form c
  | SWire w => [row [word "Wire"; name_of wire_names (wi_t w); word "Line"];
                tabbed (row [numeral (wi_x1 w); numeral (wi_y1 w); numeral (wi_x2 w); numeral (wi_y2 w)])]
  | SConnection p => [row [word "Connection"; word "~"; numeral (cn_x p); numeral (cn_y p)]]
  | SNoConnect p => [row [word "NoConn"; word "~"; numeral (cn_x p); numeral (cn_y p)]]
  | SText t => [row ([word "Text"; name_of text_kinds (te_t t); wide 4 (numeral (te_x t)); wide 4 (numeral (te_y t));
                      wide 4 (numeral (te_orient t)); wide 4 (numeral (te_size t))]
                     ++ match te_shape t with Some s => [text s] | None => [] end
                     ++ [name_of [("Italic", true); ("~", false)] (te_italic t); numeral (te_thickness t)]);
                text (te_text t)]
  | SOther s => [text s]
  end.
Definition schematic_form (s : schematic) : list form :=
  [word "EESchema Schematic File Version 2"] ++ map (fun l => then_ (word "LIBS:") (text l)) (sc_libraries s)
  ++ [text (sc_eelayer s); word "EELAYER END"] ++ descr_form (sc_description s)
  ++ concat (map element_form (sc_elements s)) ++ concat (map sheet_form (sc_sheets s)) ++ [word "$EndSCHEMATC"].

(** ** Symbol libraries *)
(** Bold is written as I. *)
Definition sfield_form (f : sfield) : form :=
  row ([then_ (word "F") (numeral (sf_i f)); in_quotes (sf_value f); float (sf_x f); float (sf_y f); numeral (sf_dim f); letter orientations (sf_orient f);
        name_of (yes_no "V" "I") (sf_visible f); letter justifications (sf_hjust f);
        then_ (letter justifications (sf_vjust f)) (then_ (letter (on_off 73 78) (sf_italic f)) (letter (on_off 73 78) (sf_bold f)))]
       ++ when (4 <=? sf_i f)%Z [in_quotes (sf_name f)]).
(** The shape of a visible pin is left out when it is a plain line. *)
Definition pin_form (p : pin) : form :=
  row ([word "X"; text (pn_name p); text (pn_number p); numeral (pn_x p); numeral (pn_y p); numeral (pn_len p); name_of pin_orientations (pn_orient p);
        numeral (pn_num_size p); numeral (pn_name_size p); numeral (pn_unit p); numeral (pn_convert p); name_of pin_types (pn_type p)]
       ++ (if pn_visible p then match pn_shape p with PSLine => [] | s => [name_of pin_shapes s] end
           else [then_ (word "N") (name_of pin_shapes (pn_shape p))])).
Definition draw_form (d : draw) : form :=
  match d with
  | DOther s => text s
  | DPin p => pin_form p
  | DRect r => row [word "S"; numeral (rc_x1 r); numeral (rc_y1 r); numeral (rc_x2 r); numeral (rc_y2 r); numeral (rc_unit r); numeral (rc_convert r);
                    numeral (rc_thickness r); name_of fills (rc_fill r)]
  end.
(** [value] is the value of the second field. *)
Definition symbol_form (y : symbol) (value : str) : list form :=
  [row [word "#"; text value]; word "#";
   row [word "DEF"; text (sy_name y); text (sy_reference y); word "0"; float (sy_text_offset y); name_of (yes_no "Y" "N") (sy_pinnumber y);
        name_of (yes_no "Y" "N") (sy_pinname y); numeral (sy_unit_count y); name_of (yes_no "L" "F") (sy_unit_locked y); name_of (yes_no "P" "N") (sy_is_power y)]]
  ++ map sfield_form (sy_fields y)
  ++ match sy_aliases y with [] => [] | l => [row (word "ALIAS" :: map text l)] end
  ++ [word "DRAW"] ++ map draw_form (sy_draw y) ++ map word ["ENDDRAW"; "ENDDEF"; "#"].
Inductive symbols_form : list symbol -> list form -> Prop :=
| syf_nil : symbols_form [] []
| syf_cons y f0 f1 r ys l : sy_fields y = f0 :: f1 :: r -> symbols_form ys l -> symbols_form (y :: ys) (symbol_form y (sf_value f1) ++ l).
Definition saved_library (l : list symbol) (t : str) : Prop :=
  exists fs, symbols_form l fs /\ in_lines (map word ["EESchema-LIBRARY Version 2.3"; "#encoding utf-8"; "#"] ++ fs ++ [word "#End Library"]) t.
Definition saved_schematic (s : schematic) (t : str) : Prop := in_lines (schematic_form s) t.
