(** Specification: values that can be saved and read back, and the edits the library
    offers (C53, C60, C61). *)
From Coq Require Import String Relations.
From Verif Require Import Base Str StrFacts Num F64 Sexp FpData FpWf FpOps FpNew FpCheck CheckFix LyData LyWf LyOps FormatterSpec DocSpec
  SchData SchWf SchOps SymData SymWf SymOps.

(** The writer represents the value (see C01, C07), and no text in it holds a quote. *)
Definition module_saves (m : module) : bool := module_ok m && forallb no_quote (module_strs m).
Definition layout_saves (l : layout) : bool :=
  layout_ok l && forallb no_quote (layout_strs l) && forallb doc_ok (layout_other l).
Definition element_saves (e : element) : bool := element_ok e && forallb no_quote (element_strs e).
Definition text_saves (t : fp_text) : bool := element_saves (EFpText t).
Definition pad_saves (p : pad) : bool := element_saves (EPad p).

(** One edit of a footprint: new texts hold no quote, new parts can be saved. *)
Inductive fp_edit : module -> module -> Prop :=
| fe_flip m : fp_edit m (flip_module m)
| fe_rotate m d : fp_edit m (rotate_module d m)
| fe_move m x y : fp_edit m (adjust_module x y m)
| fe_reference m old new : no_quote new = true -> fp_edit m (set_reference old new m)
| fe_net m old new : no_quote new = true -> fp_edit m (module_rename_net old new m)
| fe_text m m' which f : (forall t, text_saves t = true -> text_saves (f t) = true) -> modify_text m which f = Some m' -> fp_edit m m'
| fe_fix m m' c : fgtb (cg_font_size c) fzero = true -> fp_fix c m = Ok m' -> fp_edit m m'
| fe_append m e : element_saves e = true -> fp_edit m (module_append e m).
(** One edit of a layout.  An edit that stops with an error counts: the layout was
    changed up to there. *)
Definition with_setup (l : layout) (u : setup) : layout :=
  mk_layout (ly_version l) (ly_host l) (ly_general l) (ly_page l) u (ly_layers l) (ly_elements l).
Inductive ly_edit : layout -> layout -> Prop :=
| le_move l x y : ly_edit l (adjust_layout x y l)
| le_rename l l' old new : no_quote new = true -> change_net_name old new l = Ok l' -> ly_edit l l'
| le_names l l' k u : (forall s, no_quote s = true -> no_quote (fst (u s)) = true) -> update_net_names u l = (l', k) -> ly_edit l l'
| le_block l l' k from to : no_quote to = true -> update_net_names (fun n => (replace_block from to n, None)) l = (l', k) -> ly_edit l l'
| le_unnamed l l' k new : no_quote new = true -> update_net_names (set_unnamed_net new) l = (l', k) -> ly_edit l l'
| le_module l l' k r f : (forall m, In (YModule m) (ly_elements l) -> clos_refl_trans _ fp_edit m (f m)) ->
    modify_module l r f = (l', k) -> ly_edit l l'
| le_net l num name : i64_ok num = true -> no_quote name = true -> ly_edit l (add_net num name l)
| le_class l n : forallb no_quote (nc_name n :: nc_desc n :: LyData.nc_nets n) = true -> ly_edit l (add_netclass n l)
| le_setup l n v : n <> lit "pcbplotparams" -> no_quote n = true -> no_quote v = true -> ly_edit l (with_setup l (setup_update n v (ly_setup l))).

(** Components and schematics: texts go in a line of their own kind of place. *)
Inductive comp_edit : component -> component -> Prop :=
| ce_reference c r : end_word r = true -> comp_edit c (update_reference c r)
| ce_name c n : word_str n = true -> no_nl n = true -> comp_edit c (update_name c n)
| ce_field c name v : quotable v = true -> comp_edit c (update_field c name v)
| ce_add c c' t name v o : quotable name = true -> quotable v = true ->
    (exists f, In f (co_fields c) /\ (3 <= cf_i f)%Z) -> add_or_update_field c t name v = Ok (c', o) -> comp_edit c c'.
Inductive sch_edit : schematic -> schematic -> Prop :=
| he_one s r f : (forall c, In (SComponent c) (sc_elements s) -> clos_refl_trans _ comp_edit c (f c)) -> sch_edit s (SchOps.modify_component s r f)
| he_all s f : (forall c, In (SComponent c) (sc_elements s) -> clos_refl_trans _ comp_edit c (f c)) -> sch_edit s (SchOps.modify_components s f)
| he_count s s' : increment_sheet_count s = Ok s' -> sch_edit s s'.
