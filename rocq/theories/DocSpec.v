(** The free texts of a document: the strings it holds (as opposed to keywords
    and numbers). *)
From Coq Require Import String.
From Verif Require Import Base Str Sexp FpData LyData FpLibTable FormatterSpec.
Open Scope string_scope. Open Scope list_scope.

Definition layer_strs (l : layer) : list str := match la_t l with LOther s => [s] | _ => [] end.
Definition opt_strs (o : option str) : list str := match o with Some s => [s] | None => [] end.

Definition element_strs (e : element) : list str :=
  match e with
  | ELayer l => layer_strs l
  | EDescr s | ETags s | EAttr s | EPath s => [s]
  | EFpText t => tx_name t :: tx_value t :: layer_strs (tx_layer t)
  | EPad p => pa_name p :: flat_map layer_strs (pa_layers p)
      ++ match pa_net p with Some n => [fn_name n] | None => [] end
      ++ match pa_drill p with Some d => opt_strs (dr_shape d) | None => [] end
  | EFpPoly p => layer_strs (po_layer p)
  | EFpLine l => layer_strs (li_layer l)
  | EFpCircle c => layer_strs (ci_layer c)
  | EFpArc a => layer_strs (ar_layer a)
  | EModel m => [mo_name m]
  | ESolderMaskMargin _ | ETEdit _ | ETStamp _ | EAt _ | EClearance _ | ELocked => []
  end.
Definition module_strs (m : module) : list str := m_name m :: flat_map element_strs (m_elements m).

Definition gr_text_strs (t : gr_text) : list str := gt_value t :: layer_strs (gt_layer t) ++ opt_strs (gt_tstamp t).
Definition zone_strs (z : zone) : list str :=
  [zo_net_name z; zo_tstamp z; ha_style (zo_hatch z)] ++ layer_strs (zo_layer z) ++ opt_strs (cp_connection (zo_connect z))
  ++ opt_strs (fi_smoothing (zo_fill z)).
Definition ly_element_strs (e : ly_element) : list str :=
  match e with
  | YModule m => module_strs m
  | YNet n => [ne_name n]
  | YNetClass n => nc_name n :: nc_desc n :: nc_nets n
  | YGrText t => gr_text_strs t
  | YGrLine l => layer_strs (gl_layer l) ++ opt_strs (gl_tstamp l)
  | YGrArc l => layer_strs (ga_layer l) ++ opt_strs (ga_tstamp l)
  | YGrCircle l => layer_strs (gc_layer l) ++ opt_strs (gc_tstamp l)
  | YDimension d => di_name d :: layer_strs (di_layer d) ++ opt_strs (di_tstamp d) ++ gr_text_strs (di_text d)
  | YSegment s => layer_strs (sg_layer s) ++ opt_strs (sg_tstamp s) ++ opt_strs (sg_status s)
  | YVia v => flat_map layer_strs (vi_layers v)
  | YZone z => zone_strs z
  | YOther _ => []
  end.
(** S-expressions kept as they were read. *)
Definition ly_element_other (e : ly_element) : list sexp :=
  match e with YOther s => [s] | YZone z => zo_other z | _ => [] end.
Definition setup_strs (e : setup_element) : list str := se_name e :: se_value1 e :: opt_strs (se_value2 e).
Definition layout_strs (l : layout) : list str :=
  ho_tool (ly_host l) :: ho_build (ly_host l) :: ly_page l
  :: flat_map (fun x => layer_strs (ll_layer x)) (ly_layers l)
  ++ flat_map setup_strs (su_elements (ly_setup l)) ++ flat_map setup_strs (su_plot (ly_setup l))
  ++ flat_map ly_element_strs (ly_elements l).
Definition layout_other (l : layout) : list sexp := flat_map ly_element_other (ly_elements l).
Definition setup_names (l : layout) : list str :=
  map se_name (su_elements (ly_setup l)) ++ map se_name (su_plot (ly_setup l)).
Definition flib_strs (l : flib) : list str := [fb_name l; fb_type l; fb_uri l; fb_options l; fb_descr l].

Definition no_quote (s : str) : bool := forallb (fun c => negb (N.eqb c 34)) s.
