(** Round trip lemmas for the footprint writer and reader. *)
From Coq Require Import String Lia ZifyBool.
From Verif Require Import Base Str Num F64 F64Text Sexp FpData FpLayer FpSer FpDe FpWf
  StrFacts NumFacts F64Facts SexpFacts.
Open Scope string_scope. Open Scope list_scope.

Ltac andb_split :=
  repeat match goal with
  | H : (_ && _)%bool = true |- _ => apply andb_prop in H; destruct H
  end.

Lemma str_eqb_float_lit x c s :
  float_char (Ascii.N_of_ascii c) = false -> str_eqb (f64_to_str x) (lit (String c s)) = false.
Proof.
  intros H. apply str_eqb_neq. intros E.
  pose proof (f64_to_str_chars x) as F. rewrite E in F. cbn [lit] in F.
  inversion F; subst. congruence.
Qed.

Lemma xy_type_eqb_eq a b : xy_type_eqb a b = true -> a = b.
Proof. destruct a, b; intros; try discriminate; reflexivity. Qed.

Lemma feqb_zero x : feqb x fzero = true -> x = fzero \/ x = fnegzero.
Proof.
  destruct x as [[]|[]| |[] m e H]; cbn; intros E; try discriminate E; auto.
Qed.

Lemma fneb_false_zero x : fneb x fzero = false -> is_negzero x = false -> x = fzero.
Proof.
  unfold fneb, is_negzero; intros H1 H2. apply negb_false_iff in H1.
  destruct (feqb_zero _ H1) as [->| ->]; [reflexivity|]. discriminate H2.
Qed.

Lemma rt_at a : at_ok a = true -> de_at (ser_at a) = Ok a.
Proof.
  destruct a as [x y r]; unfold at_ok, de_at, ser_at; cbn [at_x at_y at_rot]; intros H.
  apply negb_true_iff in H.
  destruct (fneb r fzero) eqn:E; start; do 3 nxt; [reflexivity|].
  now rewrite (fneb_false_zero r E H).
Qed.

Lemma xy_type_of_name t : xy_type_of_str (lit (xy_name t)) = Ok t.
Proof. destruct t; reflexivity. Qed.

Lemma rt_xy p : de_xy (ser_xy p) = Ok p.
Proof.
  destruct p as [x y t]; unfold de_xy, ser_xy; cbn [xy_x xy_y xy_t].
  change (sx_list_name (node (xy_name t) [a_f x; a_f y])) with (Ok (lit (xy_name t))).
  cbn [bind]. rewrite xy_type_of_name; cbn [bind].
  start. do 2 nxt. reflexivity.
Qed.

Lemma rt_xyz p : de_xyz (ser_xyz p) = Ok p.
Proof. destruct p as [x y z]; unfold de_xyz, ser_xyz; cbn [z_x z_y z_z]; start; do 3 nxt; reflexivity. Qed.

Lemma rt_pts p : de_pts (ser_pts p) = Ok p.
Proof.
  unfold de_pts, ser_pts; start. erewrite p_vec_ok; [reflexivity|].
  apply mapM_map. intros; apply rt_xy.
Qed.
#[export] Hint Resolve rt_at rt_xy rt_xyz rt_pts : rt.

(** Layer names. *)
Lemma ltype_std t : match t with LOther _ => True | _ => ltype_of_str (show_ltype t) = t end.
Proof. destruct t; try exact I; vm_compute; reflexivity. Qed.

Lemma ltype_rt t : match t with
                   | LOther s => existsb (str_eqb s) std_types = false
                   | _ => True end -> ltype_of_str (show_ltype t) = t.
Proof.
  intros H. pose proof (ltype_std t) as S. destruct t; try exact S.
  cbn [show_ltype]. unfold ltype_of_str. unfold std_types in H. cbn [map existsb] in H.
  repeat (apply orb_false_iff in H; destruct H as [-> H]). reflexivity.
Qed.

Definition dotless (s : str) : bool := forallb (fun c => negb (is_dot c)) s.

Lemma show_ltype_dotless t :
  match t with LOther s => dotless s = true | _ => True end -> dotless (show_ltype t) = true.
Proof. destruct t; intros H; try exact H; vm_compute; reflexivity. Qed.

Definition side_name (s : layer_side) : string :=
  match s with
  | SFront => "F" | SBack => "B" | SDwgs => "Dwgs" | SCmts => "Cmts"
  | SEco1 => "Eco1" | SEco2 => "Eco2" | SEdge => "Edge"
  | SIn1 => "In1" | SIn2 => "In2" | SBoth => "*" | SNone => ""
  end.

Lemma rt_layer_str l : layer_ok l = true -> layer_of_str (show_layer l) = Some l.
Proof.
  destruct l as [sd t]; unfold layer_ok, show_layer; cbn [la_side la_t]; intros H.
  assert (Hd : dotless (show_ltype t) = true).
  { apply show_ltype_dotless; destruct t; try exact I. andb_split; assumption. }
  assert (Ht : ltype_of_str (show_ltype t) = t).
  { apply ltype_rt; destruct t; try exact I. andb_split. now apply negb_true_iff. }
  assert (Hs : sd = SNone \/ exists a, show_side sd = lit a ++ [46%N] /\ dotless (lit a) = true
               /\ side_of_str (lit a) = Some sd).
  { destruct sd; try (left; reflexivity); right;
    match goal with |- exists _, show_side ?x = _ /\ _ => exists (side_name x) end;
    (repeat split; vm_compute; reflexivity). }
  destruct Hs as [->|(a & -> & Ha & Hsd)].
  - unfold layer_of_str; cbn [show_side lit app].
    rewrite (split_on_none _ _ Hd). now rewrite Ht.
  - unfold layer_of_str. rewrite <- app_assoc; cbn [app].
    rewrite split_on_sep; [|exact Ha|reflexivity].
    rewrite (split_on_none _ _ Hd). rewrite Hsd, Ht. reflexivity.
Qed.

Lemma layer_from_show l : layer_ok l = true -> layer_from_str (show_layer l) = Ok l.
Proof. intros H; unfold layer_from_str; now rewrite rt_layer_str. Qed.
#[export] Hint Resolve layer_from_show : rt.

Lemma rt_layer l : layer_ok l = true -> de_layer (kv "layer" (ser_layer l)) = Ok l.
Proof.
  intros H; unfold de_layer, ser_layer. change (kv "layer" ?x) with (node "layer" [x]).
  start. nxt. nxt. reflexivity.
Qed.

Lemma rt_layers ls : forallb layer_ok ls = true -> de_layers (ser_layers ls) = Ok ls.
Proof.
  intros H; unfold de_layers, ser_layers; start. erewrite p_vec_ok; [reflexivity|].
  apply mapM_map.
  intros x Hx; unfold ser_layer; cbn [sx_string bind]. apply layer_from_show.
  rewrite forallb_forall in H; auto.
Qed.
#[export] Hint Resolve rt_layer rt_layers : rt.

Lemma rt_font f : font_ok f = true -> de_font (ser_font f) = Ok f.
Proof.
  destruct f as [[x y t] th it]; unfold font_ok; cbn [fo_size xy_x xy_y xy_t]; intros H.
  andb_split. apply xy_type_eqb_eq in H. subst t.
  unfold de_font, ser_font; cbn [fo_size xy_x xy_y xy_t fo_thickness fo_italic].
  destruct (fgtb x fzero || fgtb y fzero)%bool eqn:E.
  - pose proof (rt_xy (mk_xy x y XSize)) as Hz. unfold ser_xy in Hz; cbn [xy_name xy_x xy_y xy_t] in Hz.
    destruct it; start; do 3 nxt; reflexivity.
  - rewrite orb_false_l in H0. andb_split.
    apply fsame_eq in H. apply fsame_eq in H0. subst x y.
    destruct it; start; do 3 nxt; reflexivity.
Qed.

Lemma rt_justify j : de_justify (ser_justify j) = Ok j.
Proof. destruct j; reflexivity. Qed.
#[export] Hint Resolve rt_font rt_justify : rt.

Lemma rt_effects e : effects_ok e = true -> de_effects (ser_effects e) = Ok e.
Proof.
  destruct e as [f j]; unfold effects_ok; cbn [ef_font]; intros H.
  unfold de_effects, ser_effects; cbn [ef_font ef_justify].
  destruct j; start; do 2 nxt; reflexivity.
Qed.

Lemma rt_fnet n : fnet_ok n = true -> de_fnet (ser_fnet n) = Ok n.
Proof.
  destruct n as [k s]; unfold fnet_ok, de_fnet, ser_fnet; cbn [fn_num fn_name]; intros H.
  start; do 2 nxt; reflexivity.
Qed.
#[export] Hint Resolve rt_effects rt_fnet : rt.

Lemma rt_offset x y : de_offset (node "offset" [a_f x; a_f y]) = Ok (x, y).
Proof. unfold de_offset; start; do 2 nxt; reflexivity. Qed.
#[export] Hint Resolve rt_offset : rt.

Lemma not_oval x r : p_maybe_lit "oval" (a_f x :: r) = Ok (None, a_f x :: r).
Proof.
  apply p_maybe_no with ESexp. unfold from_literal, a_f; cbn [sx_string bind].
  now rewrite str_eqb_float_lit.
Qed.

Lemma f_eps_eq : f_eps = f_epsilon.
Proof. reflexivity. Qed.

Lemma fgtb_zero_no x : is_poszero x = true -> fneb x fzero = false.
Proof. intros H; apply fsame_eq in H; subst; reflexivity. Qed.

Lemma rt_drill d : drill_ok d = true -> de_drill (ser_drill d) = Ok d.
Proof.
  destruct d as [sh w h ox oy]; unfold drill_ok, de_drill, ser_drill;
    cbn [dr_shape dr_width dr_height dr_ox dr_oy]; intros H.
  rewrite <- f_eps_eq.
  apply andb_prop in H; destruct H as [H Ho]; apply andb_prop in H; destruct H as [H Hh];
  apply andb_prop in H; destruct H as [Hs Hw].
  rewrite Hw.
  set (q := (fneb ox fzero || fneb oy fzero)%bool) in *.
  set (g := (fgtb h fzero && fgtb (fabs (fsub h w)) f_eps)%bool) in *.
  assert (Hh' : g = true \/ g = false /\ h = w).
  { destruct g; [left; reflexivity|]. rewrite orb_false_r in Hh. apply fsame_eq in Hh. auto. }
  assert (Ho' : q = true \/ q = false /\ ox = fzero /\ oy = fzero).
  { destruct q; [left; reflexivity|]. cbn [orb] in Ho. andb_split.
    unfold is_poszero in *. rewrite fsame_eq in *. auto. }
  destruct sh as [sh|]; [apply str_eqb_eq in Hs; subst sh|].
  all: destruct Hh' as [->|[-> ->]]; destruct Ho' as [->|[-> [-> ->]]]; start.
  all: change (SStr (lit "oval")) with (a_lit "oval").
  all: first [nxt | erewrite pbind_ok by apply not_oval].
  all: do 3 nxt; reflexivity.
Qed.
#[export] Hint Resolve rt_drill : rt.

Lemma pad_type_rt t : pad_type_of_str (lit (show_pad_type t)) = Ok t.
Proof. destruct t; reflexivity. Qed.
Lemma pad_shape_rt t : pad_shape_of_str (lit (show_pad_shape t)) = Ok t.
Proof. destruct t; reflexivity. Qed.
#[export] Hint Resolve pad_type_rt pad_shape_rt : rt.

(** The optional trailing parts of a pad. *)
Definition ser_parts (p : pad) : list sexp :=
  opt_list ser_fnet (pa_net p)
  ++ opt_list (fun z => kv "zone_connect" (a_i z)) (pa_zone_connect p)
  ++ opt_list (fun f => kv "solder_paste_margin" (a_f f)) (pa_paste_margin p)
  ++ opt_list (fun f => kv "solder_mask_margin" (a_f f)) (pa_mask_margin p)
  ++ opt_list (fun f => kv "clearance" (a_f f)) (pa_clearance p)
  ++ opt_list (fun f => kv "thermal_gap" (a_f f)) (pa_thermal_gap p).
Definition parts_of (p : pad) : list part :=
  match pa_net p with Some n => [PaNet n] | None => [] end
  ++ match pa_zone_connect p with Some n => [PaZoneConnect n] | None => [] end
  ++ match pa_paste_margin p with Some n => [PaPaste n] | None => [] end
  ++ match pa_mask_margin p with Some n => [PaMask n] | None => [] end
  ++ match pa_clearance p with Some n => [PaClearance n] | None => [] end
  ++ match pa_thermal_gap p with Some n => [PaThermalGap n] | None => [] end.

Lemma de_part_float k f w :
  In (k, w) [("solder_paste_margin", PaPaste); ("solder_mask_margin", PaMask);
             ("clearance", PaClearance); ("thermal_gap", PaThermalGap)] ->
  de_part (kv k (a_f f)) = Ok (w f).
Proof.
  cbn [In]. intros H.
  repeat destruct H as [H|H]; try contradiction; injection H as <- <-;
    unfold de_part, kv, a_lit; cbn [sx_list_name sx_list sx_string bind];
    repeat match goal with |- context [str_eqb (lit ?a) (lit ?b)] =>
      let r := eval vm_compute in (str_eqb (lit a) (lit b)) in
      change (str_eqb (lit a) (lit b)) with r; cbv iota end;
    unfold second; cbn [sx_list bind rmap]; now rewrite sx_f_a_f.
Qed.

Lemma de_part_zone z : i64_ok z = true -> de_part (kv "zone_connect" (a_i z)) = Ok (PaZoneConnect z).
Proof.
  intros H. change (de_part (kv "zone_connect" (a_i z)))
    with (rmap PaZoneConnect (second sx_i (kv "zone_connect" (a_i z)))).
  unfold second, kv; cbn [sx_list bind]. now rewrite sx_i_a_i.
Qed.
Lemma de_part_net n : fnet_ok n = true -> de_part (ser_fnet n) = Ok (PaNet n).
Proof.
  intros H. change (de_part (ser_fnet n)) with (rmap PaNet (de_fnet (ser_fnet n))).
  now rewrite rt_fnet.
Qed.

Lemma mapM_opt {A B} (g : sexp -> res B) (f : A -> sexp) (w : A -> B) o :
  (forall x, o = Some x -> g (f x) = Ok (w x)) ->
  mapM g (opt_list f o) = Ok (match o with Some x => [w x] | None => [] end).
Proof. destruct o; intros H; cbn; [now rewrite H|reflexivity]. Qed.

Lemma mapM_app_ok {A B} (g : A -> res B) l1 l2 v1 v2 :
  mapM g l1 = Ok v1 -> mapM g l2 = Ok v2 -> mapM g (l1 ++ l2) = Ok (v1 ++ v2).
Proof. intros H1 H2; rewrite mapM_app, H1, H2; reflexivity. Qed.

Lemma rt_parts p :
  opt_ok fnet_ok (pa_net p) = true -> opt_ok i64_ok (pa_zone_connect p) = true ->
  mapM de_part (ser_parts p) = Ok (parts_of p).
Proof.
  intros Hn Hz. unfold ser_parts, parts_of.
  repeat apply mapM_app_ok.
  - apply (mapM_opt de_part ser_fnet PaNet). intros x E; rewrite E in Hn. now apply de_part_net.
  - apply (mapM_opt de_part _ PaZoneConnect). intros x E; rewrite E in Hz. now apply de_part_zone.
  - apply (mapM_opt de_part _ PaPaste). intros; apply de_part_float; cbn; auto.
  - apply (mapM_opt de_part _ PaMask). intros; apply de_part_float; cbn; auto.
  - apply (mapM_opt de_part _ PaClearance). intros; apply de_part_float; cbn; auto.
  - apply (mapM_opt de_part _ PaThermalGap). intros; apply de_part_float; cbn; auto 6.
Qed.

Lemma pad_parts_all p :
  pad_parts (mk_pad (pa_name p) (pa_t p) (pa_shape p) (pa_size p) (pa_rect_delta p) (pa_at p)
               (pa_layers p) None None (pa_drill p) None None None None) (parts_of p) = Ok p.
Proof.
  destruct p as [n t sh sz rd a la net zc dr pm mm cl tg]. unfold parts_of;
    cbn [pa_net pa_zone_connect pa_paste_margin pa_mask_margin pa_clearance pa_thermal_gap
         pa_name pa_t pa_shape pa_size pa_rect_delta pa_at pa_layers pa_drill].
  destruct net, zc, pm, mm, cl, tg; reflexivity.
Qed.

Lemma rt_pad p : pad_ok p = true -> de_pad (ser_pad p) = Ok p.
Proof.
  unfold pad_ok; intros H; andb_split.
  destruct (pa_rect_delta p) eqn:Erd; [discriminate|].
  unfold ser_pad. rewrite Erd. fold (ser_parts p). unfold de_pad.
  match goal with H : xy_type_eqb _ _ = true |- _ => rename H into Hsz end.
  pose proof (rt_parts p ltac:(assumption) ltac:(assumption)) as Hp.
  pose proof (pad_parts_all p) as Hall. rewrite Erd in Hall.
  destruct (pa_drill p) eqn:Ed; cbn [opt_ok] in *; start; do 9 nxt; cbn [default];
   (erewrite pbind_ok; [|first [apply p_maybe_ok, rt_layers; assumption | apply p_vec_ok; eassumption]]); cbv beta; rewrite Hsz; try nxt.
  - unfold plift. rewrite Hall. reflexivity.
  - unfold plift. rewrite Hall. reflexivity.
Qed.
#[export] Hint Resolve rt_pad : rt.

(** Any pad with a rect_delta is unreadable. *)
Lemma pad_rect_delta_fails p r :
  pa_rect_delta p = Some r -> xy_t r = XRectDelta -> at_ok (pa_at p) = true ->
  opt_ok drill_ok (pa_drill p) = true ->
  de_pad (ser_pad p) = Err ESexp.
Proof.
  intros Er Ht Ha Hd. unfold ser_pad, de_pad. rewrite Er.
  assert (Hr : ser_xy r = node "rect_delta" [a_f (xy_x r); a_f (xy_y r)])
    by (unfold ser_xy; now rewrite Ht).
  cbn [opt_list]. rewrite Hr.
  destruct (pa_drill p) eqn:Ed; cbn [opt_ok] in *; start; do 9 nxt; cbn [default]; reflexivity.
Qed.

Lemma rt_text t : text_ok t = true -> de_text (ser_text t) = Ok t.
Proof.
  destruct t as [n v a l e h]; unfold text_ok; cbn [tx_at tx_layer tx_effects]; intros H; andb_split.
  unfold de_text, ser_text; cbn [tx_name tx_value tx_at tx_layer tx_effects tx_hide].
  destruct h; start; do 6 nxt; reflexivity.
Qed.

Lemma rt_poly p : layer_ok (po_layer p) = true -> de_poly (ser_poly p) = Ok p.
Proof.
  destruct p as [p w l]; cbn [po_layer]; intros H.
  unfold de_poly, ser_poly; cbn [po_pts po_width po_layer].
  start; do 3 nxt; reflexivity.
Qed.

Lemma keep_xy_same t p : xy_type_eqb (xy_t p) t = true -> keep_xy t (Some p) = p.
Proof. unfold keep_xy; now intros ->. Qed.

Lemma rt_line l : fpline_ok l = true -> de_line (ser_line l) = Ok l.
Proof.
  destruct l as [a b l w]; unfold fpline_ok; cbn [li_start li_end li_layer]; intros H; andb_split.
  unfold de_line, ser_line; cbn [li_start li_end li_layer li_width].
  start; do 4 nxt. rewrite !keep_xy_same by assumption. reflexivity.
Qed.
Lemma rt_circle l : circle_ok l = true -> de_circle (ser_circle l) = Ok l.
Proof.
  destruct l as [a b l w]; unfold circle_ok; cbn [ci_center ci_end ci_layer]; intros H; andb_split.
  unfold de_circle, ser_circle; cbn [ci_center ci_end ci_layer ci_width].
  start; do 4 nxt. rewrite !keep_xy_same by assumption. reflexivity.
Qed.
Lemma rt_arc l : arc_ok l = true -> de_arc (ser_arc l) = Ok l.
Proof.
  destruct l as [a b g l w]; unfold arc_ok; cbn [ar_start ar_end ar_layer]; intros H; andb_split.
  unfold de_arc, ser_arc; cbn [ar_start ar_end ar_angle ar_layer ar_width].
  start; do 5 nxt. rewrite !keep_xy_same by assumption. reflexivity.
Qed.
Lemma rt_model m : de_model (ser_model m) = Ok m.
Proof.
  destruct m as [n a s r]; unfold de_model, ser_model; cbn [mo_name mo_at mo_scale mo_rotate].
  start; do 4 nxt; reflexivity.
Qed.

Lemma stamp_rt z : stamp_ok z = true -> parse_int 16 (show_hex64 z) = Some z.
Proof. intros H; unfold stamp_ok in H. apply hex_roundtrip; [unfold i64_ok, i64_min|]; lia. Qed.

Lemma de_float_kv k f : de_float_element (kv k (a_f f)) = Ok f.
Proof.
  unfold de_float_element, first_after. change (sx_list_name (kv k (a_f f))) with (Ok (lit k)).
  cbn [bind]. change (kv k (a_f f)) with (node k [a_f f]). start. now rewrite p_f_ok.
Qed.
Lemma de_string_kv k s : de_string_element (kv k (SStr s)) = Ok s.
Proof.
  unfold de_string_element, first_after. change (sx_list_name (kv k (SStr s))) with (Ok (lit k)).
  cbn [bind]. change (kv k (SStr s)) with (node k [SStr s]). start. reflexivity.
Qed.
Lemma de_stamp_kv k z : stamp_ok z = true -> de_stamp_element (kv k (SStr (show_hex64 z))) = Ok z.
Proof.
  intros H. unfold de_stamp_element, first_after.
  change (sx_list_name (kv k (SStr (show_hex64 z)))) with (Ok (lit k)).
  cbn [bind]. change (kv k ?x) with (node k [x]). start. nxt.
  rewrite stamp_rt by assumption. reflexivity.
Qed.

Lemma rt_element e : element_ok e = true -> de_element (ser_element e) = Ok e.
Proof.
  destruct e; cbn [element_ok ser_element]; intros H.
  - change (rmap ESolderMaskMargin (de_float_element (kv "solder_mask_margin" (a_f f))) = Ok (ESolderMaskMargin f)).
    now rewrite de_float_kv.
  - change (rmap ELayer (de_layer (kv "layer" (ser_layer l))) = Ok (ELayer l)). now rewrite rt_layer.
  - change (rmap EDescr (de_string_element (kv "descr" (SStr s))) = Ok (EDescr s)). now rewrite de_string_kv.
  - change (rmap ETags (de_string_element (kv "tags" (SStr s))) = Ok (ETags s)). now rewrite de_string_kv.
  - change (rmap EAttr (de_string_element (kv "attr" (SStr s))) = Ok (EAttr s)). now rewrite de_string_kv.
  - change (rmap EFpText (de_text (ser_text t)) = Ok (EFpText t)). now rewrite rt_text.
  - change (rmap EPad (de_pad (ser_pad p)) = Ok (EPad p)). now rewrite rt_pad.
  - change (rmap EFpPoly (de_poly (ser_poly p)) = Ok (EFpPoly p)). now rewrite rt_poly.
  - change (rmap EFpLine (de_line (ser_line l)) = Ok (EFpLine l)). now rewrite rt_line.
  - change (rmap EFpCircle (de_circle (ser_circle c)) = Ok (EFpCircle c)). now rewrite rt_circle.
  - change (rmap EFpArc (de_arc (ser_arc a)) = Ok (EFpArc a)). now rewrite rt_arc.
  - change (rmap ETEdit (de_stamp_element (kv "tedit" (SStr (show_hex64 z)))) = Ok (ETEdit z)).
    now rewrite de_stamp_kv.
  - change (rmap ETStamp (de_stamp_element (kv "tstamp" (SStr (show_hex64 z)))) = Ok (ETStamp z)).
    now rewrite de_stamp_kv.
  - change (rmap EPath (de_string_element (kv "path" (SStr s))) = Ok (EPath s)). now rewrite de_string_kv.
  - change (rmap EAt (de_at (ser_at a)) = Ok (EAt a)). now rewrite rt_at.
  - change (rmap EModel (de_model (ser_model m)) = Ok (EModel m)). now rewrite rt_model.
  - change (rmap EClearance (de_float_element (kv "clearance" (a_f f))) = Ok (EClearance f)).
    now rewrite de_float_kv.
  - reflexivity.
Qed.

Lemma rt_module m : module_ok m = true -> de_module (ser_module m) = Ok m.
Proof.
  destruct m as [n es]; unfold module_ok; cbn [m_elements]; intros H.
  unfold de_module, ser_module; cbn [m_name m_elements]. start. nxt.
  erewrite pbind_ok; [reflexivity|]. apply p_vec_ok, mapM_map.
  intros e He. apply rt_element. rewrite forallb_forall in H; auto.
Qed.

(** ** What the reader guarantees *)

Lemma ltype_of_str_ok s : dotless s = true -> layer_ok (mk_layer SNone (ltype_of_str s)) = true.
Proof.
  intros Hd. unfold layer_ok; cbn [la_t]. unfold ltype_of_str.
  destruct (existsb (str_eqb s) std_types) eqn:E.
  - unfold std_types in E; cbn [map existsb] in E.
    repeat match type of E with
    | (?a || _)%bool = true => destruct a; [reflexivity|cbn [orb] in E]
    end. discriminate E.
  - unfold std_types in E; cbn [map existsb] in E.
    pose proof E as E0.
    repeat (apply orb_false_iff in E; destruct E as [-> E]).
    unfold dotless in Hd. rewrite Hd. cbn [andb]. unfold std_types; cbn [map existsb].
    rewrite E0. reflexivity.
Qed.

Lemma split_on_forall p s : Forall (fun w => forallb (fun c => negb (p c)) w = true) (split_on p s).
Proof.
  induction s as [|c s IH]; [repeat constructor|].
  cbn [split_on]. destruct (p c) eqn:E.
  - constructor; [reflexivity|exact IH].
  - destruct (split_on p s) as [|w ws]; [repeat constructor; cbn; now rewrite E|].
    inversion IH; subst. constructor; [|assumption]. cbn. now rewrite E, H1.
Qed.

Lemma layer_of_str_ok s l : layer_of_str s = Some l -> layer_ok l = true.
Proof.
  unfold layer_of_str. pose proof (split_on_forall is_dot s) as F.
  destruct (split_on is_dot s) as [|a [|b [|c ws]]]; try discriminate.
  - intros [= <-]. apply ltype_of_str_ok. inversion F; assumption.
  - destruct (side_of_str a) as [sd|]; [|discriminate]. intros [= <-].
    inversion F as [|? ? Fa F2]; subst. inversion F2; subst.
    change (layer_ok (mk_layer SNone (ltype_of_str b)) = true). now apply ltype_of_str_ok.
  - intros [= <-]. apply ltype_of_str_ok. inversion F; assumption.
Qed.

Lemma layer_from_str_ok s l : layer_from_str s = Ok l -> layer_ok l = true.
Proof.
  unfold layer_from_str. destruct (layer_of_str s) eqn:E; cbn; [|discriminate].
  intros [= <-]. eapply layer_of_str_ok, E.
Qed.

Lemma de_layer_ok s l : de_layer s = Ok l -> layer_ok l = true.
Proof.
  unfold de_layer. intros H. apply iter_new_inv in H as (l1 & r & _ & H). pinv H.
  apply p_close_inv in H as [-> _]. apply plift_inv in Hv0 as [Hv0 _]. eapply layer_from_str_ok, Hv0.
Qed.

Lemma maybe_layer_ok l o r : p_maybe de_layer l = Ok (o, r) -> layer_ok (default layer_default o) = true.
Proof.
  intros H. apply p_maybe_inv in H. destruct o; [|reflexivity].
  destruct H as (x & _ & H). eapply de_layer_ok, H.
Qed.

Lemma de_layers_ok s l : de_layers s = Ok l -> forallb layer_ok l = true.
Proof.
  unfold de_layers. intros H. apply iter_new_inv in H as (l1 & r & _ & H).
  apply p_vec_inv in H as [H _]. apply forallb_Forall.
  eapply mapM_Forall; [exact H|]. intros x y _ E. cbn beta in E.
  apply bind_inv in E as (w & _ & E). eapply layer_from_str_ok, E.
Qed.

Lemma de_font_type s f : de_font s = Ok f -> xy_type_eqb (xy_t (fo_size f)) XXy = true.
Proof.
  unfold de_font. intros H. apply iter_new_inv in H as (l1 & r & _ & H). pinv H.
  apply p_close_inv in H as [-> _]. cbn [fo_size]. destruct v; reflexivity.
Qed.

Lemma de_effects_type s e : de_effects s = Ok e -> xy_type_eqb (xy_t (fo_size (ef_font e))) XXy = true.
Proof.
  unfold de_effects. intros H. apply iter_new_inv in H as (l1 & r & _ & H). pinv H.
  apply p_close_inv in H as [-> _]. cbn [ef_font].
  apply p_t_inv in Hv as (x & _ & Hv). eapply de_font_type, Hv.
Qed.

Lemma de_fnet_ok s n : de_fnet s = Ok n -> fnet_ok n = true.
Proof.
  unfold de_fnet. intros H. apply iter_new_inv in H as (l1 & r & _ & H). pinv H.
  apply p_close_inv in H as [-> _]. apply p_t_inv in Hv as (x & _ & Hv).
  apply sx_i_inv in Hv. exact Hv.
Qed.

Lemma de_drill_shape s d :
  de_drill s = Ok d -> match dr_shape d with None => true | Some s => str_eqb s (lit "oval") end = true.
Proof.
  unfold de_drill. intros H. apply iter_new_inv in H as (l1 & r & _ & H). pinv H.
  destruct (default (fzero, fzero) v2) as [ox oy].
  apply p_close_inv in H as [-> _]. cbn [dr_shape]. apply p_maybe_inv in Hv.
  destruct v; [|reflexivity]. destruct Hv as (x & _ & Hv).
  unfold from_literal in Hv. apply bind_inv in Hv as (w & _ & Hv).
  destruct (str_eqb w (lit "oval")) eqn:E; [|discriminate]. injection Hv as <-. exact E.
Qed.


Lemma de_text_ok s t :
  de_text s = Ok t -> element_clean (EFpText t) = true -> text_ok t = true.
Proof.
  unfold de_text. intros H. apply iter_new_inv in H as (l1 & r & _ & H). pinv H.
  apply p_close_inv in H as [-> _]. cbn [element_clean text_ok tx_at tx_effects].
  unfold text_ok; cbn [tx_at tx_layer tx_effects]. intros C; andb_split.
  apply maybe_layer_ok in Hv2. rewrite H, Hv2. cbn [andb].
  unfold effects_ok, font_ok. unfold font_clean in H0. rewrite H0, andb_true_r.
  apply p_maybe_inv in Hv4. destruct v4 as [e|]; [|reflexivity].
  destruct Hv4 as (x & _ & Hv4). eapply de_effects_type, Hv4.
Qed.

Definition part_ok (p : part) : bool :=
  match p with PaNet n => fnet_ok n | PaZoneConnect z => i64_ok z | _ => true end.

Lemma rmap_inv {A B} (f : A -> B) x b : rmap f x = Ok b -> exists a, x = Ok a /\ b = f a.
Proof. unfold rmap; destruct x; cbn; intros [= <-]; eauto. Qed.

Lemma de_part_ok s p : de_part s = Ok p -> part_ok p = true.
Proof.
  unfold de_part. intros H. apply bind_inv in H as (n & _ & H).
  repeat match type of H with
  | (if ?b then _ else _) = _ => destruct b
  | rmap _ _ = Ok _ => apply rmap_inv in H as (a & H & ->); cbn [part_ok]
  end; try reflexivity; try discriminate.
  - eapply de_fnet_ok, H.
  - unfold second in H. apply bind_inv in H as (l & _ & H).
    destruct l as [|? [|x l]]; try discriminate. eapply sx_i_inv, H.
Qed.

Definition pad_frame (p q : pad) : Prop :=
  pa_size q = pa_size p /\ pa_rect_delta q = pa_rect_delta p /\ pa_at q = pa_at p
  /\ pa_layers q = pa_layers p /\ pa_drill q = pa_drill p.

Lemma pad_parts_ok ps : forall p q,
  pad_parts p ps = Ok q -> Forall (fun x => part_ok x = true) ps ->
  opt_ok fnet_ok (pa_net p) = true -> opt_ok i64_ok (pa_zone_connect p) = true ->
  pad_frame p q /\ opt_ok fnet_ok (pa_net q) = true /\ opt_ok i64_ok (pa_zone_connect q) = true.
Proof.
  induction ps as [|x ps IH]; intros p q H F Hn Hz.
  - injection H as <-. repeat split; assumption.
  - cbn [pad_parts] in H. apply bind_inv in H as (p' & Hp & H).
    inversion F as [|? ? Fx Fr]; subst.
    assert (S : pad_frame p p' /\ opt_ok fnet_ok (pa_net p') = true
                /\ opt_ok i64_ok (pa_zone_connect p') = true).
    { destruct p as [n t sh sz rd a la net zc dr pm mm cl tg].
      destruct x; cbn [pad_part] in Hp; try discriminate Hp; injection Hp as <-;
        repeat split; assumption. }
    destruct S as (S1 & S2 & S3).
    destruct (IH _ _ H Fr S2 S3) as (T1 & T2 & T3).
    split; [|split; assumption].
    destruct S1 as (?&?&?&?&?), T1 as (?&?&?&?&?). repeat split; congruence.
Qed.

Lemma de_pad_ok s p : de_pad s = Ok p -> element_clean (EPad p) = true -> pad_ok p = true.
Proof.
  unfold de_pad. intros H. apply iter_new_inv in H as (l1 & r & _ & H). pinv H.
  apply plift_inv in H as [H _].
  apply p_vec_inv in Hv8 as [Hv8 _].
  apply pad_parts_ok in H; [|eapply mapM_Forall; [exact Hv8|]; intros; eapply de_part_ok; eassumption|reflexivity|reflexivity].
  cbn [pa_size pa_rect_delta pa_at pa_layers pa_drill] in H.
  destruct H as ((F1 & F2 & F3 & F4 & F5) & Hn & Hz).
  cbn [pa_size pa_rect_delta pa_at pa_layers pa_drill] in *.
  unfold element_clean, pad_ok. intros C; andb_split.
  rewrite Hn, Hz, H, H1.
  assert (S : xy_type_eqb (xy_t (pa_size p)) XSize = true).
  { rewrite F1. destruct v5 as [q|]; [|reflexivity].
    destruct (xy_type_eqb (xy_t q) XSize) eqn:E; [exact E|reflexivity]. }
  rewrite S.
  assert (L : forallb layer_ok (pa_layers p) = true).
  { rewrite F4. apply p_maybe_inv in Hv7. destruct v7; [|reflexivity].
    destruct Hv7 as (x & _ & Hv7). eapply de_layers_ok, Hv7. }
  rewrite L. cbn [andb].
  rewrite F5 in *. apply p_maybe_inv in Hv6. destruct v6 as [d|]; [|reflexivity].
  destruct Hv6 as (x & _ & Hv6). cbn [opt_ok] in *. unfold drill_ok, drill_clean in *.
  rewrite (de_drill_shape _ _ Hv6). andb_split.
  repeat match goal with H : _ = true |- _ => rewrite H; clear H end. reflexivity.
Qed.

Lemma keep_xy_type t o : xy_type_eqb (xy_t (keep_xy t o)) t = true.
Proof.
  unfold keep_xy. destruct o as [p|]; [|destruct t; reflexivity].
  destruct (xy_type_eqb (xy_t p) t) eqn:E; [exact E|destruct t; reflexivity].
Qed.

Lemma de_line_ok s l : de_line s = Ok l -> fpline_ok l = true.
Proof.
  unfold de_line. intros H. apply iter_new_inv in H as (l1 & r & _ & H). pinv H.
  apply p_close_inv in H as [-> _]. unfold fpline_ok; cbn [li_start li_end li_layer].
  rewrite !keep_xy_type. eapply maybe_layer_ok; eassumption.
Qed.
Lemma de_circle_ok s l : de_circle s = Ok l -> circle_ok l = true.
Proof.
  unfold de_circle. intros H. apply iter_new_inv in H as (l1 & r & _ & H). pinv H.
  apply p_close_inv in H as [-> _]. unfold circle_ok; cbn [ci_center ci_end ci_layer].
  rewrite !keep_xy_type. eapply maybe_layer_ok; eassumption.
Qed.
Lemma de_arc_ok s l : de_arc s = Ok l -> arc_ok l = true.
Proof.
  unfold de_arc. intros H. apply iter_new_inv in H as (l1 & r & _ & H). pinv H.
  apply p_close_inv in H as [-> _]. unfold arc_ok; cbn [ar_start ar_end ar_layer].
  rewrite !keep_xy_type. eapply maybe_layer_ok; eassumption.
Qed.
Lemma de_poly_ok s p : de_poly s = Ok p -> layer_ok (po_layer p) = true.
Proof.
  unfold de_poly. intros H. apply iter_new_inv in H as (l1 & r & _ & H). pinv H.
  apply p_close_inv in H as [-> _]. cbn [po_layer]. eapply maybe_layer_ok; eassumption.
Qed.
Lemma de_stamp_ok s z : de_stamp_element s = Ok z -> (0 <=? z)%Z = true -> stamp_ok z = true.
Proof.
  unfold de_stamp_element, first_after. intros H. apply bind_inv in H as (n & _ & H).
  apply iter_new_inv in H as (l1 & r & _ & H). pinv H. apply plift_inv in H as [H _].
  destruct (parse_int 16 v) eqn:E; cbn in H; [|discriminate]. injection H as ->.
  apply parse_int_range in E. unfold stamp_ok. unfold i64_ok in E. intros ->. lia.
Qed.

Lemma de_element_ok s e : de_element s = Ok e -> element_clean e = true -> element_ok e = true.
Proof.
  destruct s as [w|l|]; cbn [de_element]; intros H C.
  - destruct (str_eqb w (lit "locked")); [|discriminate]. injection H as <-. reflexivity.
  - apply bind_inv in H as (n & _ & H).
    repeat match type of H with
    | (if ?b then _ else _) = _ => destruct b
    end; try discriminate; apply rmap_inv in H as (a & H & ->); cbn [element_ok];
      try reflexivity.
    + eapply de_layer_ok, H.
    + eapply de_text_ok; eassumption.
    + eapply de_pad_ok; eassumption.
    + eapply de_poly_ok, H.
    + eapply de_line_ok, H.
    + eapply de_circle_ok, H.
    + eapply de_arc_ok, H.
    + eapply de_stamp_ok; [exact H|exact C].
    + eapply de_stamp_ok; [exact H|exact C].
    + exact C.
  - discriminate.
Qed.

Lemma de_module_ok s m : de_module s = Ok m -> module_clean m = true -> module_ok m = true.
Proof.
  unfold de_module. intros H. apply iter_new_inv in H as (l1 & r & _ & H). pinv H.
  injection H as <- _. unfold module_clean, module_ok; cbn [m_elements].
  apply p_vec_inv in Hv0 as [Hv0 _].
  intros C. rewrite forallb_forall in C. rewrite forallb_forall. intros e He.
  pose proof (mapM_Forall _ (fun e => element_clean e = true -> element_ok e = true) _ _ Hv0) as F.
  rewrite Forall_forall in F. apply F; auto. intros x y _ E. eapply de_element_ok, E.
Qed.

Lemma reread_module s m :
  de_module s = Ok m -> module_clean m = true -> de_module (ser_module m) = Ok m.
Proof. intros H C. apply rt_module. eapply de_module_ok; eassumption. Qed.

(** Without any side condition, the text of a layer name that was read is stable. *)
Lemma reread_layer s l : layer_of_str s = Some l -> layer_of_str (show_layer l) = Some l.
Proof. intros H; apply rt_layer_str. eapply layer_of_str_ok, H. Qed.

Lemma layer_ok_iff l : layer_of_str (show_layer l) = Some l <-> layer_ok l = true.
Proof. split; [apply layer_of_str_ok|apply rt_layer_str]. Qed.

Lemma side_of_str_show a sd : side_of_str a = Some sd -> show_side sd = a ++ [46%N].
Proof.
  unfold side_of_str.
  repeat match goal with
  | |- (if str_eqb a ?w then _ else _) = _ -> _ =>
      destruct (str_eqb_spec a w) as [->|]; [intros [= <-]; reflexivity|]
  end. discriminate.
Qed.
Lemma show_ltype_of_str s : show_ltype (ltype_of_str s) = s.
Proof.
  unfold ltype_of_str.
  repeat match goal with
  | |- context [if str_eqb s ?w then _ else _] =>
      destruct (str_eqb_spec s w) as [->|]; [reflexivity|]
  end. reflexivity.
Qed.

(** A name with at most one dot is printed back as it was read. *)
Lemma layer_text_stable s l :
  layer_of_str s = Some l -> (length (split_on is_dot s) <= 2)%nat -> show_layer l = s.
Proof.
  unfold layer_of_str, show_layer. pose proof (join_split 46%N s) as J.
  rewrite (split_on_ext _ is_dot) in J by (intros c; unfold is_dot; apply N.eqb_sym).
  destruct (split_on is_dot s) as [|a [|b [|c ws]]]; cbn [length join] in *; try discriminate.
  - intros [= <-] _. cbn [la_side la_t show_side lit app]. rewrite show_ltype_of_str. exact J.
  - destruct (side_of_str a) eqn:E; [|discriminate]. intros [= <-] _. cbn [la_side la_t].
    rewrite (side_of_str_show _ _ E), show_ltype_of_str, <- app_assoc. exact J.
  - intros _ H. exfalso. lia.
Qed.

(** ** Exact behaviour of drills *)
Definition height_written (d : drill) : bool :=
  (fgtb (dr_height d) fzero && fgtb (fabs (fsub (dr_height d) (dr_width d))) f_eps)%bool.
Definition offset_written (d : drill) : bool := (fneb (dr_ox d) fzero || fneb (dr_oy d) fzero)%bool.
Definition shape_ok (d : drill) : bool :=
  match dr_shape d with None => true | Some s => str_eqb s (lit "oval") end.

Lemma drill_exact d : shape_ok d = true ->
  de_drill (ser_drill d) =
    match fgtb (dr_width d) fzero, height_written d with
    | true, hw => Ok (mk_drill (dr_shape d) (dr_width d)
                        (if hw then dr_height d else dr_width d)
                        (if offset_written d then dr_ox d else fzero)
                        (if offset_written d then dr_oy d else fzero))
    | false, true => Ok (mk_drill (dr_shape d) (dr_height d) (dr_height d)
                           (if offset_written d then dr_ox d else fzero)
                           (if offset_written d then dr_oy d else fzero))
    | false, false => Err ESexp
    end.
Proof.
  destruct d as [sh w h ox oy]; unfold shape_ok, height_written, offset_written, de_drill, ser_drill;
    cbn [dr_shape dr_width dr_height dr_ox dr_oy]; intros Hs.
  rewrite <- f_eps_eq.
  set (q := (fneb ox fzero || fneb oy fzero)%bool) in *. clearbody q.
  set (g := (fgtb h fzero && fgtb (fabs (fsub h w)) f_eps)%bool) in *. clearbody g.
  set (k := fgtb w fzero). clearbody k.
  destruct sh as [sh|]; [apply str_eqb_eq in Hs; subst sh|].
  all: destruct k, g, q; start; try change (SStr (lit "oval")) with (a_lit "oval").
  all: try reflexivity.
  all: first [erewrite pbind_ok by apply not_oval | nxt]; first [do 3 nxt; reflexivity | reflexivity].
Qed.
