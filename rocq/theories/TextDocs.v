(** The documents of this crate are among the trees whose text layout is specified. *)
From Coq Require Import String Lia.
From Verif Require Import Base Str StrFacts Num NumFacts F64 F64Text Sexp FpData FpLayer FpSer LyData LySer FpLibTable
  Formatter FormatterSpec FormatterFacts DocSpec DocText TextSpec TextFacts TextMain.
Open Scope string_scope. Open Scope list_scope.

Definition Q (l : list sexp) : Prop := forallb quiet l = true.
Definition usual (k : string) : bool := plain_name (lit k) && negb (one_of ["pts"] (lit k)).
Lemma q_node k l : usual k = true -> Q l -> quiet (node k l) = true.
Proof. intros H HL. unfold usual in H. apply andb_prop in H as [H1 H2]. apply negb_true_iff in H2. unfold node, a_lit. cbn [quiet]. now rewrite H1, H2. Qed.
Lemma q_kv k v : usual k = true -> quiet v = true -> quiet (kv k v) = true.
Proof. intros H Hv. apply (q_node k [v]); [exact H|]. unfold Q. cbn. now rewrite Hv. Qed.
Lemma Q_nil : Q []. Proof. reflexivity. Qed.
Lemma Q_cons x l : quiet x = true -> Q l -> Q (x :: l). Proof. unfold Q. cbn [forallb]. now intros -> ->. Qed.
Lemma Q_app l m : Q l -> Q m -> Q (l ++ m). Proof. unfold Q. rewrite forallb_app. now intros -> ->. Qed.
Lemma Q_when x l : Q l -> Q (when x l). Proof. destruct x; [auto|reflexivity]. Qed.
Lemma Q_opt {A} (f : A -> sexp) o : (forall x, quiet (f x) = true) -> Q (opt_list f o).
Proof. destruct o as [x|]; [|reflexivity]. unfold Q. cbn. intros H. now rewrite (H x). Qed.
Lemma Q_map {A} (f : A -> sexp) l : (forall x, In x l -> quiet (f x) = true) -> Q (map f l).
Proof. unfold Q. rewrite forallb_forall. intros H s Hs. apply in_map_iff in Hs as (x & <- & Hx). auto. Qed.
Lemma q_xy a : quiet (ser_xy a) = true.
Proof. unfold ser_xy. apply q_node; [destruct (xy_t a); reflexivity|reflexivity]. Qed.
Lemma q_pts p : quiet (ser_pts p) = true.
Proof.
  unfold ser_pts, node, a_lit. cbn [quiet]. change (plain_name (lit "pts")) with true. change (one_of ["pts"] (lit "pts")) with true. cbn [andb].
  rewrite forallb_forall. intros s Hs. apply in_map_iff in Hs as (a & <- & _). unfold ser_xy, node, a_lit. cbn [flat]. destruct (xy_t a); reflexivity.
Qed.
Ltac q := repeat (match goal with
  | H : ?g |- ?g => exact H
  | |- quiet (SStr _) = true => reflexivity
  | |- quiet (a_f _) = true => reflexivity
  | |- quiet (a_i _) = true => reflexivity
  | |- quiet (a_lit _) = true => reflexivity
  | |- quiet (ser_layer _) = true => reflexivity
  | |- quiet (ser_xy _) = true => apply q_xy
  | |- quiet (ser_pts _) = true => apply q_pts
  | |- quiet (node _ _) = true => apply q_node; [reflexivity|]
  | |- quiet (kv _ _) = true => apply q_kv; [reflexivity|]
  | |- Q (_ ++ _) => apply Q_app
  | |- Q (_ :: _) => apply Q_cons
  | |- Q [] => apply Q_nil
  | |- Q (when _ _) => apply Q_when
  | |- Q (opt_list _ _) => apply Q_opt; intros ?
  | |- Q (map _ _) => apply Q_map; intros ? ?
  end; cbv beta).
Lemma q_at a : quiet (ser_at a) = true. Proof. unfold ser_at. q. Qed.
Lemma q_effects a : quiet (ser_effects a) = true. Proof. unfold ser_effects, ser_font, ser_justify. q. Qed.
Lemma q_layers a : quiet (ser_layers a) = true. Proof. unfold ser_layers. q. Qed.
Lemma q_element e : quiet (ser_element e) = true.
Proof.
  destruct e; cbn [ser_element]; try (q; fail).
  - unfold ser_text. q; [apply q_at|apply q_effects].
  - unfold ser_pad, ser_drill, ser_fnet. q; [apply q_at|apply q_layers].
  - unfold ser_poly. q.
  - unfold ser_line. q.
  - unfold ser_circle. q.
  - unfold ser_arc. q.
  - apply q_at.
  - unfold ser_model, ser_xyz. q.
Qed.
Lemma Q_elements m : Q (SStr (m_name m) :: map ser_element (m_elements m)).
Proof. q. apply q_element. Qed.
Lemma regular_module m : regular (ser_module m) = true.
Proof. unfold ser_module, node, a_lit. cbn [regular]. exact (Q_elements m). Qed.
Lemma regular_table t : regular (ser_fp_lib_table t) = true.
Proof.
  assert (H : quiet (ser_fp_lib_table t) = true) by (unfold ser_fp_lib_table, ser_flib; q). exact H.
Qed.
Lemma Q_tstamp o : Q (ser_tstamp o). Proof. unfold ser_tstamp. q. Qed.
Lemma q_gr_text t : quiet (ser_gr_text t) = true.
Proof. unfold ser_gr_text. q; [apply q_at|apply q_effects|apply Q_tstamp]. Qed.
Lemma qt_element e : (match e with YOther s => quiet s || top s | YZone z => forallb quiet (zo_other z) | _ => true end) = true ->
  quiet (ser_ly_element e) || top (ser_ly_element e) = true.
Proof.
  destruct e as [m|n|n|t|l|a|c0|d|s|v|z|s]; cbn [ser_ly_element]; intros H; [|..|exact H]; apply orb_true_iff.
  - right. unfold ser_module, node, a_lit. cbn [top]. exact (Q_elements m).
  - left. unfold ser_net. q.
  - left. unfold ser_net_class. q.
  - left. apply q_gr_text.
  - left. unfold ser_gr_line. q. apply Q_tstamp.
  - left. unfold ser_gr_arc. q. apply Q_tstamp.
  - left. unfold ser_gr_circle. q. apply Q_tstamp.
  - left. unfold ser_dimension. q; [apply Q_tstamp|apply q_gr_text].
  - right. unfold ser_segment, node, a_lit. cbn [top]. change (Q ([ser_xy (sg_start s); ser_xy (sg_end s); kv "width" (a_f (sg_width s));
      kv "layer" (ser_layer (sg_layer s)); kv "net" (a_i (sg_net s))] ++ ser_tstamp (sg_tstamp s) ++ opt_list (fun t => kv "status" (SStr t)) (sg_status s))).
    q. apply Q_tstamp.
  - left. unfold ser_via. q; [apply q_at|apply q_layers].
  - left. unfold ser_zone, ser_hatch, ser_connect, ser_keepout, ser_fill, allowed. q.
Qed.
Lemma plain_number z : plain_name (show_Z z) = true.
Proof.
  pose proof (show_Z_chars z) as F. pose proof (show_Z_nonnil z) as N. destruct (show_Z z) as [|c r]; [contradiction|]. inversion F; subst.
  unfold plain_name, one_of. cbn [is_empty negb andb existsb].
  assert (E : forall w k, lit w = k :: tl (lit w) -> (is_dec_digit k || (k =? 45))%N = false -> str_eqb (c :: r) (lit w) = false).
  { intros w k E D. destruct (str_eqb (c :: r) (lit w)) eqn:S; [|reflexivity]. apply str_eqb_eq in S. rewrite E in S. injection S as -> _. congruence. }
  rewrite (E "module" 109%N), (E "segment" 115%N), (E "kicad_pcb" 107%N) by reflexivity. reflexivity.
Qed.
Lemma q_atoms c l : plain_name c = true -> forallb is_atom l = true -> quiet (SList (SStr c :: l)) = true.
Proof.
  intros H A. cbn [quiet]. rewrite H. cbn [andb]. destruct (one_of ["pts"] c); rewrite forallb_forall in *; intros x Hx; specialize (A x Hx); now destruct x.
Qed.
Lemma Q_setup l : forallb plain_name (map se_name l) = true -> Q (map ser_setup_element l).
Proof.
  intros H. apply Q_map. intros e He. unfold ser_setup_element. cbn [app]. apply q_atoms.
  - rewrite forallb_forall in H. apply H. now apply in_map.
  - destruct (se_value2 e); reflexivity.
Qed.
(** Nothing kept as it was read, and no name in the setup section, is that of a
    footprint, track or board in an unusual place. *)
Definition usual_element (e : ly_element) : bool :=
  match e with YOther s => quiet s || top s | YZone z => forallb quiet (zo_other z) | _ => true end.
Definition usual_layout (l : layout) : bool := forallb usual_element (ly_elements l) && forallb plain_name (setup_names l).
Lemma regular_layout l : usual_layout l = true -> regular (ser_layout l) = true.
Proof.
  intros H. unfold usual_layout, setup_names in H. apply andb_prop in H as [H1 H2]. rewrite forallb_app in H2. apply andb_prop in H2 as [H2 H3].
  unfold ser_layout, node, a_lit. cbn [regular]. change (one_of ["kicad_pcb"] (lit "kicad_pcb")) with true. cbv iota.
  rewrite forallb_app. apply andb_true_intro. split.
  - match goal with |- forallb _ ?L = true => assert (HQ : Q L) end.
    { assert (HG : quiet (ser_general (ly_general l)) = true) by (unfold ser_general, ser_area; q).
      assert (HS : quiet (ser_setup (ly_setup l)) = true).
      { unfold ser_setup. apply q_node; [reflexivity|]. apply Q_app; [now apply Q_setup|]. apply Q_cons; [|apply Q_nil]. apply q_node; [reflexivity|]. now apply Q_setup. }
      assert (HL : Q (map ser_ly_layer (ly_layers l))).
      { apply Q_map. intros x _. unfold ser_ly_layer. cbn [app]. apply q_atoms; [apply plain_number|]. unfold a_lit, a_i. cbn [forallb is_atom]. destruct (ll_hide x); reflexivity. }
      repeat (apply Q_cons; [q|]). apply Q_nil. }
    unfold Q in HQ. rewrite forallb_forall in *. intros x Hx. now rewrite (HQ x Hx).
  - rewrite forallb_forall in *. intros x Hx. apply in_map_iff in Hx as (e & <- & He). apply qt_element. exact (H1 e He).
Qed.

Lemma module_written nq m n : module_to_string nq m n = written nq n (ser_module m).
Proof. apply pretty_written, regular_module. Qed.
Lemma layout_written nq l n : usual_layout l = true -> layout_to_string nq l n = written nq n (ser_layout l) ++ [10%N].
Proof. intros H. unfold layout_to_string. now rewrite pretty_written by now apply regular_layout. Qed.
Lemma table_written nq t n : table_to_string nq t n = written nq n (ser_fp_lib_table t).
Proof. apply pretty_written, regular_table. Qed.

(** ** Library tables in full *)
Definition table_line (nq : str -> bool) (d : Z) (l : flib) : str :=
  [10%N] ++ blanks (d + 1) ++ lit "(lib(name " ++ atom nq (fb_name l) ++ lit ")(type " ++ atom nq (fb_type l) ++ lit ")(uri " ++ atom nq (fb_uri l)
  ++ lit ")(options " ++ atom nq (fb_options l) ++ lit ")(descr " ++ atom nq (fb_descr l) ++ lit "))".
Definition unquoted (nq : str -> bool) (l : list string) : Prop := Forall (fun k => nq (lit k) = false) l.
Lemma kv_kid nq k v d before : nq (lit k) = false -> break_of [lit "lib"; lit "fp_lib_table"] (lit k) (points before) = Some (mk_brk 0 false false) ->
  one_kid nq (lit "lib") [lit "fp_lib_table"] d before (kv k (SStr v)) = lit "(" ++ lit k ++ lit " " ++ atom nq v ++ lit ")".
Proof.
  intros H B. unfold one_kid, kv, a_lit. cbn [name_of]. rewrite B. cbn [b_lines b_close b_after]. rewrite lay_list.
  change (gaps (lit "lib") before (lit k) d) with (@nil N). unfold atom at 1. rewrite H. cbn [kids new_lines app]. unfold one_kid. cbn [name_of lay].
  rewrite !app_nil_r. cbn [app]. reflexivity.
Qed.
Lemma lib_kid nq l n before : unquoted nq ["lib"; "name"; "type"; "uri"; "options"; "descr"] ->
  one_kid nq (lit "fp_lib_table") [] n before (ser_flib l) = table_line nq n l.
Proof.
  intros H. unfold unquoted in H. repeat match goal with H : Forall _ (_ :: _) |- _ => inversion H; clear H; subst end.
  unfold ser_flib, node, a_lit. unfold one_kid at 1. cbn [name_of].
  change (break_of [lit "fp_lib_table"] (lit "lib") (points before)) with (Some line). cbn [b_lines b_close b_after line].
  change (gaps (lit "fp_lib_table") before (lit "lib") n) with (@nil N). rewrite lay_list. cbn [kids].
  rewrite !kv_kid by (assumption || reflexivity). unfold atom at 1. rewrite H2. unfold table_line, new_lines. cbn [repeat app].
  rewrite !app_nil_r, <- !app_assoc. reflexivity.
Qed.
Lemma table_text nq t n : unquoted nq ["fp_lib_table"; "lib"; "name"; "type"; "uri"; "options"; "descr"] ->
  table_to_string nq t n = lit "(fp_lib_table" ++ flat_map (table_line nq n) t ++ [10%N] ++ lit ")".
Proof.
  intros H. unfold unquoted in H. inversion H as [|? ? H0 HR]; subst. rewrite table_written. unfold ser_fp_lib_table, node, a_lit. rewrite written_list.
  unfold atom at 1. rewrite H0. change (one_of ["module"; "kicad_pcb"; "fp_lib_table"] (lit "fp_lib_table")) with true. cbv iota.
  assert (K : forall before, kids nq (lit "fp_lib_table") [] n before (map ser_flib t) = flat_map (table_line nq n) t).
  { induction t as [|l t IH]; intros before; [reflexivity|]. cbn [map kids flat_map]. now rewrite IH, (lib_kid nq l n before HR). }
  now rewrite K.
Qed.

Definition odd_layout : layout := mk_layout 4 host_default general_default (lit "A4") setup_default [] [YOther (node "group" [node "module" []]); YOther (node "net" [])].
Lemma state_matters : exists nq l n, layout_to_string nq l n <> written nq n (ser_layout l) ++ [10%N].
Proof.
  exists (fun _ => false), odd_layout, 0%Z. intros H.
  assert (G : str_eqb (layout_to_string (fun _ => false) odd_layout 0) (written (fun _ => false) 0 (ser_layout odd_layout) ++ [10%N]) = true) by (rewrite H; apply str_eqb_refl).
  vm_compute in G. discriminate.
Qed.
