(** The documents written by this crate have a text and named lists. *)
From Coq Require Import String Lia.
From Verif Require Import Base Str StrFacts Num NumFacts F64 F64Text F64Facts Sexp FpData FpLayer FpSer LyData LySer FpLibTable
  Formatter FormatterSpec FormatterFacts DocSpec.
Open Scope string_scope. Open Scope list_scope.

Section Flags.
(** [b]: texts may hold quotes; [c]: heads may be empty. *)
Variables b c : bool.
Definition okb (s : str) : bool := b || no_quote s.
Fixpoint gdoc (s : sexp) : bool :=
  match s with
  | SStr x => okb x
  | SList l => match l with SStr n :: _ => c || negb (is_empty n) | _ => c end && forallb gdoc l
  | SEmpty => b
  end.

Lemma okb_plain s : no_quote s = true -> okb s = true.
Proof. unfold okb. intros ->. apply orb_true_r. Qed.
Lemma okb_app s t : okb s = true -> okb t = true -> okb (s ++ t) = true.
Proof.
  unfold okb, no_quote. rewrite !orb_true_iff. intros [->|H1]; [auto|]. intros [->|H2]; [auto|].
  rewrite forallb_app, H1, H2. auto.
Qed.
Lemma okb_chars s (p : N -> bool) : Forall (fun x => p x = true) s -> (forall x, p x = true -> x <> 34%N) -> okb s = true.
Proof.
  intros F P. apply okb_plain. unfold no_quote. rewrite forallb_forall. rewrite Forall_forall in F.
  intros x Hx. apply negb_true_iff, N.eqb_neq. auto.
Qed.
Lemma g_lit s : no_quote (lit s) = true -> gdoc (a_lit s) = true. Proof. apply okb_plain. Qed.
Lemma g_f x : gdoc (a_f x) = true.
Proof. apply (okb_chars _ float_char); [apply f64_to_str_chars|]. intros y H ->. discriminate. Qed.
Lemma g_i x : gdoc (a_i x) = true.
Proof. apply (okb_chars _ _ (show_Z_chars x)). intros y H ->. discriminate. Qed.
Lemma g_hex x : gdoc (SStr (show_hex64 x)) = true.
Proof. apply (okb_chars _ _ (show_hex_digits _)). intros y H ->. discriminate. Qed.
Definition G (l : list sexp) : Prop := forallb gdoc l = true.
Lemma g_node k l : no_quote (lit k) && negb (is_empty (lit k)) = true -> G l -> gdoc (node k l) = true.
Proof.
  intros H HG. apply andb_prop in H as [H1 H2]. unfold node, a_lit. cbn [gdoc forallb].
  rewrite H2, orb_true_r, (okb_plain _ H1). exact HG.
Qed.
Lemma g_kv k v : no_quote (lit k) && negb (is_empty (lit k)) = true -> gdoc v = true -> gdoc (kv k v) = true.
Proof. intros H Hv. apply (g_node k [v]); [exact H|]. unfold G. cbn. now rewrite Hv. Qed.
Lemma G_nil : G []. Proof. reflexivity. Qed.
Lemma G_cons x l : gdoc x = true -> G l -> G (x :: l). Proof. unfold G. cbn [forallb]. now intros -> ->. Qed.
Lemma G_app l m : G l -> G m -> G (l ++ m). Proof. unfold G. rewrite forallb_app. now intros -> ->. Qed.
Lemma G_when x l : G l -> G (when x l). Proof. destruct x; [auto|reflexivity]. Qed.
Lemma G_opt {A} (f : A -> sexp) o : (forall x, o = Some x -> gdoc (f x) = true) -> G (opt_list f o).
Proof. destruct o as [x|]; [|reflexivity]. unfold G. cbn. intros H. now rewrite (H x). Qed.
Lemma G_map {A} (f : A -> sexp) l : (forall x, In x l -> gdoc (f x) = true) -> G (map f l).
Proof. unfold G. rewrite forallb_forall. intros H s Hs. apply in_map_iff in Hs as (x & <- & Hx). auto. Qed.

Definition S (l : list str) : Prop := forallb okb l = true.
Lemma S_app l m : S (l ++ m) <-> S l /\ S m.
Proof. unfold S. rewrite forallb_app, andb_true_iff. reflexivity. Qed.
Lemma S_cons x l : S (x :: l) <-> okb x = true /\ S l.
Proof. unfold S. cbn [forallb]. rewrite andb_true_iff. reflexivity. Qed.
Lemma S_flat {A} (f : A -> list str) l : S (flat_map f l) -> forall x, In x l -> S (f x).
Proof.
  induction l as [|y l IH]; cbn [flat_map]; intros H x []; apply S_app in H as [H1 H2]; [now subst|auto].
Qed.
Lemma S_map l : S l -> forall x, In x l -> okb x = true.
Proof. unfold S. rewrite forallb_forall. auto. Qed.

Ltac g := repeat first
  [ assumption
  | apply g_f | apply g_i | apply g_hex
  | apply g_lit; reflexivity
  | apply g_node; [reflexivity|]
  | apply g_kv; [reflexivity|]
  | apply G_app | apply G_cons | apply G_nil | apply G_when
  | apply G_opt; intros ? ?
  | apply G_map; intros ? ?
  | match goal with |- context [if ?x then _ else _] => destruct x end ].

Lemma g_layer l : S (layer_strs l) -> gdoc (ser_layer l) = true.
Proof.
  intros H. unfold ser_layer, show_layer. apply okb_app; [destruct (la_side l); apply okb_plain; reflexivity|].
  unfold layer_strs in H. destruct (la_t l) as [| | | | | | | | | |s]; try (apply okb_plain; reflexivity).
  unfold S in H. cbn in H. rewrite andb_true_r in H. exact H.
Qed.
Lemma g_layers l : S (flat_map layer_strs l) -> gdoc (ser_layers l) = true.
Proof. intros H. unfold ser_layers. g. apply g_layer. exact (S_flat _ _ H _ H0). Qed.
Lemma g_at a : gdoc (ser_at a) = true. Proof. unfold ser_at. g. Qed.
Lemma g_xy a : gdoc (ser_xy a) = true.
Proof. unfold ser_xy. apply g_node; [destruct (xy_t a); reflexivity|]. g. Qed.
Lemma g_pts a : gdoc (ser_pts a) = true. Proof. unfold ser_pts. g. apply g_xy. Qed.
Lemma g_effects a : gdoc (ser_effects a) = true.
Proof. unfold ser_effects, ser_font, ser_justify. g. destruct x; reflexivity + (apply g_lit; reflexivity). Qed.
Lemma g_opt_str o x : S (opt_strs o) -> o = Some x -> gdoc (SStr x) = true.
Proof. intros H ->. unfold opt_strs in H. apply S_cons in H as [H _]. exact H. Qed.
Lemma g_str3 t : gdoc (a_lit (show_pad_type t)) = true. Proof. destruct t; apply g_lit; reflexivity. Qed.
Lemma g_str4 t : gdoc (a_lit (show_pad_shape t)) = true. Proof. destruct t; apply g_lit; reflexivity. Qed.
Ltac spl := repeat match goal with
  | H : S (_ :: _) |- _ => apply S_cons in H as [? H]
  | H : S (_ ++ _) |- _ => apply S_app in H as [? H]
  end.
Ltac fin := repeat (match goal with
  | H : ?g |- ?g => exact H
  | |- gdoc (a_f _) = true => apply g_f
  | |- gdoc (a_i _) = true => apply g_i
  | |- gdoc (SStr (show_hex64 _)) = true => apply g_hex
  | |- gdoc (ser_at _) = true => apply g_at
  | |- gdoc (ser_xy _) = true => apply g_xy
  | |- gdoc (ser_pts _) = true => apply g_pts
  | |- gdoc (ser_effects _) = true => apply g_effects
  | |- gdoc (ser_layer _) = true => apply g_layer
  | |- gdoc (ser_layers _) = true => apply g_layers
  | |- gdoc (a_lit (show_pad_type _)) = true => apply g_str3
  | |- gdoc (a_lit (show_pad_shape _)) = true => apply g_str4
  | H : S (opt_strs ?o), E : ?o = Some ?x |- gdoc (SStr ?x) = true => exact (g_opt_str _ _ H E)
  | |- gdoc (SStr _) = true => assumption
  | |- gdoc (node _ _) = true => apply g_node; [reflexivity|]
  | |- gdoc (kv _ _) = true => apply g_kv; [reflexivity|]
  | |- gdoc (a_lit (if ?x then _ else _)) = true => destruct x
  | |- gdoc (a_lit _) = true => apply g_lit; reflexivity
  | |- G (_ ++ _) => apply G_app
  | |- G (_ :: _) => apply G_cons
  | |- G [] => apply G_nil
  | |- G (when _ _) => apply G_when
  | |- G (opt_list _ _) => apply G_opt; intros ? ?
  | |- G (map _ _) => apply G_map; intros ? ?
  end; cbv beta).
Lemma g_element e : S (element_strs e) -> gdoc (ser_element e) = true.
Proof.
  destruct e; cbn [element_strs ser_element]; intros H; spl; try (fin; fail).
  - unfold ser_text. fin.
  - unfold ser_pad.
    assert (HD : forall d, pa_drill p = Some d -> gdoc (ser_drill d) = true).
    { intros d E. rewrite E in H. unfold ser_drill. fin. }
    assert (HN : forall n, pa_net p = Some n -> gdoc (ser_fnet n) = true).
    { intros n E. match goal with HS : S (match pa_net p with _ => _ end) |- _ => rewrite E in HS; cbn in HS end. spl. unfold ser_fnet. fin.  }
    fin; auto.
  - unfold ser_poly. fin.
  - unfold ser_line. fin.
  - unfold ser_circle. fin.
  - unfold ser_arc. fin.
  - unfold ser_model, ser_xyz. fin.
Qed.
Lemma g_module m : S (module_strs m) -> gdoc (ser_module m) = true.
Proof.
  unfold module_strs, ser_module. intros H. apply S_cons in H as [H1 H2]. fin.
  apply g_element. exact (S_flat _ _ H2 _ H).
Qed.
Lemma G_tstamp o : S (opt_strs o) -> G (ser_tstamp o).
Proof. intros H. unfold ser_tstamp. fin. Qed.
Lemma g_gr_text t : S (gr_text_strs t) -> gdoc (ser_gr_text t) = true.
Proof. unfold gr_text_strs, ser_gr_text. intros H. spl. fin. now apply G_tstamp. Qed.
Lemma g_ly_element e : S (ly_element_strs e) -> G (ly_element_other e) -> gdoc (ser_ly_element e) = true.
Proof.
  destruct e as [m|n|n|t|l|a|c0|d|s|v|z|s]; cbn [ly_element_strs ser_ly_element ly_element_other]; intros H HO.
  - now apply g_module.
  - spl. unfold ser_net. fin.
  - spl. unfold ser_net_class. fin. eapply S_map; eassumption.
  - now apply g_gr_text.
  - spl. unfold ser_gr_line. fin. now apply G_tstamp.
  - spl. unfold ser_gr_arc. fin. now apply G_tstamp.
  - spl. unfold ser_gr_circle. fin. now apply G_tstamp.
  - spl. unfold ser_dimension. pose proof (G_tstamp _ H2). pose proof (g_gr_text _ H). fin.
  - spl. unfold ser_segment. pose proof (G_tstamp _ H1). fin.
  - unfold ser_via. fin.
  - unfold zone_strs in H. spl. unfold ser_zone, ser_hatch, ser_connect, ser_keepout, ser_fill, allowed. fin.
  - unfold G in HO. cbn in HO. rewrite andb_true_r in HO. exact HO.
Qed.
Lemma g_setup l : S (flat_map setup_strs l) -> forallb (fun e => c || negb (is_empty (se_name e))) l = true ->
  G (map ser_setup_element l).
Proof.
  intros H N. apply G_map. intros e He. pose proof (S_flat _ _ H _ He) as E. unfold setup_strs in E. spl.
  unfold ser_setup_element. cbn [app gdoc]. rewrite forallb_forall in N. rewrite (N _ He). cbn [andb].
  apply G_cons; [assumption|]. apply G_cons; [assumption|]. fin.
Qed.
Lemma G_flat {A} (f : A -> list sexp) l : G (flat_map f l) -> forall x, In x l -> G (f x).
Proof.
  induction l as [|y l IH]; cbn [flat_map]; unfold G in *; intros H x []; rewrite forallb_app, andb_true_iff in H; destruct H;
    [now subst|auto].
Qed.
Lemma g_layout l : S (layout_strs l) -> G (layout_other l) -> forallb (fun n => c || negb (is_empty n)) (setup_names l) = true ->
  gdoc (ser_layout l) = true.
Proof.
  unfold layout_strs, layout_other, setup_names, ser_layout. intros H HO HN. spl.
  rewrite forallb_app, andb_true_iff in HN. destruct HN as [N1 N2].
  assert (MN : forall m, forallb (fun n => c || negb (is_empty n)) (map se_name m) = true ->
    forallb (fun e => c || negb (is_empty (se_name e))) m = true).
  { clear. induction m as [|e m IH]; cbn; [auto|]. intros H. apply andb_prop in H as [-> H]. now rewrite IH. }
  fin.
  - unfold ser_general, ser_area. fin.
  - unfold ser_ly_layer. cbn [app gdoc].
    assert (NE : is_empty (show_Z (ll_num x)) = false).
    { pose proof (show_Z_nonnil (ll_num x)). destruct (show_Z (ll_num x)); [contradiction|reflexivity]. }
    unfold a_i. rewrite NE, orb_true_r. cbn [andb].
    apply G_cons; [apply g_i|]. apply G_cons; [|apply G_cons].
    + match goal with HL : S (flat_map (fun _ => layer_strs _) _), HI : In _ _ |- _ => exact (g_layer _ (S_flat _ _ HL _ HI)) end.
    + destruct (ll_type x); apply g_lit; reflexivity.
    + fin.
  - pose proof (g_setup _ H4 (MN _ N1)). pose proof (g_setup _ H5 (MN _ N2)). unfold ser_setup. fin.
  - match goal with HI : In _ _ |- _ => apply g_ly_element; [exact (S_flat _ _ H _ HI)|exact (G_flat _ _ HO _ HI)] end.
Qed.
Lemma g_table t : S (flat_map flib_strs t) -> gdoc (ser_fp_lib_table t) = true.
Proof.
  intros H. unfold ser_fp_lib_table. fin. pose proof (S_flat _ _ H _ H0) as E. unfold flib_strs in E. spl.
  unfold ser_flib. fin.
Qed.
End Flags.

(** ** The two readings *)
Lemma gdoc_doc s : gdoc false true s = true -> doc_ok s = true.
Proof.
  induction s as [x| |l HL] using sexp_nest_ind; cbn [gdoc doc_ok]; intros H; [exact H|discriminate|].
  apply andb_prop in H as [_ H]. rewrite forallb_forall in *. rewrite Forall_forall in HL. auto.
Qed.
Lemma gdoc_named s : gdoc true false s = true -> named s = true.
Proof.
  induction s as [x| |l HL] using sexp_nest_ind; cbn [gdoc named]; intros H; [reflexivity|reflexivity|].
  apply andb_prop in H as [H1 H2]. destruct l as [|[n|l'|] l]; try discriminate.
  cbn [orb] in H1. rewrite H1. cbn [andb]. cbn [forallb] in H2. apply andb_prop in H2 as [_ H2].
  rewrite forallb_forall in *. rewrite Forall_forall in HL. intros x Hx. apply HL; [now right|auto].
Qed.
Lemma doc_gdoc s : doc_ok s = true -> gdoc false true s = true.
Proof.
  induction s as [x| |l HL] using sexp_nest_ind; cbn [gdoc doc_ok]; intros H; [exact H|discriminate|].
  assert (E : match l with SStr n :: _ => true || negb (is_empty n) | _ => true end = true) by (destruct l as [|[]]; reflexivity).
  rewrite E. cbn [andb]. rewrite forallb_forall in *. rewrite Forall_forall in HL. auto.
Qed.
Lemma S_true l : S true l.
Proof. unfold S. now induction l. Qed.
Lemma named_gdoc s : named s = true -> gdoc true false s = true.
Proof.
  induction s as [x| |l HL] using sexp_nest_ind; cbn [gdoc named]; intros H1; [reflexivity|reflexivity|].
  destruct l as [|[n|l'|] l]; try discriminate. apply andb_prop in H1 as [H0 H1]. cbn [orb forallb]. rewrite H0. cbn [andb].
  change (gdoc true false (SStr n)) with true. cbn [andb].
  rewrite forallb_forall in *. rewrite Forall_forall in HL. intros x Hx. apply HL; [now right|auto].
Qed.

Lemma doc_module m : forallb no_quote (module_strs m) = true -> doc_ok (ser_module m) = true.
Proof. intros H. apply gdoc_doc, g_module. exact H. Qed.
Lemma doc_layout l : forallb no_quote (layout_strs l) = true -> forallb doc_ok (layout_other l) = true -> doc_ok (ser_layout l) = true.
Proof.
  intros H HO. apply gdoc_doc, g_layout.
  - exact H.
  - unfold G. rewrite forallb_forall in *. intros x Hx. apply doc_gdoc. auto.
  - generalize (setup_names l). clear. intros l. now induction l.
Qed.
Lemma doc_table t : forallb no_quote (flat_map flib_strs t) = true -> doc_ok (ser_fp_lib_table t) = true.
Proof. intros H. apply gdoc_doc, g_table. exact H. Qed.
Lemma named_module m : named (ser_module m) = true.
Proof. apply gdoc_named, g_module, S_true. Qed.
Lemma named_table t : named (ser_fp_lib_table t) = true.
Proof. apply gdoc_named, g_table, S_true. Qed.
Lemma named_layout l : forallb named (layout_other l) = true -> forallb (fun n => negb (is_empty n)) (setup_names l) = true ->
  named (ser_layout l) = true.
Proof.
  intros HO HN. apply gdoc_named, g_layout; [apply S_true| |exact HN].
  unfold G. rewrite forallb_forall in *. intros x Hx. apply named_gdoc. auto.
Qed.
