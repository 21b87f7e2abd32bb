(** Facts about the characters of a saved file (C108). *)
From Coq Require Import String Lia.
From Verif Require Import Base Str StrFacts Num NumFacts F64 F64Text F64Facts Sexp FpData FpLayer FpSer LyData LySer FpLibTable
  Formatter FormatterSpec FormatterFacts DocSpec DocText CharSpec.
Open Scope string_scope. Open Scope list_scope.

(** ** The words of a tree
    [pr] holds of every character of every word that the program writes of its own;
    [e0]: there may be [Empty]. *)
Section Chars.
Variables (pr : N -> bool) (e0 : bool).
Hypothesis own : forall c, word_char c = true -> pr c = true.
Definition okb (s : str) : bool := forallb pr s.
Fixpoint gdoc (s : sexp) : bool :=
  match s with SStr x => okb x | SList l => forallb gdoc l | SEmpty => e0 end.
Lemma okb_plain s : forallb word_char s = true -> okb s = true.
Proof. unfold okb. rewrite !forallb_forall. auto. Qed.
Lemma okb_app s t : okb s = true -> okb t = true -> okb (s ++ t) = true.
Proof. unfold okb. intros A B. now rewrite forallb_app, A, B. Qed.
Lemma okb_chars s (q : N -> bool) : Forall (fun x => q x = true) s -> (forall x, q x = true -> word_char x = true) -> okb s = true.
Proof. intros F P. apply okb_plain, forallb_forall. rewrite Forall_forall in F. auto. Qed.
Lemma g_lit s : forallb word_char (lit s) = true -> gdoc (a_lit s) = true. Proof. apply okb_plain. Qed.
Ltac chars := let y := fresh in let H := fresh in intros y H; unfold float_char, is_hex_digit, is_dec_digit in H;
  rewrite ?orb_true_iff, ?andb_true_iff, ?N.leb_le, ?N.eqb_eq in H; unfold word_char; rewrite ?orb_true_iff, ?andb_true_iff, ?N.leb_le, ?N.eqb_eq; lia.
Lemma g_f x : gdoc (a_f x) = true.
Proof. apply (okb_chars _ float_char); [apply f64_to_str_chars|chars]. Qed.
Lemma g_i x : gdoc (a_i x) = true.
Proof. apply (okb_chars _ _ (show_Z_chars x)). chars. Qed.
Lemma g_hex x : gdoc (SStr (show_hex64 x)) = true.
Proof. apply (okb_chars _ _ (show_hex_digits _)). chars. Qed.
Definition G (l : list sexp) : Prop := forallb gdoc l = true.
Lemma g_node k l : forallb word_char (lit k) = true -> G l -> gdoc (node k l) = true.
Proof. intros H HG. unfold node, a_lit. cbn [gdoc forallb]. rewrite (okb_plain _ H). exact HG. Qed.
Lemma g_kv k v : forallb word_char (lit k) = true -> gdoc v = true -> gdoc (kv k v) = true.
Proof. intros H Hv. apply (g_node k [v]); [exact H|]. unfold G. cbn. now rewrite Hv. Qed.
Lemma G_nil : G []. Proof. reflexivity. Qed.
Lemma G_cons x l : gdoc x = true -> G l -> G (x :: l). Proof. unfold G. cbn [forallb]. now intros -> ->. Qed.
Lemma G_app l m : G l -> G m -> G (l ++ m). Proof. unfold G. rewrite forallb_app. now intros -> ->. Qed.
Lemma G_when x l : G l -> G (when x l). Proof. destruct x; [auto|reflexivity]. Qed.
Lemma G_opt {A} (f : A -> sexp) o : (forall x, o = Some x -> gdoc (f x) = true) -> G (opt_list f o).
Proof. destruct o as [x|]; [|reflexivity]. unfold G. cbn. intros H. now rewrite (H x). Qed.
Lemma G_map {A} (f : A -> sexp) l : (forall x, In x l -> gdoc (f x) = true) -> G (map f l).
Proof. unfold G. rewrite forallb_forall. intros H s Hs. apply in_map_iff in Hs as (x & <- & Hx). auto. Qed.

Definition S (l : list str) : Prop := forallb okb l = true.
Lemma S_app l m : S (l ++ m) <-> S l /\ S m.
Proof. unfold S. rewrite forallb_app, andb_true_iff. reflexivity. Qed.
Lemma S_cons x l : S (x :: l) <-> okb x = true /\ S l.
Proof. unfold S. cbn [forallb]. rewrite andb_true_iff. reflexivity. Qed.
Lemma S_flat {A} (f : A -> list str) l : S (flat_map f l) -> forall x, In x l -> S (f x).
Proof.
  induction l as [|y l IH]; cbn [flat_map]; intros H x []; apply S_app in H as [H1 H2]; [now subst|auto].
Qed.
Lemma S_map l : S l -> forall x, In x l -> okb x = true.
Proof. unfold S. rewrite forallb_forall. auto. Qed.

Ltac g := repeat first
  [ assumption
  | apply g_f | apply g_i | apply g_hex
  | apply g_lit; reflexivity
  | apply g_node; [reflexivity|]
  | apply g_kv; [reflexivity|]
  | apply G_app | apply G_cons | apply G_nil | apply G_when
  | apply G_opt; intros ? ?
  | apply G_map; intros ? ?
  | match goal with |- context [if ?x then _ else _] => destruct x end ].

Lemma g_layer l : S (layer_strs l) -> gdoc (ser_layer l) = true.
Proof.
  intros H. unfold ser_layer, show_layer. apply okb_app; [destruct (la_side l); apply okb_plain; reflexivity|].
  unfold layer_strs in H. destruct (la_t l) as [| | | | | | | | | |s]; try (apply okb_plain; reflexivity).
  unfold S in H. cbn in H. rewrite andb_true_r in H. exact H.
Qed.
Lemma g_layers l : S (flat_map layer_strs l) -> gdoc (ser_layers l) = true.
Proof. intros H. unfold ser_layers. g. apply g_layer. exact (S_flat _ _ H _ H0). Qed.
Lemma g_at a : gdoc (ser_at a) = true. Proof. unfold ser_at. g. Qed.
Lemma g_xy a : gdoc (ser_xy a) = true.
Proof. unfold ser_xy. apply g_node; [destruct (xy_t a); reflexivity|]. g. Qed.
Lemma g_pts a : gdoc (ser_pts a) = true. Proof. unfold ser_pts. apply g_node; [reflexivity|]. apply G_map. intros x _. apply g_xy. Qed.
Lemma g_effects a : gdoc (ser_effects a) = true.
Proof. unfold ser_effects, ser_font, ser_justify. g. destruct x; reflexivity + (apply g_lit; reflexivity). Qed.
Lemma g_opt_str o x : S (opt_strs o) -> o = Some x -> gdoc (SStr x) = true.
Proof. intros H ->. unfold opt_strs in H. apply S_cons in H as [H _]. exact H. Qed.
Lemma g_str3 t : gdoc (a_lit (show_pad_type t)) = true. Proof. destruct t; apply g_lit; reflexivity. Qed.
Lemma g_str4 t : gdoc (a_lit (show_pad_shape t)) = true. Proof. destruct t; apply g_lit; reflexivity. Qed.
Ltac spl := repeat match goal with
  | H : S (_ :: _) |- _ => apply S_cons in H as [? H]
  | H : S (_ ++ _) |- _ => apply S_app in H as [? H]
  end.
Ltac fin := repeat (match goal with
  | H : ?g |- ?g => exact H
  | |- gdoc (a_f _) = true => apply g_f
  | |- gdoc (a_i _) = true => apply g_i
  | |- gdoc (SStr (show_hex64 _)) = true => apply g_hex
  | |- gdoc (ser_at _) = true => apply g_at
  | |- gdoc (ser_xy _) = true => apply g_xy
  | |- gdoc (ser_pts _) = true => apply g_pts
  | |- gdoc (ser_effects _) = true => apply g_effects
  | |- gdoc (ser_layer _) = true => apply g_layer
  | |- gdoc (ser_layers _) = true => apply g_layers
  | |- gdoc (a_lit (show_pad_type _)) = true => apply g_str3
  | |- gdoc (a_lit (show_pad_shape _)) = true => apply g_str4
  | H : S (opt_strs ?o), E : ?o = Some ?x |- gdoc (SStr ?x) = true => exact (g_opt_str _ _ H E)
  | |- gdoc (SStr _) = true => assumption
  | |- gdoc (node _ _) = true => apply g_node; [reflexivity|]
  | |- gdoc (kv _ _) = true => apply g_kv; [reflexivity|]
  | |- gdoc (a_lit (if ?x then _ else _)) = true => destruct x
  | |- gdoc (a_lit _) = true => apply g_lit; reflexivity
  | |- G (_ ++ _) => apply G_app
  | |- G (_ :: _) => apply G_cons
  | |- G [] => apply G_nil
  | |- G (when _ _) => apply G_when
  | |- G (opt_list _ _) => apply G_opt; intros ? ?
  | |- G (map _ _) => apply G_map; intros ? ?
  end; cbv beta).
Lemma g_element e : S (element_strs e) -> gdoc (ser_element e) = true.
Proof.
  destruct e; cbn [element_strs ser_element]; intros H; spl; try (fin; fail).
  - unfold ser_text. fin.
  - unfold ser_pad.
    assert (HD : forall d, pa_drill p = Some d -> gdoc (ser_drill d) = true).
    { intros d E. rewrite E in H. unfold ser_drill. fin. }
    assert (HN : forall n, pa_net p = Some n -> gdoc (ser_fnet n) = true).
    { intros n E. match goal with HS : S (match pa_net p with _ => _ end) |- _ => rewrite E in HS; cbn in HS end. spl. unfold ser_fnet. fin.  }
    fin; auto.
  - unfold ser_poly. fin.
  - unfold ser_line. fin.
  - unfold ser_circle. fin.
  - unfold ser_arc. fin.
  - unfold ser_model, ser_xyz. fin.
Qed.
Lemma g_module m : S (module_strs m) -> gdoc (ser_module m) = true.
Proof.
  unfold module_strs, ser_module. intros H. apply S_cons in H as [H1 H2]. fin.
  apply g_element. exact (S_flat _ _ H2 _ H).
Qed.
Lemma G_tstamp o : S (opt_strs o) -> G (ser_tstamp o).
Proof. intros H. unfold ser_tstamp. fin. Qed.
Lemma g_gr_text t : S (gr_text_strs t) -> gdoc (ser_gr_text t) = true.
Proof. unfold gr_text_strs, ser_gr_text. intros H. spl. fin. now apply G_tstamp. Qed.
Lemma g_ly_element e : S (ly_element_strs e) -> G (ly_element_other e) -> gdoc (ser_ly_element e) = true.
Proof.
  destruct e as [m|n|n|t|l|a|c0|d|s|v|z|s]; cbn [ly_element_strs ser_ly_element ly_element_other]; intros H HO.
  - now apply g_module.
  - spl. unfold ser_net. fin.
  - spl. unfold ser_net_class. fin. eapply S_map; eassumption.
  - now apply g_gr_text.
  - spl. unfold ser_gr_line. fin. now apply G_tstamp.
  - spl. unfold ser_gr_arc. fin. now apply G_tstamp.
  - spl. unfold ser_gr_circle. fin. now apply G_tstamp.
  - spl. unfold ser_dimension. pose proof (G_tstamp _ H2). pose proof (g_gr_text _ H). fin.
  - spl. unfold ser_segment. pose proof (G_tstamp _ H1). fin.
  - unfold ser_via. fin.
  - unfold zone_strs in H. spl. unfold ser_zone, ser_hatch, ser_connect, ser_keepout, ser_fill, allowed. fin.
  - unfold G in HO. cbn in HO. rewrite andb_true_r in HO. exact HO.
Qed.
Lemma g_setup l : S (flat_map setup_strs l) -> G (map ser_setup_element l).
Proof.
  intros H. apply G_map. intros e He. pose proof (S_flat _ _ H _ He) as E. unfold setup_strs in E. spl.
  unfold ser_setup_element. cbn [app gdoc]. apply G_cons; [assumption|]. apply G_cons; [assumption|]. fin.
Qed.
Lemma G_flat {A} (f : A -> list sexp) l : G (flat_map f l) -> forall x, In x l -> G (f x).
Proof.
  induction l as [|y l IH]; cbn [flat_map]; unfold G in *; intros H x []; rewrite forallb_app, andb_true_iff in H; destruct H;
    [now subst|auto].
Qed.
Lemma g_layout l : S (layout_strs l) -> G (layout_other l) -> gdoc (ser_layout l) = true.
Proof.
  unfold layout_strs, layout_other, ser_layout. intros H HO. spl. fin.
  - unfold ser_general, ser_area. fin.
  - unfold ser_ly_layer. cbn [app gdoc].
    apply G_cons; [apply g_i|]. apply G_cons; [|apply G_cons].
    + match goal with HL : S (flat_map (fun _ => layer_strs _) _), HI : In _ _ |- _ => exact (g_layer _ (S_flat _ _ HL _ HI)) end.
    + destruct (ll_type x); apply g_lit; reflexivity.
    + fin.
  - pose proof (g_setup _ H4). pose proof (g_setup _ H5). unfold ser_setup. fin.
  - match goal with HI : In _ _ |- _ => apply g_ly_element; [exact (S_flat _ _ H _ HI)|exact (G_flat _ _ HO _ HI)] end.
Qed.
Lemma g_table t : S (flat_map flib_strs t) -> gdoc (ser_fp_lib_table t) = true.
Proof.
  intros H. unfold ser_fp_lib_table. fin. pose proof (S_flat _ _ H _ H0) as E. unfold flib_strs in E. spl.
  unfold ser_flib. fin.
Qed.
End Chars.

(** ** The text of a tree *)
Section Text.
Variable P : N -> Prop.
Hypothesis B : forall c, between c -> P c.
Variable nq : str -> bool.
Definition all (s : str) : Prop := Forall P s.
Lemma all_app s t : all s -> all t -> all (s ++ t). Proof. intros. now apply Forall_app. Qed.
Lemma all_one c : between c -> all [c]. Proof. intros. repeat constructor. auto. Qed.
Lemma all_repeat c n : between c -> all (repeat c n).
Proof. intros H. induction n; cbn [repeat]; constructor; auto. Qed.
Ltac here := unfold between; tauto.
Lemma all_indent f n : all (fm_indent f n).
Proof.
  unfold fm_indent. apply all_app; [apply all_repeat; here|].
  induction (Z.to_nat (fs_indent f)) as [|k IH]; cbn [repeat flat_map]; [constructor|].
  apply all_app; [|exact IH]. repeat constructor; apply B; here.
Qed.
Lemma all_if b s : all s -> all (text_if b s). Proof. destruct b; [auto|constructor]. Qed.
Lemma all_open f v : all (snd (fm_open f v)).
Proof.
  unfold fm_open. cbn [snd]. apply all_app; [apply all_if, all_indent|]. apply all_app; [apply all_if, all_indent|].
  apply all_app; [|apply all_one; here].
  match goal with |- context [match ?w with _ => _ end] => destruct w end; [apply all_if, all_indent|constructor].
Qed.
Lemma all_close f : all (snd (fm_close f)).
Proof.
  unfold fm_close. destruct (fs_stack f) as [|[[s [i|]]|] r]; cbn [snd]; try (apply all_one; here).
  - apply all_app; [apply all_if, all_indent|]. apply all_app; [apply all_if, all_one; here|].
    apply all_app; [apply all_one; here|apply all_repeat; here].
  - apply all_app; [apply all_if, all_one; here|apply all_one; here].
Qed.
Lemma all_element f v : all (fm_element f v).
Proof. unfold fm_element. destruct (want f v); destruct v; try (apply all_one; here); constructor. Qed.
Lemma all_ser s : forall f, (forall x, In x (tree_strs s) -> all x) -> all (snd (fm_ser nq s f)).
Proof.
  induction s as [x| |l HL] using sexp_nest_ind; intros f H.
  - cbn [fm_ser snd]. unfold atom_text. assert (A : all x) by (apply H; now left).
    destruct (nq x); [|exact A]. constructor; [apply B; here|]. apply all_app; [exact A|apply all_one; here].
  - constructor.
  - assert (R : forall k g, Forall (fun s => forall f, (forall x, In x (tree_strs s) -> all x) -> all (snd (fm_ser nq s f))) k ->
        (forall x, In x (flat_map tree_strs k) -> all x) -> all (snd (fm_rest nq k g))).
    { clear -B. induction k as [|y k IH]; intros g F K; [constructor|]. inversion_clear F as [|? ? F1 F2]. cbn [fm_rest].
      specialize (F1 g). destruct (fm_ser nq y g) as [g1 t1]. specialize (IH g1 F2). destruct (fm_rest nq k g1) as [g2 t2]. cbn [snd] in *.
      cbn [flat_map] in K. apply all_app; [apply all_element|]. apply all_app; [apply F1|apply IH]; intros x I; apply K, in_or_app; auto. }
    destruct l as [|x l].
    + rewrite fm_ser_nil. pose proof (all_open f None) as O. destruct (fm_open f None) as [f1 t1]. pose proof (all_close f1) as C.
      destruct (fm_close f1) as [f3 t3]. cbn [snd] in *. now apply all_app.
    + rewrite fm_ser_cons. pose proof (all_open f (Some x)) as O. destruct (fm_open f (Some x)) as [f1 t1].
      inversion_clear HL as [|? ? H1 H2]. cbn [tree_strs flat_map] in H. specialize (H1 f1). destruct (fm_ser nq x f1) as [g t].
      specialize (R l g H2). destruct (fm_rest nq l g) as [g' t']. pose proof (all_close g') as C. destruct (fm_close g') as [f3 t3].
      cbn [snd] in *. apply all_app; [exact O|]. apply all_app; [|exact C].
      apply all_app; [apply H1|apply R]; intros y I; apply H, in_or_app; auto.
Qed.
End Text.

(** ** Saved files *)
Definition among (l : list str) (c : N) : bool := existsb (existsb (N.eqb c)) l.
Lemma among_iff l c : among l c = true <-> of_texts l c.
Proof.
  unfold among, of_texts. rewrite existsb_exists. split; intros (s & I & H); exists s; (split; [exact I|]).
  - apply existsb_exists in H as (d & D & E). apply N.eqb_eq in E. now subst.
  - apply existsb_exists. exists c. split; [exact H|apply N.eqb_refl].
Qed.
Definition known (l : list str) (c : N) : bool := word_char c || among l c.
Lemma known_own l c : word_char c = true -> known l c = true.
Proof. unfold known. now intros ->. Qed.
Lemma strs_known l : S (known l) l.
Proof.
  unfold S. apply forallb_forall. intros s I. unfold okb. apply forallb_forall. intros c C. unfold known.
  apply orb_true_iff. right. apply among_iff. now exists s.
Qed.
Lemma known_more l k : (forall s, In s k -> In s l) -> S (known l) k.
Proof.
  intros H. unfold S. apply forallb_forall. intros s I. exact (proj1 (forallb_forall _ _) (strs_known l) s (H s I)).
Qed.
Lemma gdoc_strs p s : gdoc p true s = true -> forall x, In x (tree_strs s) -> forallb p x = true.
Proof.
  induction s as [x| |l HL] using sexp_nest_ind; cbn [gdoc tree_strs]; intros H y I.
  - destruct I as [<-|[]]. exact H.
  - destruct I.
  - apply in_flat_map in I as (t & T & I). rewrite Forall_forall in HL. rewrite forallb_forall in H. exact (HL t T (H t T) y I).
Qed.
Lemma strs_gdoc p s : (forall x, In x (tree_strs s) -> forallb p x = true) -> gdoc p true s = true.
Proof.
  induction s as [x| |l HL] using sexp_nest_ind; cbn [gdoc tree_strs]; intros H.
  - apply H. now left.
  - reflexivity.
  - apply forallb_forall. intros t T. rewrite Forall_forall in HL. apply (HL t T). intros x X. apply H, in_flat_map. eauto.
Qed.
Lemma tree_chars nq n s l : gdoc (known l) true s = true -> forall c, In c (pretty nq n s) -> of_program c \/ of_texts l c.
Proof.
  intros G c C. unfold pretty in C.
  assert (A : all (fun c => of_program c \/ of_texts l c) (snd (fm_ser nq s (fs_new n)))).
  { apply all_ser; [unfold of_program; auto|]. intros x X. apply Forall_forall. intros d D.
    pose proof (proj1 (forallb_forall _ _) (gdoc_strs _ _ G x X) d D) as K. unfold known in K. apply orb_true_iff in K as [K|K].
    - left. now left.
    - right. now apply among_iff. }
  exact (proj1 (Forall_forall _ _) A c C).
Qed.
Theorem module_chars nq m n c : In c (module_to_string nq m n) -> of_program c \/ of_texts (module_strs m) c.
Proof. apply tree_chars. apply g_module; [apply known_own|apply strs_known]. Qed.
Theorem table_chars nq t n c : In c (table_to_string nq t n) -> of_program c \/ of_texts (flat_map flib_strs t) c.
Proof. apply tree_chars. apply g_table; [apply known_own|apply strs_known]. Qed.
Theorem layout_chars nq l n c : In c (layout_to_string nq l n) ->
  of_program c \/ of_texts (layout_strs l ++ flat_map tree_strs (layout_other l)) c.
Proof.
  unfold layout_to_string. intros I. apply in_app_or in I as [I|[<-|[]]]; [|left; right; now left].
  revert I. apply tree_chars. set (k := layout_strs l ++ flat_map tree_strs (layout_other l)).
  apply g_layout; [apply known_own|apply known_more; intros s I; now apply in_or_app; left|].
  unfold G. apply forallb_forall. intros t T. apply strs_gdoc. intros x X.
  apply (proj1 (forallb_forall _ _) (strs_known k)). apply in_or_app. right. apply in_flat_map. eauto.
Qed.

(** ** There is no [Empty] in what is written. *)
Lemma S_any l : S (fun _ => true) l.
Proof. unfold S. apply forallb_forall. intros s _. unfold okb. now apply forallb_forall. Qed.
Lemma gdoc_solid s : gdoc (fun _ => true) false s = true <-> solid s = true.
Proof.
  induction s as [x| |l HL] using sexp_nest_ind; cbn [gdoc solid].
  - split; [reflexivity|]. intros _. now apply forallb_forall.
  - reflexivity.
  - rewrite !forallb_forall. rewrite Forall_forall in HL. split; intros H x I; apply HL; auto.
Qed.
Lemma solid_module m : solid (ser_module m) = true.
Proof. apply gdoc_solid, g_module; [auto|apply S_any]. Qed.
Lemma solid_table t : solid (ser_fp_lib_table t) = true.
Proof. apply gdoc_solid, g_table; [auto|apply S_any]. Qed.
Lemma solid_layout l : forallb solid (layout_other l) = true -> solid (ser_layout l) = true.
Proof.
  intros H. apply gdoc_solid, g_layout; [auto|apply S_any|]. unfold G. rewrite forallb_forall in *. intros x I. apply gdoc_solid. auto.
Qed.

Lemma own_list c : of_program c <->
  In c (lit "ABCDEFGHIJKLMNOPQRSTUVWXYZabcdefghijklmnopqrstuvwxyz0123456789&*-._ ()" ++ [10; 34]%N).
Proof.
  split.
  - intros H. assert (L : (c < 123)%N).
    { destruct H as [H|H].
      - unfold word_char in H. rewrite !orb_true_iff, !andb_true_iff, !N.leb_le, !N.eqb_eq in H. lia.
      - unfold between in H. lia. }
    assert (A : forallb (fun c => negb (word_char c || existsb (N.eqb c) [10; 32; 40; 41; 34]%N)
        || existsb (N.eqb c) (lit "ABCDEFGHIJKLMNOPQRSTUVWXYZabcdefghijklmnopqrstuvwxyz0123456789&*-._ ()" ++ [10; 34]%N)) (map N.of_nat (seq 0 123)) = true)
      by (vm_compute; reflexivity).
    rewrite forallb_forall in A. specialize (A c).
    assert (I : In c (map N.of_nat (seq 0 123))).
    { apply in_map_iff. exists (N.to_nat c). split; [apply N2Nat.id|]. apply in_seq. lia. }
    specialize (A I). apply orb_true_iff in A as [A|A].
    + exfalso. apply negb_true_iff, orb_false_iff in A as [A1 A2]. destruct H as [H|H]; [congruence|].
      destruct H as [-> |[-> |[-> |[-> | ->]]]]; discriminate A2.
    + apply existsb_exists in A as (d & D & E). apply N.eqb_eq in E. now subst.
  - intros I. assert (A : forallb (fun c => word_char c || existsb (N.eqb c) [10; 32; 40; 41; 34]%N)
        (lit "ABCDEFGHIJKLMNOPQRSTUVWXYZabcdefghijklmnopqrstuvwxyz0123456789&*-._ ()" ++ [10; 34]%N) = true) by (vm_compute; reflexivity).
    rewrite forallb_forall in A. specialize (A c I). apply orb_true_iff in A as [A|A]; [now left|right].
    apply existsb_exists in A as (d & D & E). apply N.eqb_eq in E. subst d. unfold between. cbn [In] in D. intuition.
Qed.
Lemma own_small c : of_program c -> (c < 128)%N.
Proof.
  intros [H|H].
  - unfold word_char in H. rewrite !orb_true_iff, !andb_true_iff, !N.leb_le, !N.eqb_eq in H. lia.
  - unfold between in H. lia.
Qed.
Lemma module_ascii nq m n : (forall c, of_texts (module_strs m) c -> (c < 128)%N) -> Forall (fun c => (c < 128)%N) (module_to_string nq m n).
Proof. intros H. apply Forall_forall. intros c I. apply module_chars in I as [I|I]; [now apply own_small|auto]. Qed.
