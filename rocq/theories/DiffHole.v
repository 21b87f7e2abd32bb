(** Replacing and adding parts of a board (lemmas for C86). *)
From Coq Require Import String Lia.
From Verif Require Import Base Str StrFacts Num F64 F64Text Sexp FpData FpLayer FpSer FpOps LyData LySer LyOps LySpec Formatter FormatterSpec FormatterFacts DocSpec DocText TextSpec TextFacts TextMain TextDocs DiffSpec DiffTree DiffFacts.
Open Scope string_scope. Open Scope list_scope.

Definition befores (before : list str) (l : list sexp) : list str := fold_left next_before l before.
Lemma kids_app nq h anc d before a l : kids nq h anc d before (a ++ l) = kids nq h anc d before a ++ kids nq h anc d (befores before a) l.
Proof. revert before. induction a as [|x a IH]; intros before; [reflexivity|]. cbn [app kids befores fold_left]. rewrite IH, <- app_assoc. reflexivity. Qed.

(** ** A footprint reads the same inside a board *)
Definition board_parents : list string :=
  ["kicad_pcb"; "general"; "layers"; "net_class"; "pcbplotparams"; "setup"; "dimension"; "zone"; "filled_polygon"; "polygon"].
Fixpoint free (s : sexp) : bool :=
  match s with
  | SList (SStr h :: l) => if one_of board_parents h then forallb is_atom l else forallb free l
  | _ => true
  end.
Lemma find_none_forall {A} (p : A -> bool) l : forallb (fun x => negb (p x)) l = true -> find p l = None.
Proof. induction l as [|a l IH]; cbn; [reflexivity|]. destruct (p a); [discriminate|exact IH]. Qed.
Lemma one_of_incl a b s : incl a b -> one_of b s = false -> one_of a s = false.
Proof.
  intros I H. destruct (one_of a s) eqn:E; [|reflexivity]. unfold one_of in *. apply existsb_exists in E as (x & X & Y).
  rewrite <- H. symmetry. apply existsb_exists. exists x. split; [apply I, X|exact Y].
Qed.
Lemma board_free h c : one_of board_parents h = false -> by_rules board_rules h c = None.
Proof.
  intros H. unfold by_rules, board_rules.
  repeat (cbn [find]; unfold applies at 1; rewrite (one_of_incl _ board_parents h); [|now (intros x X; cbn in X |- *; tauto)|exact H]; cbn [andb]).
  reflexivity.
Qed.
Lemma inside_snoc anc k ns : one_of ns k = false -> inside (anc ++ [k]) ns = inside anc ns.
Proof. intros H. unfold inside. rewrite existsb_app. cbn [existsb]. rewrite H. cbn. apply orb_false_r. Qed.
Lemma break_free p anc c k : one_of board_parents p = false ->
  break_of (p :: anc ++ [lit "kicad_pcb"]) c k = break_of (p :: anc) c k.
Proof.
  intros H. unfold break_of, point_breaks. change (p :: anc ++ [lit "kicad_pcb"]) with ((p :: anc) ++ [lit "kicad_pcb"]).
  rewrite (inside_snoc (p :: anc) (lit "kicad_pcb") ["polygon"; "filled_polygon"]) by reflexivity.
  rewrite (inside_snoc (p :: anc) (lit "kicad_pcb") ["fp_poly"]) by reflexivity.
  rewrite (inside_snoc (p :: anc) (lit "kicad_pcb") ["fp_lib_table"]) by reflexivity. cbn [app].
  rewrite (board_free p c H).
  destruct (inside (p :: anc ++ [lit "kicad_pcb"]) ["kicad_pcb"]), (inside (p :: anc) ["kicad_pcb"]); reflexivity.
Qed.
Lemma gaps_free p before c d : one_of board_parents p = false -> gaps p before c d = [].
Proof. intros H. unfold gaps. now rewrite (one_of_incl ["kicad_pcb"] board_parents p) by (assumption || (intros x X; cbn in X |- *; tauto)). Qed.

Lemma sexp_ind' (P : sexp -> Prop) : (forall x, P (SStr x)) -> P SEmpty -> (forall l, Forall P l -> P (SList l)) -> forall s, P s.
Proof. intros A B C. fix IH 1. intros [x|l|]; [apply A| |apply B]. apply C. induction l; constructor; auto. Qed.
Lemma kids_atoms nq h anc anc' d before l : forallb is_atom l = true -> kids nq h anc d before l = kids nq h anc' d before l.
Proof.
  revert before. induction l as [|x l IH]; intros before H; [reflexivity|]. cbn [forallb] in H. apply andb_prop in H as [A H].
  cbn [kids]. rewrite (IH _ H). destruct x; try discriminate. reflexivity.
Qed.
Lemma lay_free nq s : free s = true -> forall anc d close, lay nq (anc ++ [lit "kicad_pcb"]) d close s = lay nq anc d close s.
Proof.
  induction s as [x| |l IH] using sexp_ind'; intros F anc d close; [reflexivity|reflexivity|].
  destruct l as [|[h| |] l]; try reflexivity. rewrite !lay_list. do 3 f_equal. cbn [free] in F.
  destruct (one_of board_parents h) eqn:E; [now apply kids_atoms|]. inversion IH as [|? ? _ K]; subst. clear IH.
  enough (G : forall before, kids nq h (anc ++ [lit "kicad_pcb"]) d before l = kids nq h anc d before l) by apply G.
  induction K as [|x l X _ IHl]; intros before; [reflexivity|].
  cbn [forallb] in F. apply andb_prop in F as [F1 F2]. cbn [kids]. rewrite (IHl F2). f_equal. unfold one_kid.
  change (h :: anc ++ [lit "kicad_pcb"]) with ((h :: anc) ++ [lit "kicad_pcb"]).
  destruct (name_of x) as [c|]; [|now rewrite (X F1)].
  change ((h :: anc) ++ [lit "kicad_pcb"]) with (h :: anc ++ [lit "kicad_pcb"]). rewrite (break_free h anc c _ E).
  change (h :: anc ++ [lit "kicad_pcb"]) with ((h :: anc) ++ [lit "kicad_pcb"]).
  destruct (break_of (h :: anc) c (points before)); now rewrite (X F1).
Qed.

Notation Fr l := (forallb free l = true).
Lemma f_cons x l : free x = true -> Fr l -> Fr (x :: l). Proof. intros A B. cbn [forallb]. now rewrite A, B. Qed.
Lemma f_app a b : Fr a -> Fr b -> Fr (a ++ b). Proof. intros A B. now rewrite forallb_app, A, B. Qed.
Lemma f_when b x : Fr x -> Fr (when b x). Proof. intros A. destruct b; [exact A|reflexivity]. Qed.
Lemma f_opt {A} (f : A -> sexp) o : (forall x, free (f x) = true) -> Fr (opt_list f o). Proof. intros H. destruct o; cbn; now rewrite ?H. Qed.
Lemma f_map {A} (f : A -> sexp) l : (forall x, free (f x) = true) -> Fr (map f l).
Proof. intros H. induction l; cbn [map forallb]; [reflexivity|]. now rewrite H, IHl. Qed.
Lemma f_node h l : one_of board_parents (lit h) = false -> Fr l -> free (node h l) = true.
Proof. intros A B. unfold node, a_lit. cbn [free]. now rewrite A. Qed.
Lemma f_kv h x : one_of board_parents (lit h) = false -> free x = true -> free (kv h x) = true.
Proof. intros A B. apply f_node; [exact A|]. now apply f_cons. Qed.
Ltac fr := repeat (match goal with
  | |- free (SStr _) = true => reflexivity
  | |- free (a_f _) = true => reflexivity
  | |- free (a_i _) = true => reflexivity
  | |- free (a_lit _) = true => reflexivity
  | |- free (ser_layer _) = true => reflexivity
  | |- free (ser_xy ?p) = true => unfold ser_xy, node, a_lit; destruct (xy_t p); reflexivity
  | |- free (node _ _) = true => apply f_node; [reflexivity|]
  | |- free (kv _ _) = true => apply f_kv; [reflexivity|]
  | |- Fr (_ ++ _) => apply f_app
  | |- Fr (_ :: _) => apply f_cons
  | |- Fr [] => reflexivity
  | |- Fr (when _ _) => apply f_when
  | |- Fr (opt_list _ _) => apply f_opt; intros ?
  | |- Fr (map _ _) => apply f_map; intros ?
  end; cbv beta).
Lemma f_at a : free (ser_at a) = true. Proof. unfold ser_at. fr. Qed.
Lemma f_layers a : free (ser_layers a) = true.
Proof. unfold ser_layers, node, a_lit. cbn [free]. change (one_of board_parents (lit "layers")) with true. cbv iota. rewrite forallb_forall. intros x X. apply in_map_iff in X as (y & <- & _). reflexivity. Qed.
Lemma f_pts l : free (ser_pts l) = true. Proof. unfold ser_pts. fr. Qed.
Lemma f_effects a : free (ser_effects a) = true. Proof. unfold ser_effects, ser_font, ser_justify. fr. Qed.
Lemma f_element e : free (ser_element e) = true.
Proof.
  destruct e; cbn [ser_element]; try (fr; fail).
  - unfold ser_text. fr; [apply f_at|apply f_effects].
  - unfold ser_pad, ser_drill, ser_fnet. fr; [apply f_at|apply f_layers].
  - unfold ser_poly. fr. apply f_pts.
  - unfold ser_line. fr.
  - unfold ser_circle. fr.
  - unfold ser_arc. fr.
  - apply f_at.
  - unfold ser_model, ser_xyz. fr.
Qed.
Lemma f_module m : free (ser_module m) = true.
Proof. unfold ser_module. fr. apply f_element. Qed.
Lemma module_in_board nq m d close : lay nq [lit "kicad_pcb"] d close (ser_module m) = lay nq [] d close (ser_module m).
Proof. exact (lay_free nq _ (f_module m) [] d close). Qed.

(** The text of a footprint without its end. *)
Lemma module_body nq m d : exists X, forall close, lay nq [] d close (ser_module m) = X ++ close ++ [41%N].
Proof.
  unfold ser_module, node, a_lit. eexists. intros close. rewrite lay_list. rewrite app_comm_cons, app_assoc. reflexivity.
Qed.
Lemma module_alone nq m d : module_to_string nq m d = lay nq [] d [10%N] (ser_module m).
Proof. rewrite module_written. unfold written. reflexivity. Qed.

(** ** The children of a board *)
Definition front (l : layout) : list sexp :=
  [kv "version" (a_i (ly_version l)); node "host" [SStr (ho_tool (ly_host l)); SStr (ho_build (ly_host l))];
   ser_general (ly_general l); kv "page" (SStr (ly_page l)); node "layers" (map ser_ly_layer (ly_layers l)); ser_setup (ly_setup l)].
Lemma board_text nq l n : usual_layout l = true -> layout_to_string nq l n =
  (40%N :: atom nq (lit "kicad_pcb") ++ kids nq (lit "kicad_pcb") [] n [] (front l ++ map ser_ly_element (ly_elements l))) ++ [10%N; 41%N; 10%N].
Proof.
  intros H. rewrite (layout_written nq l n H). unfold ser_layout, node, a_lit. rewrite written_list. fold (front l).
  change (one_of ["module"; "kicad_pcb"; "fp_lib_table"] (lit "kicad_pcb")) with true. cbv iota.
  rewrite <- !app_comm_cons, <- !app_assoc. reflexivity.
Qed.
Lemma usual_swap l a b m m' : usual_layout (with_elements l (a ++ YModule m :: b)) = usual_layout (with_elements l (a ++ YModule m' :: b)).
Proof. unfold usual_layout, setup_names, with_elements. cbn [ly_elements ly_setup]. rewrite !forallb_app. reflexivity. Qed.
Lemma module_hole nq n l a b m : usual_layout (with_elements l (a ++ YModule m :: b)) = true ->
  exists A B, forall m' X, module_to_string nq m' (n + 1) = X ++ [10%N; 41%N] ->
    layout_to_string nq (with_elements l (a ++ YModule m' :: b)) n = A ++ X ++ new_lines 1 (n + 1) ++ [41%N] ++ B.
Proof.
  intros U.
  set (ch a := front l ++ map ser_ly_element a).
  set (bf := befores [] (ch a)).
  exists ((40%N :: atom nq (lit "kicad_pcb") ++ kids nq (lit "kicad_pcb") [] n [] (ch a)) ++ gaps (lit "kicad_pcb") bf (lit "module") n ++ new_lines 2 (n + 1)),
    (kids nq (lit "kicad_pcb") [] n (lit "module" :: bf) (map ser_ly_element b) ++ [10%N; 41%N; 10%N]).
  intros m' X E. rewrite (usual_swap l a b m m') in U. rewrite (board_text nq _ n U). unfold with_elements at 1. unfold front.
  cbn [ly_elements ly_version ly_host ly_general ly_page ly_layers ly_setup with_elements].
  fold (front l). rewrite map_app. cbn [map]. rewrite app_assoc. fold (ch a). rewrite kids_app. fold bf. cbn [kids].
  change (next_before bf (ser_ly_element (YModule m'))) with (lit "module" :: bf).
  assert (K : one_kid nq (lit "kicad_pcb") [] n bf (ser_ly_element (YModule m')) =
    gaps (lit "kicad_pcb") bf (lit "module") n ++ new_lines 2 (n + 1) ++ X ++ new_lines 1 (n + 1) ++ [41%N]).
  { destruct (module_body nq m' (n + 1)) as (X' & HX). rewrite module_alone, HX in E. apply app_inv_tail in E. subst X'.
    rewrite <- HX, <- module_in_board. unfold one_kid. cbn [ser_ly_element].
    change (name_of (ser_module m')) with (Some (lit "module")). cbv iota beta.
    change (break_of [lit "kicad_pcb"] (lit "module") (points bf)) with (Some para_block).
    cbv iota beta. cbn [b_lines b_close b_after para_block]. now rewrite app_nil_r. }
  rewrite K. repeat (cbn [app]; rewrite <- ?app_assoc). reflexivity.
Qed.

(** ** One more element at the end *)
Definition ended_by_module (l : layout) : bool :=
  match befores [] (front l ++ map ser_ly_element (ly_elements l)) with b :: _ => one_of ["module"] b | [] => false end.
Lemma usual_more l e : usual_layout l = true -> usual_element e = true -> usual_layout (with_elements l (ly_elements l ++ [e])) = true.
Proof.
  unfold usual_layout, setup_names, with_elements. cbn [ly_elements ly_setup]. intros A B. rewrite forallb_app. cbn [forallb]. rewrite B.
  apply andb_prop in A as [A ->]. now rewrite A.
Qed.
Lemma board_more nq n l e c b : usual_layout l = true -> usual_element e = true -> name_of (ser_ly_element e) = Some c ->
  one_of ["module"] c = false -> one_of ["segment"] c = false ->
  (forall k, break_of [lit "kicad_pcb"] c k = Some b) ->
  exists A, layout_to_string nq l n = A ++ [10%N; 41%N; 10%N]
    /\ layout_to_string nq (with_elements l (ly_elements l ++ [e])) n =
       A ++ (if ended_by_module l then new_lines 1 n else [])
         ++ new_lines (b_lines b) (n + 1) ++ lay nq [lit "kicad_pcb"] (n + 1) (if b_close b then new_lines 1 (n + 1) else []) (ser_ly_element e)
         ++ (if b_after b then [10%N] else []) ++ [10%N; 41%N; 10%N].
Proof.
  intros U Ue Hc Hm Hs Hb. eexists. split; [apply (board_text nq l n U)|]. rewrite (board_text nq _ n (usual_more l e U Ue)).
  change (front (with_elements l (ly_elements l ++ [e]))) with (front l). change (ly_elements (with_elements l (ly_elements l ++ [e]))) with (ly_elements l ++ [e]).
  rewrite map_app, app_assoc, kids_app. cbn [map kids]. rewrite app_nil_r. unfold one_kid, ended_by_module. rewrite Hc, Hb.
  unfold gaps. change (one_of ["kicad_pcb"] (lit "kicad_pcb")) with true. cbv iota. rewrite Hm, Hs. cbn [negb andb]. rewrite app_nil_r.
  repeat (cbn [app]; rewrite <- ?app_assoc). do 4 f_equal.
  destruct (befores [] (front l ++ map ser_ly_element (ly_elements l))) as [|x r]; [reflexivity|]. now rewrite andb_true_r.
Qed.
Lemma net_more nq n l num name : usual_layout l = true ->
  exists A, layout_to_string nq l n = A ++ [10%N; 41%N; 10%N]
    /\ layout_to_string nq (add_net num name l) n =
       A ++ (if ended_by_module l then new_lines 1 n else []) ++ new_lines 1 (n + 1)
         ++ [40%N] ++ atom nq (lit "net") ++ [32%N] ++ atom nq (show_Z num) ++ [32%N] ++ atom nq name ++ [41%N] ++ [10%N; 41%N; 10%N].
Proof.
  intros U. destruct (board_more nq n l (YNet (mk_net num name)) (lit "net") line U eq_refl eq_refl eq_refl eq_refl (fun k => eq_refl)) as (A & E1 & E2).
  exists A. split; [exact E1|]. unfold add_net. rewrite E2. do 3 f_equal. cbn [b_close line b_after ser_ly_element app]. unfold ser_net, node, a_lit. rewrite lay_list.
  cbn [kids]. unfold one_kid. cbn [name_of lay next_before app]. repeat (cbn [app]; rewrite <- ?app_assoc). reflexivity.
Qed.
Lemma class_more nq n l c : usual_layout l = true ->
  exists A, layout_to_string nq l n = A ++ [10%N; 41%N; 10%N]
    /\ layout_to_string nq (add_netclass c l) n =
       A ++ (if ended_by_module l then new_lines 1 n else []) ++ new_lines 2 (n + 1)
         ++ lay nq [lit "kicad_pcb"] (n + 1) (new_lines 1 (n + 1)) (ser_net_class c) ++ [10%N; 41%N; 10%N].
Proof.
  intros U. destruct (board_more nq n l (YNetClass c) (lit "net_class") para_block U eq_refl eq_refl eq_refl eq_refl (fun k => eq_refl)) as (A & E1 & E2).
  exists A. split; [exact E1|]. unfold add_netclass. exact E2.
Qed.

Lemma befores_app b a l : befores b (a ++ l) = befores (befores b a) l. Proof. apply fold_left_app. Qed.
Definition module_first (bf : list str) : bool := match bf with b :: _ => one_of ["module"] b | [] => false end.
Definition ends_step (b : bool) (e : ly_element) : bool :=
  match e with YModule _ => true | YOther s => match name_of s with Some c => str_eqb c (lit "module") | None => b end | _ => false end.
Lemma ended_step es : forall bf b, module_first bf = b -> module_first (befores bf (map ser_ly_element es)) = fold_left ends_step es b.
Proof.
  induction es as [|e es IH]; intros bf b E; [exact E|]. cbn [map befores fold_left]. apply IH.
  destruct e; try reflexivity. cbn [ser_ly_element]. unfold next_before, ends_step. destruct (name_of s) as [c|]; [|exact E].
  unfold module_first, one_of. cbn [existsb]. apply orb_false_r.
Qed.
Lemma ended_iff l : ended_by_module l = ends_in_module (ly_elements l).
Proof. unfold ended_by_module. rewrite befores_app. apply (ended_step (ly_elements l) (befores [] (front l)) false). reflexivity. Qed.

(** ** The setup section *)
Definition s_element (e : setup_element) : tmpl := TNode (se_name e) (TMark (se_value1 e) :: trees (opt_list SStr (se_value2 e))).
Definition s_layout (l : layout) : tmpl :=
  tnode "kicad_pcb"
    (trees [kv "version" (a_i (ly_version l)); node "host" [SStr (ho_tool (ly_host l)); SStr (ho_build (ly_host l))];
            ser_general (ly_general l); kv "page" (SStr (ly_page l)); node "layers" (map ser_ly_layer (ly_layers l))]
     ++ tnode "setup" (map s_element (su_elements (ly_setup l)) ++ trees [node "pcbplotparams" (map ser_setup_element (su_plot (ly_setup l)))])
     :: trees (map ser_ly_element (ly_elements l))).
Lemma s_element_plain e : plain (s_element e) = ser_setup_element e.
Proof. unfold s_element, ser_setup_element. tm. destruct (se_value2 e); reflexivity. Qed.
Lemma s_layout_plain l : plain (s_layout l) = ser_layout l.
Proof. unfold s_layout, ser_layout, ser_setup. tm. unfold node, a_lit. rewrite map_map. rewrite (map_same (fun x => plain (s_element x)) ser_setup_element _ s_element_plain). reflexivity. Qed.
Lemma s_layout_marks l : marks (s_layout l) = map se_value1 (su_elements (ly_setup l)).
Proof.
  unfold s_layout. tm. rewrite flat_map_map. induction (su_elements (ly_setup l)) as [|e r IH]; [reflexivity|].
  cbn [flat_map map]. rewrite IH. unfold s_element. tm. reflexivity.
Qed.
Definition bare (e : setup_element) : str * option str := (se_name e, se_value2 e).
Lemma setup_pieces nq n l : exists ps, length ps = S (length (su_elements (ly_setup l))) /\
  forall es, map bare es = map bare (su_elements (ly_setup l)) ->
    layout_to_string nq (with_setup l (mk_setup es (su_plot (ly_setup l)))) n = weave ps (map (fun e => atom nq (se_value1 e)) es) ++ [10%N].
Proof.
  destruct (tmpl_pretty nq (s_layout l) n) as (ps & L & K). rewrite s_layout_marks, map_length in L. exists ps. split; [exact L|].
  intros es E. unfold layout_to_string. f_equal. rewrite <- s_layout_plain, K.
  - unfold words. rewrite s_layout_marks. cbn [with_setup ly_setup su_elements]. now rewrite map_map.
  - unfold s_layout, with_setup. cbn [ly_version ly_host ly_general ly_page ly_layers ly_setup ly_elements su_elements su_plot]. tm.
    assert (X : map blank (map s_element es) = map blank (map s_element (su_elements (ly_setup l)))).
    { revert E. generalize (su_elements (ly_setup l)) as fs. clear. induction es as [|e es IH]; intros [|f fs] E; try discriminate; [reflexivity|].
      cbn [map] in *. injection E as E1 E2 E3. rewrite (IH fs E3). f_equal. unfold s_element. tm. now rewrite E1, E2. }
    rewrite X. reflexivity.
Qed.

Lemma setup_break c k : break_of [lit "setup"; lit "kicad_pcb"] c k = Some line.
Proof. reflexivity. Qed.
Lemma setup_kid nq d bf bf' h r : one_kid nq (lit "setup") [lit "kicad_pcb"] d bf (SList (SStr h :: r)) = one_kid nq (lit "setup") [lit "kicad_pcb"] d bf' (SList (SStr h :: r)).
Proof. unfold one_kid. cbn [name_of]. rewrite !setup_break. reflexivity. Qed.
Lemma usual_setup l n v : usual_layout l = true -> plain_name n = true ->
  usual_layout (with_setup l (mk_setup (su_elements (ly_setup l) ++ [mk_se n v None]) (su_plot (ly_setup l)))) = true.
Proof.
  unfold usual_layout, setup_names, with_setup. cbn [ly_elements ly_setup su_elements su_plot]. intros H P. apply andb_prop in H as [-> H].
  rewrite forallb_app in H. apply andb_prop in H as [A B]. rewrite map_app, !forallb_app. cbn [map se_name forallb]. now rewrite A, B, P.
Qed.
Lemma board_split nq l n : usual_layout l = true -> exists pre post, forall u, usual_layout (with_setup l u) = true ->
  layout_to_string nq (with_setup l u) n =
  pre ++ kids nq (lit "setup") [lit "kicad_pcb"] (n + 1) [] (map ser_setup_element (su_elements u) ++ [node "pcbplotparams" (map ser_setup_element (su_plot u))]) ++ post.
Proof.
  intros U. 
  set (fr := [kv "version" (a_i (ly_version l)); node "host" [SStr (ho_tool (ly_host l)); SStr (ho_build (ly_host l))];
   ser_general (ly_general l); kv "page" (SStr (ly_page l)); node "layers" (map ser_ly_layer (ly_layers l))]).
  set (bf := befores [] fr).
  exists ((40%N :: atom nq (lit "kicad_pcb") ++ kids nq (lit "kicad_pcb") [] n [] fr) ++ gaps (lit "kicad_pcb") bf (lit "setup") n ++ new_lines 2 (n + 1)
     ++ 40%N :: atom nq (lit "setup")),
    ((new_lines 1 (n + 1) ++ [41%N]) ++ [10%N] ++ kids nq (lit "kicad_pcb") [] n (lit "setup" :: bf) (map ser_ly_element (ly_elements l)) ++ [10%N; 41%N; 10%N]).
  intros u V. rewrite (board_text nq _ n V). change (front (with_setup l u)) with (fr ++ [ser_setup u]). change (ly_elements (with_setup l u)) with (ly_elements l).
  rewrite !(kids_app nq (lit "kicad_pcb")). fold bf. cbn [kids]. rewrite app_nil_r, befores_app. fold bf. change (befores bf [ser_setup u]) with (lit "setup" :: bf).
  assert (K : one_kid nq (lit "kicad_pcb") [] n bf (ser_setup u) = gaps (lit "kicad_pcb") bf (lit "setup") n ++ new_lines 2 (n + 1) ++
    (40%N :: atom nq (lit "setup") ++ kids nq (lit "setup") [lit "kicad_pcb"] (n + 1) [] (map ser_setup_element (su_elements u) ++ [node "pcbplotparams" (map ser_setup_element (su_plot u))])
     ++ new_lines 1 (n + 1) ++ [41%N]) ++ [10%N]).
  { unfold one_kid. change (name_of (ser_setup u)) with (Some (lit "setup")). cbv iota beta.
    change (break_of [lit "kicad_pcb"] (lit "setup") (points bf)) with (Some para_block_gap). cbv iota beta. cbn [b_lines b_close b_after para_block_gap].
    unfold ser_setup at 1. unfold node at 1, a_lit at 1. rewrite lay_list. reflexivity. }
  rewrite K. repeat (cbn [app]; rewrite <- ?app_assoc). reflexivity.
Qed.
Lemma setup_more nq n l name v : usual_layout l = true -> plain_name name = true ->
  exists A B, layout_to_string nq l n = A ++ B
    /\ layout_to_string nq (with_setup l (mk_setup (su_elements (ly_setup l) ++ [mk_se name v None]) (su_plot (ly_setup l)))) n =
       A ++ new_lines 1 (n + 2) ++ [40%N] ++ atom nq name ++ [32%N] ++ atom nq v ++ [41%N] ++ B.
Proof.
  intros U P. destruct (board_split nq l n U) as (pre & post & H).
  assert (E : with_setup l (ly_setup l) = l) by now destruct l.
  pose proof (H (ly_setup l)) as H1. rewrite E in H1. specialize (H1 U). specialize (H _ (usual_setup l name v U P)). cbn [su_elements su_plot] in H.
  rewrite kids_app in H1. rewrite map_app, !kids_app in H. cbn [kids map] in H, H1. rewrite app_nil_r in H, H1. rewrite app_nil_r in H.
  unfold node, a_lit in H, H1. rewrite (setup_kid nq (n + 1) (befores [] (map ser_setup_element (su_elements (ly_setup l)))) []) in H1.
  match type of H with context [one_kid nq _ _ _ ?b (SList (SStr (lit "pcbplotparams") :: _))] => rewrite (setup_kid nq (n + 1) b []) in H end.
  match type of H1 with _ = pre ++ (?x ++ ?y) ++ post => exists (pre ++ x), (y ++ post) end. split.
  - rewrite H1. now rewrite <- !app_assoc.
  - rewrite H. rewrite <- !app_assoc. do 2 f_equal. unfold one_kid at 1. unfold ser_setup_element at 1. cbn [se_name se_value1 se_value2 opt_list app name_of].
    rewrite setup_break. unfold gaps. change (one_of ["kicad_pcb"] (lit "setup")) with false. cbv iota. cbn [app b_lines b_close b_after line].
    change (ser_setup_element (mk_se name v None)) with (SList [SStr name; SStr v]).
    rewrite lay_list. replace (n + 1 + 1)%Z with (n + 2)%Z by lia.
    cbn [kids]. unfold one_kid at 1 2. cbn [name_of lay]. repeat (cbn [app]; rewrite <- ?app_assoc). reflexivity.
Qed.
