(** What an edit changes in the text of a schematic or symbol library (lemmas for C88). *)
From Coq Require Import String Lia.
From Verif Require Import Base Str StrFacts Num F64 F64Text SexpFacts SchData SchPrint SchParse SchOps SchSpec SchOpsFacts SchEnds SymData SymPrint SymOps SavedSpec SavedFacts SavedDocs DiffSpec DiffTree LineSpec.
Open Scope string_scope. Open Scope list_scope.

(** ** Texts with marked parts *)
Inductive span := Fix (s : str) | Var (s : str).
Definition render (t : list span) : str := flat_map (fun x => match x with Fix s => s | Var s => s end) t.
Definition vars (t : list span) : list str := flat_map (fun x => match x with Fix _ => [] | Var s => [s] end) t.
Definition hidden (x : span) : span := match x with Fix s => Fix s | Var _ => Var [] end.
Lemma render_app a b : render (a ++ b) = render a ++ render b. Proof. apply flat_map_app. Qed.
Lemma vars_app a b : vars (a ++ b) = vars a ++ vars b. Proof. apply flat_map_app. Qed.
Lemma spans_pieces t : exists ps, length ps = S (length (vars t)) /\
  forall u, map hidden u = map hidden t -> render u = weave ps (vars u).
Proof.
  induction t as [|x t (ps & L & H)].
  - exists [[]]. split; [reflexivity|]. intros [|u us]; [reflexivity|discriminate].
  - destruct ps as [|p ps]; [discriminate|]. destruct x as [s|s].
    + exists ((s ++ p) :: ps). split; [exact L|]. intros [|[a|a] us] E; try discriminate. injection E as -> E. cbn [render vars flat_map app].
      fold (render us) (vars us). rewrite (H us E). destruct (vars us); cbn [weave]; rewrite <- ?app_assoc; reflexivity.
    + exists ([] :: p :: ps). split; [cbn [vars flat_map app length]; fold (vars t); cbn [length] in L; congruence|]. intros [|[a|a] us] E; try discriminate. injection E as E.
      cbn [render vars flat_map app]. fold (render us) (vars us). rewrite (H us E). reflexivity.
Qed.

(** ** Components *)
Lemma comp_text_iff c t : comp_text c t <-> t = unlines (print_component c).
Proof. apply in_lines_iff, fix_comp. Qed.
Lemma unlines_cons x l : unlines (x :: l) = x ++ [10%N] ++ unlines l.
Proof. unfold unlines. cbn [flat_map]. unfold ln. now rewrite <- app_assoc. Qed.
Lemma unlines_app a b : unlines (a ++ b) = unlines a ++ unlines b. Proof. apply flat_map_app. Qed.
Definition field_rest (f : cfield) : str :=
  bl ++ show_orientation (cf_orient f) ++ bl
  ++ pad_right 3 (f64_to_str (cf_x f)) ++ bl ++ pad_right 3 (f64_to_str (cf_y f)) ++ bl ++ pad_right 3 (show_Z (cf_size f)) ++ bl.
Definition field_end (f : cfield) : str :=
  bl ++ show_sjustify (cf_hjust f) ++ bl ++ show_sjustify (cf_vjust f)
  ++ lit (if cf_italic f then "I" else "N") ++ lit (if cf_bold f then "B" else "N")
  ++ (if (3 <? cf_i f)%Z then bl ++ quoted (cf_name f) else []) ++ [10%N].
Definition field_start (f : cfield) : str := lit "F " ++ show_Z (cf_i f) ++ bl ++ [34%N].
Lemma field_text f : print_field f ++ [10%N] = field_start f ++ cf_value f ++ [34%N] ++ field_rest f ++ shown_as (cf_visible f) ++ field_end f.
Proof. unfold print_field, field_start, field_rest, field_end, shown_as, quoted. repeat (cbn [app]; rewrite <- ?app_assoc). reflexivity. Qed.
Definition comp_tail (c : component) : list str :=
  [tab ++ pad_right 4 (lit "1") ++ bl ++ pad_right 4 (show_Z (co_x c)) ++ bl ++ pad_right 4 (show_Z (co_y c));
      tab ++ pad_right 4 (show_Z (ro_a (co_rotation c))) ++ bl ++ pad_right 4 (show_Z (ro_b (co_rotation c))) ++ bl
        ++ pad_right 4 (show_Z (ro_c (co_rotation c))) ++ bl ++ pad_right 4 (show_Z (ro_d (co_rotation c)));
      lit "$EndComp"].
Definition comp_mid (c : component) : list str := [co_u c; lit "P " ++ show_Z (co_x c) ++ bl ++ show_Z (co_y c)] ++ co_ar c.
Lemma comp_split c : unlines (print_component c) =
  (lit "$Comp" ++ [10%N] ++ lit "L ") ++ co_name c ++ bl ++ co_reference c ++ [10%N] ++ unlines (comp_mid c) ++ unlines (map print_field (co_fields c)) ++ unlines (comp_tail c).
Proof.
  unfold print_component. fold (comp_tail c). rewrite !unlines_app, !unlines_cons. unfold comp_mid. rewrite unlines_app, !unlines_cons. cbn [unlines flat_map].
  repeat (cbn [app]; rewrite <- ?app_assoc). reflexivity.
Qed.
Lemma fields_unlines l : unlines (map print_field l) = flat_map (fun f => print_field f ++ [10%N]) l.
Proof. induction l as [|f l IH]; [reflexivity|]. cbn [map flat_map]. rewrite unlines_cons, IH, <- app_assoc. reflexivity. Qed.

(** Marking the values of some fields *)
Definition v_field (p : cfield -> bool) (f : cfield) : list span :=
  if p f then [Fix (field_start f); Var (cf_value f); Fix ([34%N] ++ field_rest f ++ shown_as (cf_visible f) ++ field_end f)] else [Fix (print_field f ++ [10%N])].
Lemma v_field_render p f : render (v_field p f) = print_field f ++ [10%N].
Proof. unfold v_field. destruct (p f); [|apply app_nil_r]. rewrite field_text. unfold render. cbn [flat_map]. now rewrite app_nil_r. Qed.
Lemma v_fields_render p l : render (flat_map (v_field p) l) = unlines (map print_field l).
Proof. rewrite fields_unlines. induction l as [|f l IH]; [reflexivity|]. cbn [flat_map]. now rewrite render_app, IH, v_field_render. Qed.
Lemma v_fields_vars p l : vars (flat_map (v_field p) l) = map cf_value (filter p l).
Proof. induction l as [|f l IH]; [reflexivity|]. cbn [flat_map filter]. rewrite vars_app, IH. unfold v_field. destruct (p f); reflexivity. Qed.
Lemma v_fields_hidden p v l : (forall f, p (with_value f v) = p f) ->
  map hidden (flat_map (v_field p) (map (fun f => if p f then with_value f v else f) l)) = map hidden (flat_map (v_field p) l).
Proof.
  intros P. induction l as [|f l IH]; [reflexivity|]. cbn [map flat_map]. rewrite !map_app, IH. f_equal.
  destruct (p f) eqn:E; [|reflexivity]. unfold v_field. now rewrite P, E.
Qed.
Definition num_is (i : Z) (f : cfield) : bool := Z.eqb (cf_i f) i.
Lemma places_of_eq i h c : places_of i h c = h :: map cf_value (filter (num_is i) (co_fields c)). Proof. reflexivity. Qed.
Lemma filter_kept (p : cfield -> bool) v l : (forall f, p (with_value f v) = p f) ->
  map cf_value (filter p (map (fun f => if p f then with_value f v else f) l)) = map (fun _ => v) (map cf_value (filter p l)).
Proof.
  intros P. induction l as [|f l IH]; [reflexivity|]. cbn [map filter]. destruct (p f) eqn:E; [rewrite P, E|rewrite E]; cbn [map]; now rewrite IH.
Qed.

Lemma reference_text c r t : comp_text c t -> exists ps, length ps = S (length (places_of 0 (co_reference c) c)) /\
  t = weave ps (places_of 0 (co_reference c) c) /\
  comp_text (update_reference c r) (weave ps (map (fun _ => r) (places_of 0 (co_reference c) c))).
Proof.
  intros T. apply comp_text_iff in T. subst t.
  set (sp := fun h fs => [Fix (lit "$Comp" ++ [10%N] ++ lit "L " ++ co_name c ++ bl); Var h; Fix ([10%N] ++ unlines (comp_mid c))] ++ flat_map (v_field (num_is 0)) fs ++ [Fix (unlines (comp_tail c))]).
  assert (R : forall h fs, render (sp h fs) = unlines (print_component (mk_comp (co_name c) h (co_u c) (co_x c) (co_y c) (co_ar c) fs (co_rotation c)))).
  { intros h fs. unfold sp. rewrite comp_split, !render_app, v_fields_render. unfold render. cbn [flat_map co_name co_reference co_fields].
    repeat (cbn [app]; rewrite <- ?app_assoc). now rewrite app_nil_r. }
  assert (V : forall h fs, vars (sp h fs) = h :: map cf_value (filter (num_is 0) fs)).
  { intros h fs. unfold sp. rewrite !vars_app, v_fields_vars. unfold vars. cbn [flat_map app]. now rewrite app_nil_r. }
  destruct (spans_pieces (sp (co_reference c) (co_fields c))) as (ps & L & H). rewrite V in L. exists ps. rewrite places_of_eq. split; [exact L|]. split.
  - rewrite <- V, <- H by reflexivity. rewrite R. now destruct c.
  - apply comp_text_iff. unfold update_reference. rewrite <- R.
    change (fun f => if Z.eqb (cf_i f) 0 then with_value f r else f) with (fun f => if num_is 0 f then with_value f r else f).
    rewrite H; [rewrite V; cbn [map]; now rewrite filter_kept|].
    unfold sp. cbn [map app hidden]. do 3 f_equal. rewrite !map_app. f_equal. now apply v_fields_hidden.
Qed.
Lemma name_text c n t : comp_text c t -> exists ps, length ps = S (length (places_of 1 (co_name c) c)) /\
  t = weave ps (places_of 1 (co_name c) c) /\
  comp_text (update_name c n) (weave ps (map (fun _ => n) (places_of 1 (co_name c) c))).
Proof.
  intros T. apply comp_text_iff in T. subst t.
  set (sp := fun h fs => [Fix (lit "$Comp" ++ [10%N] ++ lit "L "); Var h; Fix (bl ++ co_reference c ++ [10%N] ++ unlines (comp_mid c))] ++ flat_map (v_field (num_is 1)) fs ++ [Fix (unlines (comp_tail c))]).
  assert (R : forall h fs, render (sp h fs) = unlines (print_component (mk_comp h (co_reference c) (co_u c) (co_x c) (co_y c) (co_ar c) fs (co_rotation c)))).
  { intros h fs. unfold sp. rewrite comp_split, !render_app, v_fields_render. unfold render. cbn [flat_map co_name co_reference co_fields].
    repeat (cbn [app]; rewrite <- ?app_assoc). now rewrite app_nil_r. }
  assert (V : forall h fs, vars (sp h fs) = h :: map cf_value (filter (num_is 1) fs)).
  { intros h fs. unfold sp. rewrite !vars_app, v_fields_vars. unfold vars. cbn [flat_map app]. now rewrite app_nil_r. }
  destruct (spans_pieces (sp (co_name c) (co_fields c))) as (ps & L & H). rewrite V in L. exists ps. rewrite places_of_eq. split; [exact L|]. split.
  - rewrite <- V, <- H by reflexivity. rewrite R. now destruct c.
  - apply comp_text_iff. unfold update_name. rewrite <- R.
    change (fun f => if Z.eqb (cf_i f) 1 then with_value f n else f) with (fun f => if num_is 1 f then with_value f n else f).
    rewrite H; [rewrite V; cbn [map]; now rewrite filter_kept|].
    unfold sp. cbn [map app hidden]. do 3 f_equal. rewrite !map_app. f_equal. now apply v_fields_hidden.
Qed.

(** Values and visibilities of all fields *)
Definition w_field (f : cfield) : list span :=
  [Fix (field_start f); Var (cf_value f); Fix ([34%N] ++ field_rest f); Var (shown_as (cf_visible f)); Fix (field_end f)].
Lemma w_fields_render l : render (flat_map w_field l) = unlines (map print_field l).
Proof.
  rewrite fields_unlines. induction l as [|f l IH]; [reflexivity|]. cbn [flat_map]. rewrite render_app, IH, field_text. f_equal.
  unfold render. cbn [flat_map w_field]. repeat (cbn [app]; rewrite <- ?app_assoc). now rewrite app_nil_r.
Qed.
Lemma w_fields_vars l : vars (flat_map w_field l) = flat_map value_words l.
Proof. induction l as [|f l IH]; [reflexivity|]. cbn [flat_map]. rewrite vars_app, IH. reflexivity. Qed.
Lemma field_words_text c n v t : comp_text c t -> exists ps, length ps = S (2 * length (co_fields c)) /\
  t = weave ps (flat_map value_words (co_fields c)) /\
  comp_text (update_field c n v) (weave ps (flat_map (fun f =>
    [if str_eqb (cf_name f) n then v else cf_value f; if (1 <? cf_i f)%Z then lit "0001" else shown_as (cf_visible f)]) (co_fields c))).
Proof.
  intros T. apply comp_text_iff in T. subst t.
  set (sp := fun fs => [Fix (lit "$Comp" ++ [10%N] ++ lit "L " ++ co_name c ++ bl ++ co_reference c ++ [10%N] ++ unlines (comp_mid c))] ++ flat_map w_field fs ++ [Fix (unlines (comp_tail c))]).
  assert (R : forall fs, render (sp fs) = unlines (print_component (set_fields c fs))).
  { intros fs. unfold sp, set_fields. rewrite comp_split, !render_app, w_fields_render. unfold render. cbn [flat_map co_name co_reference co_fields].
    repeat (cbn [app]; rewrite <- ?app_assoc). now rewrite app_nil_r. }
  assert (V : forall fs, vars (sp fs) = flat_map value_words fs).
  { intros fs. unfold sp. rewrite !vars_app, w_fields_vars. unfold vars. cbn [flat_map app]. now rewrite app_nil_r. }
  destruct (spans_pieces (sp (co_fields c))) as (ps & L & H). rewrite V in L. exists ps. split.
  { rewrite L. f_equal. clear. induction (co_fields c) as [|f l IH]; [reflexivity|]. cbn [flat_map value_words app length] in *. rewrite IH. lia. }
  split.
  - rewrite <- V, <- H by reflexivity. rewrite R. now destruct c.
  - apply comp_text_iff. unfold update_field. rewrite <- R, H.
    + rewrite V. f_equal. clear. induction (co_fields c) as [|f l IH]; [reflexivity|]. cbn [map flat_map]. rewrite IH. f_equal.
      unfold update_one. destruct (str_eqb (cf_name f) n); cbn [cf_i with_value]; destruct (1 <? cf_i f)%Z; reflexivity.
    + unfold sp. rewrite !map_app. f_equal. f_equal. clear. induction (co_fields c) as [|f l IH]; [reflexivity|]. cbn [map flat_map]. rewrite !map_app, IH. f_equal.
      unfold update_one. destruct (str_eqb (cf_name f) n); cbn [cf_i with_value]; destruct (1 <? cf_i f)%Z; reflexivity.
Qed.
Lemma new_field_text c t n v c' x : add_new_field c t n v = Ok c' -> comp_text c x ->
  exists A B w k, ~ In k (numbers c) /\ field_form (mk_cfield k v Horizontal (cf_x t) (cf_y t) 60 false SJCenter SJCenter false false n) w /\
    x = A ++ B /\ comp_text c' (A ++ w ++ [10%N] ++ B).
Proof.
  intros E T. apply comp_text_iff in T. subst x. destruct (add_new_exact c t n v c' E) as (k & F & N & S).
  assert (C' : c' = set_fields c (co_fields c ++ [mk_cfield k v Horizontal (cf_x t) (cf_y t) 60 false SJCenter SJCenter false false n])).
  { apply sans_fields_complete; [exact S|exact F]. }
  set (f := mk_cfield k v Horizontal (cf_x t) (cf_y t) 60 false SJCenter SJCenter false false n) in *.
  exists ((lit "$Comp" ++ [10%N] ++ lit "L ") ++ co_name c ++ bl ++ co_reference c ++ [10%N] ++ unlines (comp_mid c) ++ unlines (map print_field (co_fields c))),
    (unlines (comp_tail c)), (print_field f), k.
  split; [exact N|]. split; [exact (proj1 (fix_field f))|]. split.
  - rewrite comp_split. repeat (cbn [app]; rewrite <- ?app_assoc). reflexivity.
  - apply comp_text_iff. rewrite comp_split, C'. cbn [set_fields co_name co_reference co_fields]. rewrite map_app, unlines_app. cbn [map].
    rewrite (unlines_cons (print_field f) []). repeat (cbn [app]; rewrite <- ?app_assoc). reflexivity.
Qed.

(** ** Schematics *)
Definition top_lines (s : schematic) : list str :=
  [lit "EESchema Schematic File Version 2"] ++ map (fun v => lit "LIBS:" ++ v) (sc_libraries s) ++ [sc_eelayer s; lit "EELAYER END"].
Definition sch_spans (s : schematic) (es : list selement) : list span :=
  [Fix (unlines (top_lines s ++ print_description (sc_description s)))]
  ++ map (fun e => match e with SComponent c => Var (unlines (print_component c)) | _ => Fix (unlines (print_selement e)) end) es
  ++ [Fix (unlines (flat_map print_sheet (sc_sheets s) ++ [lit "$EndSCHEMATC"]))].
Lemma sch_render s es : render (sch_spans s es) = print_schematic (with_elements s es).
Proof.
  unfold sch_spans, print_schematic, sch_lines, with_elements. cbn [sc_libraries sc_eelayer sc_description sc_elements sc_sheets]. fold (top_lines s).
  rewrite !render_app. change (render [Fix ?a]) with (a ++ []). rewrite !app_nil_r.
  assert (E : render (map (fun e => match e with SComponent c => Var (unlines (print_component c)) | _ => Fix (unlines (print_selement e)) end) es) = unlines (flat_map print_selement es)).
  { induction es as [|e l IH]; [reflexivity|]. cbn [map flat_map]. rewrite unlines_app, <- IH. destruct e; reflexivity. }
  rewrite E. unfold top_lines. rewrite <- !unlines_app. f_equal. repeat (cbn [app]; rewrite <- ?app_assoc). reflexivity.
Qed.
Lemma sch_vars s es : vars (sch_spans s es) = map (fun c => unlines (print_component c)) (own es).
Proof.
  unfold sch_spans. rewrite !vars_app. cbn [vars flat_map app]. rewrite app_nil_r. unfold own. induction es as [|e l IH]; [reflexivity|].
  cbn [map vars flat_map]. fold (vars (map (fun e => match e with SComponent c => Var (unlines (print_component c)) | _ => Fix (unlines (print_selement e)) end) l)).
  rewrite map_app, <- IH. destruct e; reflexivity.
Qed.
Lemma with_same s : with_elements s (sc_elements s) = s. Proof. now destruct s. Qed.
Lemma Forall2_texts (g : component -> component) l : Forall2 (fun c t => comp_text (g c) t) l (map (fun c => unlines (print_component (g c))) l).
Proof. induction l; constructor; [now apply comp_text_iff|assumption]. Qed.
Lemma all_text s f : exists ps xs ys, length ps = S (length (own (sc_elements s))) /\
  Forall2 (fun c t => comp_text c t) (own (sc_elements s)) xs /\ Forall2 (fun c t => comp_text (f c) t) (own (sc_elements s)) ys /\
  print_schematic s = weave ps xs /\ print_schematic (modify_components s f) = weave ps ys.
Proof.
  destruct (spans_pieces (sch_spans s (sc_elements s))) as (ps & L & H). rewrite sch_vars, map_length in L.
  exists ps, (map (fun c => unlines (print_component c)) (own (sc_elements s))), (map (fun c => unlines (print_component (f c))) (own (sc_elements s))).
  split; [exact L|]. split; [apply (Forall2_texts (fun c => c))|]. split; [apply Forall2_texts|]. split.
  - rewrite <- sch_vars with (s := s), <- H by reflexivity. now rewrite sch_render, with_same.
  - unfold modify_components. rewrite <- sch_render, H.
    + rewrite sch_vars. f_equal. unfold own. clear. induction (sc_elements s) as [|e l IH]; [reflexivity|]. cbn [map flat_map]. rewrite !map_app, IH. f_equal. destruct e; reflexivity.
    + unfold sch_spans. rewrite !map_app. do 2 f_equal. rewrite !map_map. apply map_ext. intros e. destruct e; reflexivity.
Qed.
Lemma one_text s r f :
  (Forall (fun e => has_ref r e = false) (sc_elements s) /\ modify_component s r f = s) \/
  exists a c b A B X Y, sc_elements s = a ++ SComponent c :: b /\ Forall (fun e => has_ref r e = false) a /\ co_reference c = r /\
    comp_text c X /\ comp_text (f c) Y /\ print_schematic s = A ++ X ++ B /\ print_schematic (modify_component s r f) = A ++ Y ++ B.
Proof.
  destruct (modify_component_spec s r f) as [W [N|(a & c & b & E & Fa & R & E')]]; [left; exact N|right].
  exists a, c, b, (render (Fix (unlines (top_lines s ++ print_description (sc_description s))) :: map (fun e => match e with SComponent c => Var (unlines (print_component c)) | _ => Fix (unlines (print_selement e)) end) a)),
    (render (map (fun e => match e with SComponent c => Var (unlines (print_component c)) | _ => Fix (unlines (print_selement e)) end) b ++ [Fix (unlines (flat_map print_sheet (sc_sheets s) ++ [lit "$EndSCHEMATC"]))])),
    (unlines (print_component c)), (unlines (print_component (f c))).
  split; [exact E|]. split; [exact Fa|]. split; [exact R|]. split; [now apply comp_text_iff|]. split; [now apply comp_text_iff|].
  assert (K : forall k, print_schematic (with_elements s (a ++ SComponent k :: b)) =
    render (Fix (unlines (top_lines s ++ print_description (sc_description s))) :: map (fun e => match e with SComponent c => Var (unlines (print_component c)) | _ => Fix (unlines (print_selement e)) end) a)
    ++ unlines (print_component k)
    ++ render (map (fun e => match e with SComponent c => Var (unlines (print_component c)) | _ => Fix (unlines (print_selement e)) end) b ++ [Fix (unlines (flat_map print_sheet (sc_sheets s) ++ [lit "$EndSCHEMATC"]))])).
  { intros k. rewrite <- sch_render. unfold sch_spans. rewrite map_app. cbn [map]. rewrite <- app_assoc. cbn [app].
    change (?x :: map ?g a ++ ?y) with ((x :: map g a) ++ y). rewrite render_app. reflexivity. }
  split; [rewrite <- (with_same s) at 1; rewrite E; apply K|].
  rewrite <- K. f_equal. rewrite <- E'. now rewrite <- (with_same (modify_component s r f)) at 1.
Qed.
Lemma count_text s s' : increment_sheet_count s = Ok s' -> exists A B v w,
  numeral (ds_count (sc_description s)) v /\ numeral (ds_count (sc_description s) + 1)%Z w /\
  print_schematic s = A ++ v ++ B /\ print_schematic s' = A ++ w ++ B.
Proof.
  unfold increment_sheet_count. intros H. apply bind_inv in H as (n & C & H). injection H as <-.
  assert (n = ds_count (sc_description s) + 1)%Z as ->. { unfold chk in C. destruct (i64_ok _); [now injection C as <-|discriminate]. }
  destruct s as [fn lb [sz dx dy ti da re co c1 c2 c3 c4 sh ct] es ss ee]. cbn [sc_description ds_count ds_size ds_dimx ds_dimy ds_title ds_date ds_rev ds_comp ds_comment1 ds_comment2 ds_comment3 ds_comment4 ds_sheet] in *.
  exists (unlines ([lit "EESchema Schematic File Version 2"] ++ map (fun v => lit "LIBS:" ++ v) lb ++ [ee; lit "EELAYER END"]
    ++ [lit "$Descr " ++ sz ++ bl ++ show_Z dx ++ bl ++ show_Z dy; lit "encoding utf-8"]) ++ lit "Sheet " ++ show_Z sh ++ bl),
   ([10%N] ++ unlines ([lit "Title " ++ quoted ti; lit "Date " ++ quoted da; lit "Rev " ++ quoted re; lit "Comp " ++ quoted co;
   lit "Comment1 " ++ quoted c1; lit "Comment2 " ++ quoted c2; lit "Comment3 " ++ quoted c3; lit "Comment4 " ++ quoted c4; lit "$EndDescr"]
    ++ flat_map print_selement es ++ flat_map print_sheet ss ++ [lit "$EndSCHEMATC"])), (show_Z ct), (show_Z (ct + 1)).
  split; [apply pin_numeral|]. split; [apply pin_numeral|].
  assert (K : forall n, print_schematic (mk_sch fn lb (mk_descr sz dx dy ti da re co c1 c2 c3 c4 sh n) es ss ee) =
   (unlines ([lit "EESchema Schematic File Version 2"] ++ map (fun v => lit "LIBS:" ++ v) lb ++ [ee; lit "EELAYER END"]
    ++ [lit "$Descr " ++ sz ++ bl ++ show_Z dx ++ bl ++ show_Z dy; lit "encoding utf-8"]) ++ lit "Sheet " ++ show_Z sh ++ bl) ++ show_Z n ++
   ([10%N] ++ unlines ([lit "Title " ++ quoted ti; lit "Date " ++ quoted da; lit "Rev " ++ quoted re; lit "Comp " ++ quoted co;
   lit "Comment1 " ++ quoted c1; lit "Comment2 " ++ quoted c2; lit "Comment3 " ++ quoted c3; lit "Comment4 " ++ quoted c4; lit "$EndDescr"]
    ++ flat_map print_selement es ++ flat_map print_sheet ss ++ [lit "$EndSCHEMATC"]))).
  { intros m. unfold print_schematic, sch_lines, print_description. cbn [sc_libraries sc_eelayer sc_description sc_elements sc_sheets ds_count ds_size ds_dimx ds_dimy ds_title ds_date ds_rev ds_comp ds_comment1 ds_comment2 ds_comment3 ds_comment4 ds_sheet].
    rewrite !unlines_app, !unlines_cons. change (unlines []) with (@nil N). repeat (cbn [app]; rewrite <- ?app_assoc). reflexivity. }
  split; apply K.
Qed.

(** ** Symbols *)
Lemma symbol_text_iff y t : symbol_form_text y t <-> exists v, print_symbol y = Ok v /\ t = unlines v.
Proof.
  split.
  - intros (f0 & f1 & r & E & H). destruct (fix_symbol y f0 f1 r E) as (v & P & F). exists v. split; [exact P|]. now apply (in_lines_iff _ _ _ F).
  - intros (v & P & ->). destruct (sy_fields y) as [|f0 [|f1 r]] eqn:E; try (unfold print_symbol in P; rewrite E in P; discriminate).
    destruct (fix_symbol y f0 f1 r E) as (w & P' & F). rewrite P in P'. injection P' as <-. exists f0, f1, r. split; [exact E|]. now apply (in_lines_iff _ _ _ F).
Qed.
Lemma mapM_app_ok {A B} (f : A -> res B) a b w : mapM f (a ++ b) = Ok w -> exists u v, mapM f a = Ok u /\ mapM f b = Ok v /\ w = u ++ v.
Proof.
  revert w. induction a as [|x a IH]; intros w; cbn [app mapM].
  - intros H. exists [], w. auto.
  - intros H. apply bind_inv in H as (y & Y & H). apply bind_inv in H as (z & Z & H). injection H as <-. destruct (IH z Z) as (u & v & U & V & ->).
    exists (y :: u), v. rewrite Y, U. auto.
Qed.
Lemma mapM_app_mk {A B} (f : A -> res B) a b u v : mapM f a = Ok u -> mapM f b = Ok v -> mapM f (a ++ b) = Ok (u ++ v).
Proof.
  revert u. induction a as [|x a IH]; intros u; cbn [app mapM].
  - intros [= <-]. auto.
  - intros H V. apply bind_inv in H as (y & Y & H). apply bind_inv in H as (z & Z & H). injection H as <-. rewrite Y. cbn [bind]. rewrite (IH z Z V). reflexivity.
Qed.
Lemma library_hole a y b t : print_symbol_lib (a ++ y :: b) = Ok t -> exists A B,
  (exists X, symbol_form_text y X /\ t = A ++ X ++ B) /\
  forall y' X', symbol_form_text y' X' -> print_symbol_lib (a ++ y' :: b) = Ok (A ++ X' ++ B).
Proof.
  unfold print_symbol_lib. intros H. apply bind_inv in H as (w & W & H). injection H as <-. destruct (mapM_app_ok _ _ _ _ W) as (u & v & U & V & ->).
  cbn [mapM] in V. apply bind_inv in V as (x & X & V). apply bind_inv in V as (z & Z & V). injection V as <-.
  exists (unlines ([lit "EESchema-LIBRARY Version 2.3"; lit "#encoding utf-8"; lit "#"] ++ concat u)), (unlines (concat z ++ [lit "#End Library"])).
  assert (K : forall x, unlines ([lit "EESchema-LIBRARY Version 2.3"; lit "#encoding utf-8"; lit "#"] ++ concat (u ++ x :: z) ++ [lit "#End Library"]) =
    unlines ([lit "EESchema-LIBRARY Version 2.3"; lit "#encoding utf-8"; lit "#"] ++ concat u) ++ unlines x ++ unlines (concat z ++ [lit "#End Library"])).
  { intros x'. rewrite concat_app. cbn [concat]. rewrite <- !unlines_app. f_equal. rewrite <- !app_assoc. reflexivity. }
  split.
  - exists (unlines x). split; [apply symbol_text_iff; eauto|apply K].
  - intros y' X' T. apply symbol_text_iff in T as (x' & P & ->). rewrite (mapM_app_mk _ a (y' :: b) u (x' :: z) U); [cbn [bind]; now rewrite K|].
    cbn [mapM]. rewrite P. cbn [bind]. rewrite Z. reflexivity.
Qed.
Lemma sfield_value f v : exists a b, print_sfield f = a ++ sf_value f ++ b /\ print_sfield (sf_set_value v f) = a ++ v ++ b.
Proof.
  unfold print_sfield, quoted. cbn [sf_set_value sf_i sf_value sf_x sf_y sf_dim sf_orient sf_visible sf_hjust sf_vjust sf_italic sf_bold sf_name].
  eexists (lit "F" ++ show_Z (sf_i f) ++ bl ++ [34%N]), _. repeat (cbn [app]; rewrite <- ?app_assoc). split; reflexivity.
Qed.
Lemma set_name_text name y y' t : set_name name y = Ok y' -> symbol_form_text y t -> exists p0 p1 p2 p3 f0 f1 r,
  sy_fields y = f0 :: f1 :: r /\ t = weave [p0; p1; p2; p3] [sf_value f1; sy_name y; sf_value f1] /\
  symbol_form_text y' (weave [p0; p1; p2; p3] [name; (if starts_with (lit "~") (sy_name y) then lit "~" else []) ++ name; name]).
Proof.
  unfold set_name. intros H T. apply bind_inv in H as (c & C & H). destruct (sy_fields y) as [|f0 [|f1 r]] eqn:E; try discriminate. injection H as <-.
  apply symbol_text_iff in T as (v & P & ->). unfold print_symbol in P. rewrite E in P. cbn [idx nth_error bind] in P. injection P as <-.
  destruct (sfield_value f1 name) as (a & b & F & F').
  assert (N : (if N.eqb c 126 then lit "~" ++ name else name) = (if starts_with (lit "~") (sy_name y) then lit "~" else []) ++ name).
  { unfold char_at in C. destruct (sy_name y) as [|d q]; [discriminate|]. cbn in C. injection C as ->. change (lit "~") with [126%N]. cbn [starts_with]. rewrite (N.eqb_sym 126 c). destruct (N.eqb c 126); reflexivity. }
  set (mid := fun n => lit "DEF " ++ n ++ bl ++ sy_reference y ++ lit " 0 " ++ f64_to_str (sy_text_offset y) ++ bl
         ++ lit (if sy_pinnumber y then "Y" else "N") ++ bl ++ lit (if sy_pinname y then "Y" else "N") ++ bl
         ++ show_Z (sy_unit_count y) ++ bl ++ lit (if sy_unit_locked y then "L" else "F") ++ bl
         ++ lit (if sy_is_power y then "P" else "N")) in *.
  set (rest := map print_sfield r ++ (if is_empty (sy_aliases y) then [] else [lit "ALIAS" ++ flat_map (fun a => bl ++ a) (sy_aliases y)])
      ++ [lit "DRAW"] ++ map print_draw (sy_draw y) ++ [lit "ENDDRAW"; lit "ENDDEF"; lit "#"]) in *.
  exists (lit "# "), ([10%N] ++ lit "#" ++ [10%N] ++ lit "DEF "),
    (bl ++ sy_reference y ++ lit " 0 " ++ f64_to_str (sy_text_offset y) ++ bl
         ++ lit (if sy_pinnumber y then "Y" else "N") ++ bl ++ lit (if sy_pinname y then "Y" else "N") ++ bl
         ++ show_Z (sy_unit_count y) ++ bl ++ lit (if sy_unit_locked y then "L" else "F") ++ bl
         ++ lit (if sy_is_power y then "P" else "N") ++ [10%N] ++ print_sfield f0 ++ [10%N] ++ a), (b ++ [10%N] ++ unlines rest), f0, f1, r.
  split; [reflexivity|]. split.
  - cbn [map app]. rewrite !unlines_cons. change (unlines (print_sfield f1 :: ?l)) with (print_sfield f1 ++ [10%N] ++ unlines l). rewrite F. unfold mid. cbn [weave]. repeat (cbn [app]; rewrite <- ?app_assoc). rewrite ?app_nil_r. reflexivity.
  - apply symbol_text_iff. unfold print_symbol, sy_set. cbn [sy_fields idx nth_error bind sf_set_value sf_value sy_name sy_reference sy_text_offset sy_pinnumber sy_pinname sy_unit_count sy_unit_locked sy_is_power sy_aliases sy_draw].
    eexists. split; [reflexivity|]. match goal with |- context[if (c =? 126)%N then ?x else name] => change x with (lit "~" ++ name) end. rewrite N. cbn [map app]. rewrite !unlines_cons. change (mk_sfield _ _ _ _ _ _ _ _ _ _ _ _) with (sf_set_value name f1). rewrite F'. cbn [weave].
    fold rest. repeat (cbn [app]; rewrite <- ?app_assoc). rewrite ?app_nil_r. reflexivity.
Qed.
