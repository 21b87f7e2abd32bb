(** Facts about the order of the entries within an element (C113). *)
From Coq Require Import List String Lia Permutation.
From Verif Require Import Base Str StrFacts Num F64 Sexp SexpFacts FpData FpDe LyData LyDe FpLibTable GramSpec MeanSpec MeanFacts WideSpec WideSound WideMean WideBoard JoinSpec JoinFacts FieldOrderSpec.
Import ListNotations.
Open Scope string_scope. Open Scope list_scope.

(** ** From the grammar to the table *)
Definition a_word (g : gram) : Prop := forall s, follows g s -> is_list s = false.
Definition a_list (d : string) (g : gram) : Prop := forall s, follows g s -> is_list s = true /\ labelled d s = true.
Inductive shaped : list item -> list string -> Prop :=
| sh_nil : shaped [] []
| sh_one_word g b ds : a_word g -> shaped b ds -> shaped (One g :: b) ds
| sh_opt_word g b ds : a_word g -> shaped b ds -> shaped (Opt g :: b) ds
| sh_one g b d ds : a_list d g -> shaped b ds -> shaped (One g :: b) (d :: ds)
| sh_opt g b d ds : a_list d g -> shaped b ds -> shaped (Opt g :: b) (d :: ds).
Lemma shaped_order b ds : shaped b ds -> forall l, follow_all b l -> in_order ds l.
Proof.
  unfold in_order. induction 1 as [|g b ds W S IH|g b ds W S IH|g b d ds L S IH|g b d ds L S IH]; intros l F; inversion F; subst; cbn [filter].
  - constructor.
  - rewrite (W s) by assumption. auto.
  - auto.
  - rewrite (W s) by assumption. auto.
  - destruct (L s) as [I M]; [assumption|]. rewrite I. apply pk_take; auto.
  - apply pk_skip; auto.
  - destruct (L s) as [I M]; [assumption|]. rewrite I. apply pk_take; auto.
Qed.
Lemma w_word p : a_word (Word p). Proof. intros s H. inversion H. reflexivity. Qed.
Lemma l_form d b : String.eqb d "point" = false -> a_list d (Form d b).
Proof. intros N s H. apply form_inv in H as (l & -> & _). split; [reflexivity|]. unfold labelled. rewrite N. cbn [called]. apply str_eqb_refl. Qed.
Lemma l_point : a_list "point" w_point.
Proof.
  intros s H. inversion H as [|p b k l K F| |]; subst. split; [reflexivity|]. destruct K as (k' & I & ->). unfold labelled. cbn [String.eqb Ascii.eqb Bool.eqb].
  unfold point_names in I. cbn [In] in I. decompose [or] I; try contradiction; subst k'; vm_compute; reflexivity.
Qed.
Ltac shape := repeat first [apply sh_nil
  | apply sh_one_word; [apply w_word|] | apply sh_opt_word; [apply w_word|]
  | apply sh_one; [first [exact l_point | apply l_form; reflexivity]|] | apply sh_opt; [first [exact l_point | apply l_form; reflexivity]|]].
Lemma form_order k b ds l : shaped b ds -> follows (Form k b) (SList (SStr (lit k) :: l)) -> in_order ds l.
Proof. intros S H. apply form_inv in H as (l' & [= <-] & F). exact (shaped_order b ds S l F). Qed.

Ltac down H := repeat (let B := fresh in match type of H with (if str_eqb (lit ?a) (lit ?b) then _ else _) = _ => destruct (str_eqb_spec (lit a) (lit b)) as [B|B];
  [first [apply lit_inj in B; discriminate B|clear B]|first [exfalso; apply B; reflexivity|clear B]] end).
Theorem footprint_order k ns l e : In (k, ns) footprint_orders -> de_element (SList (SStr (lit k) :: l)) = Ok e -> in_order ns l.
Proof.
  intros I H. unfold footprint_orders in I. cbn [In] in I.
  repeat destruct I as [I|I]; try contradiction; injection I as <- <-; cbn [de_element sx_list_name sx_list sx_string bind] in H; down H; apply rmap_inv in H as (a & H & _).
  - eapply form_order; [|exact (sn_text_el _ _ H)]. shape.
  - eapply form_order; [|exact (sn_poly _ _ H)]. shape.
  - eapply form_order; [|exact (sn_line _ _ H)]. shape.
  - eapply form_order; [|exact (sn_circle _ _ H)]. shape.
  - eapply form_order; [|exact (sn_arc _ _ H)]. shape.
  - eapply form_order; [|exact (sn_model _ _ H)]. shape.
Qed.
Lemma one_entry s b : de_layout (board_tree [s]) = Ok b -> exists x, eff s = Ok x.
Proof. rewrite board_tree_eq. cbn [mapM]. destruct (eff s) as [x| |]; [eauto|discriminate|discriminate]. Qed.
Theorem board_order k ns l b : In (k, ns) board_orders -> de_layout (board_tree [SList (SStr (lit k) :: l)]) = Ok b -> in_order ns l.
Proof.
  intros I H. apply one_entry in H as [x H]. unfold board_orders in I. cbn [In] in I.
  repeat destruct I as [I|I]; try contradiction; injection I as <- <-; unfold eff in H; cbn [sx_list_name sx_list sx_string bind] in H; down H; unfold el in H; apply bind_inv in H as (a & H & _).
  - eapply form_order; [|exact (sn_general _ _ H)]. shape.
  - eapply form_order; [|exact (sn_gr_text _ _ H)]. shape.
  - eapply form_order; [|exact (sn_gr_line _ _ H)]. shape.
  - eapply form_order; [|exact (sn_gr_arc _ _ H)]. shape.
  - eapply form_order; [|exact (sn_gr_circle _ _ H)]. shape.
  - eapply form_order; [|exact (sn_segment _ _ H)]. shape.
  - eapply form_order; [|exact (sn_via _ _ H)]. shape.
  - eapply form_order; [|exact (sn_dimension _ _ H)]. shape.
Qed.
Theorem parts_order l : 
  (forall x, de_effects (SList (SStr (lit "effects") :: l)) = Ok x -> in_order ["font"; "justify"] l) /\
  (forall x, de_font (SList (SStr (lit "font") :: l)) = Ok x -> in_order ["point"; "thickness"] l) /\
  (forall x, de_drill (SList (SStr (lit "drill") :: l)) = Ok x -> in_order ["offset"] l) /\
  (forall x, de_keepout (SList (SStr (lit "keepout") :: l)) = Ok x -> in_order ["tracks"; "vias"; "copperpour"] l) /\
  (forall x, de_fill (SList (SStr (lit "fill") :: l)) = Ok x -> in_order ["mode"; "arc_segments"; "thermal_gap"; "thermal_bridge_width"; "smoothing"; "radius"] l).
Proof.
  split; [|split; [|split; [|split]]]; intros x H.
  - eapply form_order; [|exact (sn_effects _ _ H)]. shape.
  - eapply form_order; [|exact (sn_font _ _ H)]. shape.
  - eapply form_order; [|exact (sn_drill _ _ H)]. shape.
  - eapply form_order; [|exact (sn_keepout _ _ H)]. shape.
  - eapply form_order; [|exact (sn_fill _ _ H)]. shape.
Qed.
(** Elements that go on with other entries *)
Lemma follow_app b c : Forall (fun i => match i with Rep _ => False | _ => True end) b -> forall l, follow_all (b ++ c) l -> exists p r, l = p ++ r /\ follow_all b p /\ follow_all c r.
Proof.
  induction 1 as [|i b N _ IH]; intros l F; cbn [app] in F; [exists [], l; repeat split; auto; constructor|].
  destruct i as [g|g|gs]; [| |contradiction]; inversion F; subst.
  - destruct (IH l0) as (p & r & -> & P & R); [assumption|]. exists (s :: p), r. repeat split; auto. now constructor.
  - destruct (IH l) as (p & r & -> & P & R); [assumption|]. exists p, r. repeat split; auto. now apply fa_skip.
  - destruct (IH l0) as (p & r & -> & P & R); [assumption|]. exists (s :: p), r. repeat split; auto. now apply fa_opt.
Qed.
Ltac fixed := repeat (apply Forall_cons; [exact I|]); apply Forall_nil.
Theorem zone_in_order l z : de_zone (SList (SStr (lit "zone") :: l)) = Ok z -> exists a f r, l = a ++ f :: r /\ in_order zone_order a /\ called "fill" f = true.
Proof.
  intros H. apply sn_zone, form_inv in H as (l' & [= <-] & F).
  change (follow_all ([One (fld "net" (int V)); One (fld "net_name" text); One (g_layer V); One g_stamp; One (g_hatch V);
    Opt (fld "priority" (int V)); One (g_connect V); One (fld "min_thickness" (num V)); Opt w_keepout] ++ [One w_fill; ignored]) l) in F.
  apply follow_app in F as (a & r & -> & A & R); [|fixed]. inversion R as [|g b f r' FF _| | | |]; subst. exists a, f, r'. split; [reflexivity|]. split.
  - refine (shaped_order _ _ _ a A). shape.
  - apply form_inv in FF as (x & -> & _). reflexivity.
Qed.
Theorem lib_in_order l x : de_flib (SList (SStr (lit "lib") :: l)) = Ok x -> exists a r, l = a ++ r /\ in_order lib_order a /\ length a = 5%nat.
Proof.
  intros H. apply sn_flib, form_inv in H as (l' & [= <-] & F).
  change (follow_all ([One (fld "name" text); One (fld "type" text); One (fld "uri" text); One (fld "options" text); One (fld "descr" text)] ++ [ignored]) l) in F.
  apply follow_app in F as (a & r & -> & A & R); [|fixed]. exists a, r. split; [reflexivity|]. split.
  - refine (shaped_order _ _ _ a A). shape.
  - repeat match goal with H : follow_all (One _ :: _) _ |- _ => inversion H; subst; clear H end. match goal with H : follow_all [] _ |- _ => inversion H end. reflexivity.
Qed.
Definition pad_items : list item := [One text; One (word ["smd"; "thru_hole"; "np_thru_hole"]); One (word ["rect"; "circle"; "oval"; "trapezoid"]);
    Opt (g_at V); Opt w_point; Opt (GramSpec.drill V); Opt (GramSpec.g_layers V)].
Lemma part_names s : one_of w_parts s -> named_in pad_parts s.
Proof.
  intros (g & I & F). unfold w_parts in I. cbn [In] in I.
  repeat destruct I as [<-|I]; try contradiction; apply form_inv in F as (l & -> & _); eexists; (split; [|cbn [called]; apply str_eqb_refl]); unfold pad_parts; cbn [In]; tauto.
Qed.
Theorem pad_in_order l p : de_pad (SList (SStr (lit "pad") :: l)) = Ok p -> exists a r, l = a ++ r /\ in_order pad_order a /\ Forall (named_in pad_parts) r.
Proof.
  intros H. apply sn_pad, form_inv in H as (l' & [= <-] & F). change (follow_all (pad_items ++ [Rep w_parts]) l) in F.
  apply follow_app in F as (a & r & -> & A & R); [|unfold pad_items; fixed]. exists a, r. split; [reflexivity|]. split.
  - refine (shaped_order _ _ _ a A). unfold pad_items. shape.
  - apply Forall_forall. intros s I. apply part_names. exact (rep_in _ _ _ R I).
Qed.

(** ** One order only *)
Lemma picked_in ds l s : picked ds l -> In s l -> exists d, In d ds /\ labelled d s = true.
Proof.
  induction 1 as [|d ds l P IH|d ds x l L P IH]; intros I; [destruct I| |].
  - destruct (IH I) as (d' & D & M). exists d'. split; [now right|exact M].
  - destruct I as [<-|I]; [exists d; split; [now left|exact L]|]. destruct (IH I) as (d' & D & M). exists d'. split; [now right|exact M].
Qed.
Lemma called_one d d' s : called d s = true -> called d' s = true -> d = d'.
Proof.
  destruct s as [|[|[n| |] l]|]; try discriminate. cbn [called]. intros A B. destruct (str_eqb_spec n (lit d)) as [E|]; [|discriminate]. destruct (str_eqb_spec n (lit d')) as [E'|]; [|discriminate].
  apply lit_inj. congruence.
Qed.
Lemma labelled_one d d' s : d <> "point" -> d' <> "point" -> labelled d s = true -> labelled d' s = true -> d = d'.
Proof. intros N N'. unfold labelled. apply String.eqb_neq in N, N'. rewrite N, N'. apply called_one. Qed.
Lemma picked_perm ds : NoDup ds -> ~ In "point" ds -> forall l l', picked ds l -> picked ds l' -> Permutation l l' -> l = l'.
Proof.
  induction 1 as [|d ds D ND IH]; intros NP l l' P P' M.
  - inversion P; subst. now apply Permutation_nil in M.
  - assert (NP' : ~ In "point" ds) by (intros K; apply NP; now right). assert (N : d <> "point") by (intros ->; apply NP; now left).
    assert (NO : forall s m, picked ds m -> labelled d s = true -> ~ In s m).
    { intros s m Q L K. destruct (picked_in ds m s Q K) as (d' & D' & L'). apply D. replace d with d'; [exact D'|].
      apply (labelled_one d' d s); auto. intros ->. now apply NP'. }
    inversion P as [|d1 ds1 l1 Q|d1 ds1 s l1 L Q]; subst; inversion P' as [|d2 ds2 l2 Q'|d2 ds2 s' l2 L' Q']; subst.
    + now apply IH.
    + exfalso. apply (NO s' l Q L'). apply (Permutation_in s' (Permutation_sym M)). now left.
    + exfalso. apply (NO s l' Q' L). apply (Permutation_in s M). now left.
    + assert (E : s = s').
      { destruct (Permutation_in s M (or_introl eq_refl)) as [E|K]; [now symmetry|]. exfalso. exact (NO s l2 Q' L K). }
      subst s'. f_equal. apply IH; auto. exact (Permutation_cons_inv M).
Qed.
Lemma filter_perm {A} (f : A -> bool) l l' : Permutation l l' -> Permutation (filter f l) (filter f l').
Proof.
  induction 1 as [|x l l' P IH|x y l|l m n P IH Q IK]; cbn; [constructor| | |].
  - destruct (f x); [now constructor|exact IH].
  - destruct (f x), (f y); try apply Permutation_refl. constructor.
  - exact (perm_trans IH IK).
Qed.
Theorem one_order ds l l' : NoDup ds -> ~ In "point" ds -> in_order ds l -> in_order ds l' -> Permutation l l' -> filter is_list l = filter is_list l'.
Proof. intros ND NP P P' M. apply (picked_perm ds ND NP); auto. now apply filter_perm. Qed.
(** With points: their order is left open. *)
Lemma picked_others ds l : (forall d, In d ds -> d <> "point" -> ~ In d ["xy"; "start"; "end"; "size"; "center"; "rect_delta"]) -> picked ds l ->
  picked (filter (fun d => negb (String.eqb d "point")) ds) (filter (fun s => negb (a_point s)) l).
Proof.
  intros N P. induction P as [|d ds l P IH|d ds s l L P IH]; [constructor| |].
  - cbn [filter]. destruct (String.eqb d "point"); cbn [negb]; [|apply pk_skip]; apply IH; intros d' I; apply N; now right.
  - cbn [filter]. unfold labelled in L. destruct (String.eqb_spec d "point") as [->|E].
    + rewrite L. cbn [negb]. apply IH. intros d' I; apply N; now right.
    + assert (A : a_point s = false).
      { destruct (a_point s) eqn:A; [|reflexivity]. unfold a_point in A. apply existsb_exists in A as (k & K & C). exfalso. apply (N d (or_introl eq_refl) E).
        now rewrite (called_one d k s L C). }
      rewrite A. cbn [negb]. apply pk_take; [unfold labelled; destruct (String.eqb_spec d "point"); [contradiction|exact L]|].
      apply IH. intros d' I; apply N; now right.
Qed.
Theorem one_order_points ds l l' : NoDup (filter (fun d => negb (String.eqb d "point")) ds) ->
  (forall d, In d ds -> d <> "point" -> ~ In d ["xy"; "start"; "end"; "size"; "center"; "rect_delta"]) ->
  in_order ds l -> in_order ds l' -> Permutation l l' -> filter other l = filter other l'.
Proof.
  intros ND N P P' M. assert (FF : forall m, filter other m = filter (fun s => negb (a_point s)) (filter is_list m)).
  { clear. induction m as [|x m IH]; [reflexivity|]. cbn [filter]. unfold other at 1. destruct (is_list x); cbn [filter andb]; [|exact IH]. destruct (a_point x); cbn [negb]; [exact IH|now rewrite IH]. }
  rewrite !FF. apply (picked_perm (filter (fun d => negb (String.eqb d "point")) ds) ND); [|now apply picked_others..|].
  - intros I. apply filter_In in I as [_ I]. discriminate I.
  - now apply filter_perm, filter_perm.
Qed.

(** ** Any order *)
Lemma last_field_perm {A} k (f : sexp -> A) d l l' : (length (filter (called k) l) <= 1)%nat -> Permutation l l' -> last_field k f d l = last_field k f d l'.
Proof.
  intros L P. unfold last_field. apply (keep_perm (fun a s => if called k s then f s else a) (called k)); auto.
  - intros x a b E. now rewrite E.
  - intros x a E. now rewrite E.
Qed.
Lemma follow_tail gs ps b : Forall (fun i => match i with One g | Opt g => Forall (fun s => ~ follows g s) ps | Rep _ => False end) b ->
  forall x, follow_all (b ++ [Rep gs]) (x ++ ps) -> follow_all (b ++ [Rep gs]) x /\ Forall (WideSpec.one_of gs) ps.
Proof.
  induction 1 as [|i b N _ IH]; intros x F; cbn [app] in *.
  - assert (A : forall s, In s (x ++ ps) -> WideSpec.one_of gs s) by (intros s I; exact (rep_in _ _ _ F I)).
    split; [apply all_rep|]; apply Forall_forall; intros s I; apply A, in_or_app; auto.
  - assert (C : forall g s l, Forall (fun s => ~ follows g s) ps -> s :: l = x ++ ps -> follows g s -> exists x', x = s :: x' /\ l = x' ++ ps).
    { intros g s l M E G. destruct x as [|s' x']; cbn [app] in E; [|injection E as <- ->; eauto]. subst ps. inversion M; contradiction. }
    destruct i as [g|g|gs']; [| |contradiction]; inversion F; subst.
    + destruct (C g s l) as (x' & -> & ->); auto. destruct (IH x') as [P Q]; [assumption|]. split; [|exact Q]. now constructor.
    + destruct (IH x) as [P Q]; [assumption|]. split; [|exact Q]. now apply fa_skip.
    + destruct (C g s l) as (x' & -> & ->); auto. destruct (IH x') as [P Q]; [assumption|]. split; [|exact Q]. now apply fa_opt.
Qed.
Lemma follow_tail_put gs ps b x : follow_all (b ++ [Rep gs]) x -> Forall (WideSpec.one_of gs) ps -> follow_all (b ++ [Rep gs]) (x ++ ps).
Proof.
  intros F A. apply all_rep in A. revert x F. induction b as [|i b IH]; intros x F; cbn [app] in *.
  - assert (B : Forall (WideSpec.one_of gs) (x ++ ps)).
    { apply Forall_app. split; apply Forall_forall; intros s I; [exact (rep_in _ _ _ F I)|exact (rep_in _ _ _ A I)]. }
    now apply all_rep.
  - remember (i :: b ++ [Rep gs]) as c eqn:C. revert i b C IH. induction F as [|g c s l G F IHF|g c l F IHF|g c s l G F IHF|gs' c l F IHF|gs' g c s l I G F IHF]; intros i b C IH; inversion C; subst; cbn [app].
    + now constructor; [|apply IH].
    + now apply fa_skip, IH.
    + now apply fa_opt; [|apply IH].
    + now apply fa_end, IH.
    + eapply fa_rep; [exact I|exact G|]. apply (IHF (Rep gs') b eq_refl). exact IH.
Qed.
Lemma not_word_list p s : named_in pad_parts s -> ~ follows (Word p) s.
Proof. intros (k & _ & C) F. inversion F; subst. discriminate C. Qed.
Lemma not_form d b s : ~ In d pad_parts -> named_in pad_parts s -> ~ follows (Form d b) s.
Proof. intros N (k & K & C) F. apply form_inv in F as (l & -> & _). apply N. rewrite (called_one d k (SList (SStr (lit d) :: l))); [exact K|apply str_eqb_refl|exact C]. Qed.
Lemma not_point s : named_in pad_parts s -> ~ follows w_point s.
Proof.
  intros (k & K & C) F. inversion F as [|p b n l P _| |]; subst. destruct P as (j & J & ->). cbn [called] in C. destruct (str_eqb_spec (lit j) (lit k)) as [E|]; [|discriminate]. apply lit_inj in E. subst j.
  unfold point_names in J. unfold pad_parts in K. cbn [In] in *. decompose [or] J; try contradiction; subst k; decompose [or] K; try contradiction; discriminate.
Qed.
Theorem pad_parts_moved x ps ps' p : de_pad (SList (SStr (lit "pad") :: x ++ ps)) = Ok p -> Forall (named_in pad_parts) ps -> at_most_once pad_parts ps -> Permutation ps ps' ->
  de_pad (SList (SStr (lit "pad") :: x ++ ps')) = Ok p.
Proof.
  intros H N O M. apply (exact _ _ _ sn_pad wm_pad) in H as [F ->]. apply form_inv in F as (l & E & F). injection E as <-. change (follow_all (pad_items ++ [Rep w_parts]) (x ++ ps)) in F.
  apply follow_tail in F as [X P].
  2:{ unfold pad_items. rewrite Forall_forall in N.
      repeat (apply Forall_cons; [apply Forall_forall; intros s I; specialize (N s I); first [now apply not_word_list|now apply not_point|apply not_form; [unfold pad_parts; cbn [In]; intros K; decompose [or] K; try contradiction; discriminate|exact N]]|]). apply Forall_nil. }
  assert (P' : Forall (WideSpec.one_of w_parts) ps') by (apply Forall_forall; intros s I; rewrite Forall_forall in P; apply P; exact (Permutation_in s (Permutation_sym M) I)).
  assert (W : exists a b c q, x = SStr a :: SStr b :: SStr c :: q).
  { inversion X as [|g1 b1 s1 l1 G1 X1| | | |]; subst. cbn [app] in X1. inversion X1 as [|g2 b2 s2 l2 G2 X2| | | |]; subst. cbn [app] in X2. inversion X2 as [|g3 b3 s3 l3 G3 X3| | | |]; subst.
    inversion G1; subst. inversion G2; subst. inversion G3; subst. eauto. }
  apply (exact _ _ _ sn_pad wm_pad). split; [apply fo_named; [reflexivity|]; exact (follow_tail_put w_parts ps' pad_items x X P')|].
  destruct W as (a & b & c & q & ->). rewrite !w_pad_split by (now apply all_rep). unfold upd.
  repeat match goal with |- context [last_field ?k ?f ?d ps] => rewrite (last_field_perm k f d ps ps') by (try exact M; apply O; unfold pad_parts; cbn [In]; tauto) end. reflexivity.
Qed.
Theorem class_moved n d ps ps' c : de_net_class (SList (SStr (lit "net_class") :: SStr n :: SStr d :: ps)) = Ok c -> at_most_once class_parts ps -> Permutation ps ps' ->
  exists c', de_net_class (SList (SStr (lit "net_class") :: SStr n :: SStr d :: ps')) = Ok c' /\ same_class c c'.
Proof.
  intros H O M. apply (exact _ _ _ sn_net_class wm_net_class) in H as [F ->]. apply form_inv in F as (l & E & F). injection E as <-.
  exists (class_of (SList (SStr (lit "net_class") :: SStr n :: SStr d :: ps'))). split.
  - apply (exact _ _ _ sn_net_class wm_net_class). split; [|reflexivity]. apply fo_named; [reflexivity|]. unfold V, loose in F |- *. cbn [app flat_map] in F |- *.
    inversion F as [|g1 b1 s1 l1 G1 X1| | | |]; subst. inversion X1 as [|g2 b2 s2 l2 G2 X2| | | |]; subst. constructor; [exact G1|]. constructor; [exact G2|]. apply all_rep, Forall_forall. intros s I.
    exact (rep_in _ _ _ X2 (Permutation_in s (Permutation_sym M) I)).
  - assert (LF : forall (A : Type) k (f : sexp -> A) e, In k class_parts -> last_field k f e (SStr n :: SStr d :: ps) = last_field k f e (SStr n :: SStr d :: ps')).
    { intros A k f e I. apply last_field_perm; [cbn [filter called]; now apply O|]. now do 2 constructor. }
    unfold same_class, class_of. cbn [kids]. cbv zeta. cbn [nc_name nc_desc nc_clearance nc_trace_width nc_via_dia nc_via_drill nc_uvia_dia nc_uvia_drill nc_dp_gap nc_dp_width LyData.nc_nets arg nth]. split.
    + repeat match goal with |- context [last_field ?k ?f ?e (SStr n :: SStr d :: ps)] => rewrite (LF _ k f e) by (unfold class_parts; cbn [In]; tauto) end. reflexivity.
    + apply Permutation_map, filter_perm. now do 2 constructor.
Qed.

(** ** The readers *)
Lemma others_of l l' : filter is_list l = filter is_list l' -> filter other l = filter other l'.
Proof.
  assert (FF : forall m, filter other m = filter (fun s => negb (a_point s)) (filter is_list m)).
  { clear. induction m as [|x m IH]; [reflexivity|]. cbn [filter]. unfold other at 1. destruct (is_list x); cbn [filter andb]; [|exact IH]. destruct (a_point x); cbn [negb]; [exact IH|now rewrite IH]. }
  intros E. now rewrite !FF, E.
Qed.
Definition distinctb (l : list string) : bool := (fix go l := match l with [] => true | x :: r => negb (existsb (String.eqb x) r) && go r end) l.
Lemma distinct_ok l : distinctb l = true -> NoDup l.
Proof.
  induction l as [|x l IH]; intros H; [constructor|]. cbn in H. apply Bool.andb_true_iff in H as [N H]. constructor; [|now apply IH].
  intros I. apply Bool.negb_true_iff in N. assert (E : existsb (String.eqb x) l = true) by (apply existsb_exists; exists x; split; [exact I|apply String.eqb_refl]). congruence.
Qed.
Lemma order_once k ns l l' : In (k, ns) (footprint_orders ++ board_orders) -> in_order ns l -> in_order ns l' -> Permutation l l' -> filter other l = filter other l'.
Proof.
  intros I P P' M. destruct (string_dec k "via") as [->|N].
  - assert (E : ns = ["at"; "size"; "drill"; "layers"; "net"]).
    { unfold footprint_orders, board_orders in I. cbn [In app] in I. repeat destruct I as [I|I]; try contradiction; inversion I; reflexivity. }
    subst ns. apply others_of. apply (one_order ["at"; "size"; "drill"; "layers"; "net"]); auto; [apply distinct_ok; reflexivity|]. intros K. cbn [In] in K. decompose [or] K; try contradiction; discriminate.
  - assert (Q : distinctb (filter (fun d => negb (String.eqb d "point")) ns) = true /\
        forallb (fun d => String.eqb d "point" || negb (existsb (String.eqb d) ["xy"; "start"; "end"; "size"; "center"; "rect_delta"])) ns = true).
    { unfold footprint_orders, board_orders in I. cbn [In app] in I. repeat destruct I as [I|I]; try contradiction; inversion I; subst; try (now contradiction N); split; vm_compute; reflexivity. }
    destruct Q as [Q1 Q2]. apply (one_order_points ns); auto; [now apply distinct_ok|]. intros d D ND K. rewrite forallb_forall in Q2. specialize (Q2 d D). apply Bool.orb_true_iff in Q2 as [Q2|Q2].
    + apply String.eqb_eq in Q2. contradiction.
    + apply Bool.negb_true_iff in Q2. assert (E : existsb (String.eqb d) ["xy"; "start"; "end"; "size"; "center"; "rect_delta"] = true) by (apply existsb_exists; exists d; split; [exact K|apply String.eqb_refl]). congruence.
Qed.
Theorem footprint_once k ns l l' e e' : In (k, ns) footprint_orders -> de_element (SList (SStr (lit k) :: l)) = Ok e -> de_element (SList (SStr (lit k) :: l')) = Ok e' ->
  Permutation l l' -> filter other l = filter other l'.
Proof.
  intros I H H' M. apply (order_once k ns); [apply in_or_app; now left|exact (footprint_order k ns l e I H)|exact (footprint_order k ns l' e' I H')|exact M].
Qed.
Theorem board_once k ns l l' b b' : In (k, ns) board_orders -> de_layout (board_tree [SList (SStr (lit k) :: l)]) = Ok b -> de_layout (board_tree [SList (SStr (lit k) :: l')]) = Ok b' ->
  Permutation l l' -> filter other l = filter other l'.
Proof.
  intros I H H' M. apply (order_once k ns); [apply in_or_app; now right|exact (board_order k ns l b I H)|exact (board_order k ns l' b' I H')|exact M].
Qed.
