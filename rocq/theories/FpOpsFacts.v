(** Lemmas about operations on footprints. *)
From Coq Require Import String Reals Lra.
From Flocq Require Import Core.Core IEEE754.BinarySingleNaN.
From Verif Require Import Base Str StrFacts Num F64 F64Text F64Order FpData FpOps FpOpsSpec F64Grid
  Bound BoundSpec BoundFacts.
Open Scope string_scope. Open Scope list_scope.

(** ** Flip *)
Lemma flip_xy_twice p : flip_xy (flip_xy p) = p.
Proof. destruct p as [x y t]. unfold flip_xy; cbn [xy_x xy_y xy_t]. now rewrite fneg_involutive. Qed.
Lemma flip_pts_twice p : flip_pts (flip_pts p) = p.
Proof.
  unfold flip_pts. rewrite map_map. rewrite <- (map_id p) at 2. apply map_ext. apply flip_xy_twice.
Qed.
Lemma flip_layer_twice l : flip_layer (flip_layer l) = l.
Proof. destruct l as [[] t]; reflexivity. Qed.
Lemma flip_layers_twice l : flip_layers (flip_layers l) = l.
Proof.
  unfold flip_layers. rewrite map_map. rewrite <- (map_id l) at 2. apply map_ext. apply flip_layer_twice.
Qed.
Lemma flip_at_twice a : turn_ok (at_rot a) -> flip_at (flip_at a) = a.
Proof.
  destruct a as [x y r]. cbn [at_rot]. intros H. unfold flip_at; cbn [at_x at_y at_rot].
  rewrite fneg_involutive, turn_twice by assumption. reflexivity.
Qed.
Lemma flip_effects_twice e : justify_flips e -> flip_effects (flip_effects e) = e.
Proof. destruct e as [f j]. intros [H|H]; cbn in H; subst j; reflexivity. Qed.

Lemma flip_element_twice e : flips e -> flip_element (flip_element e) = e.
Proof.
  destruct e; cbn [flips flip_element]; intros H; try reflexivity.
  - now rewrite flip_layer_twice.
  - destruct H as [H1 H2]. destruct t as [n v a l ef h]. unfold flip_text.
    cbn [tx_name tx_value tx_at tx_layer tx_effects tx_hide] in *.
    rewrite flip_at_twice, flip_layer_twice, flip_effects_twice by assumption. reflexivity.
  - destruct p as [n t sh sz rd a ls nt zc d pm mm cl tg]. unfold flip_pad.
    cbn [pa_name pa_t pa_shape pa_size pa_rect_delta pa_at pa_layers pa_net pa_zone_connect pa_drill
         pa_paste_margin pa_mask_margin pa_clearance pa_thermal_gap] in *.
    rewrite flip_at_twice, flip_layers_twice by assumption. reflexivity.
  - destruct p as [p w l]. unfold flip_poly. cbn [po_pts po_width po_layer].
    now rewrite flip_pts_twice, flip_layer_twice.
  - destruct l as [a b l w]. unfold flip_line. cbn [li_start li_end li_layer li_width].
    now rewrite !flip_xy_twice, flip_layer_twice.
  - destruct c as [a b l w]. unfold flip_circle. cbn [ci_center ci_end ci_layer ci_width].
    now rewrite !flip_xy_twice, flip_layer_twice.
  - destruct a as [a b g l w]. unfold flip_arc. cbn [ar_start ar_end ar_angle ar_layer ar_width].
    now rewrite !flip_xy_twice, flip_layer_twice.
  - now rewrite flip_at_twice.
Qed.
Lemma flip_module_twice m : Forall flips (m_elements m) -> flip_module (flip_module m) = m.
Proof.
  destruct m as [n l]. unfold flip_module; cbn [m_name m_elements]. intros H. f_equal.
  induction H as [|e l He Hl IH]; cbn [map]; [reflexivity|].
  now rewrite flip_element_twice, IH.
Qed.
(** The module changes side. *)
Lemma flip_is_front m :
  (exists l1 la l2, m_elements m = l1 ++ ELayer la :: l2
     /\ (forall e, In e l1 -> forall x, e <> ELayer x)
     /\ (la_side la = SFront \/ la_side la = SBack)) ->
  is_front (flip_module m) = negb (is_front m).
Proof.
  intros (l1 & la & l2 & E & H1 & H2). unfold is_front, flip_module. cbn [m_elements]. rewrite E.
  clear E. induction l1 as [|e l1 IH]; cbn [map app find_map flip_element].
  - destruct la as [s t]. cbn in H2. destruct H2; subst s; reflexivity.
  - assert (N : forall x, e <> ELayer x) by (apply H1; now left).
    destruct e; cbn [flip_element]; try (apply IH; intros e' He'; apply H1; now right).
    exfalso. eapply N; reflexivity.
Qed.

(** ** set_reference and text lookup *)
Lemma str_eqb_refl' s : str_eqb s s = true.
Proof. now apply str_eqb_eq. Qed.

Definition set_ref1 (old new : str) (e : element) : element :=
  match e with
  | EFpText t =>
      if str_eqb (tx_name t) (lit "reference") && str_eqb (tx_value t) old
      then EFpText (mk_text (tx_name t) new (tx_at t) (tx_layer t) (tx_effects t) (tx_hide t))
      else e
  | _ => e
  end.
Lemma set_reference_map old new m :
  set_reference old new m = mk_module (m_name m) (map (set_ref1 old new) (m_elements m)).
Proof. reflexivity. Qed.

Lemma set_ref1_hit old new t : tx_name t = lit "reference" -> tx_value t = old ->
  set_ref1 old new (EFpText t) = EFpText (mk_text (tx_name t) new (tx_at t) (tx_layer t) (tx_effects t) (tx_hide t)).
Proof. intros H1 H2. cbn [set_ref1]. rewrite H1, H2, !str_eqb_refl'. reflexivity. Qed.
Lemma set_ref1_miss old new e : ~ ref_reads old e -> set_ref1 old new e = e.
Proof.
  intros H. destruct e; try reflexivity. cbn [set_ref1].
  destruct (str_eqb (tx_name t) (lit "reference") && str_eqb (tx_value t) old) eqn:E; [|reflexivity].
  apply andb_prop in E as [E1 E2]. apply str_eqb_eq in E1. apply str_eqb_eq in E2.
  exfalso. apply H. exists t. auto.
Qed.

Lemma set_reference_spec old new m :
  let m' := set_reference old new m in
  m_name m' = m_name m /\ length (m_elements m') = length (m_elements m)
  /\ forall i e, nth_error (m_elements m) i = Some e ->
     (forall t, e = EFpText t -> tx_name t = lit "reference" -> tx_value t = old ->
        nth_error (m_elements m') i =
          Some (EFpText (mk_text (tx_name t) new (tx_at t) (tx_layer t) (tx_effects t) (tx_hide t))))
     /\ (~ ref_reads old e -> nth_error (m_elements m') i = Some e).
Proof.
  rewrite set_reference_map. cbn [m_name m_elements]. split; [reflexivity|]. split; [apply map_length|].
  intros i e H. rewrite (map_nth_error _ _ _ H). split.
  - intros t -> H1 H2. now rewrite set_ref1_hit.
  - intros N. now rewrite set_ref1_miss.
Qed.

Lemma is_ref_iff m r : is_reference_with_name m r = true <-> exists e, In e (m_elements m) /\ ref_reads r e.
Proof.
  unfold is_reference_with_name. rewrite existsb_exists. split.
  - intros (e & Hin & H). exists e. split; [exact Hin|]. destruct e; try discriminate.
    apply andb_prop in H as [H1 H2]. apply str_eqb_eq in H1. apply str_eqb_eq in H2. exists t. auto.
  - intros (e & Hin & t & -> & H1 & H2). exists (EFpText t). split; [exact Hin|].
    rewrite H1, H2, !str_eqb_refl'. reflexivity.
Qed.

Lemma ref_reads_dec r e : {ref_reads r e} + {~ ref_reads r e}.
Proof.
  destruct e; try (right; intros (t' & H & _); discriminate).
  destruct (str_eqb (tx_name t) (lit "reference")) eqn:E1.
  - destruct (str_eqb (tx_value t) r) eqn:E2.
    + left. exists t. apply str_eqb_eq in E1. apply str_eqb_eq in E2. auto.
    + right. intros (t' & H & _ & H2). injection H as <-. rewrite <- H2, str_eqb_refl' in E2. discriminate.
  - right. intros (t' & H & H2 & _). injection H as <-. rewrite H2, str_eqb_refl' in E1. discriminate.
Qed.

Lemma set_reference_gone old new m : old <> new ->
  is_reference_with_name (set_reference old new m) old = false.
Proof.
  intros N. apply not_true_iff_false. rewrite is_ref_iff. intros (e & Hin & H).
  rewrite set_reference_map in Hin. cbn [m_elements] in Hin. apply in_map_iff in Hin as (e0 & <- & _).
  destruct (ref_reads_dec old e0) as [(t & -> & H1 & H2)|M].
  - rewrite set_ref1_hit in H by assumption. destruct H as (t' & E & _ & V). injection E as <-.
    cbn in V. congruence.
  - rewrite set_ref1_miss in H by assumption. contradiction.
Qed.
Lemma set_reference_present old new m : is_reference_with_name m old = true ->
  is_reference_with_name (set_reference old new m) new = true.
Proof.
  rewrite !is_ref_iff. intros (e & Hin & t & -> & H1 & H2).
  exists (EFpText (mk_text (tx_name t) new (tx_at t) (tx_layer t) (tx_effects t) (tx_hide t))).
  split; [|eexists; split; [reflexivity|auto]].
  rewrite set_reference_map; cbn [m_elements]. apply in_map_iff. exists (EFpText t).
  split; [now apply set_ref1_hit|exact Hin].
Qed.
Lemma set_reference_back old new m : is_reference_with_name m new = false ->
  set_reference new old (set_reference old new m) = m.
Proof.
  intros N. rewrite !set_reference_map. cbn [m_name m_elements]. destruct m as [n l].
  cbn [m_name m_elements]. f_equal. rewrite map_map.
  rewrite <- (map_id l) at 2. apply map_ext_in. intros e Hin.
  destruct (ref_reads_dec old e) as [(t & -> & H1 & H2)|M].
  - rewrite set_ref1_hit by assumption. rewrite set_ref1_hit by (cbn; auto).
    destruct t as [a b c d f g]. cbn in *. subst. reflexivity.
  - rewrite (set_ref1_miss old new e) by assumption. apply set_ref1_miss. intros R.
    assert (is_reference_with_name (mk_module n l) new = true); [|congruence].
    apply is_ref_iff. exists e. auto.
Qed.

Lemma find_text_spec w l t :
  find_text w l = Some t <->
  exists l1 l2, l = l1 ++ EFpText t :: l2 /\ tx_name t = w /\ forall e, In e l1 -> ~ text_named w e.
Proof.
  induction l as [|e l IH].
  - split; [discriminate|]. intros ([|] & l2 & H & _); discriminate.
  - assert (Skip : ~ text_named w e ->
      (find_text w l = Some t <-> exists l1 l2, e :: l = l1 ++ EFpText t :: l2 /\ tx_name t = w
        /\ forall e', In e' l1 -> ~ text_named w e')).
    { intros N. rewrite IH. split.
      - intros (l1 & l2 & -> & H1 & H2). exists (e :: l1), l2. split; [reflexivity|]. split; [exact H1|].
        intros e' [<-|Hin]; auto.
      - intros ([|e' l1] & l2 & H & H1 & H2).
        + injection H as -> ->. exfalso. apply N. exists t; auto.
        + injection H as -> ->. exists l1, l2. split; [reflexivity|]. split; [exact H1|].
          intros e'' Hin. apply H2. now right. }
    destruct e; cbn [find_text]; try (apply Skip; intros (t' & H & _); discriminate).
    destruct (str_eqb (tx_name t0) w) eqn:E.
    + apply str_eqb_eq in E. split.
      * intros [= ->]. exists [], l. split; [reflexivity|]. split; [exact E|]. intros e [].
      * intros ([|e' l1] & l2 & H & H1 & H2); [injection H as <- _; reflexivity|].
        injection H as <- _. exfalso. apply (H2 (EFpText t0)); [now left|]. exists t0; auto.
    + apply Skip. intros (t' & H & H1). injection H as <-. rewrite H1, str_eqb_refl' in E. discriminate.
Qed.
Lemma find_text_none w l : find_text w l = None <-> forall e, In e l -> ~ text_named w e.
Proof.
  split.
  - intros H e Hin (t & -> & Hn).
    apply in_split in Hin as (l1 & l2 & ->). revert H.
    induction l1 as [|e l1 IH]; cbn [app find_text].
    + rewrite Hn, str_eqb_refl'. discriminate.
    + destruct e; auto. destruct (str_eqb (tx_name t0) w); [discriminate|]. auto.
  - intros H. destruct (find_text w l) eqn:E; [|reflexivity].
    apply find_text_spec in E as (l1 & l2 & -> & Hn & _).
    exfalso. apply (H (EFpText f)); [apply in_or_app; right; now left|]. exists f; auto.
Qed.

Lemma upd_text_spec w f l :
  match find_text w l with
  | None => upd_text w f l = None
  | Some t => exists l1 l2, l = l1 ++ EFpText t :: l2 /\ (forall e, In e l1 -> ~ text_named w e)
              /\ tx_name t = w /\ upd_text w f l = Some (l1 ++ EFpText (f t) :: l2)
  end.
Proof.
  induction l as [|e l IH]; [reflexivity|].
  assert (Skip : ~ text_named w e ->
     match find_text w l with
  | None => option_map (cons e) (upd_text w f l) = None
  | Some t => exists l1 l2, e :: l = l1 ++ EFpText t :: l2 /\ (forall e, In e l1 -> ~ text_named w e)
              /\ tx_name t = w /\ option_map (cons e) (upd_text w f l) = Some (l1 ++ EFpText (f t) :: l2)
  end).
  { intros N. destruct (find_text w l) as [t|].
    - destruct IH as (l1 & l2 & -> & H1 & H2 & H3). exists (e :: l1), l2. rewrite H3.
      repeat split; auto. intros e' [<-|Hin]; auto.
    - now rewrite IH. }
  destruct e; cbn [find_text upd_text]; try (apply Skip; intros (t' & H & _); discriminate).
  destruct (str_eqb (tx_name t) w) eqn:E.
  - exists [], l. apply str_eqb_eq in E. repeat split; auto.
  - apply Skip. intros (t' & H & H1). injection H as <-. rewrite H1, str_eqb_refl' in E. discriminate.
Qed.

Lemma modify_text_spec m w f :
  match get_text m w with
  | None => modify_text m w f = None
  | Some t => exists l1 l2, m_elements m = l1 ++ EFpText t :: l2 /\ (forall e, In e l1 -> ~ text_named w e)
              /\ tx_name t = w
              /\ modify_text m w f = Some (mk_module (m_name m) (l1 ++ EFpText (f t) :: l2))
  end.
Proof.
  unfold get_text, modify_text. pose proof (upd_text_spec w f (m_elements m)) as H.
  destruct (find_text w (m_elements m)) as [t|].
  - destruct H as (l1 & l2 & H1 & H2 & H3 & H4). exists l1, l2. rewrite H4. auto.
  - now rewrite H.
Qed.

Lemma get_reference_set old new m r : get_reference m = Some r ->
  get_reference (set_reference old new m) = Some (if str_eqb r old then new else r).
Proof.
  unfold get_reference, get_text. rewrite set_reference_map. cbn [m_elements].
  intros H. destruct (find_text (lit "reference") (m_elements m)) as [t|] eqn:E; [|discriminate].
  injection H as <-. revert E. generalize (m_elements m) as l.
  induction l as [|e l IH]; [discriminate|].
  destruct e; try exact IH. cbn [find_text map set_ref1].
  destruct (str_eqb (tx_name t0) (lit "reference")) eqn:E1.
  - intros [= ->]. destruct (str_eqb (tx_value t) old) eqn:E2; cbn [andb find_text].
    + cbn [tx_name]. rewrite E1. reflexivity.
    + rewrite E1. reflexivity.
  - cbn [andb find_text]. rewrite E1. exact IH.
Qed.

(** ** Net names of pads *)
Lemma rename_net_spec old new m :
  let m' := module_rename_net old new m in
  m_name m' = m_name m
  /\ map (fun e => match e with EPad p => EPad (pad_new (pa_name p) (pa_t p) (pa_shape p)) | _ => e end) (m_elements m')
     = map (fun e => match e with EPad p => EPad (pad_new (pa_name p) (pa_t p) (pa_shape p)) | _ => e end) (m_elements m).
Proof.
  unfold module_rename_net. cbn [m_name m_elements]. split; [reflexivity|].
  rewrite map_map. apply map_ext. intros []; reflexivity.
Qed.

(** ** Views *)
Definition elem_is_pad (e : element) : bool := match e with EPad _ => true | _ => false end.
Definition elem_is_line (e : element) : bool := match e with EFpLine _ => true | _ => false end.
Lemma pads_view m : map EPad (pads m) = filter elem_is_pad (m_elements m).
Proof.
  unfold pads. induction (m_elements m) as [|e l IH]; [reflexivity|].
  destruct e; cbn [flat_map app filter elem_is_pad map]; rewrite ?IH; auto.
Qed.
Lemma lines_view m : map EFpLine (fp_lines m) = filter elem_is_line (m_elements m).
Proof.
  unfold fp_lines. induction (m_elements m) as [|e l IH]; [reflexivity|].
  destruct e; cbn [flat_map app filter elem_is_line map]; rewrite ?IH; auto.
Qed.

(** ** Adjust *)
Lemma adjust_module_spec x y m :
  let m' := adjust_module x y m in
  m_name m' = m_name m /\ length (m_elements m') = length (m_elements m)
  /\ forall i e, nth_error (m_elements m) i = Some e ->
     (forall a, e = EAt a ->
        nth_error (m_elements m') i = Some (EAt (mk_at (fadd (at_x a) x) (fadd (at_y a) y) (at_rot a))))
     /\ ((forall a, e <> EAt a) -> nth_error (m_elements m') i = Some e).
Proof.
  unfold adjust_module. cbn [m_name m_elements]. split; [reflexivity|]. split; [apply map_length|].
  intros i e H. rewrite (map_nth_error _ _ _ H). split.
  - intros a ->. reflexivity.
  - intros N. destruct e; try reflexivity. exfalso. eapply N. reflexivity.
Qed.

(** ** Bounding box of a footprint *)
Lemma shift_num x y b : is_finite x = true -> is_finite y = true -> bnum b = true -> bnum (bound_shift x y b) = true.
Proof.
  intros Hx Hy H. apply bnum_iff in H as (?&?&?&?). apply bnum_iff. cbn [bound_shift bx1 by1 bx2 by2].
  auto using fadd_not_nan.
Qed.

Lemma inside_num a b c : inside a b c = true -> bnum c = true.
Proof.
  unfold inside. rewrite !andb_true_iff. intros (((A&B)&C)&D).
  apply bnum_iff. apply fleb_not_nan in A, B, C, D. tauto.
Qed.

Lemma module_bound_covers m x y e : module_at m = (x, y) -> is_finite x = true -> is_finite y = true ->
  Forall (fun e => is_graphics e = true -> is_fab e || is_pad e = true -> bnum (element_bound e) = true) (m_elements m) ->
  In e (m_elements m) -> is_graphics e = true -> is_fab e || is_pad e = true -> bounded (element_bound e) = true ->
  covers (module_bound m) (bound_shift x y (element_bound e)) = true.
Proof.
  intros Hat Fx Fy Hl Hin Hg Hf Hb. unfold module_bound. rewrite Hat.
  set (l := map _ _).
  assert (Hn : Forall (fun b => bnum b = true) l).
  { apply Forall_forall. intros b Hb'. unfold l in Hb'. apply in_map_iff in Hb' as (e' & <- & H').
    apply filter_In in H' as [H' F1]. apply filter_In in H' as [H' F2].
    apply shift_num; auto. rewrite Forall_forall in Hl. auto. }
  assert (Nn : forall u : f64, is_finite u = true -> is_nan u = false) by (intros u; destruct u; auto; discriminate).
  assert (H0 : bnum (bound_new x y x y) = true) by (apply bnum_iff; cbn [bound_new bx1 by1 bx2 by2]; auto).
  assert (O0 : ordered (bound_new x y x y) = true).
  { unfold ordered; cbn [bound_new bx1 by1 bx2 by2]. rewrite !fleb_refl by auto. reflexivity. }
  rewrite swap_id.
  - apply all_covers; auto. unfold l. apply in_map_iff. exists e. split; [reflexivity|].
    apply filter_In. split; [|exact Hf]. apply filter_In. auto.
  - eapply ordered_covers; [exact O0|]. apply all_covers_init; auto.
Qed.

Lemma shift_inside mx my b px py : is_finite mx = true -> is_finite my = true ->
  inside px py b = true -> inside (fadd px mx) (fadd py my) (bound_shift mx my b) = true.
Proof.
  intros Fx Fy. unfold inside. rewrite !andb_true_iff. intros (((A&B)&C)&D).
  cbn [bound_shift bx1 by1 bx2 by2]. repeat split; now apply fadd_mono.
Qed.

(** Own boxes contain the points of the element. *)
Lemma finite_nan u : is_finite u = true -> @is_nan 53 1024 u = false.
Proof. destruct u; auto; discriminate. Qed.

Lemma pts_bound_inside ps p : forallb fin2 ps = true -> In p ps ->
  inside (xy_x p) (xy_y p) (pts_bound ps) = true /\ bounded (pts_bound ps) = true.
Proof.
  intros H Hin. unfold pts_bound. set (l := map _ ps).
  assert (Hl : Forall (fun b => bnum b = true) l).
  { apply Forall_forall. intros b Hb. apply in_map_iff in Hb as (q & <- & Hq).
    rewrite forallb_forall in H. apply H in Hq. apply andb_prop in Hq as [Q1 Q2].
    apply bnum_iff. cbn [bound_point bound_new bx1 by1 bx2 by2]. auto using finite_nan. }
  assert (Hp : In (bound_point (xy_x p) (xy_y p)) l) by (apply in_map_iff; eauto).
  assert (Fp : fin2 p = true) by (rewrite forallb_forall in H; auto).
  apply andb_prop in Fp as [F1 F2].
  assert (I : inside (xy_x p) (xy_y p) (bound_all bound_default l) = true).
  { eapply inside_covers with (b := bound_point (xy_x p) (xy_y p)).
    - unfold inside, bound_point, bound_new; cbn [bx1 by1 bx2 by2].
      rewrite !fleb_refl by auto using finite_nan. reflexivity.
    - apply all_covers; auto. }
  split; [now apply swap_inside|]. rewrite swap_bounded.
  clear - Hp. revert Hp. assert (G : forall l a, bounded a = true -> bounded (bound_all a l) = true).
  { clear. induction l as [|b l IH]; intros a Ha; cbn; [exact Ha|]. apply IH. rewrite update_bounded, Ha. reflexivity. }
  generalize bound_default as a. induction l as [|b l IH]; intros a [].
  - subst b. cbn [bound_all fold_left]. apply G. rewrite update_bounded. cbn. apply orb_true_r.
  - cbn [bound_all fold_left]. now apply IH.
Qed.

Lemma fdiv2_half s : is_finite s = true -> fleb fzero s = true ->
  is_finite (fdiv s f2) = true /\ (0 <= B2R (fdiv s f2))%R.
Proof.
  intros F H. apply fleb_rx in H; auto using finite_nan. rewrite (rx_finite s) in H by assumption. cbn [rx B2R fzero] in H.
  assert (V2 : B2R f2 = 2%R /\ is_finite f2 = true).
  { assert (E : B2SF f2 = SpecFloat.S754_finite false 4503599627370496 (-51)) by (vm_compute; reflexivity).
    split; [|rewrite <- is_finite_SF_B2SF, E; reflexivity].
    rewrite <- SF2R_B2SF, E. cbn [SF2R cond_Zopp]. unfold F2R. cbn [Fnum Fexp].
    change (bpow radix2 (-51)) with (/ IZR (2^51))%R.
    change 4503599627370496%Z with (2 * 2^51)%Z.
    rewrite mult_IZR, Rmult_assoc, Rinv_r; [ring|]. apply not_0_IZR; discriminate. }
  destruct V2 as [V2 F2]. unfold fdiv.
  pose proof (Bdiv_correct 53 1024 _ _ mode_NE s f2) as D. rewrite V2 in D.
  specialize (D ltac:(lra)). change (round radix2 _ _) with rnd in D.
  assert (L : (0 <= rnd (B2R s / 2) <= B2R s)%R).
  { split; [apply rnd_ge0; lra|apply rnd_le_fin; [exact F|lra]]. }
  pose proof (B2R_bound s) as Bs.
  rewrite Rlt_bool_true in D; [|change (bpow radix2 1024) with fmaxR; apply Rabs_lt; lra].
  destruct D as (D1 & D2 & _). rewrite D2, D1. split; [exact F|lra].
Qed.

Lemma rx_le_inside_pm (x d : f64) : is_finite x = true -> is_nan d = false -> (0 <= rx d)%R ->
  fleb (fsub x d) x = true /\ fleb x (fadd x d) = true.
Proof.
  intros Fx Nd Pd. destruct (is_finite d) eqn:Fd.
  - rewrite rx_finite in Pd by assumption.
    destruct (fsub_finite x d Fx Fd) as [V1 N1], (fadd_finite x d Fx Fd) as [V2 N2].
    pose proof (B2R_bound x) as Bx. pose proof fmaxR_big.
    assert (C : clip (B2R x) = B2R x) by (apply clip_id, Rabs_lt; lra).
    split; apply fleb_rx; auto using finite_nan; rewrite (rx_finite x), ?V1, ?V2 by assumption.
    + rewrite <- C at 2. apply clip_le. apply rnd_le_fin; [exact Fx|lra].
    + rewrite <- C at 1. apply clip_le. apply rnd_ge_fin; [exact Fx|lra].
  - destruct d as [s|s| |s m e H]; try discriminate. pose proof fmaxR_pos as P. pose proof (B2R_bound x).
    destruct s; cbn [rx] in Pd; [lra|]. clear Nd.
    assert (fadd x (B754_infinity false) = B754_infinity false) as -> by now apply fadd_inf_r.
    assert (fsub x (B754_infinity false) = B754_infinity true) as ->.
    { unfold fsub. destruct x as [sx|sx| |sx mx ex Hx]; try discriminate; reflexivity. }
    split; apply fleb_rx; auto using finite_nan; rewrite (rx_finite x) by assumption; cbn [rx]; lra.
Qed.
Lemma inside_pm x y d e : is_finite x = true -> is_finite y = true ->
  is_nan d = false -> (0 <= rx d)%R -> is_nan e = false -> (0 <= rx e)%R ->
  inside x y (bound_new (fsub x d) (fsub y e) (fadd x d) (fadd y e)) = true.
Proof.
  intros Fx Fy Nd Pd Ne Pe. destruct (rx_le_inside_pm x d Fx Nd Pd), (rx_le_inside_pm y e Fy Ne Pe).
  unfold inside, bound_new; cbn [bx1 by1 bx2 by2]. rewrite !andb_true_iff. auto.
Qed.

Lemma fsub_not_nan_finite x y : is_finite x = true -> is_finite y = true -> is_nan (fsub x y) = false.
Proof. intros; now apply fsub_finite. Qed.

Lemma fsquare x : is_nan x = false -> is_nan (fmul x x) = false /\ (0 <= rx (fmul x x))%R.
Proof.
  intros N. destruct (is_finite x) eqn:F.
  - unfold fmul. pose proof (Bmult_correct 53 1024 _ _ mode_NE x x) as H.
    change (round radix2 _ _) with rnd in H. change (bpow radix2 1024) with fmaxR in H.
    assert (P : (0 <= rnd (B2R x * B2R x))%R).
    { apply rnd_ge0. exact (Rle_0_sqr (B2R x)). }
    destruct (Rlt_bool (Rabs (rnd (B2R x * B2R x))) fmaxR) eqn:E.
    + destruct H as (H1 & H2 & _). rewrite F in H2. cbn in H2.
      split; [now apply finite_nan|]. rewrite rx_finite by assumption. now rewrite H1.
    + rewrite xorb_nilpotent in H. cbn in H. split; [eapply nan_of_SF; exact H|].
      rewrite (rx_of_SF _ _ H). left. apply fmaxR_pos.
  - destruct x as [s|s| |s m e H]; try discriminate.
    unfold fmul. cbn [Bmult]. rewrite xorb_nilpotent. split; [reflexivity|]. cbn [rx]. left. apply fmaxR_pos.
Qed.
Lemma fadd_nonneg x y : is_nan x = false -> is_nan y = false -> (0 <= rx x)%R -> (0 <= rx y)%R ->
  is_nan (fadd x y) = false /\ (0 <= rx (fadd x y))%R.
Proof.
  intros Nx Ny Px Py. pose proof fmaxR_pos as P. destruct (is_finite x) eqn:Fx; destruct (is_finite y) eqn:Fy.
  - rewrite rx_finite in Px, Py by assumption. destruct (fadd_finite x y Fx Fy) as [V N].
    split; [exact N|]. rewrite V. pose proof (clip_id 0) as C.
    rewrite <- C by (rewrite Rabs_R0; exact P). apply clip_le. apply rnd_ge0. lra.
  - destruct y as [s|s| |s m e H]; try discriminate. rewrite fadd_inf_r by assumption. auto.
  - destruct x as [s|s| |s m e H]; try discriminate. rewrite fadd_inf by assumption. auto.
  - destruct x as [s|s| |s m e H]; try discriminate. destruct y as [s'|s'| |s' m' e' H']; try discriminate.
    destruct s; cbn [rx] in Px; [lra|]. destruct s'; cbn [rx] in Py; [lra|].
    unfold fadd. cbn [Bplus Bool.eqb]. split; [reflexivity|]. cbn [rx]. lra.
Qed.
Lemma fsqrt_nonneg x : is_nan x = false -> (0 <= rx x)%R -> is_nan (fsqrt x) = false /\ (0 <= rx (fsqrt x))%R.
Proof.
  intros N P. pose proof fmaxR_pos as PM. unfold fsqrt.
  destruct x as [s|s| |s m e H].
  - cbn [Bsqrt]. split; [reflexivity|]. cbn [rx B2R]. lra.
  - destruct s; cbn [rx] in P; [lra|]. cbn [Bsqrt]. split; [reflexivity|]. cbn [rx]. lra.
  - discriminate.
  - pose proof (Bsqrt_correct 53 1024 _ _ mode_NE (B754_finite s m e H)) as (V & F & _).
    destruct s.
    + exfalso. cbn [rx B2R cond_Zopp] in P.
      assert (F2R (Float radix2 (Z.neg m) e) < 0)%R by (apply F2R_lt_0; reflexivity). cbn [Z.opp] in P. lra.
    + split; [now apply finite_nan|]. rewrite rx_finite by exact F. rewrite V.
      apply rnd_ge0. apply sqrt_pos.
Qed.

Lemma element_points_inside e p : geo_ok e = true -> ascending e = true -> In p (fab_points e) ->
  inside (fst p) (snd p) (element_bound e) = true /\ bounded (element_bound e) = true
  /\ is_graphics e = true /\ is_fab e || is_pad e = true.
Proof.
  intros G A Hin. destruct e; cbn [fab_points] in Hin; try contradiction.
  - destruct Hin as [<-|[]]. cbn [geo_ok fst snd element_bound] in *.
    rewrite !andb_true_iff in G. destruct G as ((((G1 & G2) & G3) & G4) & G5).
    apply andb_prop in G3 as [G3 G3'].
    destruct (fdiv2_half _ G3 G4) as [D1 P1], (fdiv2_half _ G3' G5) as [D2 P2].
    rewrite <- rx_finite in P1, P2 by assumption.
    unfold pad_bound.
    destruct (_ || _ || _ || _)%bool;
      (split; [apply inside_pm; auto using finite_nan|split; [reflexivity|split; reflexivity]]).
  - destruct (ltype_eqb (la_t (po_layer p0)) LFab) eqn:E; [|contradiction].
    apply in_map_iff in Hin as (q & <- & Hq). cbn [geo_ok element_bound xy_point fst snd] in *.
    destruct (pts_bound_inside _ q G Hq) as [I B]. cbn [is_graphics is_fab is_pad]. rewrite E. auto.
  - destruct (ltype_eqb (la_t (li_layer l)) LFab) eqn:E; [|contradiction].
    cbn [is_graphics is_fab is_pad element_bound line_bound]. rewrite E.
    cbn [geo_ok ascending] in *. apply andb_prop in G as [G1 G2]. apply andb_prop in A as [A1 A2].
    apply andb_prop in G1 as [G1 G1']. apply andb_prop in G2 as [G2 G2'].
    unfold line_bound. split; [|split; [reflexivity|split; reflexivity]].
    destruct Hin as [<-|[<-|[]]]; unfold inside, bound_new, xy_point; cbn [fst snd bx1 by1 bx2 by2];
      rewrite A1, A2, !fleb_refl by auto using finite_nan; reflexivity.
  - destruct (ltype_eqb (la_t (ci_layer c)) LFab) eqn:E; [|contradiction].
    cbn [is_graphics is_fab is_pad element_bound]. rewrite E.
    destruct Hin as [<-|[]]. cbn [geo_ok] in G. apply andb_prop in G as [G1 G2].
    apply andb_prop in G1 as [G1 G1']. apply andb_prop in G2 as [G2 G2'].
    split; [|split; [reflexivity|split; reflexivity]].
    unfold circle_bound, xy_point. cbn [fst snd].
    destruct (fsquare (fsub (xy_x (ci_center c)) (xy_x (ci_end c)))) as [N1 P1]; [now apply fsub_not_nan_finite|].
    destruct (fsquare (fsub (xy_y (ci_center c)) (xy_y (ci_end c)))) as [N2 P2]; [now apply fsub_not_nan_finite|].
    destruct (fadd_nonneg _ _ N1 N2 P1 P2) as [N3 P3].
    destruct (fsqrt_nonneg _ N3 P3) as [N4 P4].
    apply inside_pm; auto.
  - destruct (ltype_eqb (la_t (ar_layer a)) LFab) eqn:E; [|contradiction].
    cbn [is_graphics is_fab is_pad element_bound]. rewrite E.
    cbn [geo_ok ascending] in *. apply andb_prop in G as [G1 G2]. apply andb_prop in A as [A1 A2].
    apply andb_prop in G1 as [G1 G1']. apply andb_prop in G2 as [G2 G2'].
    unfold arc_bound. split; [|split; [reflexivity|split; reflexivity]].
    destruct Hin as [<-|[<-|[]]]; unfold inside, bound_new, xy_point; cbn [fst snd bx1 by1 bx2 by2];
      rewrite A1, A2, !fleb_refl by auto using finite_nan; reflexivity.
Qed.

(** Boxes of well-formed elements have no NaN. *)
Lemma geo_bnum e : geo_ok e = true -> is_graphics e = true -> bnum (element_bound e) = true.
Proof.
  intros G Hg. destruct e; try discriminate; cbn [geo_ok element_bound] in *.
  - rewrite !andb_true_iff in G. destruct G as ((((G1 & G2) & G3) & G4) & G5).
    apply andb_prop in G3 as [G3 G3'].
    destruct (fdiv2_half _ G3 G4) as [D1 P1], (fdiv2_half _ G3' G5) as [D2 P2].
    rewrite <- rx_finite in P1, P2 by assumption.
    unfold pad_bound. destruct (_ || _ || _ || _)%bool; eapply inside_num, inside_pm; auto using finite_nan.
  - destruct (po_pts p) as [|q l] eqn:E; [reflexivity|].
    eapply inside_num. eapply (pts_bound_inside (q :: l) q); [exact G|now left].
  - apply andb_prop in G as [G1 G2]. apply andb_prop in G1 as [G1 G1']. apply andb_prop in G2 as [G2 G2'].
    apply bnum_iff. cbn [line_bound bound_new bx1 by1 bx2 by2]. auto 6 using finite_nan.
  - apply andb_prop in G as [G1 G2].
    apply andb_prop in G1 as [G1 G1']. apply andb_prop in G2 as [G2 G2'].
    destruct (fsquare (fsub (xy_x (ci_center c)) (xy_x (ci_end c)))) as [N1 P1]; [now apply fsub_not_nan_finite|].
    destruct (fsquare (fsub (xy_y (ci_center c)) (xy_y (ci_end c)))) as [N2 P2]; [now apply fsub_not_nan_finite|].
    destruct (fadd_nonneg _ _ N1 N2 P1 P2) as [N3 P3].
    destruct (fsqrt_nonneg _ N3 P3) as [N4 P4].
    eapply inside_num. unfold circle_bound. apply inside_pm; eauto.
  - apply andb_prop in G as [G1 G2]. apply andb_prop in G1 as [G1 G1']. apply andb_prop in G2 as [G2 G2'].
    apply bnum_iff. cbn [arc_bound bound_new bx1 by1 bx2 by2]. auto 6 using finite_nan.
Qed.

Lemma module_bound_points m x y : module_at m = (x, y) -> is_finite x = true -> is_finite y = true ->
  forallb geo_ok (m_elements m) = true -> forallb ascending (m_elements m) = true ->
  forall e p, In e (m_elements m) -> In p (fab_points e) ->
  inside (fadd (fst p) x) (fadd (snd p) y) (module_bound m) = true.
Proof.
  intros Hat Fx Fy G A e p He Hp. rewrite forallb_forall in G, A.
  destruct (element_points_inside e p (G e He) (A e He) Hp) as (I & B & Gr & Fb).
  eapply inside_covers; [apply shift_inside; eassumption|].
  eapply module_bound_covers; eauto. apply Forall_forall. intros e' He' Hg' _.
  now apply geo_bnum; auto.
Qed.
