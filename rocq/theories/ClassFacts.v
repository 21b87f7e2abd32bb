(** Lemmas for C52, C54 and C55. *)
From Coq Require Import String Lia Reals Lra.
From Flocq Require Import IEEE754.BinarySingleNaN Core.
From Verif Require Import Base Str StrFacts F64 F64Order F64Text FixFacts Bound BoundSpec BoundFacts FpData FpOps LyData LyOps ClassSpec.
Open Scope string_scope. Open Scope list_scope.

Lemma feqb_num x y : feqb x y = true <-> num_eq x y.
Proof.
  split.
  - intros H. destruct (feqb_not_nan _ _ H) as [A B]. split; [exact A|]. split; [exact B|]. now apply feqb_rx.
  - intros (A & B & C). now apply feqb_rx.
Qed.
Lemma opt_feqb_num x y : opt_eqb feqb x y = true <-> opt_num_eq x y.
Proof. destruct x, y; cbn [opt_eqb opt_num_eq]; try apply feqb_num; split; auto; discriminate || tauto. Qed.
Lemma class_iff a b : equal_no_net a b = true <-> same_class a b.
Proof.
  unfold equal_no_net, net_class_eqb, same_class.
  destruct a as [a1 a2 a3 a4 a5 a6 a7 a8 a9 a10 a11], b as [b1 b2 b3 b4 b5 b6 b7 b8 b9 b10 b11].
  cbn [with_nc_nets nc_name nc_desc nc_clearance nc_trace_width nc_via_dia nc_via_drill nc_uvia_dia nc_uvia_drill nc_dp_gap nc_dp_width LyData.nc_nets].
  cbn [list_eqb]. rewrite !andb_true_iff, !feqb_num, !opt_feqb_num, !str_eqb_eq. tauto.
Qed.
Lemma class_nets a b l k : equal_no_net (with_nc_nets a l) (with_nc_nets b k) = equal_no_net a b.
Proof. destruct a, b. reflexivity. Qed.
Lemma num_sym x y : num_eq x y -> num_eq y x.
Proof. intros (A & B & C). unfold num_eq. auto. Qed.
Lemma num_trans x y z : num_eq x y -> num_eq y z -> num_eq x z.
Proof. intros (A & B & C) (D & E & F). unfold num_eq. split; [exact A|]. split; [exact E|]. now rewrite C. Qed.
Lemma opt_sym x y : opt_num_eq x y -> opt_num_eq y x.
Proof. destruct x, y; cbn; auto. apply num_sym. Qed.
Lemma opt_trans x y z : opt_num_eq x y -> opt_num_eq y z -> opt_num_eq x z.
Proof. destruct x, y, z; cbn; try tauto. apply num_trans. Qed.
Lemma same_sym a b : same_class a b -> same_class b a.
Proof. intros (H1 & H2 & H3 & H4 & H5 & H6 & H7 & H8 & H9 & H10). unfold same_class. rewrite H1, H2. auto 20 using num_sym, opt_sym. Qed.
Lemma same_trans a b c : same_class a b -> same_class b c -> same_class a c.
Proof.
  intros (H1 & H2 & H3 & H4 & H5 & H6 & H7 & H8 & H9 & H10) (K1 & K2 & K3 & K4 & K5 & K6 & K7 & K8 & K9 & K10).
  unfold same_class. rewrite H1, H2.
  split; [exact K1|]. split; [exact K2|]. split; [eapply num_trans; eassumption|]. split; [eapply num_trans; eassumption|].
  split; [eapply num_trans; eassumption|]. split; [eapply num_trans; eassumption|]. split; [eapply num_trans; eassumption|].
  split; [eapply num_trans; eassumption|]. split; eapply opt_trans; eassumption.
Qed.
Lemma class_sym a b : equal_no_net a b = equal_no_net b a.
Proof.
  destruct (equal_no_net a b) eqn:E, (equal_no_net b a) eqn:F; try reflexivity.
  - apply class_iff, same_sym, class_iff in E. congruence.
  - apply class_iff, same_sym, class_iff in F. congruence.
Qed.
Lemma class_trans a b c : equal_no_net a b = true -> equal_no_net b c = true -> equal_no_net a c = true.
Proof. rewrite !class_iff. apply same_trans. Qed.
Lemma class_refl a : equal_no_net a a = true <-> class_numbers a = true.
Proof.
  rewrite class_iff. unfold same_class, class_numbers, num_eq. destruct a as [nm de c1 c2 c3 c4 c5 c6 g w ns].
  cbn [nc_name nc_desc nc_clearance nc_trace_width nc_via_dia nc_via_drill nc_uvia_dia nc_uvia_drill nc_dp_gap nc_dp_width].
  rewrite !forallb_app, !andb_true_iff. cbn [forallb]. rewrite !andb_true_iff, !negb_true_iff.
  assert (O : forall o, opt_num_eq o o <-> forallb (fun x : f64 => negb (is_nan x)) match o with Some x => [x] | None => [] end = true).
  { intros [x|]; cbn [opt_num_eq forallb]; [|tauto]. unfold num_eq. rewrite andb_true_r, negb_true_iff. tauto. }
  rewrite !O. tauto.
Qed.

(** C54 *)
Open Scope R_scope.
Lemma rnd_opp r : rnd (- r) = - rnd r.
Proof. unfold rnd. apply round_NE_opp. Qed.
Lemma rnd_abs r : Rabs (rnd r) = rnd (Rabs r).
Proof.
  destruct (Rle_dec 0 r) as [H|H].
  - rewrite (Rabs_pos_eq r) by exact H. apply Rabs_pos_eq. rewrite <- rnd_0. now apply rnd_le.
  - apply Rnot_le_lt in H. rewrite (Rabs_left r) by exact H. rewrite rnd_opp. apply Rabs_left1. rewrite <- rnd_0. apply rnd_le. lra.
Qed.
Lemma clip_abs r : Rabs (clip r) = Rmin fmaxR (Rabs r).
Proof.
  pose proof fmaxR_pos as P. destruct (Rle_dec fmaxR r) as [H|H].
  - rewrite clip_hi by exact H. rewrite !Rabs_pos_eq by lra. now rewrite Rmin_left.
  - destruct (Rle_dec r (- fmaxR)) as [K|K].
    + rewrite clip_lo by exact K. rewrite !Rabs_left1 by lra. rewrite Rmin_left by lra. lra.
    + assert (L : Rabs r < fmaxR) by (apply Rabs_def1; lra). rewrite clip_id by exact L. rewrite Rmin_right by lra. reflexivity.
Qed.
Lemma side_exact x y : is_finite x = true -> is_finite y = true ->
  is_nan (fabs (fsub x y)) = false /\ rx (fabs (fsub x y)) = Rmin fmaxR (rnd (Rabs (B2R x - B2R y))).
Proof.
  intros X Y. destruct (fsub_finite x y X Y) as [A B]. split; [now rewrite fabs_nan|].
  rewrite rx_fabs, A, clip_abs, rnd_abs. reflexivity.
Qed.
Lemma finite_box_iff b : finite_box b = true <->
  is_finite (bx1 b) = true /\ is_finite (by1 b) = true /\ is_finite (bx2 b) = true /\ is_finite (by2 b) = true.
Proof. unfold finite_box. rewrite !andb_true_iff. tauto. Qed.
Lemma width_exact b : finite_box b = true ->
  is_nan (bound_width b) = false /\ rx (bound_width b) = Rmin fmaxR (rnd (Rabs (B2R (bx1 b) - B2R (bx2 b)))).
Proof. intros (A & B & C & D)%finite_box_iff. now apply side_exact. Qed.
Lemma height_exact b : finite_box b = true ->
  is_nan (bound_height b) = false /\ rx (bound_height b) = Rmin fmaxR (rnd (Rabs (B2R (by1 b) - B2R (by2 b)))).
Proof. intros (A & B & C & D)%finite_box_iff. now apply side_exact. Qed.
Lemma side_mono a b c d : is_finite a = true -> is_finite b = true -> is_finite c = true -> is_finite d = true ->
  fleb b c = true -> fleb a b = true -> fleb c d = true -> fleb (fabs (fsub b c)) (fabs (fsub a d)) = true.
Proof.
  intros A B C D L1 L2 L3. destruct (side_exact b c B C) as [N1 E1], (side_exact a d A D) as [N2 E2].
  apply fleb_rx; [exact N1|exact N2|]. rewrite E1, E2.
  assert (F : forall x y : f64, is_finite x = true -> is_finite y = true -> fleb x y = true -> B2R x <= B2R y).
  { intros x y X Y H. apply fleb_rx in H; [|now destruct x|now destruct y]. now rewrite !rx_finite in H by assumption. }
  apply F in L1, L2, L3; try assumption.
  rewrite (Rabs_left1 (B2R b - B2R c)) by lra. rewrite (Rabs_left1 (B2R a - B2R d)) by lra.
  assert (M : rnd (- (B2R b - B2R c)) <= rnd (- (B2R a - B2R d))) by (apply rnd_le; lra).
  unfold Rmin. destruct (Rle_dec fmaxR (rnd (- (B2R b - B2R c)))), (Rle_dec fmaxR (rnd (- (B2R a - B2R d)))); lra.
Qed.
Lemma extent_mono c b : finite_box c = true -> finite_box b = true -> ordered b = true -> covers c b = true ->
  fleb (bound_width b) (bound_width c) = true /\ fleb (bound_height b) (bound_height c) = true.
Proof.
  intros (A & B & C & D)%finite_box_iff (E & F & G & H)%finite_box_iff O V.
  unfold ordered in O. apply andb_prop in O as [O1 O2]. unfold covers in V. rewrite !andb_true_iff in V. destruct V as [[[V1 V2] V3] V4].
  split; apply side_mono; assumption.
Qed.
Lemma side_sym x y : is_finite x = true -> is_finite y = true -> feqb (fabs (fsub x y)) (fabs (fsub y x)) = true.
Proof.
  intros X Y. destruct (side_exact x y X Y) as [N1 E1], (side_exact y x Y X) as [N2 E2].
  apply feqb_rx; [exact N1|exact N2|]. rewrite E1, E2. now rewrite Rabs_minus_sym.
Qed.
Lemma extent_swap b : finite_box b = true ->
  feqb (bound_width (bound_swap b)) (bound_width b) = true /\ feqb (bound_height (bound_swap b)) (bound_height b) = true.
Proof.
  intros F. pose proof F as (A & B & C & D)%finite_box_iff. destruct (width_exact b F) as [W _], (height_exact b F) as [H _].
  unfold bound_swap. destruct (fgtb (bx1 b) (bx2 b)), (fgtb (by1 b) (by2 b)); unfold bound_width, bound_height in *; cbn [bx1 bx2 by1 by2];
    (split; [first [now apply side_sym|now apply feqb_refl]|first [now apply side_sym|now apply feqb_refl]]).
Qed.
Lemma extent_nonneg b : finite_box b = true -> fleb fzero (bound_width b) = true /\ fleb fzero (bound_height b) = true.
Proof.
  intros F. destruct (width_exact b F) as [N1 _], (height_exact b F) as [N2 _].
  split; (apply fleb_rx; [reflexivity|assumption|]); unfold bound_width, bound_height; rewrite rx_fabs; apply Rabs_pos.
Qed.
Lemma extent_update a b : finite_box a = true -> finite_box b = true -> bounded a = true -> bounded b = true ->
  ordered a = true -> ordered b = true -> let u := bound_update a b in
  fleb (bound_width a) (bound_width u) = true /\ fleb (bound_width b) (bound_width u) = true /\
  fleb (bound_height a) (bound_height u) = true /\ fleb (bound_height b) (bound_height u) = true.
Proof.
  intros Fa Fb Ba Bb Oa Ob u.
  assert (K : forall b, finite_box b = true -> bnum b = true).
  { intros c (A & B & C & D)%finite_box_iff. apply bnum_iff. repeat split; match goal with H : is_finite ?x = true |- is_nan ?x = false => now destruct x end. }
  destruct (update_lub a b Ba Bb (K a Fa) (K b Fb)) as (C1 & C2 & _).
  assert (Fu : finite_box u = true).
  { apply finite_box_iff in Fa, Fb. unfold u, bound_update. rewrite Bb, Ba. cbn [negb]. apply finite_box_iff. cbn [bx1 by1 bx2 by2].
    assert (M : forall x y, is_finite x = true -> is_finite y = true -> is_finite (fmin x y) = true /\ is_finite (fmax x y) = true).
    { intros x y X Y. unfold fmin, fmax. destruct (is_nan x), (is_nan y), (fltb y x), (fltb x y); auto. }
    split; [|split; [|split]]; apply M; tauto. }
  destruct (extent_mono u a Fu Fa Oa C1), (extent_mono u b Fu Fb Ob C2). auto.
Qed.
Close Scope R_scope.

(** C55 *)
Lemma find_first {A B} (f : A -> option B) l : first_match (fun x b => f x = Some b) l (find_map f l).
Proof.
  induction l as [|x l IH]; cbn [find_map]; [constructor; intros x b []|].
  destruct (f x) as [b|] eqn:E.
  - apply (fm_some _ [] x l b); [intros y c []|exact E].
  - inversion IH as [l' H|l1 y l2 b H W]; subst.
    + constructor. intros y c [<-|I]; [congruence|now apply H].
    + apply (fm_some _ (x :: l1) y l2 b); [|exact W]. intros z c [<-|I]; [congruence|now apply (H z c)].
Qed.
Lemma first_ext {A B} (p q : A -> B -> Prop) l o : (forall x b, p x b <-> q x b) -> first_match p l o -> first_match q l o.
Proof.
  intros E [l' H|l1 x l2 b H W]; constructor; try (intros y c I K; apply E in K; revert K; now apply H).
  now apply E.
Qed.
Lemma first_fun {A B} (p : A -> B -> Prop) l o o' : (forall x b c, p x b -> p x c -> b = c) -> first_match p l o -> first_match p l o' -> o = o'.
Proof.
  intros U H. revert o'. induction l as [|x l IH] in o, H |- *; intros o' H'.
  - inversion H as [? _ E|l1 ? ? ? ? ? E]; subst; [|destruct l1; discriminate].
    inversion H' as [? _ E|l1 ? ? ? ? ? E]; subst; [reflexivity|destruct l1; discriminate].
  - assert (S : forall r, first_match p (x :: l) r -> (exists b, p x b /\ r = Some b) \/ ((forall b, ~ p x b) /\ first_match p l r)).
    { intros r K. inversion K as [l' N E|l1 y l2 b N W E]; subst.
      - right. split; [intros b; apply N; now left|]. constructor. intros y b I. apply N. now right.
      - destruct l1 as [|z l1]; cbn in E; injection E as -> <-.
        + left. eauto.
        + right. split; [intros c; apply N; now left|]. apply fm_some; [|exact W]. intros y' c I. apply N. now right. }
    destruct (S o H) as [(b & PB & ->)|[N K]], (S o' H') as [(c & PC & ->)|[N' K']].
    + now rewrite (U x b c PB PC).
    + destruct (N' b PB).
    + destruct (N c PC).
    + now apply IH.
Qed.
Lemma tstamp_first m : first_match (fun e z => e = ETStamp z) (m_elements m) (get_tstamp m).
Proof. eapply first_ext; [|apply find_first]. intros [] w; split; intros H; try discriminate H; injection H as <-; reflexivity. Qed.
Lemma tedit_first m : first_match (fun e z => e = ETEdit z) (m_elements m) (get_tedit m).
Proof. eapply first_ext; [|apply find_first]. intros [] w; split; intros H; try discriminate H; injection H as <-; reflexivity. Qed.
Lemma placed_first m : exists o, first_match placed (m_elements m) o /\
  module_at m = match o with Some a => (at_x a, at_y a) | None => (fzero, fzero) end /\
  get_rotation m = match o with Some a => at_rot a | None => fzero end.
Proof.
  exists (find_map (fun e => match e with EAt a => Some a | _ => None end) (m_elements m)). split.
  - eapply first_ext; [|apply find_first]. unfold placed. intros [] w; split; intros H; try discriminate H; injection H as <-; reflexivity.
  - unfold module_at, get_rotation. induction (m_elements m) as [|e l IH]; [split; reflexivity|].
    cbn [find_map]. destruct e; try exact IH. split; reflexivity.
Qed.
Lemma layer_first m : exists o, first_match (fun e l => e = ELayer l) (m_elements m) o /\
  (is_front m = true <-> o = None \/ exists l, o = Some l /\ la_side l = SFront).
Proof.
  exists (find_map (fun e => match e with ELayer a => Some a | _ => None end) (m_elements m)). split.
  - eapply first_ext; [|apply find_first]. intros [] w; split; intros H; try discriminate H; injection H as <-; reflexivity.
  - unfold is_front. induction (m_elements m) as [|e l IH]; [split; auto|].
    cbn [find_map]. destruct e as [f|la|s|s|s|t|p|p|l0|c|a|z|z|s|a|m0|f|]; try exact IH.
    destruct (la_side la) eqn:E; cbn [side_eqb];
      (split; [intros H; try discriminate H; right; eauto|intros [H|(k & H & S)]; [discriminate H|injection H as <-; try congruence; reflexivity]]).
Qed.
Lemma smd_iff m : has_smd_attr m = true <-> In (EAttr (lit "smd")) (m_elements m).
Proof.
  unfold has_smd_attr. rewrite existsb_exists. split.
  - intros (e & I & H). destruct e; try discriminate H. apply str_eqb_eq in H. now subst.
  - intros I. exists (EAttr (lit "smd")). split; [exact I|apply str_eqb_refl].
Qed.
