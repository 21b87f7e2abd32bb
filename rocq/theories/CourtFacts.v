(** The generated courtyard encloses the footprint. *)
From Coq Require Import String Reals Lra Lia.
From Flocq Require Import Core.Core IEEE754.BinarySingleNaN.
From Flocq Require Import Relative.
From Verif Require Import Base Str StrFacts Num F64 F64Text F64Order F64Grid FpData FpLayer Bound BoundSpec BoundFacts FpOps FpOpsSpec FpOpsFacts CheckFix FpCheck CheckSpec.
Open Scope R_scope.

Lemma fsub_inf s y : is_finite y = true -> fsub (B754_infinity s) y = B754_infinity s.
Proof. destruct y; try discriminate; reflexivity. Qed.
Lemma fsub_not_nan x y : is_nan x = false -> is_finite y = true -> is_nan (fsub x y) = false.
Proof. intros Hx Hy. destruct (is_finite x) eqn:F; [now apply fsub_finite|]. destruct x; try discriminate. now rewrite fsub_inf. Qed.
Lemma fsub_mono x y c : is_finite c = true -> fleb x y = true -> fleb (fsub x c) (fsub y c) = true.
Proof.
  intros Hc H. destruct (fleb_not_nan _ _ H) as [Hx Hy]. apply fleb_rx in H; auto.
  apply fleb_rx; try (now apply fsub_not_nan). pose proof fmaxR_pos as P.
  destruct (is_finite x) eqn:Fx; destruct (is_finite y) eqn:Fy.
  - destruct (fsub_finite x c Fx Hc) as [-> _]. destruct (fsub_finite y c Fy Hc) as [-> _].
    rewrite !rx_finite in H by assumption. apply clip_le, rnd_le. lra.
  - destruct y as [|s| |]; try discriminate. rewrite fsub_inf by assumption.
    pose proof (rx_bound (fsub x c)). destruct s; cbn [rx] in *; [|lra].
    rewrite rx_finite in H by assumption. pose proof (B2R_bound x). lra.
  - destruct x as [|s| |]; try discriminate. rewrite fsub_inf by assumption.
    pose proof (rx_bound (fsub y c)). destruct s; cbn [rx] in *; [lra|].
    rewrite rx_finite in H by assumption. pose proof (B2R_bound y). lra.
  - destruct x as [|s| |]; try discriminate. destruct y as [|t| |]; try discriminate.
    rewrite !fsub_inf by assumption. exact H.
Qed.
Lemma big_eq : big = bpow radix2 40. Proof. reflexivity. Qed.
Lemma rnd_error r : Rabs r <= 2 * big -> Rabs (rnd r - r) <= bpow radix2 (-11).
Proof.
  intros B. unfold rnd.
  destruct (error_N_FLT radix2 (-1074) 53 eq_refl (fun z => negb (Z.even z)) r) as (eps & eta & E1 & E2 & _ & E).
  change (round radix2 (SpecFloat.fexp 53 1024) (round_mode mode_NE) r) with (round radix2 (FLT_exp (-1074) 53) ZnearestE r).
  change (round radix2 (FLT_exp (-1074) 53) ZnearestE r) with (round radix2 (FLT_exp (-1074) 53) (Znearest (fun z => negb (Z.even z))) r).
  rewrite E. replace (r * (1 + eps) + eta - r) with (r * eps + eta) by ring.
  eapply Rle_trans; [apply Rabs_triang|]. rewrite Rabs_mult.
  assert (H1 : Rabs r * Rabs eps <= (2 * big) * (/ 2 * bpow radix2 (-53 + 1))) by (apply Rmult_le_compat; try apply Rabs_pos; assumption).
  assert (H2 : bpow radix2 (-1074) <= bpow radix2 (-12)) by (apply bpow_le; lia).
  assert (H3 : big * bpow radix2 (-53 + 1) = bpow radix2 (-12)) by (unfold big; rewrite <- bpow_plus; reflexivity).
  assert (H4 : bpow radix2 (-11) = 2 * bpow radix2 (-12)) by (change (-11)%Z with (1 + -12)%Z; rewrite bpow_plus; reflexivity).
  pose proof (bpow_gt_0 radix2 (-12)). lra.
Qed.
Lemma tiny : bpow radix2 (-11) = / 2048. Proof. cbn. lra. Qed.
Lemma big_max : 4 * big < fmaxR.
Proof. unfold big, fmaxR. change 4 with (bpow radix2 2). rewrite <- bpow_plus. apply bpow_lt. lia. Qed.
Lemma big_pos : 1 < big. Proof. unfold big. change 1 with (bpow radix2 0). apply bpow_lt. lia. Qed.
Lemma clip_finite x r : rx x = clip r -> is_nan x = false -> Rabs r < fmaxR -> is_finite x = true /\ B2R x = r.
Proof.
  intros V N A. rewrite clip_id in V by assumption. destruct x as [s|s| |s m e H]; try discriminate.
  - split; [reflexivity|]. rewrite <- V. reflexivity.
  - cbn [rx] in V. subst r. pose proof fmaxR_pos. destruct s; [rewrite Rabs_Ropp in A|]; rewrite Rabs_pos_eq in A; lra.
  - split; [reflexivity|]. rewrite <- V. now rewrite rx_finite.
Qed.
(** Adding and subtracting the origin moves a coordinate by less than 0.002. *)
Lemma back_and_forth p x : moderate p -> moderate x ->
  is_nan (fsub (fadd p x) x) = false /\ Rabs (rx (fsub (fadd p x) x) - B2R p) <= / 1024.
Proof.
  intros [Fp Bp] [Fx Bx]. pose proof big_max. pose proof big_pos. destruct (fadd_finite p x Fp Fx) as [V N].
  assert (E1 : Rabs (rnd (B2R p + B2R x) - (B2R p + B2R x)) <= / 2048).
  { rewrite <- tiny. apply rnd_error. eapply Rle_trans; [apply Rabs_triang|]. lra. }
  set (s := B2R p + B2R x) in *. assert (Bs : Rabs s <= 2 * big) by (eapply Rle_trans; [apply Rabs_triang|]; lra).
  apply Rabs_le_inv in E1. apply Rabs_le_inv in Bs. apply Rabs_le_inv in Bp. apply Rabs_le_inv in Bx.
  destruct (clip_finite _ _ V N) as [Fq Q]; [apply Rabs_lt; lra|]. destruct (fsub_finite _ x Fq Fx) as [W M]. split; [exact M|].
  rewrite Q in W. set (d := rnd s - B2R x) in *. assert (Bd : - (2 * big) <= d <= 2 * big) by (unfold d, s in *; lra).
  assert (E2 : Rabs (rnd d - d) <= / 2048) by (rewrite <- tiny; apply rnd_error, Rabs_le; lra). apply Rabs_le_inv in E2.
  destruct (clip_finite _ _ W M) as [Fr R]; [apply Rabs_lt; lra|]. rewrite rx_finite, R by exact Fr. apply Rabs_le. unfold d, s in *. lra.
Qed.
Lemma court_low (p x a b o : f64) : moderate p -> moderate x -> is_finite o = true -> / 20 <= B2R o <= 1 ->
  fleb a (fadd p x) = true -> fleb (fadd p x) b = true ->
  fleb (fsub (fmin (fsub a x) (fsub b x)) o) p = true.
Proof.
  intros Mp Mx Fo Bo Ha Hb. destruct Mx as [Fx Bx]. destruct (back_and_forth p x Mp (conj Fx Bx)) as [Nq Eq]. destruct Mp as [Fp Bp].
  apply Rabs_le_inv in Eq. apply Rabs_le_inv in Bp. pose proof big_max. pose proof big_pos.
  assert (Na : is_nan a = false) by (apply fleb_not_nan in Ha; tauto). assert (Nb : is_nan b = false) by (apply fleb_not_nan in Hb; tauto).
  assert (Nu : is_nan (fsub a x) = false) by now apply fsub_not_nan. assert (Nv : is_nan (fsub b x) = false) by now apply fsub_not_nan.
  pose proof (fsub_mono _ _ x Fx Ha) as Hu. apply fleb_rx in Hu; [|assumption|assumption].
  set (m := fmin (fsub a x) (fsub b x)). assert (Nm : is_nan m = false) by now apply fmin_nan.
  assert (Rm : rx m <= B2R p + / 1024). { unfold m. rewrite rx_fmin by assumption. eapply Rle_trans; [apply Rmin_l|]. lra. }
  apply fleb_rx; [now apply fsub_not_nan|now apply finite_nan|]. rewrite (rx_finite p) by assumption.
  destruct (is_finite m) eqn:Fm.
  - destruct (fsub_finite m o Fm Fo) as [W _]. rewrite W. rewrite rx_finite in Rm by assumption.
    assert (Z : rnd (B2R m - B2R o) <= B2R p) by (apply rnd_le_fin; [assumption|lra]). apply clip_le in Z. rewrite (clip_id (B2R p)) in Z; [exact Z|].
    apply Rabs_lt. pose proof (B2R_bound p). lra.
  - destruct m as [|s| |]; try discriminate. rewrite fsub_inf by assumption. destruct s; cbn [rx] in *; [|lra]. pose proof (B2R_bound p). lra.
Qed.
Lemma court_high (p x a b o : f64) : moderate p -> moderate x -> is_finite o = true -> / 20 <= B2R o <= 1 ->
  fleb a (fadd p x) = true -> fleb (fadd p x) b = true ->
  fleb p (fadd (fmax (fsub a x) (fsub b x)) o) = true.
Proof.
  intros Mp Mx Fo Bo Ha Hb. destruct Mx as [Fx Bx]. destruct (back_and_forth p x Mp (conj Fx Bx)) as [Nq Eq]. destruct Mp as [Fp Bp].
  apply Rabs_le_inv in Eq. apply Rabs_le_inv in Bp. pose proof big_max. pose proof big_pos.
  assert (Na : is_nan a = false) by (apply fleb_not_nan in Ha; tauto). assert (Nb : is_nan b = false) by (apply fleb_not_nan in Hb; tauto).
  assert (Nu : is_nan (fsub a x) = false) by now apply fsub_not_nan. assert (Nv : is_nan (fsub b x) = false) by now apply fsub_not_nan.
  pose proof (fsub_mono _ _ x Fx Hb) as Hu. apply fleb_rx in Hu; [|assumption|assumption].
  set (m := fmax (fsub a x) (fsub b x)). assert (Nm : is_nan m = false) by now apply fmax_nan.
  assert (Rm : B2R p - / 1024 <= rx m). { unfold m. rewrite rx_fmax by assumption. eapply Rle_trans; [|apply Rmax_r]. lra. }
  apply fleb_rx; [now apply finite_nan|now apply fadd_not_nan|]. rewrite (rx_finite p) by assumption.
  destruct (is_finite m) eqn:Fm.
  - destruct (fadd_finite m o Fm Fo) as [W _]. rewrite W. rewrite rx_finite in Rm by assumption.
    assert (Z : B2R p <= rnd (B2R m + B2R o)) by (apply rnd_ge_fin; [assumption|lra]). apply clip_le in Z. rewrite (clip_id (B2R p)) in Z; [exact Z|].
    apply Rabs_lt. pose proof (B2R_bound p). lra.
  - destruct m as [|s| |]; try discriminate. rewrite fadd_inf by assumption. destruct s; cbn [rx] in *; [lra|]. pose proof (B2R_bound p). lra.
Qed.

Open Scope string_scope. Open Scope list_scope.
Lemma lit_between (s : string) lo hi : is_finite (flit s) = true -> fleb (flit lo) (flit s) = true -> fleb (flit s) (flit hi) = true ->
  is_finite (flit lo) = true -> is_finite (flit hi) = true -> (B2R (flit lo) <= B2R (flit s) <= B2R (flit hi))%R.
Proof.
  intros F A B Fl Fh. apply fleb_rx in A; [|now apply finite_nan|now apply finite_nan]. apply fleb_rx in B; [|now apply finite_nan|now apply finite_nan].
  rewrite !rx_finite in A, B by assumption. auto.
Qed.
Lemma offset_ok m b : is_finite (courtyard_offset m b) = true /\ (/ 20 <= B2R (courtyard_offset m b) <= 1)%R.
Proof.
  assert (L0 : is_finite (flit "0.0625") = true) by (vm_compute; reflexivity). assert (H0 : is_finite (flit "1") = true) by (vm_compute; reflexivity).
  assert (VL : B2R (flit "0.0625") = (/ 16)%R).
  { assert (Y : B2SF (flit "0.0625") = SpecFloat.S754_finite false 4503599627370496 (-56)) by (vm_compute; reflexivity).
    rewrite <- SF2R_B2SF, Y. cbn [SF2R cond_Zopp]. unfold F2R. cbn [Fnum Fexp]. change (bpow radix2 (-56)) with (/ IZR (2^56))%R.
    change (IZR (2^56)) with 72057594037927936%R. lra. }
  assert (VH : B2R (flit "1") = 1%R).
  { assert (Y : B2SF (flit "1") = SpecFloat.S754_finite false 4503599627370496 (-52)) by (vm_compute; reflexivity).
    rewrite <- SF2R_B2SF, Y. cbn [SF2R cond_Zopp]. unfold F2R. cbn [Fnum Fexp]. change (bpow radix2 (-52)) with (/ IZR (2^52))%R.
    change (IZR (2^52)) with 4503599627370496%R. lra. }
  assert (G : forall s, is_finite (flit s) = true -> fleb (flit "0.0625") (flit s) = true -> fleb (flit s) (flit "1") = true ->
     is_finite (flit s) = true /\ (/ 20 <= B2R (flit s) <= 1)%R).
  { intros s F A B. split; [exact F|]. pose proof (lit_between s "0.0625" "1" F A B L0 H0) as Q. rewrite VL, VH in Q. lra. }
  unfold courtyard_offset. destruct (fltb _ _ && fltb _ _)%bool; [|destruct (starts_with _ _)]; apply G; vm_compute; reflexivity.
Qed.
Lemma courtyard_encloses m x y : module_at m = (x, y) -> moderate x -> moderate y ->
  forallb geo_ok (m_elements m) = true -> forallb ascending (m_elements m) = true ->
  exists x1 y1 x2 y2, rectangle_of x1 y1 x2 y2 (courtyard m) /\
  forall e p, In e (m_elements m) -> In p (fab_points e) -> moderate (fst p) -> moderate (snd p) ->
  fleb x1 (fst p) = true /\ fleb (fst p) x2 = true /\ fleb y1 (snd p) = true /\ fleb (snd p) y2 = true.
Proof.
  intros A Mx My G As. unfold courtyard. rewrite A. do 4 eexists. split.
  { do 4 eexists. split; [reflexivity|]. now repeat split. }
  intros e p He Hp M1 M2. pose proof (module_bound_points m x y A (proj1 Mx) (proj1 My) G As e p He Hp) as I.
  unfold inside in I. apply andb_prop in I as [I I4]. apply andb_prop in I as [I I3]. apply andb_prop in I as [I1 I2].
  destruct (offset_ok m (module_bound m)) as [Fo Bo].
  split; [now apply court_low|]. split; [now apply court_high|]. split; [now apply court_low|now apply court_high].
Qed.

Lemma small_moderate x : smallb x = true -> moderate x.
Proof.
  unfold smallb, moderate. intros H. apply andb_prop in H as [H H2]. apply andb_prop in H as [F H1]. split; [exact F|].
  apply Rle_trans with (IZR 1000000).
  - assert (P : is_finite (f64_of_Z 1000000) = true /\ B2R (f64_of_Z 1000000) = IZR 1000000).
    { assert (Y : B2SF (f64_of_Z 1000000) = SpecFloat.S754_finite false 8589934592000000 (-33)) by (vm_compute; reflexivity).
      split; [vm_compute; reflexivity|]. rewrite <- SF2R_B2SF, Y. cbn [SF2R cond_Zopp]. unfold F2R. cbn [Fnum Fexp].
      change (bpow radix2 (-33)) with (/ IZR (2^33))%R. change (2^33)%Z with 8589934592%Z. lra. }
    assert (M : is_finite (f64_of_Z (-1000000)) = true /\ B2R (f64_of_Z (-1000000)) = IZR (-1000000)).
    { assert (Y : B2SF (f64_of_Z (-1000000)) = SpecFloat.S754_finite true 8589934592000000 (-33)) by (vm_compute; reflexivity).
      split; [vm_compute; reflexivity|]. rewrite <- SF2R_B2SF, Y. cbn [SF2R cond_Zopp]. unfold F2R. cbn [Fnum Fexp Z.opp].
      change (bpow radix2 (-33)) with (/ IZR (2^33))%R. change (2^33)%Z with 8589934592%Z. lra. }
    revert H1 H2 P M. generalize (f64_of_Z (-1000000)), (f64_of_Z 1000000). intros a b H1 H2 [Fb Eb] [Fa Ea].
    unfold fleb in H1, H2. rewrite Bleb_correct in H1, H2 by assumption. destruct (Rle_bool_spec (B2R a) (B2R x)) as [G1|]; [|discriminate]. destruct (Rle_bool_spec (B2R x) (B2R b)) as [G2|]; [|discriminate].
    rewrite Ea in G1. rewrite Eb in G2. apply Rabs_le. lra.
  - unfold big. change (bpow radix2 40) with (IZR (2^40)). apply IZR_le. vm_compute. discriminate.
Qed.
