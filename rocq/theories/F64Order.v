(** The order of f64 values through the reals: non-NaN values compare like
    their real value, infinities being placed beyond every finite value. *)
From Coq Require Import Reals Lra Lia Psatz.
From Flocq Require Import Core.Core IEEE754.BinarySingleNaN.
From Verif Require Import Base F64.
Open Scope R_scope.

Definition fmaxR : R := bpow radix2 1024.

(** Real value; infinities map to +-2^1024. *)
Definition rx (x : f64) : R :=
  match x with
  | B754_infinity s => if s then - fmaxR else fmaxR
  | _ => B2R x
  end.

Lemma fmaxR_pos : 0 < fmaxR. Proof. apply bpow_gt_0. Qed.

Lemma rx_finite x : is_finite x = true -> rx x = B2R x.
Proof. destruct x; try discriminate; reflexivity. Qed.
Lemma B2R_bound (x : f64) : - fmaxR < B2R x < fmaxR.
Proof.
  pose proof (abs_B2R_lt_emax 53 1024 x) as H. change (bpow radix2 1024) with fmaxR in H.
  apply Rabs_lt_inv in H. exact H.
Qed.
Lemma rx_bound x : - fmaxR <= rx x <= fmaxR.
Proof.
  pose proof fmaxR_pos. pose proof (B2R_bound x).
  destruct x as [s|[]| |s m e H2]; cbn [rx] in *; lra.
Qed.

Lemma Bcompare_rx x y : is_nan x = false -> is_nan y = false ->
  Bcompare x y = Some (Rcompare (rx x) (rx y)).
Proof.
  intros Hx Hy. pose proof fmaxR_pos as P.
  destruct (is_finite x) eqn:Fx; destruct (is_finite y) eqn:Fy.
  - rewrite Bcompare_correct by assumption. now rewrite !rx_finite.
  - pose proof (B2R_bound x) as B. rewrite (rx_finite x) by assumption.
    destruct y as [|t| |]; try discriminate. cbn [rx].
    destruct x as [s| | |s m e H2]; try discriminate; destruct t; cbn [Bcompare BinarySingleNaN.Bcompare SpecFloat.SFcompare B2SF];
      f_equal; symmetry; first [apply Rcompare_Lt; lra|apply Rcompare_Gt; lra].
  - pose proof (B2R_bound y) as B. rewrite (rx_finite y) by assumption.
    destruct x as [|t| |]; try discriminate. cbn [rx].
    destruct y as [s| | |s m e H2]; try discriminate; destruct t; cbn [Bcompare BinarySingleNaN.Bcompare SpecFloat.SFcompare B2SF];
      f_equal; symmetry; first [apply Rcompare_Lt; lra|apply Rcompare_Gt; lra].
  - destruct x as [|s| |]; try discriminate. destruct y as [|t| |]; try discriminate.
    destruct s, t; cbn [rx Bcompare BinarySingleNaN.Bcompare SpecFloat.SFcompare B2SF]; f_equal; symmetry;
      first [apply Rcompare_Lt; lra|apply Rcompare_Gt; lra|apply Rcompare_Eq; lra].
Qed.

Lemma fltb_rx x y : is_nan x = false -> is_nan y = false -> fltb x y = true <-> rx x < rx y.
Proof.
  intros Hx Hy. unfold fltb, Bltb, SpecFloat.SFltb.
  change (SpecFloat.SFcompare (B2SF x) (B2SF y)) with (Bcompare x y).
  rewrite Bcompare_rx by assumption.
  destruct (Rcompare_spec (rx x) (rx y)); split; intros; try discriminate; try lra; reflexivity.
Qed.
Lemma fleb_rx x y : is_nan x = false -> is_nan y = false -> fleb x y = true <-> rx x <= rx y.
Proof.
  intros Hx Hy. unfold fleb, Bleb, SpecFloat.SFleb.
  change (SpecFloat.SFcompare (B2SF x) (B2SF y)) with (Bcompare x y).
  rewrite Bcompare_rx by assumption.
  destruct (Rcompare_spec (rx x) (rx y)); split; intros; try discriminate; try lra; reflexivity.
Qed.
Lemma feqb_rx x y : is_nan x = false -> is_nan y = false -> feqb x y = true <-> rx x = rx y.
Proof.
  intros Hx Hy. unfold feqb, Beqb, SpecFloat.SFeqb.
  change (SpecFloat.SFcompare (B2SF x) (B2SF y)) with (Bcompare x y).
  rewrite Bcompare_rx by assumption.
  destruct (Rcompare_spec (rx x) (rx y)); split; intros; try discriminate; try lra; reflexivity.
Qed.
Lemma fgtb_rx x y : is_nan x = false -> is_nan y = false -> fgtb x y = true <-> rx y < rx x.
Proof. intros; unfold fgtb. now apply (fltb_rx y x). Qed.

(** Comparisons with NaN are false. *)
Lemma fleb_nan_l x y : is_nan x = true -> fleb x y = false.
Proof. destruct x; try discriminate; reflexivity. Qed.
Lemma fleb_nan_r x y : is_nan y = true -> fleb x y = false.
Proof. destruct y; try discriminate; destruct x as [| | |[]]; try reflexivity; destruct s; reflexivity. Qed.
Lemma fltb_nan_l x y : is_nan x = true -> fltb x y = false.
Proof. destruct x; try discriminate; reflexivity. Qed.
Lemma fltb_nan_r x y : is_nan y = true -> fltb x y = false.
Proof. destruct y; try discriminate; destruct x as [| | |[]]; try reflexivity; destruct s; reflexivity. Qed.
Lemma feqb_nan_l x y : is_nan x = true -> feqb x y = false.
Proof. destruct x; try discriminate; reflexivity. Qed.
Lemma feqb_nan_r x y : is_nan y = true -> feqb x y = false.
Proof. destruct y; try discriminate; destruct x as [| | |[]]; try reflexivity; destruct s; reflexivity. Qed.

(** If a comparison holds, neither side is NaN. *)
Lemma fleb_not_nan x y : fleb x y = true -> is_nan x = false /\ is_nan y = false.
Proof.
  intros H. destruct (is_nan x) eqn:Ex; [rewrite fleb_nan_l in H by assumption; discriminate|].
  destruct (is_nan y) eqn:Ey; [rewrite fleb_nan_r in H by assumption; discriminate|]. auto.
Qed.
Lemma fltb_not_nan x y : fltb x y = true -> is_nan x = false /\ is_nan y = false.
Proof.
  intros H. destruct (is_nan x) eqn:Ex; [rewrite fltb_nan_l in H by assumption; discriminate|].
  destruct (is_nan y) eqn:Ey; [rewrite fltb_nan_r in H by assumption; discriminate|]. auto.
Qed.
Lemma feqb_not_nan x y : feqb x y = true -> is_nan x = false /\ is_nan y = false.
Proof.
  intros H. destruct (is_nan x) eqn:Ex; [rewrite feqb_nan_l in H by assumption; discriminate|].
  destruct (is_nan y) eqn:Ey; [rewrite feqb_nan_r in H by assumption; discriminate|]. auto.
Qed.

Lemma fleb_refl x : is_nan x = false -> fleb x x = true.
Proof. intros H. apply fleb_rx; auto; lra. Qed.
Lemma fleb_trans x y z : fleb x y = true -> fleb y z = true -> fleb x z = true.
Proof.
  intros H1 H2. destruct (fleb_not_nan _ _ H1), (fleb_not_nan _ _ H2).
  apply fleb_rx; auto. apply fleb_rx in H1; auto. apply fleb_rx in H2; auto. lra.
Qed.
Lemma fleb_antisym x y : fleb x y = true -> fleb y x = true -> feqb x y = true.
Proof.
  intros H1 H2. destruct (fleb_not_nan _ _ H1).
  apply feqb_rx; auto. apply fleb_rx in H1; auto. apply fleb_rx in H2; auto. lra.
Qed.
Lemma fleb_total x y : is_nan x = false -> is_nan y = false -> fleb x y = true \/ fleb y x = true.
Proof. intros Hx Hy. rewrite !fleb_rx by assumption. lra. Qed.
Lemma feqb_refl x : is_nan x = false -> feqb x x = true.
Proof. intros H. now apply feqb_rx. Qed.
Lemma feqb_sym x y : feqb x y = feqb y x.
Proof.
  destruct (is_nan x) eqn:Hx; [rewrite (feqb_nan_l x y), (feqb_nan_r y x) by assumption; reflexivity|].
  destruct (is_nan y) eqn:Hy; [rewrite (feqb_nan_r x y), (feqb_nan_l y x) by assumption; reflexivity|].
  destruct (feqb x y) eqn:E, (feqb y x) eqn:F; try reflexivity.
  - apply feqb_rx in E; auto. assert (feqb y x = true) by (apply feqb_rx; auto). congruence.
  - apply feqb_rx in F; auto. assert (feqb x y = true) by (apply feqb_rx; auto). congruence.
Qed.
Lemma feqb_trans x y z : feqb x y = true -> feqb y z = true -> feqb x z = true.
Proof.
  intros H1 H2. destruct (feqb_not_nan _ _ H1), (feqb_not_nan _ _ H2).
  apply feqb_rx; auto. apply feqb_rx in H1; auto. apply feqb_rx in H2; auto. lra.
Qed.
Lemma feqb_leb x y : feqb x y = true <-> fleb x y = true /\ fleb y x = true.
Proof.
  split; [|intros [H1 H2]; now apply fleb_antisym].
  intros H. destruct (feqb_not_nan _ _ H) as [H1 H2]. apply feqb_rx in H; auto.
  split; apply fleb_rx; auto; lra.
Qed.

(** min and max *)
Lemma fmin_nan x y : is_nan x = false -> is_nan y = false -> is_nan (fmin x y) = false.
Proof. unfold fmin; intros Hx Hy; rewrite Hx, Hy. destruct (fltb y x); assumption. Qed.
Lemma fmax_nan x y : is_nan x = false -> is_nan y = false -> is_nan (fmax x y) = false.
Proof. unfold fmax; intros Hx Hy; rewrite Hx, Hy. destruct (fltb x y); assumption. Qed.
Lemma rx_fmin x y : is_nan x = false -> is_nan y = false -> rx (fmin x y) = Rmin (rx x) (rx y).
Proof.
  unfold fmin; intros Hx Hy; rewrite Hx, Hy. destruct (fltb y x) eqn:E.
  - apply fltb_rx in E; auto. rewrite Rmin_right; lra.
  - rewrite Rmin_left; [reflexivity|]. apply Rnot_lt_le. intros L. apply fltb_rx in L; auto. congruence.
Qed.
Lemma rx_fmax x y : is_nan x = false -> is_nan y = false -> rx (fmax x y) = Rmax (rx x) (rx y).
Proof.
  unfold fmax; intros Hx Hy; rewrite Hx, Hy. destruct (fltb x y) eqn:E.
  - apply fltb_rx in E; auto. rewrite Rmax_right; lra.
  - rewrite Rmax_left; [reflexivity|]. apply Rnot_lt_le. intros L. apply fltb_rx in L; auto. congruence.
Qed.

(** Addition of a finite number is monotone. *)
Definition rnd (r : R) : R := round radix2 (SpecFloat.fexp 53 1024) (round_mode mode_NE) r.
Lemma rnd_le a b : a <= b -> rnd a <= rnd b.
Proof. apply round_le; [apply fexp_correct; reflexivity|apply valid_rnd_round_mode]. Qed.

Definition clip (r : R) : R := Rmax (- fmaxR) (Rmin fmaxR r).
Lemma clip_le a b : a <= b -> clip a <= clip b.
Proof.
  intros H. unfold clip. apply Rle_max_compat_l.
  unfold Rmin. destruct (Rle_dec fmaxR a), (Rle_dec fmaxR b); lra.
Qed.


Lemma Bsign_nonneg (x : f64) : Bsign x = false -> is_finite x = true -> 0 <= B2R x.
Proof.
  destruct x as [s|s| |s m e H]; cbn [Bsign is_finite B2R]; intros S F; try discriminate; try lra; subst s.
  cbn [cond_Zopp]. apply F2R_ge_0. cbn. lia.
Qed.
Lemma Bsign_nonpos (x : f64) : Bsign x = true -> is_finite x = true -> B2R x <= 0.
Proof.
  destruct x as [s|s| |s m e H]; cbn [Bsign is_finite B2R]; intros S F; try discriminate; try lra; subst s.
  cbn [cond_Zopp]. apply F2R_le_0. cbn. lia.
Qed.
Lemma rnd_0 : rnd 0 = 0.
Proof. apply round_0, valid_rnd_round_mode. Qed.

Lemma clip_id r : Rabs r < fmaxR -> clip r = r.
Proof.
  intros H. apply Rabs_lt_inv in H. unfold clip.
  rewrite Rmin_right by lra. rewrite Rmax_right by lra. reflexivity.
Qed.
Lemma clip_hi r : fmaxR <= r -> clip r = fmaxR.
Proof.
  intros H. pose proof fmaxR_pos. unfold clip. rewrite Rmin_left by lra. apply Rmax_right. lra.
Qed.
Lemma clip_lo r : r <= - fmaxR -> clip r = - fmaxR.
Proof.
  intros H. pose proof fmaxR_pos. unfold clip. rewrite Rmin_right by lra. apply Rmax_left. lra.
Qed.

Lemma rx_of_SF x s : B2SF x = SpecFloat.S754_infinity s -> rx x = if s then - fmaxR else fmaxR.
Proof. destruct x; cbn [B2SF]; try discriminate. intros [= ->]. reflexivity. Qed.
Lemma nan_of_SF (x : f64) s : B2SF x = SpecFloat.S754_infinity s -> is_nan x = false.
Proof. destruct x; cbn [B2SF]; try discriminate. reflexivity. Qed.

(** The value of a sum of finite numbers. *)
Lemma fadd_finite x y : is_finite x = true -> is_finite y = true ->
  rx (fadd x y) = clip (rnd (B2R x + B2R y)) /\ is_nan (fadd x y) = false.
Proof.
  intros Hx Hy. unfold fadd.
  pose proof (Bplus_correct 53 1024 _ _ mode_NE x y Hx Hy) as H.
  change (bpow radix2 1024) with fmaxR in H.
  change (round radix2 (SpecFloat.fexp 53 1024) (round_mode mode_NE) (B2R x + B2R y))
    with (rnd (B2R x + B2R y)) in H.
  destruct (Rlt_bool_spec (Rabs (rnd (B2R x + B2R y))) fmaxR) as [L|L].
  - destruct H as (H1 & H2 & _). rewrite rx_finite by assumption. rewrite H1, clip_id by assumption.
    split; [reflexivity|]. destruct (Bplus mode_NE x y); try discriminate; reflexivity.
  - destruct H as [H1 H2]. change (binary_overflow 53 1024 mode_NE (Bsign x)) with (SpecFloat.S754_infinity (Bsign x)) in H1.
    rewrite (rx_of_SF _ _ H1). split; [|eapply nan_of_SF, H1].
    pose proof fmaxR_pos as P. destruct (Bsign x) eqn:S.
    + pose proof (Bsign_nonpos x S Hx). pose proof (Bsign_nonpos y (eq_sym H2) Hy).
      assert (N : rnd (B2R x + B2R y) <= rnd 0) by (apply rnd_le; lra). rewrite rnd_0 in N.
      rewrite Rabs_left1 in L by assumption. rewrite clip_lo; lra.
    + pose proof (Bsign_nonneg x S Hx). pose proof (Bsign_nonneg y (eq_sym H2) Hy).
      assert (N : rnd 0 <= rnd (B2R x + B2R y)) by (apply rnd_le; lra). rewrite rnd_0 in N.
      rewrite Rabs_right in L by lra. rewrite clip_hi; lra.
Qed.

Lemma clip_bound r : - fmaxR <= clip r <= fmaxR.
Proof.
  pose proof fmaxR_pos. unfold clip. split; [apply Rmax_l|].
  apply Rmax_lub; [lra|apply Rmin_l].
Qed.

Lemma fadd_inf s y : is_finite y = true -> fadd (B754_infinity s) y = B754_infinity s.
Proof. destruct y; try discriminate; reflexivity. Qed.
Lemma fadd_inf_r s x : is_finite x = true -> fadd x (B754_infinity s) = B754_infinity s.
Proof. destruct x; try discriminate; reflexivity. Qed.

Lemma fadd_not_nan x y : is_nan x = false -> is_finite y = true -> is_nan (fadd x y) = false.
Proof.
  intros Hx Hy. destruct (is_finite x) eqn:F; [now apply fadd_finite|].
  destruct x; try discriminate. now rewrite fadd_inf.
Qed.

Lemma fadd_mono x y c : is_finite c = true -> fleb x y = true -> fleb (fadd x c) (fadd y c) = true.
Proof.
  intros Hc H. destruct (fleb_not_nan _ _ H) as [Hx Hy]. apply fleb_rx in H; auto.
  apply fleb_rx; try (now apply fadd_not_nan). pose proof fmaxR_pos as P.
  destruct (is_finite x) eqn:Fx; destruct (is_finite y) eqn:Fy.
  - destruct (fadd_finite x c Fx Hc) as [-> _]. destruct (fadd_finite y c Fy Hc) as [-> _].
    rewrite !rx_finite in H by assumption. apply clip_le, rnd_le. lra.
  - destruct y as [|s| |]; try discriminate. rewrite fadd_inf by assumption.
    pose proof (rx_bound (fadd x c)). destruct s; cbn [rx] in *; [|lra].
    rewrite rx_finite in H by assumption. pose proof (B2R_bound x). lra.
  - destruct x as [|s| |]; try discriminate. rewrite fadd_inf by assumption.
    pose proof (rx_bound (fadd y c)). destruct s; cbn [rx] in *; [lra|].
    rewrite rx_finite in H by assumption. pose proof (B2R_bound y). lra.
  - destruct x as [|s| |]; try discriminate. destruct y as [|t| |]; try discriminate.
    rewrite !fadd_inf by assumption. exact H.
Qed.

Lemma fneg_rx x : rx (fneg x) = - rx x.
Proof.
  unfold fneg. destruct x as [s|s| |s m e H].
  - cbn [Bopp rx B2R]. lra.
  - destruct s; cbn [Bopp rx negb]; lra.
  - cbn [Bopp rx B2R]. lra.
  - cbn [rx]. rewrite <- B2R_Bopp. reflexivity.
Qed.
Lemma fneg_nan x : is_nan (fneg x) = is_nan x.
Proof. destruct x; reflexivity. Qed.
Lemma fneg_finite x : is_finite (fneg x) = is_finite x.
Proof. destruct x; reflexivity. Qed.
Lemma fneg_involutive x : fneg (fneg x) = x.
Proof. apply Bopp_involutive. Qed.

Lemma fsub_finite x y : is_finite x = true -> is_finite y = true ->
  rx (fsub x y) = clip (rnd (B2R x - B2R y)) /\ is_nan (fsub x y) = false.
Proof.
  intros Hx Hy. unfold fsub.
  pose proof (Bminus_correct 53 1024 _ _ mode_NE x y Hx Hy) as H.
  change (bpow radix2 1024) with fmaxR in H.
  change (round radix2 (SpecFloat.fexp 53 1024) (round_mode mode_NE) (B2R x - B2R y))
    with (rnd (B2R x - B2R y)) in H.
  destruct (Rlt_bool_spec (Rabs (rnd (B2R x - B2R y))) fmaxR) as [L|L].
  - destruct H as (H1 & H2 & _). rewrite rx_finite by assumption. rewrite H1, clip_id by assumption.
    split; [reflexivity|]. destruct (Bminus mode_NE x y); try discriminate; reflexivity.
  - destruct H as [H1 H2]. change (binary_overflow 53 1024 mode_NE (Bsign x)) with (SpecFloat.S754_infinity (Bsign x)) in H1.
    rewrite (rx_of_SF _ _ H1). split; [|eapply nan_of_SF, H1].
    pose proof fmaxR_pos as P. destruct (Bsign x) eqn:S.
    + pose proof (Bsign_nonpos x S Hx). symmetry in H2. apply negb_true_iff in H2.
      pose proof (Bsign_nonneg y H2 Hy).
      assert (N : rnd (B2R x - B2R y) <= rnd 0) by (apply rnd_le; lra). rewrite rnd_0 in N.
      rewrite Rabs_left1 in L by assumption. rewrite clip_lo; lra.
    + pose proof (Bsign_nonneg x S Hx). symmetry in H2. apply negb_false_iff in H2.
      pose proof (Bsign_nonpos y H2 Hy).
      assert (N : rnd 0 <= rnd (B2R x - B2R y)) by (apply rnd_le; lra). rewrite rnd_0 in N.
      rewrite Rabs_right in L by lra. rewrite clip_hi; lra.
Qed.

(** Adding zero keeps the value (up to the sign of zero). *)
Lemma fadd_zero x : is_nan x = false -> feqb (fadd x fzero) x = true.
Proof.
  intros Hx. apply feqb_rx; auto; [now apply fadd_not_nan|].
  destruct (is_finite x) eqn:F.
  - destruct (fadd_finite x fzero F eq_refl) as [-> _]. cbn [B2R fzero].
    rewrite Rplus_0_r. unfold rnd. rewrite round_generic; [|apply valid_rnd_round_mode|apply generic_format_B2R].
    rewrite rx_finite by assumption. apply clip_id. pose proof (B2R_bound x). apply Rabs_lt. lra.
  - destruct x; try discriminate. now rewrite fadd_inf.
Qed.

(** Two finite non-zero values with the same real value are identical. *)
Lemma B2R_inj_nz (x y : f64) : is_finite x = true -> is_finite y = true ->
  B2R x = B2R y -> Bsign x = Bsign y -> x = y.
Proof. intros. now apply B2R_Bsign_inj. Qed.
