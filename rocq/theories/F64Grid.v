(** Exact arithmetic of f64 on the grid of multiples of 2^-43. *)
From Coq Require Import Reals Lra Lia ZArith.
From Flocq Require Import Core.Core IEEE754.BinarySingleNaN.
From Verif Require Import Base F64 F64Text F64Order FpData FpOps FpOpsSpec.
Open Scope R_scope.

Lemma b43 : bpow radix2 (-43) = / IZR (2^43).
Proof. reflexivity. Qed.
Lemma b43_pos : 0 < bpow radix2 (-43).
Proof. apply bpow_gt_0. Qed.
Lemma fmaxR_big : 1024 < fmaxR.
Proof.
  unfold fmaxR. change 1024 with (bpow radix2 10). apply bpow_lt. reflexivity.
Qed.

Lemma rnd_grid k r : r = IZR k * bpow radix2 (-43) -> Rabs r < 1024 -> rnd r = r.
Proof.
  intros Hr Hb. unfold rnd. apply round_generic; [apply valid_rnd_N|].
  apply (generic_format_FLT radix2 (-1074) 53).
  exists (Float radix2 k (-43)); [exact Hr| |cbn; lia].
  cbn [Fnum]. change (radix_val radix2 ^ 53)%Z with (2^53)%Z.
  subst r. rewrite Rabs_mult, (Rabs_pos_eq (bpow _ _)) in Hb by (left; apply b43_pos).
  assert (H : Rabs (IZR k) < 1024 * IZR (2^43)).
  { rewrite b43 in Hb. apply Rmult_lt_reg_r with (/ IZR (2^43)).
    - apply Rinv_0_lt_compat. apply IZR_lt. reflexivity.
    - rewrite Rmult_assoc, Rinv_r, Rmult_1_r; [exact Hb|]. apply not_0_IZR. discriminate. }
  rewrite <- abs_IZR, <- mult_IZR in H. apply lt_IZR in H. exact H.
Qed.

Lemma exact_value x r : rx x = clip r -> Rabs r < 1024 -> is_nan x = false -> is_finite x = true /\ B2R x = r.
Proof.
  intros Hx Hr Hn. pose proof fmaxR_big as P. rewrite clip_id in Hx by lra.
  apply Rabs_lt_inv in Hr.
  destruct x as [s|s| |s m e H].
  - cbn [rx] in Hx. auto.
  - cbn [rx] in Hx. destruct s; lra.
  - discriminate.
  - cbn [rx] in Hx. auto.
Qed.

Lemma grid_add x y : grid x -> grid y -> Rabs (B2R x + B2R y) < 1024 ->
  grid (fadd x y) /\ B2R (fadd x y) = B2R x + B2R y.
Proof.
  intros [Fx [k Hk]] [Fy [j Hj]] Hb.
  assert (E : B2R x + B2R y = IZR (k + j) * bpow radix2 (-43)) by (rewrite Hk, Hj, plus_IZR; ring).
  destruct (fadd_finite x y Fx Fy) as [H1 H2].
  rewrite (rnd_grid _ _ E Hb) in H1.
  destruct (exact_value _ _ H1 Hb H2) as [F V].
  split; [split; [exact F|exists (k+j)%Z; congruence]|exact V].
Qed.
Lemma grid_sub x y : grid x -> grid y -> Rabs (B2R x - B2R y) < 1024 ->
  grid (fsub x y) /\ B2R (fsub x y) = B2R x - B2R y.
Proof.
  intros [Fx [k Hk]] [Fy [j Hj]] Hb.
  assert (E : B2R x - B2R y = IZR (k - j) * bpow radix2 (-43)) by (rewrite Hk, Hj, minus_IZR; ring).
  destruct (fsub_finite x y Fx Fy) as [H1 H2].
  rewrite (rnd_grid _ _ E Hb) in H1.
  destruct (exact_value _ _ H1 Hb H2) as [F V].
  split; [split; [exact F|exists (k-j)%Z; congruence]|exact V].
Qed.

Lemma f360_value : is_finite f360 = true /\ B2R f360 = 360.
Proof.
  assert (E : B2SF f360 = SpecFloat.S754_finite false 6333186975989760 (-44)) by (vm_compute; reflexivity).
  split; [rewrite <- is_finite_SF_B2SF, E; reflexivity|].
  rewrite <- SF2R_B2SF, E. cbn [SF2R cond_Zopp]. unfold F2R. cbn [Fnum Fexp].
  change (bpow radix2 (-44)) with (/ IZR (2^44)).
  change 6333186975989760%Z with (360 * 2^44)%Z.
  apply Rmult_eq_reg_r with (IZR (2^44)); [|apply not_0_IZR; discriminate].
  rewrite Rmult_assoc, Rinv_l by (apply not_0_IZR; discriminate).
  rewrite Rmult_1_r, <- mult_IZR. reflexivity.
Qed.
Lemma f360_grid : grid f360.
Proof.
  destruct f360_value as [F V]. split; [exact F|]. exists (360 * 2^43)%Z.
  rewrite V, b43, mult_IZR, Rmult_assoc, Rinv_r; [ring|]. apply not_0_IZR; discriminate.
Qed.

Lemma gridb_grid x : gridb x = true -> grid x.
Proof.
  destruct x as [s|s| |s m e H]; cbn [gridb]; try discriminate; intros Hg.
  - split; [reflexivity|]. exists 0%Z. cbn [B2R]. ring.
  - split; [reflexivity|]. cbn [B2R]. unfold F2R; cbn [Fnum Fexp].
    apply orb_prop in Hg as [Hg|Hg].
    + apply Z.leb_le in Hg. exists (cond_Zopp s (Z.pos m) * 2 ^ (e + 43))%Z.
      rewrite mult_IZR, Rmult_assoc. f_equal.
      change 2%Z with (radix_val radix2). rewrite IZR_Zpower by lia.
      rewrite <- bpow_plus. f_equal. lia.
    + destruct (Z.le_gt_cases (-43) e) as [L|L].
      { exists (cond_Zopp s (Z.pos m) * 2 ^ (e + 43))%Z.
      rewrite mult_IZR, Rmult_assoc. f_equal.
      change 2%Z with (radix_val radix2). rewrite IZR_Zpower by lia.
      rewrite <- bpow_plus. f_equal. lia. }
      apply Z.eqb_eq in Hg. apply Z.div_exact in Hg; [|apply Z.pow_nonzero; lia].
      exists (cond_Zopp s (Z.pos m / 2 ^ (-43 - e)))%Z.
      replace (bpow radix2 (-43)) with (IZR (2 ^ (-43 - e)) * bpow radix2 e).
      * rewrite <- Rmult_assoc, <- mult_IZR. f_equal. f_equal.
        destruct s; cbn [cond_Zopp]; lia.
      * change 2%Z with (radix_val radix2). rewrite IZR_Zpower by lia.
        rewrite <- bpow_plus. f_equal. lia.
Qed.

(** Subtracting equal finite numbers gives +0. *)
Lemma fsub_self_sign x y : is_finite x = true -> is_finite y = true -> B2R x = B2R y ->
  Bsign (fsub x y) = (Bsign x && negb (Bsign y))%bool.
Proof.
  intros Fx Fy E. unfold fsub.
  pose proof (Bminus_correct 53 1024 _ _ mode_NE x y Fx Fy) as H.
  rewrite E, Rminus_diag_eq in H by reflexivity.
  rewrite round_0 in H by apply valid_rnd_N. rewrite Rabs_R0 in H.
  rewrite Rlt_bool_true in H by apply bpow_gt_0.
  destruct H as (_ & _ & H). rewrite Rcompare_Eq in H by reflexivity. exact H.
Qed.

Lemma sign_of_B2R (x y : f64) : is_finite x = true -> is_finite y = true ->
  B2R x = B2R y -> B2R x <> 0 -> x = y.
Proof.
  intros Fx Fy E N. apply B2R_inj_nz; auto.
  destruct (Bsign x) eqn:Sx; destruct (Bsign y) eqn:Sy; auto.
  - pose proof (Bsign_nonpos x Sx Fx). pose proof (Bsign_nonneg y Sy Fy). lra.
  - pose proof (Bsign_nonpos y Sy Fy). pose proof (Bsign_nonneg x Sx Fx). lra.
Qed.

Lemma turn_twice r : turn_ok r -> fsub f360 (fsub f360 r) = r.
Proof.
  intros (G & B & S). destruct f360_value as [F V]. pose proof f360_grid as G3.
  destruct (grid_sub f360 r G3 G) as [G1 V1].
  { rewrite V. apply Rabs_lt; lra. }
  destruct (grid_sub f360 (fsub f360 r) G3 G1) as [G2 V2].
  { rewrite V1, V. apply Rabs_lt; lra. }
  rewrite V1, V in V2.
  destruct (Req_dec (B2R r) 0) as [Z|N].
  - apply B2R_inj_nz; [apply G2|apply G|lra|].
    rewrite (S Z). rewrite fsub_self_sign; [|exact F|apply G1|rewrite V1; lra].
    assert (Bsign f360 = false) as -> by (vm_compute; reflexivity). reflexivity.
  - apply sign_of_B2R; [apply G2|apply G|lra|lra].
Qed.

(** ** Rotation *)
Lemma rotate_exact (a d : f64) : grid a -> grid d -> 0 <= B2R a < 360 -> -360 <= B2R d <= 360 ->
  forall x y, let r := at_rot (rotate_at d (mk_at x y a)) in
  grid r /\ 0 <= B2R r < 360 /\ same_angle (B2R r) (B2R a + B2R d).
Proof.
  intros Ga Gd Ba Bd x y. cbn [rotate_at at_rot].
  destruct f360_value as [F V]. pose proof f360_grid as G3.
  destruct (grid_add a d Ga Gd) as [G1 V1]; [apply Rabs_lt; lra|].
  set (s := fadd a d) in *.
  assert (N3 : is_nan f360 = false) by (vm_compute; reflexivity).
  assert (Ns : forall u, grid u -> is_nan u = false) by (intros u [Fu _]; destruct u; auto; discriminate).
  assert (Le : fleb f360 s = true <-> 360 <= B2R s).
  { rewrite fleb_rx by auto. rewrite !rx_finite by (apply G1 || apply G3). rewrite V. tauto. }
  destruct (fleb f360 s) eqn:E.
  - assert (360 <= B2R s) as L by now apply Le.
    destruct (grid_sub s f360 G1 G3) as [G2 V2]; [rewrite V, V1; apply Rabs_lt; lra|].
    set (t := fsub s f360) in *.
    assert (fltb t fzero = false) as ->.
    { destruct (fltb t fzero) eqn:E2; [|reflexivity]. apply fltb_rx in E2; auto.
      rewrite (rx_finite t) in E2 by apply G2. rewrite V2, V in E2. cbn [rx B2R fzero] in E2. lra. }
    split; [exact G2|]. split; [lra|]. exists (-1)%Z. rewrite V2, V1, V. cbn. lra.
  - assert (~ 360 <= B2R s) as L by (intros C; apply Le in C; congruence).
    destruct (fltb s fzero) eqn:E2.
    + apply fltb_rx in E2; auto. rewrite (rx_finite s) in E2 by apply G1. cbn [rx B2R fzero] in E2.
      destruct (grid_add s f360 G1 G3) as [G2 V2]; [rewrite V, V1; apply Rabs_lt; lra|].
      split; [exact G2|]. split; [lra|]. exists 1%Z. rewrite V2, V1, V. lra.
    + assert (~ B2R s < 0) as L2.
      { intros C. assert (fltb s fzero = true); [|congruence]. apply fltb_rx; auto.
        rewrite (rx_finite s) by apply G1. cbn [rx B2R fzero]. exact C. }
      split; [exact G1|]. split; [lra|]. exists 0%Z. rewrite V1. lra.
Qed.

Lemma same_angle_unique a b : 0 <= a < 360 -> 0 <= b < 360 -> same_angle a b -> a = b.
Proof.
  intros Ha Hb [n E]. assert (n = 0)%Z; [|subst; lra].
  assert (-1 < IZR n < 1) as [L1 L2] by lra.
  apply (lt_IZR (-1)) in L1. apply (lt_IZR n 1) in L2. lia.
Qed.

Lemma rotate_back (a d : f64) x y : grid a -> grid d -> 0 <= B2R a < 360 -> -360 <= B2R d <= 360 ->
  feqb (at_rot (rotate_at (fneg d) (rotate_at d (mk_at x y a)))) a = true.
Proof.
  intros Ga Gd Ba Bd.
  destruct (rotate_exact a d Ga Gd Ba Bd x y) as (G1 & B1 & A1).
  assert (Vn : B2R (fneg d) = - B2R d).
  { pose proof (fneg_rx d) as H. rewrite rx_finite in H by (rewrite fneg_finite; apply Gd).
    rewrite rx_finite in H by apply Gd. exact H. }
  assert (Gn : grid (fneg d)).
  { destruct Gd as [Fd [k Hk]]. split; [now rewrite fneg_finite|]. exists (- k)%Z.
    rewrite Vn, Hk, opp_IZR. ring. }
  set (q := rotate_at d (mk_at x y a)) in *.
  destruct (rotate_exact (at_rot q) (fneg d) G1 Gn B1) with (x := at_x q) (y := at_y q) as (G2 & B2 & A2);
    [rewrite Vn; lra|].
  assert (Eq : mk_at (at_x q) (at_y q) (at_rot q) = q) by (destruct q; reflexivity).
  rewrite Eq in *. set (r := at_rot (rotate_at (fneg d) q)) in *.
  assert (Nn : forall u, grid u -> is_nan u = false) by (intros u [Fu _]; destruct u; auto; discriminate).
  apply feqb_rx; auto. rewrite (rx_finite r), (rx_finite a) by (apply G2 || apply Ga).
  apply same_angle_unique; auto.
  destruct A1 as [n1 A1], A2 as [n2 A2]. exists (n1 + n2)%Z. rewrite A2, A1, Vn, plus_IZR. lra.
Qed.

(** Off the grid the result is still within [0, 360]. *)
Lemma rnd_exact (x : f64) : is_finite x = true -> rnd (B2R x) = B2R x.
Proof. intros H. unfold rnd. apply round_generic; [apply valid_rnd_N|]. apply generic_format_B2R. Qed.
Lemma rnd_le_fin a (x : f64) : is_finite x = true -> a <= B2R x -> rnd a <= B2R x.
Proof. intros F H. rewrite <- (rnd_exact x F). now apply rnd_le. Qed.
Lemma rnd_ge_fin a (x : f64) : is_finite x = true -> B2R x <= a -> B2R x <= rnd a.
Proof. intros F H. rewrite <- (rnd_exact x F). now apply rnd_le. Qed.
Lemma rnd_ge0 a : 0 <= a -> 0 <= rnd a.
Proof. intros H. rewrite <- rnd_0. now apply rnd_le. Qed.
Lemma rnd_360 : rnd 360 = 360.
Proof. destruct f360_value as [F V]. rewrite <- V. now apply rnd_exact. Qed.
Lemma rnd_720 : rnd 720 = 720.
Proof.
  apply (rnd_grid (720 * 2^43)); [|apply Rabs_lt; lra].
  rewrite b43, mult_IZR, Rmult_assoc, Rinv_r; [ring|]. apply not_0_IZR; discriminate.
Qed.
Lemma rnd_m360 : rnd (-360) = -360.
Proof.
  apply (rnd_grid (-360 * 2^43)); [|apply Rabs_lt; lra].
  rewrite b43, mult_IZR, Rmult_assoc, Rinv_r; [ring|]. apply not_0_IZR; discriminate.
Qed.

Lemma rotate_range (a d : f64) x y : is_finite a = true -> is_finite d = true ->
  0 <= B2R a < 360 -> -360 <= B2R d <= 360 ->
  let r := at_rot (rotate_at d (mk_at x y a)) in
  is_finite r = true /\ 0 <= B2R r <= 360.
Proof.
  intros Fa Fd Ba Bd. cbn [rotate_at at_rot].
  destruct f360_value as [F V].
  destruct (fadd_finite a d Fa Fd) as [H1 N1].
  assert (R1 : -360 <= rnd (B2R a + B2R d) <= 720).
  { split; [rewrite <- rnd_m360|rewrite <- rnd_720]; apply rnd_le; lra. }
  destruct (exact_value _ _ H1) as [F1 V1]; [apply Rabs_lt; lra|exact N1|].
  set (s := fadd a d) in *. rewrite <- V1 in R1. clear V1 H1.
  assert (N3 : is_nan f360 = false) by (vm_compute; reflexivity).
  assert (Le : fleb f360 s = true <-> 360 <= B2R s).
  { rewrite fleb_rx by auto. rewrite !rx_finite by assumption. rewrite V. tauto. }
  destruct (fleb f360 s) eqn:E.
  - assert (360 <= B2R s) as L by now apply Le.
    destruct (fsub_finite s f360 F1 F) as [H2 N2].
    assert (R2 : 0 <= rnd (B2R s - B2R f360) <= 360).
    { rewrite V. split; [rewrite <- rnd_0|rewrite <- rnd_360 at 2]; apply rnd_le; lra. }
    destruct (exact_value _ _ H2) as [F2 V2]; [apply Rabs_lt; lra|exact N2|].
    set (t := fsub s f360) in *. rewrite <- V2 in R2.
    assert (fltb t fzero = false) as ->.
    { destruct (fltb t fzero) eqn:E2; [|reflexivity]. apply fltb_rx in E2; auto.
      rewrite (rx_finite t) in E2 by assumption. cbn [rx B2R fzero] in E2. lra. }
    auto.
  - assert (~ 360 <= B2R s) as L by (intros C; apply Le in C; congruence).
    destruct (fltb s fzero) eqn:E2.
    + apply fltb_rx in E2; auto. rewrite (rx_finite s) in E2 by assumption. cbn [rx B2R fzero] in E2.
      destruct (fadd_finite s f360 F1 F) as [H2 N2].
      assert (R2 : 0 <= rnd (B2R s + B2R f360) <= 360).
      { rewrite V. split; [rewrite <- rnd_0|rewrite <- rnd_360 at 2]; apply rnd_le; lra. }
      destruct (exact_value _ _ H2) as [F2 V2]; [apply Rabs_lt; lra|exact N2|].
      rewrite V2. auto.
    + assert (~ B2R s < 0) as L2.
      { intros C. assert (fltb s fzero = true); [|congruence]. apply fltb_rx; auto.
        rewrite (rx_finite s) by assumption. cbn [rx B2R fzero]. exact C. }
      split; [assumption|lra].
Qed.
