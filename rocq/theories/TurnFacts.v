(** Proofs: how exact flipping and rotating are (C78). *)
From Coq Require Import String Reals Lra Lia ZArith.
From Flocq Require Import Core.Core IEEE754.BinarySingleNaN.
From Verif Require Import Base Str F64 F64Text F64Order FpData FpOps FpOpsSpec F64Grid FlipSpec FlipFacts TurnSpec.
Open Scope R_scope.

Lemma rnd_err r e : (-1000 < e)%Z -> Rabs r < bpow radix2 e -> Rabs (rnd r - r) <= bpow radix2 (e - 54).
Proof.
  intros He H. unfold rnd. change (SpecFloat.fexp 53 1024) with (FLT_exp (-1074) 53).
  eapply Rle_trans; [apply error_le_half_ulp; apply FLT_exp_valid; reflexivity|].
  destruct (Req_dec r 0) as [->|N].
  - rewrite ulp_FLT_0 by reflexivity. replace (e - 54)%Z with (-1 + (e - 53))%Z by lia. rewrite bpow_plus.
    change (bpow radix2 (-1)) with (/ 2). apply Rmult_le_compat_l; [lra|]. apply bpow_le. lia.
  - rewrite ulp_neq_0 by exact N. unfold cexp, FLT_exp.
    pose proof (mag_le_bpow radix2 r e N H) as M.
    replace (e - 54)%Z with (-1 + (e - 53))%Z by lia. rewrite bpow_plus.
    change (bpow radix2 (-1)) with (/ 2). apply Rmult_le_compat_l; [lra|]. apply bpow_le. lia.
Qed.
Lemma g360 : rnd 360 = 360.
Proof. apply (rnd_grid (360 * 2 ^ 43)); [rewrite b43, mult_IZR, Rmult_assoc, Rinv_r; [ring|apply not_0_IZR; discriminate]|rewrite Rabs_pos_eq; lra]. Qed.
Lemma gm360 : rnd (-360) = -360.
Proof. apply (rnd_grid (-360 * 2 ^ 43)); [rewrite b43, mult_IZR, Rmult_assoc, Rinv_r; [ring|apply not_0_IZR; discriminate]|rewrite Rabs_left; lra]. Qed.
Lemma rnd_between r : 0 <= r <= 360 -> 0 <= rnd r <= 360.
Proof. intros [A B]. split; [rewrite <- rnd_0|rewrite <- g360]; now apply rnd_le. Qed.
Lemma fin_value x r : rx x = clip (rnd r) -> is_nan x = false -> Rabs r <= 720 -> is_finite x = true /\ B2R x = rnd r.
Proof.
  intros X N B.
  assert (E : rnd 720 = 720) by (apply (rnd_grid (720 * 2 ^ 43)); [rewrite b43, mult_IZR, Rmult_assoc, Rinv_r; [ring|apply not_0_IZR; discriminate]|rewrite Rabs_pos_eq; lra]).
  assert (E' : rnd (-720) = -720) by (apply (rnd_grid (-720 * 2 ^ 43)); [rewrite b43, mult_IZR, Rmult_assoc, Rinv_r; [ring|apply not_0_IZR; discriminate]|rewrite Rabs_left; lra]).
  apply Rabs_le_inv in B. apply exact_value; [exact X| |exact N].
  apply Rle_lt_trans with 720; [|lra]. apply Rabs_le.
  assert (L : rnd (-720) <= rnd r) by (apply rnd_le; lra). assert (U : rnd r <= rnd 720) by (apply rnd_le; lra). lra.
Qed.
Lemma eps_half k : eps k = 2 * eps (k + 1).
Proof. unfold eps. replace (- k)%Z with (1 + - (k + 1))%Z by lia. rewrite bpow_plus. reflexivity. Qed.
Lemma eps_pos k : 0 < eps k. Proof. apply bpow_gt_0. Qed.
Lemma err_512 r : Rabs r <= 360 -> Rabs (rnd r - r) <= eps 45.
Proof. intros H. apply (rnd_err r 9); [lia|]. change (bpow radix2 9) with 512. lra. Qed.
Lemma err_1024 r : Rabs r <= 720 -> Rabs (rnd r - r) <= eps 44.
Proof. intros H. apply (rnd_err r 10); [lia|]. change (bpow radix2 10) with 1024. lra. Qed.

(** ** Flipping twice *)
Lemma flip_angle a : in_turn a -> in_turn (fsub f360 a) /\ B2R (fsub f360 a) = rnd (360 - B2R a).
Proof.
  intros [F B]. destruct f360_value as [F3 V3]. destruct (fsub_finite f360 a F3 F) as [X N]. rewrite V3 in X.
  destruct (fin_value _ _ X N) as [G V]; [apply Rabs_le; lra|]. split; [|exact V]. split; [exact G|]. rewrite V. apply rnd_between. lra.
Qed.
Lemma flip_angle_twice a : in_turn a -> close_angle a (fsub f360 (fsub f360 a)).
Proof.
  intros T. destruct (flip_angle a T) as [T1 V1]. destruct (flip_angle _ T1) as [T2 V2]. split; [exact T2|].
  rewrite V2, V1. destruct T as [_ B]. destruct T1 as [_ B1]. rewrite V1 in B1.
  pose proof (err_512 (360 - B2R a) ltac:(apply Rabs_le; lra)) as E1.
  pose proof (err_512 (360 - rnd (360 - B2R a)) ltac:(apply Rabs_le; lra)) as E2.
  rewrite (eps_half 44). change (44 + 1)%Z with 45%Z. apply Rabs_le_inv in E1, E2. apply Rabs_le. lra.
Qed.
Lemma xy_twice p : flip_xy (flip_xy p) = p.
Proof. destruct p as [x y t]. unfold flip_xy. cbn [xy_x xy_y xy_t]. now rewrite fneg_involutive. Qed.
Lemma side_twice l : flip_layer (flip_layer l) = l.
Proof. destruct l as [[] t]; reflexivity. Qed.

Lemma point_twice p q r : mirror_point p q -> mirror_point q r -> r = p.
Proof.
  destruct p as [a b], q as [c d], r as [e f]. intros [A B] [C D]. cbn [fst snd] in *. subst. f_equal. apply fneg_involutive.
Qed.
Lemma points_twice a : forall b c, Forall2 mirror_point a b -> Forall2 mirror_point b c -> c = a.
Proof.
  induction a as [|x a IH]; intros b c H K; inversion H as [|x' y a' b' P H']; subst; inversion K as [|y' z b'' c' Q K']; subst; [reflexivity|].
  f_equal; [exact (point_twice _ _ _ P Q)|exact (IH _ _ H' K')].
Qed.
Lemma layers_twice a : forall b c, Forall2 other_side a b -> Forall2 other_side b c -> c = a.
Proof.
  induction a as [|x a IH]; intros b c H K; inversion H as [|x' y a' b' P H']; subst; inversion K as [|y' z b'' c' Q K']; subst; [reflexivity|].
  f_equal; [|exact (IH _ _ H' K')]. destruct P; inversion Q; subst; congruence.
Qed.
Lemma justify_twice a : forall b c, Forall2 toggled a b -> Forall2 toggled b c -> Forall2 flipped_back a c.
Proof.
  induction a as [|x a IH]; intros b c H K; inversion H as [|x' y a' b' P H']; subst; inversion K as [|y' z b'' c' Q K']; subst; constructor; [|exact (IH _ _ H' K')].
  unfold flipped_back. destruct P as [[-> ->]|[N ->]], Q as [[E ->]|[M ->]]; try discriminate; try contradiction; [reflexivity|]. destruct x; [reflexivity|contradiction].
Qed.
Lemma angles_twice e : Forall in_turn (e_angles e) -> Forall2 close_angle (e_angles e) (e_angles (flip_element (flip_element e))).
Proof.
  intros H. destruct e; cbn [flip_element e_angles] in *; try constructor; try constructor; apply flip_angle_twice; exact (Forall_inv H).
Qed.
Lemma flip_near e : Forall in_turn (e_angles e) -> near_element e (flip_element (flip_element e)).
Proof.
  intros H. split; [exact (points_twice _ _ _ (flip_points e) (flip_points (flip_element e)))|]. split; [now apply angles_twice|].
  split; [exact (layers_twice _ _ _ (flip_elayers e) (flip_elayers (flip_element e)))|].
  split; [exact (justify_twice _ _ _ (flip_justify e) (flip_justify (flip_element e)))|]. now rewrite !flip_rest.
Qed.
Lemma flip_near_all m : Forall (fun e => Forall in_turn (e_angles e)) (m_elements m) ->
  m_name (flip_module (flip_module m)) = m_name m /\ Forall2 near_element (m_elements m) (m_elements (flip_module (flip_module m))).
Proof.
  intros H. split; [reflexivity|]. cbn [flip_module m_elements]. induction H as [|e l E _ IH]; cbn [map]; constructor; [now apply flip_near|exact IH].
Qed.

(** ** Rotating *)
Lemma turn_close a d : in_turn a -> within_turn d -> forall x y, let r := at_rot (rotate_at d (mk_at x y a)) in
  in_turn r /\ near_angle (eps 43) (B2R r) (B2R a + B2R d).
Proof.
  intros [Fa Ba] [Fd Bd] x y. cbn [rotate_at at_rot]. cbv zeta.
  destruct f360_value as [F3 V3].
  destruct (fadd_finite a d Fa Fd) as [X N]. destruct (fin_value _ _ X N) as [F V]; [apply Rabs_le; lra|].
  pose proof (err_1024 (B2R a + B2R d) ltac:(apply Rabs_le; lra)) as E1.
  assert (LO : -360 <= B2R (fadd a d)) by (rewrite V, <- gm360; apply rnd_le; lra).
  assert (HI : B2R (fadd a d) <= 720).
  { rewrite V. replace 720 with (rnd 720); [apply rnd_le; lra|].
    apply (rnd_grid (720 * 2 ^ 43)); [rewrite b43, mult_IZR, Rmult_assoc, Rinv_r; [ring|apply not_0_IZR; discriminate]|rewrite Rabs_pos_eq; lra]. }
  rewrite <- V in E1. set (s := fadd a d) in *. clearbody s. clear X V.
  pose proof (eps_pos 45) as P45. pose proof (eps_half 43) as H43. pose proof (eps_half 44) as H44. change (43 + 1)%Z with 44%Z in H43. change (44 + 1)%Z with 45%Z in H44.
  assert (N3 : is_nan f360 = false) by (vm_compute; reflexivity). assert (N0 : is_nan fzero = false) by reflexivity.
  assert (Le : fleb f360 s = true <-> 360 <= B2R s).
  { rewrite fleb_rx by assumption. rewrite !rx_finite by assumption. rewrite V3. tauto. }
  assert (Z0 : rx fzero = 0) by reflexivity.
  destruct (fleb f360 s) eqn:E.
  - assert (L : 360 <= B2R s) by now apply Le.
    destruct (fsub_finite s f360 F F3) as [X2 N2]. rewrite V3 in X2. destruct (fin_value _ _ X2 N2) as [F2 V2]; [apply Rabs_le; lra|].
    pose proof (rnd_between (B2R s - 360) ltac:(lra)) as B2. pose proof (err_512 (B2R s - 360) ltac:(apply Rabs_le; lra)) as E2.
    rewrite <- V2 in B2, E2. set (t := fsub s f360) in *. clearbody t.
    assert (fltb t fzero = false) as ->.
    { destruct (fltb t fzero) eqn:E3; [|reflexivity]. apply fltb_rx in E3; [|assumption|assumption]. rewrite Z0, (rx_finite t F2) in E3. lra. }
    split; [split; [exact F2|exact B2]|]. exists (-1)%Z. apply Rabs_le_inv in E1, E2. apply Rabs_le. rewrite H43, H44 in *. lra.
  - assert (L : ~ 360 <= B2R s) by (intros C; apply Le in C; discriminate C).
    assert (Lt : fltb s fzero = true <-> B2R s < 0) by (rewrite fltb_rx by assumption; rewrite Z0, (rx_finite s F); tauto).
    destruct (fltb s fzero) eqn:E2.
    + assert (L2 : B2R s < 0) by now apply Lt.
      destruct (fadd_finite s f360 F F3) as [X2 N2]. rewrite V3 in X2. destruct (fin_value _ _ X2 N2) as [F2 V2]; [apply Rabs_le; lra|].
      pose proof (rnd_between (B2R s + 360) ltac:(lra)) as B2. pose proof (err_512 (B2R s + 360) ltac:(apply Rabs_le; lra)) as E3.
      rewrite <- V2 in B2, E3. set (t := fadd s f360) in *. clearbody t.
      split; [split; [exact F2|exact B2]|]. exists 1%Z. apply Rabs_le_inv in E1, E3. apply Rabs_le. rewrite H43, H44 in *. lra.
    + assert (L2 : ~ B2R s < 0) by (intros C; apply Lt in C; discriminate C).
      split; [split; [exact F|lra]|]. exists 0%Z. apply Rabs_le_inv in E1. apply Rabs_le. rewrite H43, H44 in *. lra.
Qed.
Lemma near_trans e1 e2 a b c : near_angle e1 a (b + c) -> forall b0 , near_angle e2 b b0 -> near_angle (e1 + e2) a (b0 + c).
Proof.
  intros [n N] b0 [k K]. exists (n + k)%Z. rewrite plus_IZR. apply Rabs_le_inv in N, K. apply Rabs_le. lra.
Qed.
Lemma turns_close l : Forall within_turn l -> forall p, in_turn (at_rot p) ->
  let q := fold_left (fun p d => rotate_at d p) l p in
  at_x q = at_x p /\ at_y q = at_y p /\ in_turn (at_rot q) /\ near_angle (INR (length l) * eps 43) (B2R (at_rot q)) (B2R (at_rot p) + total l).
Proof.
  induction 1 as [|d l D _ IH]; intros p T; cbn [fold_left length total].
  - split; [reflexivity|]. split; [reflexivity|]. split; [exact T|]. exists 0%Z. cbn [INR]. rewrite Rmult_0_l. apply Rabs_le. lra.
  - destruct (turn_close (at_rot p) d T D (at_x p) (at_y p)) as [T1 A1].
    replace (mk_at (at_x p) (at_y p) (at_rot p)) with p in T1, A1 by (destruct p; reflexivity).
    destruct (IH (rotate_at d p) T1) as (X & Y & T2 & A2). split; [rewrite X; reflexivity|]. split; [rewrite Y; reflexivity|]. split; [exact T2|].
    pose proof (near_trans _ _ _ _ _ A2 _ A1) as N. rewrite S_INR.
    replace ((INR (length l) + 1) * eps 43) with (INR (length l) * eps 43 + eps 43) by ring.
    replace (B2R (at_rot p) + (B2R d + total l)) with (B2R (at_rot p) + B2R d + total l) by ring. exact N.
Qed.
Lemma neg_within d : within_turn d -> within_turn (fneg d) /\ B2R (fneg d) = - B2R d.
Proof.
  intros [F B]. assert (V : B2R (fneg d) = - B2R d).
  { pose proof (fneg_rx d) as H. rewrite rx_finite in H by (rewrite fneg_finite; exact F). now rewrite rx_finite in H by exact F. }
  split; [|exact V]. split; [now rewrite fneg_finite|rewrite V; lra].
Qed.
Lemma there_and_back d p : in_turn (at_rot p) -> within_turn d ->
  let q := rotate_at (fneg d) (rotate_at d p) in
  at_x q = at_x p /\ at_y q = at_y p /\ in_turn (at_rot q) /\ near_angle (eps 42) (B2R (at_rot q)) (B2R (at_rot p)).
Proof.
  intros T D. destruct (neg_within d D) as [D' V].
  destruct (turns_close [d; fneg d] (Forall_cons d D (Forall_cons (fneg d) D' (Forall_nil _))) p T) as (X & Y & T2 & N). cbn [fold_left] in X, Y, T2, N.
  split; [exact X|]. split; [exact Y|]. split; [exact T2|]. destruct N as [n N]. exists n. cbn [total length INR] in N. rewrite V in N.
  rewrite (eps_half 42). change (42 + 1)%Z with 43%Z.
  replace (B2R (at_rot p) + (B2R d + (- B2R d + 0)) + 360 * IZR n) with (B2R (at_rot p) + 360 * IZR n) in N by ring. exact N.
Qed.
Lemma rotate_near d m : within_turn d -> Forall (fun e => Forall in_turn (e_angles e)) (m_elements m) ->
  Forall2 (fun e f => e_points f = e_points e /\ e_layers f = e_layers e /\ e_justify f = e_justify e /\ e_rest f = e_rest e /\
    Forall2 (fun a b => in_turn b /\ near_angle (eps 43) (B2R b) (B2R a + B2R d)) (e_angles e) (e_angles f))
    (m_elements m) (m_elements (rotate_module d m)).
Proof.
  intros D H. cbn [rotate_module m_elements]. induction H as [|e l E _ IH]; cbn [map]; constructor; [|exact IH].
  rewrite rotate_points, rotate_layers, rotate_justify, rotate_rest. repeat (split; [reflexivity|]).
  assert (K : forall p, in_turn (at_rot p) -> in_turn (at_rot (rotate_at d p)) /\ near_angle (eps 43) (B2R (at_rot (rotate_at d p))) (B2R (at_rot p) + B2R d)).
  { intros p T. pose proof (turn_close (at_rot p) d T D (at_x p) (at_y p)) as K. now destruct p. }
  destruct e; cbn [rotate_element e_angles] in *; try constructor; try constructor; apply K; exact (Forall_inv E).
Qed.
