(** Moving there and back (lemmas for C89). *)
From Coq Require Import Reals Lra Lia ZArith.
From Flocq Require Import Core.Core IEEE754.BinarySingleNaN.
From Verif Require Import Base F64 F64Order TurnFacts FpData LyData LyOps LySpec LyOpsFacts DiffSpec AlgSpec AlgBoard.
Open Scope R_scope.

Lemma fadd_val x y : is_finite x = true -> is_finite y = true -> Rabs (rnd (B2R x + B2R y)) < fmaxR ->
  B2R (fadd x y) = rnd (B2R x + B2R y) /\ is_finite (fadd x y) = true /\
  Bsign (fadd x y) = match Rcompare (B2R x + B2R y) 0 with Eq => andb (Bsign x) (Bsign y) | Lt => true | Gt => false end.
Proof.
  intros Hx Hy L. unfold fadd. pose proof (Bplus_correct 53 1024 _ _ mode_NE x y Hx Hy) as H.
  change (bpow radix2 1024) with fmaxR in H. change (round radix2 (SpecFloat.fexp 53 1024) (round_mode mode_NE) (B2R x + B2R y)) with (rnd (B2R x + B2R y)) in H.
  destruct (Rlt_bool_spec (Rabs (rnd (B2R x + B2R y))) fmaxR) as [_|K]; [exact H|lra].
Qed.
Lemma rnd_on k n : (-900 <= k <= 1000)%Z -> (Z.abs n < 2 ^ 53)%Z -> rnd (IZR n * bpow radix2 (- k)) = IZR n * bpow radix2 (- k).
Proof.
  intros K N. unfold rnd. apply round_generic; [apply valid_rnd_N|]. apply (generic_format_FLT radix2 (-1074) 53).
  exists (Float radix2 n (- k)); [reflexivity|exact N|cbn; lia].
Qed.
Lemma grid_small k n : (-900 <= k <= 1000)%Z -> (Z.abs n < 2 ^ 53)%Z -> Rabs (IZR n * bpow radix2 (- k)) < fmaxR.
Proof.
  intros K N. rewrite Rabs_mult, (Rabs_pos_eq (bpow _ _)) by apply bpow_ge_0. rewrite <- abs_IZR.
  apply Rlt_le_trans with (bpow radix2 53 * bpow radix2 (- k)).
  - apply Rmult_lt_compat_r; [apply bpow_gt_0|]. change (bpow radix2 53) with (IZR (2 ^ 53)). now apply IZR_lt.
  - rewrite <- bpow_plus. unfold fmaxR. apply bpow_le. lia.
Qed.
Lemma neg_val x : is_finite x = true -> B2R (fneg x) = - B2R x.
Proof. intros _. unfold fneg. apply B2R_Bopp. Qed.
Lemma neg_sign (x : f64) : is_finite x = true -> Bsign (fneg x) = negb (Bsign x).
Proof. destruct x; try discriminate; reflexivity. Qed.
Lemma nz_sign (x : f64) : is_finite x = true -> Bsign x = match Rcompare (B2R x) 0 with Eq => Bsign x | Lt => true | Gt => false end.
Proof.
  intros F. destruct (Rcompare_spec (B2R x) 0) as [L|E|L]; [|reflexivity|].
  - destruct (Bsign x) eqn:S; [reflexivity|]. pose proof (Bsign_nonneg x S F). lra.
  - destruct (Bsign x) eqn:S; [|reflexivity]. pose proof (Bsign_nonpos x S F). lra.
Qed.
Lemma back_exact k p x : (-900 <= k <= 1000)%Z -> on_grid k p -> on_grid k x -> p <> fnegzero -> fadd (fadd p x) (fneg x) = p.
Proof.
  intros K (Fp & n & Vp & Bn) (Fx & m & Vx & Bm) Z.
  assert (S : B2R p + B2R x = IZR (n + m) * bpow radix2 (- k)) by (rewrite Vp, Vx, plus_IZR; ring).
  assert (Bs : (Z.abs (n + m) < 2 ^ 53)%Z) by lia.
  assert (R1 : rnd (B2R p + B2R x) = B2R p + B2R x) by (rewrite S; now apply rnd_on).
  destruct (fadd_val p x Fp Fx) as (V1 & F1 & S1); [rewrite R1, S; now apply grid_small|]. rewrite R1 in V1.
  assert (Fn : is_finite (fneg x) = true) by now rewrite fneg_finite.
  assert (S2 : B2R (fadd p x) + B2R (fneg x) = B2R p) by (rewrite V1, neg_val by assumption; ring).
  assert (R2 : rnd (B2R p) = B2R p) by (rewrite Vp; apply rnd_on; [exact K|lia]).
  destruct (fadd_val (fadd p x) (fneg x) F1 Fn) as (V2 & F2 & G2); [rewrite S2, R2, Vp; apply grid_small; [exact K|lia]|]. rewrite S2, R2 in V2. rewrite S2 in G2.
  apply B2R_inj_nz; [exact F2|exact Fp|exact V2|]. rewrite G2, (nz_sign p Fp).
  destruct (Rcompare_spec (B2R p) 0) as [|E|]; [reflexivity| |reflexivity].
  assert (P : p = fzero). { destruct p as [[|]| | |s mm ee B]; try reflexivity; try discriminate; [now exfalso; apply Z|]. exfalso. cbn [B2R] in E. apply eq_0_F2R in E. destruct s; discriminate. }
  subst p. rewrite neg_sign by exact Fx. rewrite S1. cbn [B2R fzero Bsign]. rewrite Rplus_0_l.
  rewrite (nz_sign x Fx) at 2. destruct (Rcompare (B2R x) 0); reflexivity.
Qed.
Lemma rnd_small r : Rabs r < 8192 -> Rabs (rnd r - r) <= bpow radix2 (-41).
Proof. intros H. apply (rnd_err r 13); [lia|]. exact H. Qed.
Lemma tiny : 0 < bpow radix2 (-41) < 1 /\ bpow radix2 (-40) = 2 * bpow radix2 (-41).
Proof. split; [split; [apply bpow_gt_0|change 1 with (bpow radix2 0); apply bpow_lt; reflexivity]|]. change (-40)%Z with (1 + -41)%Z. rewrite bpow_plus. reflexivity. Qed.
Lemma fmax_10000 : 10000 < fmaxR.
Proof. unfold fmaxR. apply Rlt_trans with (bpow radix2 14); [change (bpow radix2 14) with 16384; lra|apply bpow_lt; reflexivity]. Qed.
Lemma back_near p x : on_table p -> on_table x -> almost p (fadd (fadd p x) (fneg x)).
Proof.
  intros [Fp Bp] [Fx Bx]. destruct tiny as [[T0 T1] T2]. pose proof fmax_10000 as M. apply Rabs_lt_inv in Bp, Bx.
  pose proof (rnd_small (B2R p + B2R x) ltac:(apply Rabs_lt; lra)) as E1. apply Rabs_le_inv in E1.
  destruct (fadd_val p x Fp Fx) as (V1 & F1 & _); [apply Rabs_lt; lra|].
  assert (Fn : is_finite (fneg x) = true) by now rewrite fneg_finite.
  pose proof (rnd_small (B2R (fadd p x) + B2R (fneg x)) ltac:(rewrite V1, neg_val by assumption; apply Rabs_lt; lra)) as E2. apply Rabs_le_inv in E2.
  destruct (fadd_val (fadd p x) (fneg x) F1 Fn) as (V2 & F2 & _).
  { rewrite V1, neg_val in * by assumption. apply Rabs_lt. lra. }
  split; [exact F2|]. rewrite V2. rewrite V1, neg_val in * by assumption. rewrite T2. apply Rabs_le. lra.
Qed.
Lemma board_exact k x y l : (-900 <= k <= 1000)%Z -> on_grid k x -> on_grid k y ->
  Forall (fun c => on_grid k c /\ c <> fnegzero) (coords (flat_map positions (ly_elements l))) -> adjust_layout (fneg x) (fneg y) (adjust_layout x y l) = l.
Proof.
  intros K X Y F. apply move_back. rewrite Forall_forall in *. intros [a b] I. cbn [fst snd].
  assert (A : on_grid k a /\ a <> fnegzero) by (apply F; unfold coords; apply in_flat_map; eexists; split; [exact I|now left]).
  assert (B : on_grid k b /\ b <> fnegzero) by (apply F; unfold coords; apply in_flat_map; eexists; split; [exact I|right; now left]).
  split; eapply back_exact; try eassumption; tauto.
Qed.
Lemma board_near x y l : on_table x -> on_table y -> Forall on_table (coords (flat_map positions (ly_elements l))) ->
  let l' := adjust_layout (fneg x) (fneg y) (adjust_layout x y l) in
  ly_header l' = ly_header l /\ map wipe (ly_elements l') = map wipe (ly_elements l) /\
  Forall2 (Forall2 (fun p q => almost (fst p) (fst q) /\ almost (snd p) (snd q))) (map positions (ly_elements l)) (map positions (ly_elements l')).
Proof.
  intros X Y F. destruct (adjust_layout_spec x y l) as (H & W & _). destruct (adjust_layout_spec (fneg x) (fneg y) (adjust_layout x y l)) as (H' & W' & _). cbn zeta.
  split; [congruence|]. split; [congruence|]. rewrite move_twice. unfold coords in F. rewrite Forall_flat_map, Forall_flat_map in F.
  clear H W H' W'. revert F. generalize (ly_elements l). intros es0 F.
  induction F as [|e es Fe Fes IH]; cbn [map]; constructor; [|exact IH]. clear - X Y Fe.
  induction Fe as [|p ps Fp Fps IH]; cbn [map]; constructor; [|exact IH]. cbn [fst snd]. inversion_clear Fp as [|? ? A B]. inversion_clear B as [|? ? B' _]. split; now apply back_near.
Qed.

(** ** Deciding the grid, for examples *)
Definition on_gridb (k : Z) (c : f64) : bool :=
  match c with
  | B754_zero _ => true
  | B754_finite _ m e _ => ((0 <=? - k - e) && (Z.pos m mod 2 ^ (- k - e) =? 0) && (Z.pos m / 2 ^ (- k - e) <? 2 ^ 52))%Z
  | _ => false
  end.
Lemma on_gridb_ok k c : on_gridb k c = true -> on_grid k c.
Proof.
  destruct c as [s|s| |s m e B]; cbn [on_gridb]; try discriminate.
  - intros _. split; [reflexivity|]. exists 0%Z. split; [cbn [B2R]; ring|reflexivity].
  - intros H. apply andb_prop in H as [H L]. apply andb_prop in H as [D M]. apply Z.leb_le in D. apply Z.eqb_eq in M. apply Z.ltb_lt in L.
    split; [reflexivity|]. set (d := (- k - e)%Z) in *. set (q := (Z.pos m / 2 ^ d)%Z) in *.
    assert (P : (0 < 2 ^ d)%Z) by (apply Z.pow_pos_nonneg; lia).
    assert (Q : Z.pos m = (q * 2 ^ d)%Z). { pose proof (Z.div_mod (Z.pos m) (2 ^ d) ltac:(lia)) as E. rewrite M in E. unfold q. lia. }
    assert (Q0 : (0 <= q)%Z) by (unfold q; apply Z.div_pos; lia).
    exists (cond_Zopp s q). split.
    + cbn [B2R]. unfold F2R. cbn [Fnum Fexp]. rewrite Q.
      assert (E : bpow radix2 (- k) = IZR (2 ^ d) * bpow radix2 e).
      { replace (- k)%Z with (d + e)%Z by (unfold d; lia). rewrite bpow_plus. f_equal. symmetry. apply (IZR_Zpower radix2). exact D. }
      rewrite E. destruct s; cbn [cond_Zopp]; rewrite ?opp_IZR, ?mult_IZR; ring.
    + destruct s; cbn [cond_Zopp]; lia.
Qed.
Definition on_tableb (c : f64) : bool := andb (fltb (f64_of_Z (-4096)) c) (fltb c (f64_of_Z 4096)).
Lemma z4096 : rx (f64_of_Z 4096) = 4096 /\ rx (f64_of_Z (-4096)) = -4096.
Proof.
  assert (E : B2SF (f64_of_Z 4096) = SpecFloat.S754_finite false 4503599627370496 (-40)) by (vm_compute; reflexivity).
  assert (E' : B2SF (f64_of_Z (-4096)) = SpecFloat.S754_finite true 4503599627370496 (-40)) by (vm_compute; reflexivity).
  assert (B : IZR 4503599627370496 * bpow radix2 (-40) = 4096).
  { change (bpow radix2 (-40)) with (/ IZR (2 ^ 40)). change 4503599627370496%Z with (4096 * 2 ^ 40)%Z. rewrite mult_IZR, Rmult_assoc, Rinv_r by (apply not_0_IZR; discriminate). ring. }
  split; rewrite rx_finite by (rewrite <- is_finite_SF_B2SF, ?E, ?E'; reflexivity); rewrite <- SF2R_B2SF, ?E, ?E'; cbn [SF2R cond_Zopp]; unfold F2R; cbn [Fnum Fexp].
  - exact B.
  - change (Z.neg 4503599627370496) with (- 4503599627370496)%Z. rewrite opp_IZR, Ropp_mult_distr_l_reverse, B. reflexivity.
Qed.
Lemma on_tableb_ok c : on_tableb c = true -> on_table c.
Proof.
  intros H. apply andb_prop in H as [A B]. destruct (fltb_not_nan _ _ A) as [N1 N]. destruct (fltb_not_nan _ _ B) as [_ N2]. destruct z4096 as [V W].
  apply fltb_rx in A; [|exact N1|exact N]. apply fltb_rx in B; [|exact N|exact N2]. rewrite W in A. rewrite V in B.
  pose proof fmax_10000 as M. destruct c as [s|s| |s m e E]; cbn [rx] in A, B; try discriminate.
  - split; [reflexivity|]. cbn [B2R]. rewrite Rabs_R0. lra.
  - destruct s; lra.
  - split; [reflexivity|]. apply Rabs_lt. lra.
Qed.
