(** Lemmas for C58 and C48: the box of a circle, and the distance of the courtyard. *)
From Coq Require Import String Reals Lra Lia Psatz.
From Flocq Require Import Core.Core IEEE754.BinarySingleNaN.
From Flocq Require Import Relative.
From Verif Require Import Base Str StrFacts Num F64 F64Text F64Order F64Grid FpData FpLayer Bound BoundSpec BoundFacts FpOps FpOpsSpec FpOpsFacts
  CheckFix FpCheck CheckSpec CourtFacts LyData LyOps LySpec ClassSpec ClassFacts TightSpec TightFacts.
Open Scope R_scope.

Definition uu : R := / 1000000000000000.
Definition tt' : R := / 1000000000000000000000000000000.
Lemma pow60 : bpow radix2 (-120) <= tt'.
Proof.
  unfold tt'. change (bpow radix2 (-120)) with (/ IZR (2 ^ 120)). apply Rinv_le_contravar; [lra|]. apply IZR_le. now vm_compute.
Qed.
Lemma rel r : Rabs (rnd r - r) <= Rabs r * uu + tt'.
Proof.
  unfold rnd. destruct (error_N_FLT radix2 (-1074) 53 eq_refl (fun z => negb (Z.even z)) r) as (eps & eta & E1 & E2 & _ & E).
  change (round radix2 (SpecFloat.fexp 53 1024) (round_mode mode_NE) r) with (round radix2 (FLT_exp (-1074) 53) ZnearestE r).
  change (round radix2 (FLT_exp (-1074) 53) ZnearestE r) with (round radix2 (FLT_exp (-1074) 53) (Znearest (fun z => negb (Z.even z))) r).
  rewrite E. replace (r * (1 + eps) + eta - r) with (r * eps + eta) by ring.
  eapply Rle_trans; [apply Rabs_triang|]. rewrite Rabs_mult.
  assert (U : / 2 * bpow radix2 (-53 + 1) <= uu) by (unfold uu; change (bpow radix2 (-53 + 1)) with (/ IZR (2 ^ 52)); change (2 ^ 52)%Z with 4503599627370496%Z; lra).
  assert (H1 : Rabs r * Rabs eps <= Rabs r * uu) by (apply Rmult_le_compat_l; [apply Rabs_pos|exact (Rle_trans _ _ _ E1 U)]).
  assert (H2 : bpow radix2 (-1074) <= bpow radix2 (-120)) by (apply bpow_le; lia).
  pose proof pow60. pose proof (bpow_gt_0 radix2 (-1074)). lra.
Qed.
Lemma square_val d : is_finite d = true -> Rabs (B2R d) <= 3000000 ->
  is_finite (fmul d d) = true /\ B2R (fmul d d) = rnd (B2R d * B2R d).
Proof.
  intros F B. unfold fmul. pose proof (Bmult_correct 53 1024 _ _ mode_NE d d) as H.
  change (round radix2 _ _) with rnd in H. change (bpow radix2 1024) with fmaxR in H.
  pose proof (rel (B2R d * B2R d)) as R. pose proof big_max. unfold big in *. apply Rabs_le_inv in B. set (x := B2R d) in *.
  assert (P : 0 <= x * x <= 9000000000000) by (split; nra). rewrite (Rabs_pos_eq (x * x)) in R by lra.
  apply Rabs_le_inv in R. unfold uu, tt' in R. assert (G : bpow radix2 40 = 1099511627776) by (cbn; lra).
  assert (G2 : 1099511627776 * 1099511627776 < fmaxR).
  { rewrite <- G, <- bpow_plus. unfold fmaxR. apply bpow_lt. lia. }
  rewrite Rlt_bool_true in H by (apply Rabs_lt; lra). destruct H as (H1 & H2 & _). rewrite F in H2. auto.
Qed.
Lemma square_near d' a : 0 <= a <= 2000000 -> Rabs (Rabs d' - a) <= a * uu + tt' ->
  Rabs (rnd (d' * d') - a * a) <= 5 * uu * (a * a) + / 1000000000000000000000.
Proof.
  intros A E. pose proof (rel (d' * d')) as R. replace (d' * d') with (Rabs d' * Rabs d') in * by (rewrite <- Rabs_mult; apply Rabs_pos_eq; nra).
  set (b := Rabs d') in *. assert (B : 0 <= b) by apply Rabs_pos. rewrite (Rabs_pos_eq (b * b)) in R by nra.
  assert (D : Rabs (b * b - a * a) <= 3 * uu * (a * a) + / 10000000000000000000000).
  { replace (b * b - a * a) with ((b - a) * (b + a)) by ring. rewrite Rabs_mult. apply Rle_trans with ((a * uu + tt') * (2 * a + a * uu + tt')).
    - apply Rmult_le_compat; try apply Rabs_pos; [exact E|]. apply Rabs_le_inv in E. rewrite Rabs_pos_eq by lra. lra.
    - unfold uu, tt'. assert (0 <= a * a) by nra. lra. }
  apply Rabs_le_inv in R, D. apply Rabs_le. assert (0 <= a * a) by nra. unfold uu, tt' in *. lra.
Qed.
Lemma sqrt_near s s' : 0 <= s <= 8000000000000 -> 0 <= s' -> Rabs (s' - s) <= 10 * uu * s + / 100000000000000000000 -> Rabs (sqrt s' - sqrt s) <= / 100000.
Proof.
  intros S S' D. apply Rabs_le_inv in D. unfold uu in D.
  assert (P : 0 <= sqrt s) by apply sqrt_pos. assert (P' : 0 <= sqrt s') by apply sqrt_pos.
  assert (Q : sqrt s * sqrt s = s) by (apply sqrt_sqrt; lra). assert (Q' : sqrt s' * sqrt s' = s') by (apply sqrt_sqrt; lra).
  set (x := sqrt s) in *. set (y := sqrt s') in *. assert (X : x <= 3000000) by nra.
  assert (D1 : - (3 * / 100000000 * x + / 100000000000000000000) <= (y - x) * (y + x) <= 3 * / 100000000 * x + / 100000000000000000000).
  { replace ((y - x) * (y + x)) with (s' - s) by (rewrite <- Q, <- Q'; ring). assert (s <= 3000000 * x) by (rewrite <- Q; nra). lra. }
  apply Rabs_le. split.
  - destruct (Rle_lt_dec (- / 100000) (y - x)) as [|L]; [assumption|exfalso].
    assert (M : / 100000 * (y + x) <= (x - y) * (y + x)) by (apply Rmult_le_compat_r; lra).
    assert (/ 100000 * x <= / 100000 * (y + x)) by lra. replace ((x - y) * (y + x)) with (- ((y - x) * (y + x))) in M by ring. lra.
  - destruct (Rle_lt_dec (y - x) (/ 100000)) as [|L]; [assumption|exfalso].
    assert (M : / 100000 * (y + x) <= (y - x) * (y + x)) by (apply Rmult_le_compat_r; lra). lra.
Qed.

(** The rounded length of a vector *)
Lemma length_val dx dy : is_finite dx = true -> is_finite dy = true -> forall a b, 0 <= a <= 2000000 -> 0 <= b <= 2000000 ->
  Rabs (Rabs (B2R dx) - a) <= a * uu + tt' -> Rabs (Rabs (B2R dy) - b) <= b * uu + tt' ->
  let r := fsqrt (fadd (fmul dx dx) (fmul dy dy)) in
  is_finite r = true /\ Rabs (B2R r - sqrt (a * a + b * b)) <= / 10000 /\ Rabs (B2R r) <= big.
Proof.
  intros Fx Fy a b A B Ex Ey r.
  assert (Lx : Rabs (B2R dx) <= 3000000) by (apply Rabs_le_inv in Ex; unfold uu, tt' in Ex; lra).
  assert (Ly : Rabs (B2R dy) <= 3000000) by (apply Rabs_le_inv in Ey; unfold uu, tt' in Ey; lra).
  destruct (square_val dx Fx Lx) as [F1 V1], (square_val dy Fy Ly) as [F2 V2].
  pose proof (square_near _ _ A Ex) as N1. pose proof (square_near _ _ B Ey) as N2. rewrite <- V1 in N1. rewrite <- V2 in N2.
  assert (P1 : 0 <= B2R (fmul dx dx)) by (rewrite V1; apply rnd_ge0; nra). assert (P2 : 0 <= B2R (fmul dy dy)) by (rewrite V2; apply rnd_ge0; nra).
  set (p := fmul dx dx) in *. set (q := fmul dy dy) in *. clearbody p q. clear V1 V2 Lx Ly Ex Ey.
  assert (S0 : 0 <= a * a + b * b <= 8000000000000) by (split; nra). assert (SA : 0 <= a * a) by nra. assert (SB : 0 <= b * b) by nra.
  destruct (fadd_finite p q F1 F2) as [V N]. pose proof (rel (B2R p + B2R q)) as R. rewrite (Rabs_pos_eq (B2R p + B2R q)) in R by lra.
  assert (Z0 : 0 <= rnd (B2R p + B2R q)) by (apply rnd_ge0; lra).
  apply Rabs_le_inv in N1, N2, R. unfold uu, tt' in N1, N2, R.
  assert (G : bpow radix2 40 = 1099511627776) by (cbn; lra).
  assert (G2 : 1099511627776 * 1099511627776 < fmaxR). { rewrite <- G, <- bpow_plus. unfold fmaxR. apply bpow_lt. lia. }
  destruct (clip_finite _ _ V N) as [Fs Vs]; [apply Rabs_lt; lra|].
  assert (D : Rabs (B2R (fadd p q) - (a * a + b * b)) <= 10 * uu * (a * a + b * b) + / 100000000000000000000).
  { rewrite Vs. apply Rabs_le. unfold uu. lra. }
  rewrite <- Vs in Z0. pose proof (sqrt_near _ _ S0 Z0 D) as Q. subst r. set (s := fadd p q) in *. clearbody s. clear V N R Vs.
  pose proof (Bsqrt_correct 53 1024 _ _ mode_NE s) as (W & _ & _). fold (fsqrt s) in W. change (round radix2 _ _) with rnd in W.
  assert (Fr : is_finite (fsqrt s) = true).
  { pose proof (Bsqrt_correct 53 1024 _ _ mode_NE s) as (_ & Fz & _). fold (fsqrt s) in Fz. rewrite Fz. destruct s as [t|t| |t m e H]; try discriminate; [reflexivity|].
    destruct t; [exfalso|reflexivity]. cbn [B2R cond_Zopp] in Z0. assert (F2R (Float radix2 (Z.neg m) e) < 0) by (apply F2R_lt_0; reflexivity). cbn [Z.opp] in Z0. lra. }
  split; [exact Fr|]. pose proof (rel (sqrt (B2R s))) as E. rewrite <- W in E. rewrite (Rabs_pos_eq (sqrt (B2R s))) in E by apply sqrt_pos.
  assert (T : sqrt (a * a + b * b) <= 3000000). { apply Rle_trans with (sqrt (3000000 * 3000000)); [apply sqrt_le_1_alt; lra|]. rewrite sqrt_square; lra. }
  pose proof (sqrt_pos (a * a + b * b)). pose proof (sqrt_pos (B2R s)). apply Rabs_le_inv in Q, E. unfold uu, tt' in E.
  split; apply Rabs_le; [lra|]. rewrite big_eq, G. lra.
Qed.
Definition rdist (ax ay bx by' : R) : R := sqrt ((ax - bx) * (ax - bx) + (ay - by') * (ay - by')).
Lemma modest_moderate x : modest x -> moderate x.
Proof. intros [F B]. split; [exact F|]. rewrite big_eq. assert (bpow radix2 40 = 1099511627776) by (cbn; lra). lra. Qed.
Lemma leg_val x y : modest x -> modest y -> is_finite (fsub x y) = true /\ 0 <= Rabs (B2R x - B2R y) <= 2000000 /\ Rabs (Rabs (B2R (fsub x y)) - Rabs (B2R x - B2R y)) <= Rabs (B2R x - B2R y) * uu + tt'.
Proof.
  intros [Fx Bx] [Fy By]. destruct (fsub_finite x y Fx Fy) as [V N]. pose proof (rel (B2R x - B2R y)) as R.
  assert (T : Rabs (B2R x - B2R y) <= 2000000) by (apply Rabs_le_inv in Bx, By; apply Rabs_le; lra).
  pose proof (Rabs_pos (B2R x - B2R y)) as P. pose proof big_max. assert (bpow radix2 40 = 1099511627776) by (cbn; lra). rewrite big_eq in *.
  assert (U : Rabs (rnd (B2R x - B2R y)) < fmaxR).
  { pose proof (Rabs_triang (rnd (B2R x - B2R y) - (B2R x - B2R y)) (B2R x - B2R y)) as Q. replace (rnd (B2R x - B2R y) - (B2R x - B2R y) + (B2R x - B2R y)) with (rnd (B2R x - B2R y)) in Q by ring.
    unfold uu, tt' in R. lra. }
  destruct (clip_finite _ _ V N U) as [F W]. split; [exact F|]. split; [lra|]. rewrite W. eapply Rle_trans; [apply Rabs_triang_inv2|]. exact R.
Qed.
Lemma circle_val (cx cy ex ey : f64) : modest cx -> modest cy -> modest ex -> modest ey ->
  let dx := fsub cx ex in let dy := fsub cy ey in let r := fsqrt (fadd (fmul dx dx) (fmul dy dy)) in
  let d := rdist (B2R cx) (B2R cy) (B2R ex) (B2R ey) in
  near_box (bound_new (fsub cx r) (fsub cy r) (fadd cx r) (fadd cy r)) (B2R cx - d) (B2R cy - d) (B2R cx + d) (B2R cy + d).
Proof.
  intros Mx My Nx Ny dx dy r d. destruct (leg_val cx ex Mx Nx) as (F1 & A1 & E1), (leg_val cy ey My Ny) as (F2 & A2 & E2).
  destruct (length_val (fsub cx ex) (fsub cy ey) F1 F2 _ _ A1 A2 E1 E2) as (Fr & Er & Br).
  replace (sqrt _) with d in Er; [|unfold d, rdist; f_equal; rewrite <- !Rabs_mult; rewrite !Rabs_pos_eq by apply Rle_0_sqr; reflexivity].
  change (fsqrt _) with r in Fr, Er, Br. clearbody r d. apply modest_moderate in Mx, My.
  destruct (sum_val _ _ Mx Fr Br) as [S1 S2], (sum_val _ _ My Fr Br) as [S3 S4], (diff_val _ _ Mx Fr Br) as [D1 D2], (diff_val _ _ My Fr Br) as [D3 D4].
  unfold near_box. cbn [bound_new bx1 by1 bx2 by2 bounded]. split; [reflexivity|]. split; [apply finite_box_iff; auto|].
  apply Rabs_le_inv in Er, S2, S4, D2, D4. split; [|split; [|split]]; apply Rabs_le; lra.
Qed.
Lemma gr_circle_box c : modest2 (gc_center c) -> modest2 (gc_end c) -> around (gc_center c) (gc_end c) (gr_circle_bound c).
Proof. intros [A B] [C D]. exact (circle_val _ _ _ _ A B C D). Qed.
Lemma fp_circle_box c : modest2 (ci_center c) -> modest2 (ci_end c) -> around (ci_center c) (ci_end c) (circle_bound c).
Proof. intros [A B] [C D]. exact (circle_val _ _ _ _ A B C D). Qed.

(** ** The distance of the courtyard *)
Lemma close_rnd r : Rabs r <= 10000000 -> Rabs (rnd r - r) <= / 10000000.
Proof. intros B. pose proof (rel r). pose proof (Rabs_pos r). unfold uu, tt' in *. lra. Qed.
Lemma max_big : 100000000 < fmaxR.
Proof. pose proof big_max. assert (bpow radix2 40 = 1099511627776) by (cbn; lra). rewrite big_eq in *. lra. Qed.
Lemma sub_val x y : is_finite x = true -> is_finite y = true -> Rabs (B2R x - B2R y) <= 10000000 ->
  is_finite (fsub x y) = true /\ Rabs (B2R (fsub x y) - (B2R x - B2R y)) <= / 10000000.
Proof.
  intros Fx Fy B. destruct (fsub_finite x y Fx Fy) as [V N]. pose proof (close_rnd _ B) as E. pose proof max_big.
  pose proof E as E'. apply Rabs_le_inv in E'. apply Rabs_le_inv in B. destruct (clip_finite _ _ V N) as [F W]; [apply Rabs_lt; lra|]. rewrite W. auto.
Qed.
Lemma add_val x y : is_finite x = true -> is_finite y = true -> Rabs (B2R x + B2R y) <= 10000000 ->
  is_finite (fadd x y) = true /\ Rabs (B2R (fadd x y) - (B2R x + B2R y)) <= / 10000000.
Proof.
  intros Fx Fy B. destruct (fadd_finite x y Fx Fy) as [V N]. pose proof (close_rnd _ B) as E. pose proof max_big.
  pose proof E as E'. apply Rabs_le_inv in E'. apply Rabs_le_inv in B. destruct (clip_finite _ _ V N) as [F W]; [apply Rabs_lt; lra|]. rewrite W. auto.
Qed.
Lemma min_val x y : is_finite x = true -> is_finite y = true -> is_finite (fmin x y) = true /\ B2R (fmin x y) = Rmin (B2R x) (B2R y).
Proof.
  intros Fx Fy. assert (F : is_finite (fmin x y) = true) by (unfold fmin; repeat match goal with |- context [if ?b then _ else _] => destruct b end; assumption).
  split; [exact F|]. rewrite <- (rx_finite x Fx), <- (rx_finite y Fy), <- (rx_finite _ F). apply rx_fmin; now apply finite_nan.
Qed.
Lemma max_val x y : is_finite x = true -> is_finite y = true -> is_finite (fmax x y) = true /\ B2R (fmax x y) = Rmax (B2R x) (B2R y).
Proof.
  intros Fx Fy. assert (F : is_finite (fmax x y) = true) by (unfold fmax; repeat match goal with |- context [if ?b then _ else _] => destruct b end; assumption).
  split; [exact F|]. rewrite <- (rx_finite x Fx), <- (rx_finite y Fy), <- (rx_finite _ F). apply rx_fmax; now apply finite_nan.
Qed.
Lemma margin_axis a b x (o : f64) t : modest a -> modest b -> modest x -> B2R a <= B2R b -> is_finite o = true -> Rabs (B2R o - t) <= / 100000 -> 0 <= t <= 1 ->
  is_finite (fsub (fmin (fsub a x) (fsub b x)) o) = true /\ is_finite (fadd (fmax (fsub a x) (fsub b x)) o) = true /\
  Rabs (B2R (fsub (fmin (fsub a x) (fsub b x)) o) - (B2R a - B2R x - t)) <= / 1000 /\
  Rabs (B2R (fadd (fmax (fsub a x) (fsub b x)) o) - (B2R b - B2R x + t)) <= / 1000.
Proof.
  intros [Fa Ba] [Fb Bb] [Fx Bx] L Fo Eo T. apply Rabs_le_inv in Ba, Bb, Bx, Eo.
  destruct (sub_val a x Fa Fx) as [F1 E1]; [apply Rabs_le; lra|]. destruct (sub_val b x Fb Fx) as [F2 E2]; [apply Rabs_le; lra|].
  apply Rabs_le_inv in E1, E2. destruct (min_val _ _ F1 F2) as [F3 E3], (max_val _ _ F1 F2) as [F4 E4].
  assert (M1 : - / 1000000 <= Rmin (B2R (fsub a x)) (B2R (fsub b x)) - (B2R a - B2R x) <= / 1000000) by (unfold Rmin; destruct (Rle_dec _ _); lra).
  assert (M2 : - / 1000000 <= Rmax (B2R (fsub a x)) (B2R (fsub b x)) - (B2R b - B2R x) <= / 1000000) by (unfold Rmax; destruct (Rle_dec _ _); lra).
  rewrite <- E3 in M1. rewrite <- E4 in M2.
  destruct (sub_val _ _ F3 Fo) as [F5 E5]; [apply Rabs_le; lra|]. destruct (add_val _ _ F4 Fo) as [F6 E6]; [apply Rabs_le; lra|].
  apply Rabs_le_inv in E5, E6. split; [exact F5|]. split; [exact F6|]. split; apply Rabs_le; lra.
Qed.
Lemma width_val a b : modest a -> modest b -> B2R a <= B2R b ->
  (B2R b - B2R a <= 1.999 -> fltb (fabs (fsub a b)) (flit "2.0") = true) /\ (2.001 <= B2R b - B2R a -> fltb (fabs (fsub a b)) (flit "2.0") = false).
Proof.
  intros [Fa Ba] [Fb Bb] L. apply Rabs_le_inv in Ba, Bb. destruct (sub_val a b Fa Fb) as [F1 E1]; [apply Rabs_le; lra|].
  apply Rabs_le_inv in E1. assert (F : is_finite (flit "2.0") = true) by (vm_compute; reflexivity).
  assert (V : B2R (flit "2.0") = 2) by exact (proj2 (lit_val (flit "2.0") _ _ 2 ltac:(vm_compute; reflexivity) ltac:(unfold F2R; cbn [Fnum Fexp]; change (bpow radix2 (-51)) with (/ IZR (2^51)); change (2^51)%Z with 2251799813685248%Z; lra))).
  assert (Fw : is_finite (fabs (fsub a b)) = true) by (unfold fabs; now rewrite is_finite_Babs).
  assert (W : B2R (fabs (fsub a b)) = Rabs (B2R (fsub a b))) by (unfold fabs; now rewrite B2R_Babs).
  unfold fltb. rewrite Bltb_correct by assumption. rewrite W, V.
  split; intros K; [apply Rlt_bool_true|apply Rlt_bool_false].
  - apply Rabs_lt. lra.
  - rewrite <- Rabs_Ropp. eapply Rle_trans; [|apply Rle_abs]. lra.
Qed.
Lemma starts_firstn p s : starts_with p s = true <-> firstn (length p) s = p.
Proof.
  revert s. induction p as [|c p IH]; intros s; [cbn; destruct s; split; reflexivity|]. destruct s as [|d s]; cbn [starts_with length firstn]; [split; discriminate|].
  rewrite Bool.andb_true_iff, IH, N.eqb_eq. split; [intros [-> ->]; reflexivity|]. intros H. injection H as -> ->. auto.
Qed.
Lemma offset_lit (s : string) (t : R) m e : is_finite (flit s) = true -> B2SF (flit s) = SpecFloat.S754_finite false m e -> Rabs (F2R (Float radix2 (Zpos m) e) - t) <= / 100000 ->
  is_finite (flit s) = true /\ Rabs (B2R (flit s) - t) <= / 100000.
Proof. intros F E H. split; [exact F|]. rewrite <- SF2R_B2SF, E. exact H. Qed.
Ltac olit k n := eapply offset_lit; [vm_compute; reflexivity|vm_compute; reflexivity|
   unfold F2R; cbn [Fnum Fexp]; change (bpow radix2 k) with (/ IZR n); apply Rabs_le; lra].
Lemma o15 : is_finite (flit "0.15") = true /\ Rabs (B2R (flit "0.15") - 0.15) <= / 100000. Proof. olit (-55)%Z 36028797018963968%Z. Qed.
Lemma o1 : is_finite (flit "0.1") = true /\ Rabs (B2R (flit "0.1") - 0.1) <= / 100000. Proof. olit (-56)%Z 72057594037927936%Z. Qed.
Lemma o25 : is_finite (flit "0.25") = true /\ Rabs (B2R (flit "0.25") - 0.25) <= / 100000. Proof. olit (-54)%Z 18014398509481984%Z. Qed.
Lemma offset_val m b t : modest_box b -> B2R (bx1 b) <= B2R (bx2 b) -> B2R (by1 b) <= B2R (by2 b) -> clearance (m_name m) (B2R (bx2 b) - B2R (bx1 b)) (B2R (by2 b) - B2R (by1 b)) t ->
  is_finite (courtyard_offset m b) = true /\ Rabs (B2R (courtyard_offset m b) - t) <= / 100000 /\ 0 <= t <= 1.
Proof.
  intros (A & B & C & D) L1 L2 H. destruct (width_val _ _ A C L1) as [W1 W2], (width_val _ _ B D L2) as [H1 H2].
  assert (G : forall P Q R : Prop, P /\ Q -> R -> P /\ Q /\ R) by tauto. unfold courtyard_offset, bound_width, bound_height. destruct H as [K1 K2|K1 K2|K1 K2].
  - rewrite W1, H1 by assumption. cbn [andb]. apply G; [apply o15|lra].
  - replace (_ && _)%bool with false by (symmetry; destruct K1 as [K|K]; [now rewrite W2|rewrite H2 by exact K; apply Bool.andb_false_r]).
    change 3%nat with (length (lit "BGA")) in K2. rewrite (proj2 (starts_firstn _ _) K2). apply G; [apply o1|lra].
  - replace (_ && _)%bool with false by (symmetry; destruct K1 as [K|K]; [now rewrite W2|rewrite H2 by exact K; apply Bool.andb_false_r]).
    change 3%nat with (length (lit "BGA")) in K2. destruct (starts_with _ _) eqn:E; [apply starts_firstn in E; contradiction|]. apply G; [apply o25|lra].
Qed.
Lemma courtyard_margin m x y t : module_at m = (x, y) -> modest x -> modest y -> modest_box (module_bound m) ->
  let b := module_bound m in clearance (m_name m) (B2R (bx2 b) - B2R (bx1 b)) (B2R (by2 b) - B2R (by1 b)) t ->
  exists x1 y1 x2 y2, rectangle_of x1 y1 x2 y2 (courtyard m) /\
    near_box (mk_bound x1 y1 x2 y2 true) (B2R (bx1 b) - B2R x - t) (B2R (by1 b) - B2R y - t) (B2R (bx2 b) - B2R x + t) (B2R (by2 b) - B2R y + t).
Proof.
  intros A Mx My MB b H. assert (O : ordered b = true).
  { subst b. unfold module_bound in *. rewrite A in *. apply swap_ordered. rewrite <- swap_num. destruct MB as ([F1 _] & [F2 _] & [F3 _] & [F4 _]).
    unfold bnum. now rewrite !finite_nan. }
  unfold ordered in O. apply andb_prop in O as [O1 O2]. pose proof MB as (B1 & B2 & B3 & B4). fold b in MB, B1, B2, B3, B4.
  apply fleb_rx in O1; [|apply finite_nan, B1|apply finite_nan, B3]. apply fleb_rx in O2; [|apply finite_nan, B2|apply finite_nan, B4].
  rewrite !rx_finite in O1 by (apply B1 || apply B3). rewrite !rx_finite in O2 by (apply B2 || apply B4).
  destruct (offset_val m b t MB O1 O2 H) as (Fo & Eo & To).
  destruct (margin_axis _ _ x _ _ B1 B3 Mx O1 Fo Eo To) as (X1 & X2 & X3 & X4). destruct (margin_axis _ _ y _ _ B2 B4 My O2 Fo Eo To) as (Y1 & Y2 & Y3 & Y4).
  unfold courtyard. rewrite A. fold b. do 4 eexists. split.
  { do 4 eexists. split; [reflexivity|]. now repeat split. }
  split; [reflexivity|]. split; [apply finite_box_iff; cbn [bx1 by1 bx2 by2]; auto|]. cbn [bx1 by1 bx2 by2]. auto.
Qed.
Lemma small_modest x : smallb x = true -> modest x.
Proof.
  unfold smallb, modest. intros H. apply andb_prop in H as [H H2]. apply andb_prop in H as [F H1]. split; [exact F|].
  assert (P : is_finite (f64_of_Z 1000000) = true /\ B2R (f64_of_Z 1000000) = IZR 1000000).
  { assert (Y : B2SF (f64_of_Z 1000000) = SpecFloat.S754_finite false 8589934592000000 (-33)) by (vm_compute; reflexivity).
    split; [vm_compute; reflexivity|]. rewrite <- SF2R_B2SF, Y. cbn [SF2R cond_Zopp]. unfold F2R. cbn [Fnum Fexp].
    change (bpow radix2 (-33)) with (/ IZR (2^33))%R. change (2^33)%Z with 8589934592%Z. lra. }
  assert (M : is_finite (f64_of_Z (-1000000)) = true /\ B2R (f64_of_Z (-1000000)) = IZR (-1000000)).
  { assert (Y : B2SF (f64_of_Z (-1000000)) = SpecFloat.S754_finite true 8589934592000000 (-33)) by (vm_compute; reflexivity).
    split; [vm_compute; reflexivity|]. rewrite <- SF2R_B2SF, Y. cbn [SF2R cond_Zopp]. unfold F2R. cbn [Fnum Fexp].
    change (bpow radix2 (-33)) with (/ IZR (2^33))%R. change (2^33)%Z with 8589934592%Z. cbn [Z.opp]. lra. }
  apply fleb_rx in H1; [|apply finite_nan, M|now apply finite_nan]. apply fleb_rx in H2; [|now apply finite_nan|apply finite_nan, P].
  rewrite (rx_finite _ F) in H1, H2. rewrite (rx_finite _ (proj1 M)), (proj2 M) in H1. rewrite (rx_finite _ (proj1 P)), (proj2 P) in H2. apply Rabs_le. lra.
Qed.
Close Scope R_scope.
Lemma court_example (b : bound) : modest_box b -> fleb (bx1 b) (f64_of_Z 5) = true -> fleb (f64_of_Z 15) (bx2 b) = true ->
  clearance (lit "m") (B2R (bx2 b) - B2R (bx1 b))%R (B2R (by2 b) - B2R (by1 b))%R 0.25.
Proof.
  intros ([F1 _] & _ & [F2 _] & _) L1 L2. apply cl_other; [left|vm_compute; discriminate].
  destruct (lit_val (f64_of_Z 5) 5629499534213120 (-50) 5%R ltac:(vm_compute; reflexivity)) as [G1 V1].
  { unfold F2R. cbn [Fnum Fexp]. change (bpow radix2 (-50)) with (/ IZR (2^50))%R. change (2^50)%Z with 1125899906842624%Z. lra. }
  destruct (lit_val (f64_of_Z 15) 8444249301319680 (-49) 15%R ltac:(vm_compute; reflexivity)) as [G2 V2].
  { unfold F2R. cbn [Fnum Fexp]. change (bpow radix2 (-49)) with (/ IZR (2^49))%R. change (2^49)%Z with 562949953421312%Z. lra. }
  apply fleb_rx in L1; [|now apply finite_nan|now apply finite_nan]. apply fleb_rx in L2; [|now apply finite_nan|now apply finite_nan].
  rewrite !rx_finite in L1, L2 by assumption. rewrite V1 in L1. rewrite V2 in L2. lra.
Qed.
