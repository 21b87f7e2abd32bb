(** Numbers are written with the fewest digits (C64). *)
From Coq Require Import String Reals Lra Lia.
From Coq Require Import Floats.SpecFloat.
From Flocq Require Import Core.Core IEEE754.BinarySingleNaN.
From Verif Require Import Base Str Num NumFacts F64 F64Text F64Facts DecSpec DecFacts ShortSpec.
Open Scope R_scope.

Lemma closer_le x v w : closer x v w -> Rabs (v - x) <= Rabs (w - x).
Proof. unfold closer. intros [H|[H _]]; lra. Qed.
Lemma closer_trans x u v w : closer x u v -> closer x v w -> closer x u w.
Proof. unfold closer. intros [A|[A A']] [B|[B B']]; [left; lra|left; lra|left; lra|right; split; lra]. Qed.
Lemma closer_low x v w : v <= x -> w <= v -> closer x v w.
Proof. intros A B. unfold closer. rewrite !Rabs_left1 by lra. destruct (Req_dec v w); [right|left]; lra. Qed.
Lemma closer_high x v w : x <= v -> v <= w -> closer x v w.
Proof. intros A B. unfold closer. rewrite !Rabs_pos_eq by lra. destruct (Req_dec v w); [right|left]; lra. Qed.
Lemma closer_same x w : closer x x w.
Proof.
  unfold closer. replace (x - x) with 0 by ring. rewrite Rabs_R0. destruct (Req_dec w x) as [->|H]; [right; split; [|lra]|left; apply Rabs_pos_lt; lra].
  replace (x - x) with 0 by ring. symmetry. apply Rabs_R0.
Qed.

Definition val (d : N) (e : Z) : R := IZR (Z.of_N d) * powerRZ 10 e.
Lemma val_pos d e : (0 < d)%N -> 0 < val d e.
Proof. intros H. apply Rmult_lt_0_compat; [apply IZR_lt; lia|apply pow10_pos]. Qed.
Lemma pow10_add a b : powerRZ 10 (a + b) = powerRZ 10 a * powerRZ 10 b.
Proof. apply powerRZ_add. lra. Qed.
Lemma val_shift d k e : val (d * 10 ^ N.of_nat k) e = val d (e + Z.of_nat k).
Proof.
  unfold val. rewrite N2Z.inj_mul, mult_IZR, N2Z.inj_pow, pow10_add, nat_N_Z.
  change (Z.of_N 10) with 10%Z. rewrite <- pow10 by lia. ring.
Qed.
Lemma nearest_mono a b : a <= b -> nearest a <= nearest b.
Proof. intros H. unfold nearest. apply round_le; [apply FLT_exp_valid; reflexivity|apply valid_rnd_N|exact H]. Qed.

(** Reading a layout *)
Lemma layout_dec_reads d e : exists d' e', dec_of_str (layout_dec d e) = Some (d', e') /\ val d' e' = val d e.
Proof.
  rewrite dec_of_layout. destruct (Z.leb_spec 0 e) as [H|H]; [|exists d, e; split; reflexivity].
  eexists _, _. split; [reflexivity|]. pose proof (val_shift d (Z.to_nat e) 0) as V. rewrite Z_nat_N, Z2Nat.id in V by lia. exact V.
Qed.
Lemma layout_reads d e : exists y, ufloat_of_str (layout_dec d e) = Some y /\ reads y false (val d e).
Proof.
  rewrite ufloat_of_layout. destruct (layout_dec_reads d e) as (d' & e' & -> & V). eexists. split; [reflexivity|]. rewrite <- V. apply dec_reads.
Qed.
Lemma layout_number d e : number_text (layout_dec d e) false (val d e).
Proof.
  destruct (layout_dec_reads d e) as (d' & e' & H & V). destruct (dec_of_bw _ _ _ H) as (ip & pt & fp & ex & x & -> & F & P & E & N & -> & D).
  rewrite <- V. unfold val. rewrite D. exact (number_is [] false ip pt fp ex x sign_none F P E N).
Qed.

(** Dropping zeros *)
Lemma strip_facts fuel : forall d e d' e', strip_zeros fuel d e = (d', e') -> val d' e' = val d e /\ (d' <= d)%N /\ ((0 < d)%N -> (0 < d')%N).
Proof.
  induction fuel as [|k IH]; intros d e d' e' H; cbn in H; [injection H as <- <-; split; [reflexivity|]; split; [lia|auto]|].
  destruct (N.eqb_spec d 0) as [->|Z]; [injection H as <- <-; split; [reflexivity|]; split; [lia|auto]|].
  destruct (N.eqb_spec (d mod 10) 0) as [M|M]; [|injection H as <- <-; split; [reflexivity|]; split; [lia|auto]].
  apply IH in H as (V & L & P). pose proof (N.div_mod d 10 ltac:(lia)) as D. rewrite M, N.add_0_r in D.
  split; [|split; [lia|intros _; apply P; lia]]. rewrite V. rewrite D at 2. change 10%N with (10 ^ N.of_nat 1)%N at 2. rewrite N.mul_comm. symmetry. apply val_shift.
Qed.
Lemma strip_ends fuel : forall d e d' e', strip_zeros fuel d e = (d', e') -> (0 < d < 10 ^ N.of_nat (S fuel))%N -> (d' mod 10 <> 0)%N \/ (d' < 10)%N.
Proof.
  induction fuel as [|k IH]; intros d e d' e' H B; cbn [strip_zeros] in H; [injection H as <- <-; right; cbn in B; lia|].
  destruct (N.eqb_spec d 0) as [->|Z]; [lia|].
  destruct (N.eqb_spec (d mod 10) 0) as [M|M]; [|injection H as <- <-; now left].
  apply (IH _ _ _ _ H). pose proof (N.div_mod d 10 ltac:(lia)) as D. split; [lia|]. apply N.div_lt_upper_bound; [lia|].
  rewrite <- N.pow_succ_r', <- Nat2N.inj_succ. lia.
Qed.

(** A candidate is accepted exactly if it reads back. *)
Definition accepts (x : f64) (s : str) : bool := match ufloat_of_str s with Some y => fsame x y | None => false end.
Lemma accepts_iff x d e : is_finite x = true -> Bsign x = false -> (accepts x (layout_dec d e) = true <-> nearest (val d e) = B2R x).
Proof.
  intros F S. unfold accepts. destruct (layout_reads d e) as (y & -> & R). rewrite fsame_eq.
  assert (A : Rabs (B2R x) = B2R x).
  { destruct x as [s|s| |s m ee B]; try discriminate F; cbn [B2R Bsign] in *; [apply Rabs_R0|]. subst s. cbn [cond_Zopp]. apply Rabs_pos_eq, F2R_ge_0. cbn. lia. }
  split.
  - intros <-. destruct R as [(_ & _ & R & _)|(_ & ->)]; [|discriminate F]. congruence.
  - intros H. apply (reads_fun _ _ false (val d e)); [|exact R|].
    + left. rewrite H, A. split; [|split; [exact F|split; [reflexivity|exact S]]].
      eapply Rle_lt_trans; [apply Rle_abs|]. apply abs_B2R_lt_emax.
    + apply Rmult_le_pos; [apply IZR_le; lia|left; apply pow10_pos].
Qed.

Lemma pow_nz k : (10 ^ N.of_nat k <> 0)%N. Proof. apply N.pow_nonzero. lia. Qed.
(** The two neighbours with [n] digits of [d * 10^e] *)
Section Neighbours.
Variables (d : N) (e : Z) (len n : nat).
Hypothesis Hd : (10 ^ N.of_nat (len - 1) <= d < 10 ^ N.of_nat len)%N.
Hypothesis Hl : (0 < len)%nat.
Hypothesis Hn : (0 < n)%nat.
Let p := (10 ^ N.of_nat (len - n))%N.
Let q := (d / p)%N.
Let P := (e + Z.of_nat (len - n))%Z.
Lemma low_le : val q P <= val d e.
Proof.
  unfold P. rewrite <- val_shift. fold p. apply Rmult_le_compat_r; [left; apply pow10_pos|]. apply IZR_le. unfold q.
  pose proof (N.mul_div_le d p (pow_nz _)). lia.
Qed.
Lemma high_gt : val d e < val (q + 1) P.
Proof.
  unfold P. rewrite <- val_shift. fold p. apply Rmult_lt_compat_r; [apply pow10_pos|]. apply IZR_lt. unfold q.
  pose proof (N.mul_succ_div_gt d p (pow_nz _)). lia.
Qed.
Lemma q_bounds : (n <= len)%nat -> (10 ^ N.of_nat (n - 1) <= q < 10 ^ N.of_nat n)%N.
Proof.
  intros L. unfold q, p. split.
  - apply N.div_le_lower_bound; [apply pow_nz|]. rewrite <- N.pow_add_r. replace (N.of_nat (len - n) + N.of_nat (n - 1))%N with (N.of_nat (len - 1)) by lia. lia.
  - apply N.div_lt_upper_bound; [apply pow_nz|]. rewrite <- N.pow_add_r. replace (N.of_nat (len - n) + N.of_nat n)%N with (N.of_nat len) by lia. lia.
Qed.
Lemma q_pos : (0 < q)%N.
Proof.
  destruct (Nat.le_gt_cases n len) as [L|L].
  - pose proof (q_bounds L). pose proof (pow_nz (n - 1)). lia.
  - unfold q, p. replace (len - n)%nat with 0%nat by lia. rewrite N.pow_0_r, N.div_1_r. pose proof (pow_nz (len - 1)). lia.
Qed.
Lemma between v : (n <= len)%nat -> decimal n v -> v <= val q P \/ val (q + 1) P <= v.
Proof.
  intros L (c & k & C & ->). destruct (Z.le_gt_cases P k) as [K|K].
  - replace (IZR c * powerRZ 10 k) with (IZR (c * 10 ^ (k - P)) * powerRZ 10 P).
    2:{ rewrite mult_IZR, <- pow10 by lia. rewrite Rmult_assoc, <- pow10_add. do 2 f_equal. lia. }
    destruct (Z.le_gt_cases (c * 10 ^ (k - P)) (Z.of_N q)) as [X|X]; [left|right]; (apply Rmult_le_compat_r; [left; apply pow10_pos|]; apply IZR_le; lia).
  - left. apply Rle_trans with (powerRZ 10 (Z.of_nat (n - 1) + P)).
    + apply Rle_trans with (powerRZ 10 (Z.of_nat n + k)).
      * rewrite pow10_add. apply Rmult_le_compat_r; [left; apply pow10_pos|]. rewrite pow10 by lia. apply IZR_le. lia.
      * apply pow10_le. lia.
    + rewrite pow10_add. apply Rmult_le_compat_r; [left; apply pow10_pos|]. rewrite pow10 by lia. apply IZR_le.
      destruct (q_bounds L) as [Q _]. apply N2Z.inj_le in Q. rewrite N2Z.inj_pow in Q. change (Z.of_N 10) with 10%Z in Q. rewrite nat_N_Z in Q. exact Q.
Qed.
Lemma decimal_upto c : (0 < c <= 10 ^ N.of_nat n)%N -> decimal n (val c P).
Proof.
  intros C. destruct (N.eq_dec c (10 ^ N.of_nat n)) as [->|X].
  - exists 1%Z, (P + Z.of_nat n)%Z. split; [split; [lia|]|].
    + replace (Z.of_nat n) with (1 + Z.of_nat (n - 1))%Z by lia. rewrite Z.pow_add_r by lia. pose proof (Z.pow_pos_nonneg 10 (Z.of_nat (n - 1)) ltac:(lia) ltac:(lia)). lia.
    + rewrite <- val_shift || idtac. unfold val. rewrite N2Z.inj_pow, nat_N_Z. change (Z.of_N 10) with 10%Z. rewrite <- pow10 by lia. rewrite pow10_add. ring.
  - exists (Z.of_N c), P. split; [|reflexivity]. split; [lia|]. assert (K : (c < 10 ^ N.of_nat n)%N) by lia. apply N2Z.inj_lt in K.
    rewrite N2Z.inj_pow, nat_N_Z in K. exact K.
Qed.
Lemma exact_q : (len <= n)%nat -> val q P = val d e.
Proof. intros L. unfold q, p, P. replace (len - n)%nat with 0%nat by lia. rewrite N.pow_0_r, N.div_1_r. f_equal. lia. Qed.
End Neighbours.

(** One attempt with [n] digits *)
Definition pick (d p : N) : N * N := if (2 * (d mod p) <? p)%N then (d / p, d / p + 1)%N else (d / p + 1, d / p)%N.
Definition cand (e : Z) (len n : nat) (c : N) : str :=
  let '(c', e') := strip_zeros n c (e + Z.of_nat (len - n))%Z in layout_dec c' e'.
Lemma shorter_eq x d e len n : shorter x d e len n =
  let '(a, b) := pick d (10 ^ N.of_nat (len - n)) in
  if accepts x (cand e len n a) then Some (cand e len n a) else if accepts x (cand e len n b) then Some (cand e len n b) else None.
Proof. reflexivity. Qed.
Lemma cand_val e len n c : exists c' e', cand e len n c = layout_dec c' e' /\ val c' e' = val c (e + Z.of_nat (len - n)) /\ ((0 < c)%N -> (0 < c')%N)
  /\ ((0 < c < 10 ^ N.of_nat (S n))%N -> (c' mod 10 <> 0)%N \/ (c' < 10)%N).
Proof.
  unfold cand. destruct (strip_zeros n c (e + Z.of_nat (len - n))) as [c' e'] eqn:E. exists c', e'.
  destruct (strip_facts _ _ _ _ _ E) as (V & _ & Q). split; [reflexivity|]. split; [exact V|]. split; [exact Q|]. apply (strip_ends _ _ _ _ _ E).
Qed.
Lemma cand_accepts x e len n c : is_finite x = true -> Bsign x = false ->
  (accepts x (cand e len n c) = true <-> nearest (val c (e + Z.of_nat (len - n))) = B2R x).
Proof. intros F S. destruct (cand_val e len n c) as (c' & e' & -> & V & _). rewrite accepts_iff by assumption. now rewrite V. Qed.

Section Attempt.
Variables (x : f64) (d : N) (e : Z) (len : nat).
Hypothesis Fx : is_finite x = true.
Hypothesis Sx : Bsign x = false.
Hypothesis Vx : B2R x = val d e.
Hypothesis Hd : (10 ^ N.of_nat (len - 1) <= d < 10 ^ N.of_nat len)%N.
Hypothesis Hl : (0 < len)%nat.
Lemma nearest_self : nearest (val d e) = B2R x.
Proof.
  rewrite <- Vx. apply round_generic; [apply valid_rnd_N|]. exact (generic_format_B2R 53 1024 x).
Qed.
Lemma pick_cases n : exists a b, pick d (10 ^ N.of_nat (len - n)) = (a, b) /\
  ((a = d / 10 ^ N.of_nat (len - n) /\ b = a + 1)%N \/ (b = d / 10 ^ N.of_nat (len - n) /\ a = b + 1)%N) /\
  (forall v, v = val a (e + Z.of_nat (len - n)) -> closer (val d e) v (val b (e + Z.of_nat (len - n)))
     /\ Rabs (v - val d e) <= powerRZ 10 (e + Z.of_nat (len - n)) / 2).
Proof.
  set (p := (10 ^ N.of_nat (len - n))%N). set (P := (e + Z.of_nat (len - n))%Z). assert (Z0 : p <> 0%N) by apply pow_nz.
  assert (D : val d e = val (d / p) P + IZR (Z.of_N (d mod p)) * powerRZ 10 e).
  { unfold P. rewrite <- val_shift. fold p. unfold val. rewrite <- Rmult_plus_distr_r, <- plus_IZR. do 2 f_equal.
    pose proof (N.div_mod d p Z0). lia. }
  assert (W : powerRZ 10 P = IZR (Z.of_N p) * powerRZ 10 e).
  { unfold P, p. rewrite N2Z.inj_pow, nat_N_Z. change (Z.of_N 10) with 10%Z. rewrite <- pow10 by lia. rewrite pow10_add. ring. }
  assert (U : val (d / p + 1) P = val (d / p) P + powerRZ 10 P).
  { unfold val. rewrite N2Z.inj_add, plus_IZR. change (IZR (Z.of_N 1)) with 1. ring. }
  assert (T : (d mod p < p)%N) by (apply N.mod_lt; exact Z0).
  pose proof (pow10_pos e) as E0. set (r := IZR (Z.of_N (d mod p))) in *. set (w := IZR (Z.of_N p)) in *. set (t := powerRZ 10 e) in *.
  assert (R0 : 0 <= r) by (apply IZR_le; lia). assert (R1 : r < w) by (apply IZR_lt; lia).
  assert (A1 : Rabs (val (d / p) P - val d e) = r * t).
  { replace (val (d / p) P - val d e) with (- (r * t)) by (rewrite D; ring). rewrite Rabs_Ropp. apply Rabs_pos_eq. apply Rmult_le_pos; lra. }
  assert (A2 : Rabs (val (d / p + 1) P - val d e) = (w - r) * t).
  { replace (val (d / p + 1) P - val d e) with ((w - r) * t) by (rewrite U, D, W; ring). apply Rabs_pos_eq. apply Rmult_le_pos; lra. }
  unfold pick. destruct (N.ltb_spec (2 * (d mod p)) p) as [L|L].
  - eexists _, _. split; [reflexivity|]. split; [left; split; reflexivity|]. intros v ->. unfold closer. rewrite A1, A2, W.
    assert (2 * r < w) by (unfold r, w; rewrite <- mult_IZR; apply IZR_lt; lia). split; [left; apply Rmult_lt_compat_r; lra|].
    replace (w * t / 2) with (w / 2 * t) by field. apply Rmult_le_compat_r; lra.
  - eexists _, _. split; [reflexivity|]. split; [right; split; reflexivity|]. intros v ->. unfold closer. rewrite A1, A2, W.
    assert (w <= 2 * r) by (unfold r, w; rewrite <- mult_IZR; apply IZR_le; lia).
    split; [destruct (Req_dec w (2 * r)) as [Q|Q]; [right; split; [rewrite Q; ring|rewrite U; pose proof (pow10_pos P); lra]|left; apply Rmult_lt_compat_r; lra]|].
    replace (w * t / 2) with (w / 2 * t) by field. apply Rmult_le_compat_r; lra.
Qed.
(** If some decimal of [n] digits reads back, the neighbour on its side does. *)
Lemma neighbour n v : (0 < n)%nat -> decimal n v -> nearest v = B2R x ->
  let q := (d / 10 ^ N.of_nat (len - n))%N in let P := (e + Z.of_nat (len - n))%Z in
  (nearest (val q P) = B2R x /\ (v <= val q P \/ val q P = val d e)) \/ (nearest (val (q + 1) P) = B2R x /\ val (q + 1) P <= v).
Proof.
  intros Hn Dv Nv q P. destruct (Nat.le_gt_cases n len) as [L|L].
  - pose proof (low_le d e len n Hd Hl Hn) as LL. pose proof (high_gt d e len n Hd Hl Hn) as HH. cbv zeta in LL, HH. fold q P in LL, HH.
    destruct (between d e len n Hd Hl Hn v L Dv) as [B|B]; fold q P in B.
    + left. split; [|now left]. apply Rle_antisym; [rewrite <- nearest_self; now apply nearest_mono|rewrite <- Nv; now apply nearest_mono].
    + right. split; [|exact B]. apply Rle_antisym; [rewrite <- Nv; now apply nearest_mono|rewrite <- nearest_self; apply nearest_mono; lra].
  - left. pose proof (exact_q d e len n Hd Hl Hn ltac:(lia)) as X. fold q P in X. rewrite X. split; [apply nearest_self|now right].
Qed.
Lemma attempt_none n : (0 < n)%nat -> shorter x d e len n = None -> forall v, decimal n v -> nearest v <> B2R x.
Proof.
  intros Hn H v Dv Nv. rewrite shorter_eq in H. destruct (pick_cases n) as (a & b & Ep & C & _). rewrite Ep in H.
  destruct (accepts x (cand e len n a)) eqn:Ea; [discriminate|]. destruct (accepts x (cand e len n b)) eqn:Eb; [discriminate|].
  pose proof (cand_accepts x e len n a Fx Sx) as Ka. pose proof (cand_accepts x e len n b Fx Sx) as Kb.
  destruct (neighbour n v Hn Dv Nv) as [[K _]|[K _]]; destruct C as [[-> ->]|[-> ->]]; first [apply Ka in K|apply Kb in K]; congruence.
Qed.
Lemma attempt_some n s : (0 < n)%nat -> shorter x d e len n = Some s ->
  exists c k, s = layout_dec c k /\ (0 < c)%N /\ ((c mod 10 <> 0)%N \/ (c < 10)%N) /\ decimal n (val c k) /\ nearest (val c k) = B2R x /\
    forall v, decimal n v -> nearest v = B2R x -> closer (B2R x) (val c k) v.
Proof.
  intros Hn H. rewrite shorter_eq in H. destruct (pick_cases n) as (a & b & Ep & C & Cl). rewrite Ep in H.
  set (q := (d / 10 ^ N.of_nat (len - n))%N) in *. set (P := (e + Z.of_nat (len - n))%Z) in *.
  pose proof (q_pos d e len n Hd Hl Hn) as Q0. cbv zeta in Q0. fold q in Q0.
  assert (LL := low_le d e len n Hd Hl Hn). assert (HH := high_gt d e len n Hd Hl Hn). cbv zeta in LL, HH. fold q P in LL, HH.
  (* closeness for the two sides *)
  assert (Side : forall v, decimal n v -> nearest v = B2R x ->
    (nearest (val q P) = B2R x /\ closer (B2R x) (val q P) v) \/
    (nearest (val (q + 1) P) = B2R x /\ closer (B2R x) (val (q + 1) P) v)).
  { intros v Dv Nv. destruct (neighbour n v Hn Dv Nv) as [[K B]|[K B]]; fold q P in K, B.
    - left. split; [exact K|]. rewrite Vx. destruct B as [B|B].
      + now apply closer_low.
      + rewrite B. apply closer_same.
    - right. split; [exact K|]. rewrite Vx. apply closer_high; [lra|exact B]. }
  assert (Bq : (0 < q < 10 ^ N.of_nat n)%N).
  { split; [exact Q0|]. destruct (Nat.le_gt_cases n len) as [L|L].
    - pose proof (q_bounds d e len n Hd Hl Hn L) as QB. cbv zeta in QB. fold q in QB. lia.
    - unfold q. replace (len - n)%nat with 0%nat by lia. rewrite N.pow_0_r, N.div_1_r. eapply N.lt_le_trans; [apply Hd|]. apply N.pow_le_mono_r; lia. }
  assert (Fin : forall c, (c = q \/ c = q + 1)%N -> nearest (val c P) = B2R x ->
    (forall v, decimal n v -> nearest v = B2R x -> closer (B2R x) (val c P) v) ->
    exists c' k, cand e len n c = layout_dec c' k /\ (0 < c')%N /\ ((c' mod 10 <> 0)%N \/ (c' < 10)%N) /\ decimal n (val c' k) /\ nearest (val c' k) = B2R x /\
    forall v, decimal n v -> nearest v = B2R x -> closer (B2R x) (val c' k) v).
  { intros c Hc K Cs. destruct (cand_val e len n c) as (c' & e' & -> & V & Pc & En). exists c', e'. fold P in V. rewrite V.
    assert (Sc : (0 < c <= 10 ^ N.of_nat n)%N) by lia.
    split; [reflexivity|]. split; [apply Pc; lia|].
    split; [apply En; split; [lia|]; rewrite Nat2N.inj_succ, N.pow_succ_r'; lia|].
    split; [apply (decimal_upto d e len n Hd Hl Hn); exact Sc|]. split; [exact K|exact Cs]. }
  pose proof (cand_accepts x e len n a Fx Sx) as Ka. pose proof (cand_accepts x e len n b Fx Sx) as Kb. fold P in Ka, Kb.
  destruct (Cl _ eq_refl) as [Near _]. rewrite <- Vx in Near.
  destruct (accepts x (cand e len n a)) eqn:Ea.
  - injection H as <-. apply Fin; [destruct C as [[-> ->]|[-> ->]]; [now left|now right]|now apply Ka|].
    intros v Dv Nv. destruct (Side v Dv Nv) as [[_ K]|[_ K]]; destruct C as [[-> ->]|[-> ->]]; first [exact K|exact (closer_trans _ _ _ _ Near K)].
  - destruct (accepts x (cand e len n b)) eqn:Eb; [|discriminate]. injection H as <-.
    apply Fin; [destruct C as [[-> ->]|[-> ->]]; [now right|now left]|now apply Kb|].
    intros v Dv Nv. destruct (Side v Dv Nv) as [[K1 K]|[K1 K]]; destruct C as [[-> ->]|[-> ->]]; first [exact K|apply Ka in K1; congruence].
Qed.
End Attempt.

(** Seventeen digits are enough. *)
Lemma near_round (x : f64) c : is_finite x = true -> 0 < B2R x -> Rabs (c - B2R x) <= B2R x * (/ IZR (2 * 10 ^ 16)) -> nearest c = B2R x.
Proof.
  intros Fx Px H. set (v := B2R x) in *.
  assert (G : generic_format radix2 (FLT_exp (-1074) 53) v) by exact (generic_format_B2R 53 1024 x).
  assert (VE : Valid_exp (FLT_exp (-1074) 53)) by (apply FLT_exp_valid; reflexivity).
  assert (Gr : generic_format radix2 (FLT_exp (-1074) 53) (nearest c)) by (apply generic_format_round; [exact VE|apply valid_rnd_N]).
  assert (N : Rabs (nearest c - c) <= Rabs (v - c)).
  { destruct (round_N_pt radix2 (FLT_exp (-1074) 53) (fun z => negb (Z.even z)) c) as [_ K]. now apply K. }
  rewrite (Rabs_minus_sym v c) in N.
  set (h := v * / IZR (2 * 10 ^ 16)) in *.
  assert (D : Rabs (nearest c - v) <= 2 * h).
  { replace (nearest c - v) with ((nearest c - c) + (c - v)) by ring. eapply Rle_trans; [apply Rabs_triang|]. lra. }
  apply Rabs_le_inv in D.
  assert (B : bpow radix2 (- (53)) = / IZR (2 ^ 53)) by reflexivity.
  assert (I1 : 0 < / IZR (2 * 10 ^ 16)) by (apply Rinv_0_lt_compat, IZR_lt; reflexivity).
  assert (I2 : 2 * / IZR (2 * 10 ^ 16) < / IZR (2 ^ 53) * (1 - / IZR (2 ^ 13))).
  { apply Rmult_lt_reg_r with (IZR (2 * 10 ^ 16) * IZR (2 ^ 53) * IZR (2 ^ 13)).
    - apply Rmult_lt_0_compat; [apply Rmult_lt_0_compat|]; apply IZR_lt; reflexivity.
    - replace (2 * / IZR (2 * 10 ^ 16) * (IZR (2 * 10 ^ 16) * IZR (2 ^ 53) * IZR (2 ^ 13))) with (IZR (2 * 2 ^ 53 * 2 ^ 13)).
      2:{ rewrite !mult_IZR. field. apply not_0_IZR; discriminate. }
      replace (/ IZR (2 ^ 53) * (1 - / IZR (2 ^ 13)) * (IZR (2 * 10 ^ 16) * IZR (2 ^ 53) * IZR (2 ^ 13))) with (IZR (2 * 10 ^ 16 * (2 ^ 13 - 1))).
      2:{ rewrite mult_IZR, minus_IZR. field. split; apply not_0_IZR; discriminate. }
      apply IZR_lt. reflexivity. }
  assert (I3 : 2 * / IZR (2 * 10 ^ 16) < / IZR (2 ^ 13)).
  { apply Rlt_trans with (1 := I2). assert (0 < / IZR (2 ^ 13)) by (apply Rinv_0_lt_compat, IZR_lt; reflexivity).
    assert (/ IZR (2 ^ 53) < / IZR (2 ^ 13)) by (apply Rinv_lt_contravar; [apply Rmult_lt_0_compat; apply IZR_lt; reflexivity|apply IZR_lt; reflexivity]).
    assert (0 < / IZR (2 ^ 53)) by (apply Rinv_0_lt_compat, IZR_lt; reflexivity).
    apply Rle_lt_trans with (/ IZR (2 ^ 53) * 1); [apply Rmult_le_compat_l; lra|lra]. }
  assert (I4 : 0 < / IZR (2 ^ 53)) by (apply Rinv_0_lt_compat, IZR_lt; reflexivity).
  assert (S1 : 2 * h < v * / IZR (2 ^ 53) * (1 - / IZR (2 ^ 13))).
  { unfold h. replace (2 * (v * / IZR (2 * 10 ^ 16))) with (v * (2 * / IZR (2 * 10 ^ 16))) by ring. rewrite Rmult_assoc. now apply Rmult_lt_compat_l. }
  assert (S2 : 2 * h < v * / IZR (2 ^ 13)).
  { unfold h. replace (2 * (v * / IZR (2 * 10 ^ 16))) with (v * (2 * / IZR (2 * 10 ^ 16))) by ring. now apply Rmult_lt_compat_l. }
  destruct (Rtotal_order (nearest c) v) as [L|[E|L]]; [exfalso|exact E|exfalso].
  - pose proof (succ_le_lt radix2 (FLT_exp (-1074) 53) _ _ Gr G L) as S.
    assert (P : v * (1 - / IZR (2 ^ 13)) <= nearest c) by lra.
    assert (Q : 0 <= nearest c).
    { eapply Rle_trans; [|exact P]. apply Rmult_le_pos; [lra|]. assert (/ IZR (2 ^ 13) < 1) by (rewrite <- Rinv_1; apply Rinv_lt_contravar; [rewrite Rmult_1_l|]; apply IZR_lt; reflexivity). lra. }
    rewrite succ_eq_pos in S by exact Q. pose proof (ulp_FLT_gt radix2 (-1074) 53 (nearest c)) as U. rewrite Rabs_pos_eq, B in U by exact Q.
    assert (v * (1 - / IZR (2 ^ 13)) * / IZR (2 ^ 53) <= nearest c * / IZR (2 ^ 53)) by (apply Rmult_le_compat_r; lra). lra.
  - pose proof (succ_le_lt radix2 (FLT_exp (-1074) 53) _ _ G Gr L) as S. rewrite succ_eq_pos in S by lra.
    pose proof (ulp_FLT_gt radix2 (-1074) 53 v) as U. rewrite Rabs_pos_eq, B in U by lra.
    assert (0 < / IZR (2 ^ 13)) by (apply Rinv_0_lt_compat, IZR_lt; reflexivity).
    assert (v * / IZR (2 ^ 53) * (1 - / IZR (2 ^ 13)) <= v * / IZR (2 ^ 53) * 1) by (apply Rmult_le_compat_l; [apply Rmult_le_pos; lra|lra]). lra.
Qed.
Section Last.
Variables (x : f64) (d : N) (e : Z) (len : nat).
Hypothesis Fx : is_finite x = true.
Hypothesis Sx : Bsign x = false.
Hypothesis Vx : B2R x = val d e.
Hypothesis Hd : (10 ^ N.of_nat (len - 1) <= d < 10 ^ N.of_nat len)%N.
Hypothesis Hl : (0 < len)%nat.
Lemma attempt_last : exists s, shorter x d e len 17 = Some s.
Proof.
  destruct (shorter x d e len 17) as [s|] eqn:H; [now exists s|exfalso]. rewrite shorter_eq in H.
  destruct (pick_cases x d e len Fx Sx Hd Hl 17) as (a & b & Ep & C & Cl). rewrite Ep in H.
  destruct (accepts x (cand e len 17 a)) eqn:Ea; [discriminate|]. clear H.
  enough (K : nearest (val a (e + Z.of_nat (len - 17))) = B2R x) by (apply (cand_accepts x e len 17 a Fx Sx) in K; congruence).
  assert (D0 : (0 < d)%N) by (pose proof (pow_nz (len - 1)); lia).
  apply near_round; [exact Fx|rewrite Vx; now apply val_pos|]. destruct (Cl _ eq_refl) as [Nr Hf]. apply closer_le in Nr. rewrite Vx.
  destruct (Nat.le_gt_cases len 17) as [L|L].
  - assert (X : val (d / 10 ^ N.of_nat (len - 17)) (e + Z.of_nat (len - 17)) = val d e) by (apply (exact_q d e len 17 Hd Hl); [lia|exact L]).
    assert (Z0 : Rabs (val a (e + Z.of_nat (len - 17)) - val d e) = 0).
    { destruct C as [[-> ->]|[-> ->]].
      - rewrite X. replace (val d e - val d e) with 0 by ring. apply Rabs_R0.
      - rewrite X in Nr. replace (val d e - val d e) with 0 in Nr by ring. rewrite Rabs_R0 in Nr. apply Rle_antisym; [exact Nr|apply Rabs_pos]. }
    rewrite Z0. apply Rmult_le_pos; [left; now apply val_pos|left; apply Rinv_0_lt_compat, IZR_lt; reflexivity].
  - eapply Rle_trans; [exact Hf|].
    assert (V : powerRZ 10 (Z.of_nat (len - 1) + e) <= val d e).
    { rewrite pow10_add. apply Rmult_le_compat_r; [left; apply pow10_pos|]. rewrite pow10 by lia. apply IZR_le.
      destruct Hd as [Q _]. apply N2Z.inj_le in Q. rewrite N2Z.inj_pow in Q. change (Z.of_N 10) with 10%Z in Q. rewrite nat_N_Z in Q. exact Q. }
    replace (powerRZ 10 (e + Z.of_nat (len - 17)) / 2) with (powerRZ 10 (Z.of_nat (len - 1) + e) * / IZR (2 * 10 ^ 16)).
    + apply Rmult_le_compat_r; [left; apply Rinv_0_lt_compat, IZR_lt; reflexivity|exact V].
    + replace (Z.of_nat (len - 1) + e)%Z with ((e + Z.of_nat (len - 17)) + 16)%Z by lia. rewrite (pow10_add _ 16), (pow10 16) by lia.
      rewrite mult_IZR. field. apply not_0_IZR; discriminate.
Qed.
Lemma first_some k : forall n, (0 < n)%nat -> (n + k = 18)%nat -> exists s m, first_short x d e len (seq n k) = match k with O => None | _ => Some s end /\
  (k <> O -> (n <= m < 18)%nat /\ shorter x d e len m = Some s /\ forall j, (n <= j < m)%nat -> shorter x d e len j = None).
Proof.
  induction k as [|k IH]; intros n Hn E; [exists [], O; split; [reflexivity|congruence]|]. cbn [seq first_short].
  destruct (shorter x d e len n) as [s|] eqn:Sh.
  - exists s, n. split; [reflexivity|]. intros _. split; [lia|]. split; [exact Sh|]. intros; lia.
  - destruct k as [|k]; [exfalso; replace n with 17%nat in Sh by lia; destruct attempt_last as (s & A); congruence|].
    destruct (IH (S n) ltac:(lia) ltac:(lia)) as (s & m & F & M). exists s, m. split; [exact F|]. intros _. destruct (M ltac:(discriminate)) as (M1 & M2 & M3).
    split; [lia|]. split; [exact M2|]. intros j J. destruct (Nat.eq_dec j n) as [->|]; [exact Sh|]. apply M3. lia.
Qed.
(** What [first_short] gives *)
Lemma first_short_facts : exists s c k n, first_short x d e len (seq 1 17) = Some s /\ s = layout_dec c k /\ (0 < c)%N /\ ((c mod 10 <> 0)%N \/ (c < 10)%N) /\
  (1 <= n <= 17)%nat /\ decimal n (val c k) /\ nearest (val c k) = B2R x /\
  (forall v, decimal n v -> nearest v = B2R x -> closer (B2R x) (val c k) v) /\
  (forall m v, decimal m v -> nearest v = B2R x -> (n <= m)%nat).
Proof.
  destruct (first_some 17 1 ltac:(lia) ltac:(lia)) as (s & n & F & M). destruct (M ltac:(discriminate)) as (R & Sh & B). clear M.
  destruct (attempt_some x d e len Fx Sx Vx Hd Hl n s ltac:(lia) Sh) as (c & k & E & C0 & C1 & D & N & Cl).
  exists s, c, k, n. split; [exact F|]. split; [exact E|]. split; [exact C0|]. split; [exact C1|]. split; [lia|]. split; [exact D|]. split; [exact N|]. split; [exact Cl|].
  intros m v Dv Nv. destruct (Nat.le_gt_cases n m) as [L|L]; [exact L|exfalso].
  destruct m as [|m]; [destruct Dv as (a & z & A & _); cbn in A; lia|].
  exact (attempt_none x d e len Fx Sx Vx Hd Hl (S m) ltac:(lia) (B (S m) ltac:(lia)) v Dv Nv).
Qed.
End Last.

(** ** The whole text *)
Lemma exact_val m e : let '(d, k) := exact_dec m e in val d k = F2R (Float radix2 (Zpos m) e) /\ (0 < d)%N.
Proof.
  unfold exact_dec. destruct (Z.leb_spec 0 e) as [H|H].
  - assert (P : (0 < Z.pos m * 2 ^ e)%Z) by (apply Z.mul_pos_pos; [lia|apply Z.pow_pos_nonneg; lia]).
    split; [|lia]. unfold val. rewrite Z2N.id by lia. unfold F2R. cbn [Fnum Fexp]. rewrite mult_IZR, <- (IZR_Zpower radix2) by exact H. cbn [powerRZ]. change (radix_val radix2) with 2%Z. ring.
  - assert (P : (0 < Z.pos m * 5 ^ (- e))%Z) by (apply Z.mul_pos_pos; [lia|apply Z.pow_pos_nonneg; lia]).
    split; [|lia]. unfold val. rewrite Z2N.id by lia. unfold F2R. cbn [Fnum Fexp]. rewrite mult_IZR.
    replace e with (- (- e))%Z at 2 3 by lia. rewrite pow10_neg, bpow_opp by lia. rewrite <- (IZR_Zpower radix2) by lia. change (radix_val radix2) with 2%Z.
    rewrite pow_2_5_10, mult_IZR by lia. field. split; apply not_0_IZR; apply Z.pow_nonzero; lia.
Qed.
Lemma digits_count d : (0 < d)%N -> let len := length (to_digits 10 d) in (10 ^ N.of_nat (len - 1) <= d < 10 ^ N.of_nat len)%N /\ (0 < len)%nat.
Proof.
  intros H len. destruct (to_digits_len 10 d ltac:(lia) H) as (k & E & B). unfold len. rewrite E. split; [|lia].
  replace (S k - 1)%nat with k by lia. exact B.
Qed.
Lemma digits_val_lt l : Forall (fun a => (a < 10)%N) l -> (digits_val 10 l < 10 ^ N.of_nat (length l))%N.
Proof.
  induction l as [|a l IH]; intros F; [cbn; lia|]. inversion F as [|? ? A F']; subst. specialize (IH F'). rewrite digits_val_cons. cbn [length].
  rewrite Nat2N.inj_succ, N.pow_succ_r'. set (w := (10 ^ N.of_nat (length l))%N) in *. nia.
Qed.
Lemma digits_head d : (0 < d)%N -> exists a l, to_digits 10 d = a :: l /\ (0 < a)%N.
Proof.
  intros H. destruct (digits_count d H) as [B L]. pose proof (to_digits_val 10 d ltac:(lia)) as V. pose proof (to_digits_bound 10 d ltac:(lia)) as F.
  destruct (to_digits 10 d) as [|a l]; [cbn in L; lia|]. exists a, l. split; [reflexivity|]. inversion F as [|? ? A F']; subst.
  pose proof (digits_val_lt l F') as U. rewrite digits_val_cons in B. cbn [length] in B. replace (S (length l) - 1)%nat with (length l) in B by lia.
  destruct (N.eq_dec a 0) as [->|]; [|lia]. rewrite N.mul_0_l, N.add_0_l in B. lia.
Qed.
Lemma digits_last d : (d mod 10 <> 0)%N -> exists a l, to_digits 10 d = l ++ [a] /\ (a <> 0)%N.
Proof.
  intros H. pose proof (to_digits_val 10 d ltac:(lia)) as V. pose proof (to_digits_nonnil 10 d) as N0. pose proof (to_digits_bound 10 d ltac:(lia)) as F.
  destruct (exists_last N0) as (l & a & E). exists a, l. split; [exact E|]. rewrite E in V, F. rewrite digits_val_app in V. intros ->. apply H.
  rewrite <- V. replace (digits_val 10 [0%N]) with 0%N by reflexivity. cbn [length]. change (N.of_nat 1) with 1%N. rewrite N.pow_1_r, N.add_0_r. now apply N.mod_mul.
Qed.
Lemma digit_is a : (a < 10)%N -> is_digit (digit_char a) /\ (digit_char a = 48%N <-> a = 0%N).
Proof. intros H. unfold is_digit, digit_char. destruct (N.ltb_spec a 10); lia. Qed.
Lemma digits_are l : Forall (fun a => (a < 10)%N) l -> Forall is_digit (map digit_char l).
Proof. intros F. induction F as [|a l A _ IH]; [constructor|]. constructor; [now apply digit_is|exact IH]. Qed.
Lemma layout_plain d e : (0 < d)%N -> (d mod 10 <> 0)%N -> plain (layout_dec d e).
Proof.
  intros H0 H1. destruct (digits_head d H0) as (a & l & E & A). destruct (digits_last d H1) as (z & l' & E' & Z0).
  pose proof (to_digits_bound 10 d ltac:(lia)) as F. unfold layout_dec. destruct (Z.leb_spec 0 e) as [K|K].
  - apply plain_int.
    + apply Forall_app. split; [now apply digits_are|]. apply Forall_repeat. unfold is_digit. lia.
    + rewrite E in *. exists (digit_char a). eexists. split; [reflexivity|]. intros Q. inversion F; subst. apply digit_is in Q; [lia|assumption].
  - set (k := Z.to_nat (- e)). set (ds := to_digits 10 d) in *. assert (Kp : (0 < k)%nat) by lia.
    set (padded := (repeat 0%N (S k - length ds) ++ ds)%list).
    assert (Hpl : (S k <= length padded)%nat) by (unfold padded; rewrite app_length, repeat_length; lia).
    assert (Hpb : Forall (fun d => (d < 10)%N) padded) by (apply Forall_app; split; [apply Forall_repeat; lia|exact F]).
    cbn [app]. apply plain_frac.
    + apply digits_are, Forall_firstn'. exact Hpb.
    + destruct (Nat.le_gt_cases (S k) (length ds)) as [L|L].
      * assert (P : padded = a :: l) by (unfold padded; replace (S k - length ds)%nat with 0%nat by lia; exact E).
        rewrite P in *. replace (length (a :: l) - k)%nat with (S (length (a :: l) - k - 1))%nat by lia. cbn [firstn map].
        eexists _, _. split; [reflexivity|]. intros Q. exfalso. inversion Hpb as [|? ? X _]; subst. apply (digit_is _ X) in Q. lia.
      * assert (P : length padded = S k) by (unfold padded; rewrite app_length, repeat_length; lia).
        rewrite P. replace (S k - k)%nat with 1%nat by lia. unfold padded. replace (S k - length ds)%nat with (S (k - length ds)) by lia.
        cbn. eexists _, _. split; [reflexivity|]. reflexivity.
    + apply digits_are, Forall_skipn'. exact Hpb.
    + set (fp := skipn (length padded - k) padded). assert (Q : exists m, fp = (m ++ [z])%list).
      { set (body := (repeat 0%N (S k - length ds) ++ l')%list).
        assert (PB : padded = (body ++ [z])%list) by (unfold padded, body; rewrite <- app_assoc, <- E'; reflexivity).
        unfold fp. rewrite PB. exists (skipn (length (body ++ [z]) - k) body). rewrite skipn_app. f_equal.
        rewrite app_length. cbn [length]. replace (length body + 1 - k - length body)%nat with 0%nat by lia. reflexivity. }
      destruct Q as (m & Q). rewrite Q, map_app. cbn [map]. rewrite last_last.
      assert (Zb : (z < 10)%N) by (rewrite E' in F; apply Forall_app in F as [_ F]; now inversion F).
      intros X. apply digit_is in X; [contradiction|exact Zb].
Qed.

Lemma show_facts m e H : let x := B754_finite false m e H : f64 in exists c k n, show_pos m e x = layout_dec c k /\ (0 < c)%N /\ (c mod 10 <> 0)%N /\
  (1 <= n <= 17)%nat /\ decimal n (val c k) /\ nearest (val c k) = B2R x /\
  (forall v, decimal n v -> nearest v = B2R x -> closer (B2R x) (val c k) v) /\
  (forall j v, decimal j v -> nearest v = B2R x -> (n <= j)%nat).
Proof.
  intros x. unfold show_pos. pose proof (exact_val m e) as V. destruct (exact_dec m e) as [d0 e0]. destruct V as [V P0].
  destruct (strip_zeros (length (to_digits 10 d0)) d0 e0) as [d e1] eqn:S. destruct (strip_facts _ _ _ _ _ S) as (V1 & _ & P1). specialize (P1 P0).
  destruct (digits_count d P1) as [B L].
  destruct (first_short_facts x d e1 (length (to_digits 10 d)) eq_refl eq_refl) as (s & c & k & n & F & E & C0 & C1 & R & D & Nr & Cl & Mn); [|exact B|exact L|].
  { rewrite V1, V. reflexivity. }
  rewrite F. exists c, k, n. split; [exact E|]. split; [exact C0|].
  split; [destruct C1 as [C1|C1]; [exact C1|rewrite N.mod_small by exact C1; lia]|]. split; [exact R|]. split; [exact D|]. split; [exact Nr|]. split; [exact Cl|exact Mn].
Qed.
Lemma decimal_more n m v : (n <= m)%nat -> decimal n v -> decimal m v.
Proof.
  intros L (c & k & C & ->). exists c, k. split; [|reflexivity]. split; [lia|]. eapply Z.lt_le_trans; [apply C|]. apply Z.pow_le_mono_r; lia.
Qed.
Lemma sign_show (neg : bool) d k : number_text ((if neg as b return str then [45%N] else []) ++ layout_dec d k)%list neg (val d k).
Proof.
  pose proof (layout_number d k) as T. destruct neg; [|exact T]. destruct (layout_head d k) as (c & r & Hh & Hc).
  remember (layout_dec d k) as s eqn:Es. remember false as ng eqn:En. remember (val d k) as v eqn:Ev. clear Es Ev.
  destruct T as [sg ng ip pt fp ex x S F P E N]. subst ng. inversion S; subst sg.
  - cbn [app]. exact (number_is [45%N] true ip pt fp ex x sign_minus F P E N).
  - exfalso. cbn [app] in Hh. injection Hh as Hh _. subst c. discriminate Hc.
Qed.
Theorem shown x : is_finite_strict x = true ->
  exists v n, number_text (f64_to_str x) (Bsign x) v /\ nearest v = Rabs (B2R x) /\ (n <= 17)%nat /\ decimal n v /\
    (forall m w, decimal m w -> nearest w = Rabs (B2R x) -> (n <= m)%nat) /\
    (forall w, decimal n w -> nearest w = Rabs (B2R x) -> Rabs (v - Rabs (B2R x)) <= Rabs (w - Rabs (B2R x))).
Proof.
  destruct x as [s|s| |s m e H]; try discriminate. intros _.
  assert (A : Rabs (B2R (B754_finite s m e H : f64)) = B2R (B754_finite false m e H : f64)).
  { cbn [B2R]. rewrite <- F2R_Zabs. destruct s; reflexivity. }
  rewrite A. destruct (show_facts m e H) as (c & k & n & E & C0 & C1 & R & D & N & Cl & Mn). exists (val c k), n.
  unfold f64_to_str. cbn [B2SF fabs Babs Bsign]. rewrite E.
  split; [apply sign_show|]. split; [exact N|]. split; [lia|]. split; [exact D|]. split; [exact Mn|]. intros w Dw Nw. apply closer_le. now apply Cl.
Qed.
Theorem shown_plain x : is_finite x = true -> exists t, plain t /\ f64_to_str x = ((if Bsign x as b return str then [45%N] else []) ++ t)%list.
Proof.
  destruct x as [s|s| |s m e H]; try discriminate; intros _.
  - exists [48%N]. split; [|destruct s; reflexivity]. apply plain_int; [constructor; [unfold is_digit; lia|constructor]|]. exists 48%N, []. split; reflexivity.
  - destruct (show_facts m e H) as (c & k & n & E & C0 & C1 & _). exists (layout_dec c k). split; [now apply layout_plain|].
    unfold f64_to_str. cbn [B2SF fabs Babs Bsign]. rewrite E. reflexivity.
Qed.
