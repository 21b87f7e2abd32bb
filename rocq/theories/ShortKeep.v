(** Numbers of at most 15 digits keep their texts (C81). *)
From Coq Require Import String Reals Lra Lia.
From Coq Require Import Floats.SpecFloat.
From Flocq Require Import Core.Core Relative IEEE754.BinarySingleNaN.
From Verif Require Import Base Str Num NumFacts F64 F64Text F64Facts DecSpec DecFacts ShortSpec ShortFacts SavedFacts KeptSpec Sexp StaySpec.
Open Scope R_scope.

(** ** Decimals with 15 digits are further apart than binary64 numbers *)
Lemma full_digits n : forall c, (0 < c < 10 ^ Z.of_nat (S n))%Z -> exists j, (10 ^ Z.of_nat n <= c * 10 ^ Z.of_nat j < 10 ^ Z.of_nat (S n))%Z.
Proof.
  induction n as [|n IH]; intros c C.
  - exists 0%nat. change (10 ^ Z.of_nat 0)%Z with 1%Z. lia.
  - destruct (Z.le_gt_cases (10 ^ Z.of_nat (S n)) c) as [L|L].
    + exists 0%nat. change (10 ^ Z.of_nat 0)%Z with 1%Z. lia.
    + destruct (IH c) as (j & J); [lia|]. exists (S j). rewrite (Nat2Z.inj_succ j), Z.pow_succ_r by lia. rewrite (Nat2Z.inj_succ (S n)), (Z.pow_succ_r 10 (Z.of_nat (S n))) by lia.
      rewrite (Nat2Z.inj_succ n), (Z.pow_succ_r 10 (Z.of_nat n)) in * by lia. lia.
Qed.
Lemma decimal_full v : decimal 15 v -> exists c k, (10 ^ 14 <= c < 10 ^ 15)%Z /\ v = IZR c * powerRZ 10 k.
Proof.
  intros (c & k & C & ->). destruct (full_digits 14 c C) as (j & J). exists (c * 10 ^ Z.of_nat j)%Z, (k - Z.of_nat j)%Z. split; [exact J|].
  rewrite mult_IZR, <- pow10 by lia. rewrite Rmult_assoc, <- pow10_add. do 2 f_equal. lia.
Qed.
Lemma gap v w : decimal 15 v -> decimal 15 w -> v < w -> v < (w - v) * IZR (10 ^ 15).
Proof.
  intros V (c' & k' & C' & ->) L. destruct (decimal_full v V) as (c & k & C & ->). clear V.
  destruct (Z.le_gt_cases k k') as [K|K].
  - assert (E : IZR c' * powerRZ 10 k' = IZR (c' * 10 ^ (k' - k)) * powerRZ 10 k).
    { rewrite mult_IZR, <- pow10 by lia. rewrite Rmult_assoc, <- pow10_add. do 2 f_equal. lia. }
    rewrite E in *. pose proof (pow10_pos k) as P. apply Rmult_lt_reg_r in L; [|exact P]. apply lt_IZR in L.
    apply Rlt_le_trans with (IZR (10 ^ 15) * powerRZ 10 k); [apply Rmult_lt_compat_r; [exact P|apply IZR_lt; lia]|].
    rewrite <- Rmult_minus_distr_r, <- minus_IZR, Rmult_comm.
    rewrite Rmult_assoc. rewrite <- (Rmult_1_l (powerRZ 10 k * IZR (10 ^ 15))) at 1. apply Rmult_le_compat_r; [|apply IZR_le; lia].
    apply Rmult_le_pos; [lra|apply IZR_le; discriminate].
  - exfalso. assert (X : IZR c' * powerRZ 10 k' <= powerRZ 10 (14 + k)).
    { apply Rle_trans with (powerRZ 10 (15 + k')); [|apply pow10_le; lia]. rewrite pow10_add. apply Rmult_le_compat_r; [left; apply pow10_pos|].
      rewrite pow10 by lia. apply IZR_le. change (Z.of_nat 15) with 15%Z in C'. lia. }
    assert (Y : powerRZ 10 (14 + k) <= IZR c * powerRZ 10 k).
    { rewrite pow10_add. apply Rmult_le_compat_r; [left; apply pow10_pos|]. rewrite pow10 by lia. apply IZR_le. lia. }
    lra.
Qed.
Lemma near_rel v : bpow radix2 (-1022) <= v -> Rabs (nearest v - v) <= v * / IZR (2 ^ 53).
Proof.
  intros H. pose proof (bpow_gt_0 radix2 (-1022)) as B.
  pose proof (relative_error_N_FLT radix2 (-1074) 53 ltac:(reflexivity) (fun z => negb (Z.even z)) v) as R.
  rewrite (Rabs_pos_eq v) in R by lra. specialize (R H). change (round radix2 (FLT_exp (-1074) 53) ZnearestE v) with (nearest v) in R.
  eapply Rle_trans; [exact R|]. right. rewrite Rmult_comm. f_equal. match goal with |- _ * ?b = _ => replace b with (/ IZR (2 ^ 52)) by reflexivity end.
  replace (IZR (2 ^ 53)) with (2 * IZR (2 ^ 52)) by (rewrite <- mult_IZR; reflexivity). field. apply not_0_IZR. discriminate.
Qed.
Lemma near_apart v w : bpow radix2 (-1022) <= v -> decimal 15 v -> decimal 15 w -> v < w -> nearest v <> nearest w.
Proof.
  intros B V W L E. pose proof (gap v w V W L) as G. pose proof (near_rel v B) as RV. pose proof (near_rel w ltac:(lra)) as RW. rewrite E in RV.
  apply Rabs_le_inv in RV, RW. set (u := / IZR (2 ^ 53)) in *.
  assert (U : u * IZR (2 ^ 53) = 1) by (apply Rinv_l; apply not_0_IZR; discriminate).
  assert (U0 : 0 < u) by (apply Rinv_0_lt_compat, IZR_lt; reflexivity).
  assert (D : w - v <= u * (2 * v + (w - v))) by lra.
  assert (D2 : w - v < u * ((w - v) * IZR (2 * 10 ^ 15 + 1))).
  { eapply Rle_lt_trans; [exact D|]. apply Rmult_lt_compat_l; [exact U0|]. rewrite plus_IZR, mult_IZR. lra. }
  assert (D3 : (w - v) * IZR (2 ^ 53) < (w - v) * IZR (2 * 10 ^ 15 + 1)).
  { apply Rmult_lt_reg_l with u; [exact U0|]. rewrite <- Rmult_assoc, (Rmult_comm u), Rmult_assoc, U, Rmult_1_r. exact D2. }
  apply Rmult_lt_reg_l in D3; [|lra]. apply lt_IZR in D3. revert D3. apply Zle_not_lt. apply Z.leb_le. reflexivity.
Qed.
Lemma tiny_2 : 2 * bpow radix2 (-1022) < powerRZ 10 (-300).
Proof.
  change (bpow radix2 (-1022)) with (/ IZR (2 ^ 1022)). change (-300)%Z with (- (300))%Z. rewrite pow10_neg by lia.
  apply Rmult_lt_reg_r with (IZR (2 ^ 1022)); [apply IZR_lt; reflexivity|]. rewrite Rmult_assoc, Rinv_l, Rmult_1_r by (apply not_0_IZR; discriminate).
  apply Rmult_lt_reg_l with (IZR (10 ^ 300)); [apply IZR_lt; reflexivity|]. rewrite <- Rmult_assoc, Rinv_r, Rmult_1_l by (apply not_0_IZR; discriminate).
  rewrite <- mult_IZR. apply IZR_lt. apply Z.ltb_lt. vm_compute. reflexivity.
Qed.
Lemma near_pos v : powerRZ 10 (-300) <= v -> bpow radix2 (-1022) < nearest v.
Proof.
  intros H. pose proof tiny_2 as T. pose proof (bpow_gt_0 radix2 (-1022)) as B. pose proof (near_rel v ltac:(lra)) as R. apply Rabs_le_inv in R.
  assert (U : / IZR (2 ^ 53) < / 2) by (apply Rinv_lt_contravar; [rewrite <- mult_IZR|]; apply IZR_lt; reflexivity).
  assert (v * / IZR (2 ^ 53) < v * / 2) by (apply Rmult_lt_compat_l; lra). lra.
Qed.
Lemma near_fin v : v <= powerRZ 10 300 -> nearest v < bpow radix2 1024.
Proof.
  intros H. apply Rle_lt_trans with (bpow radix2 1000); [|apply bpow_lt; reflexivity].
  apply round_le_generic; [apply FLT_exp_valid; reflexivity|apply valid_rnd_N|apply generic_format_FLT_bpow; [reflexivity|discriminate]|].
  eapply Rle_trans; [exact H|]. rewrite pow10 by lia. change (bpow radix2 1000) with (IZR (2 ^ 1000)). apply IZR_le. apply Z.leb_le. vm_compute. reflexivity.
Qed.
Lemma near_low w : bpow radix2 (-1022) < nearest w -> bpow radix2 (-1022) <= w.
Proof.
  intros H. apply Rnot_lt_le. intros L. revert H. apply Rle_not_lt.
  apply round_le_generic; [apply FLT_exp_valid; reflexivity|apply valid_rnd_N|apply generic_format_FLT_bpow; [reflexivity|discriminate]|lra].
Qed.
Theorem near_inj v w : powerRZ 10 (-300) <= v -> decimal 15 v -> decimal 15 w -> nearest v = nearest w -> v = w.
Proof.
  intros H V W E. pose proof (near_pos v H) as P. pose proof (near_low v P) as B. rewrite E in P. pose proof (near_low w P) as C.
  destruct (Rtotal_order v w) as [L|[L|L]]; [exfalso|exact L|exfalso].
  - exact (near_apart v w B V W L E).
  - exact (near_apart w v C W V L (eq_sym E)).
Qed.

(** ** Plain texts of the same value are the same *)
Lemma dec_from_add s : forall a, dec_from a s = (a * 10 ^ Z.of_nat (length s) + dec_from 0 s)%Z.
Proof.
  induction s as [|c s IH]; intros a; cbn [dec_from length]; [change (10 ^ Z.of_nat 0)%Z with 1%Z; lia|].
  rewrite IH, (IH (10 * 0 + _)%Z), Nat2Z.inj_succ, Z.pow_succ_r by lia. lia.
Qed.
Lemma dec_app a b : dec (a ++ b) = (dec a * 10 ^ Z.of_nat (length b) + dec b)%Z.
Proof.
  change (dec b) with (dec_from 0 b). rewrite <- (dec_from_add b (dec a)). unfold dec. generalize 0%Z. induction a as [|c a IH]; intros z; [reflexivity|]. cbn [app dec_from]. apply IH.
Qed.
Lemma dec_bounds s : Forall is_digit s -> (0 <= dec s < 10 ^ Z.of_nat (length s))%Z.
Proof.
  intros F. rewrite <- (val_dec s F). pose proof (digits_val_lt (map unchar s) (unchar_digits s F)) as L. rewrite map_length in L. apply N2Z.inj_lt in L.
  rewrite N2Z.inj_pow, nat_N_Z in L. lia.
Qed.
Lemma dec_same s t : Forall is_digit s -> Forall is_digit t -> length s = length t -> dec s = dec t -> s = t.
Proof.
  intros F G L E. apply unchar_inj; try assumption. apply digits_same; try (now apply unchar_digits); [now rewrite !map_length|].
  apply N2Z.inj. now rewrite !val_dec.
Qed.
(** The digits before and after the point *)
Inductive split_at_point : str -> str -> str -> Prop :=
| split_int ip : split_at_point ip ip []
| split_frac ip fp : last fp 48%N <> 48%N -> split_at_point (ip ++ 46%N :: fp) ip fp.
Lemma plain_split t : plain t -> exists ip fp, split_at_point t ip fp /\ Forall is_digit ip /\ no_lead ip /\ Forall is_digit fp.
Proof.
  intros [ip F N|ip fp F N G L].
  - exists ip, []. split; [constructor|]. split; [exact F|]. split; [exact N|constructor].
  - exists ip, fp. split; [now constructor|]. split; [exact F|]. split; [exact N|exact G].
Qed.
Lemma last_digit fp : Forall is_digit fp -> last fp 48%N <> 48%N -> (dec fp mod 10 <> 0)%Z.
Proof.
  intros F L. destruct (exists_last (l := fp)) as (b & c & ->); [intros ->; now apply L|]. rewrite last_last in L.
  apply Forall_app in F as [_ F]. apply Forall_inv in F. rewrite dec_app. change (10 ^ Z.of_nat (length [c]))%Z with 10%Z. unfold dec at 2. cbn [dec_from].
  unfold is_digit in F. rewrite Z.add_comm, Z.mod_add by lia. rewrite Z.mod_small by lia. lia.
Qed.
Lemma same_frac A j B k : IZR A * powerRZ 10 (- Z.of_nat j) = IZR B * powerRZ 10 (- Z.of_nat k) -> (j < k)%nat -> (B mod 10 = 0)%Z.
Proof.
  intros E L. assert (X : B = (A * 10 ^ (Z.of_nat k - Z.of_nat j))%Z).
  { apply eq_IZR. rewrite mult_IZR, <- pow10 by lia. pose proof (pow10_pos (- Z.of_nat k)) as P.
    apply Rmult_eq_reg_r with (powerRZ 10 (- Z.of_nat k)); [|lra]. rewrite <- E, Rmult_assoc, <- pow10_add. do 2 f_equal. lia. }
  rewrite X. replace (Z.of_nat k - Z.of_nat j)%Z with (Z.succ (Z.of_nat k - Z.of_nat j - 1)) by lia. rewrite Z.pow_succ_r by lia.
  replace (A * (10 * 10 ^ (Z.of_nat k - Z.of_nat j - 1)))%Z with (A * 10 ^ (Z.of_nat k - Z.of_nat j - 1) * 10)%Z by ring. apply Z.mod_mul. lia.
Qed.
Lemma app_mod ip fp : fp <> [] -> (dec (ip ++ fp) mod 10 = dec fp mod 10)%Z.
Proof.
  intros N. rewrite dec_app, Z.add_comm. destruct fp as [|c fp]; [contradiction|]. cbn [length]. rewrite Nat2Z.inj_succ, Z.pow_succ_r by lia.
  replace (dec ip * (10 * 10 ^ Z.of_nat (length fp)))%Z with (dec ip * 10 ^ Z.of_nat (length fp) * 10)%Z by ring. apply Z.mod_add. lia.
Qed.
Lemma split_same t a x u b y : split_at_point t a x -> split_at_point u b y -> Forall is_digit a -> no_lead a -> Forall is_digit x -> Forall is_digit b -> no_lead b -> Forall is_digit y ->
  IZR (dec (a ++ x)) * powerRZ 10 (- Z.of_nat (length x)) = IZR (dec (b ++ y)) * powerRZ 10 (- Z.of_nat (length y)) -> t = u.
Proof.
  intros S T A A' X B B' Y E.
  assert (Lx : x = [] \/ (x <> [] /\ dec x mod 10 <> 0)%Z).
  { destruct S as [|ip fp L]; [now left|right]. split; [intros ->; now apply L|now apply last_digit]. }
  assert (Ly : y = [] \/ (y <> [] /\ dec y mod 10 <> 0)%Z).
  { destruct T as [|ip fp L]; [now left|right]. split; [intros ->; now apply L|now apply last_digit]. }
  assert (Len : length x = length y).
  { destruct (Nat.lt_trichotomy (length x) (length y)) as [L|[L|L]]; [exfalso|exact L|exfalso].
    - pose proof (same_frac _ _ _ _ E L) as M. destruct Ly as [->|[N M']]; [cbn in L; lia|]. rewrite app_mod in M by exact N. contradiction.
    - pose proof (same_frac _ _ _ _ (eq_sym E) L) as M. destruct Lx as [->|[N M']]; [cbn in L; lia|]. rewrite app_mod in M by exact N. contradiction. }
  rewrite Len in E. apply Rmult_eq_reg_r in E; [|pose proof (pow10_pos (- Z.of_nat (length y))); lra]. apply eq_IZR in E. rewrite !dec_app, Len in E.
  pose proof (dec_bounds x X) as Bx. pose proof (dec_bounds y Y) as By. rewrite Len in Bx.
  assert (Ea : dec a = dec b) by nia. assert (Ex : dec x = dec y) by nia.
  apply dec_canon in Ea; try assumption. apply dec_same in Ex; try assumption. subst b y. clear - S T Lx.
  destruct S as [ip|ip fp L].
  - inversion T as [|? ? L]; subst; [reflexivity|now contradiction L].
  - inversion T as [|? ? L']; subst; [now contradiction L|reflexivity].
Qed.
Lemma split_number t ip fp : split_at_point t ip fp -> Forall is_digit ip -> no_lead ip -> Forall is_digit fp ->
  exists d, dec_of_str t = Some (d, (0 - Z.of_nat (length fp))%Z) /\ Z.of_N d = dec (ip ++ fp).
Proof.
  intros S F (c & r & N & _) G. assert (Nn : ip ++ fp <> []) by (rewrite N; discriminate).
  destruct S as [ip|ip fp L].
  - destruct (dec_of_fw ip [] [] [] 0 F point_none exp_none Nn) as (d & D & V). rewrite app_nil_r in D. exists d. split; assumption.
  - destruct (dec_of_fw ip (46%N :: fp) fp [] 0 F (point_some fp G) exp_none Nn) as (d & D & V). rewrite app_nil_r in D. exists d. split; assumption.
Qed.
Lemma split_value (neg ng : bool) t ip fp v : split_at_point t ip fp -> Forall is_digit ip -> no_lead ip -> Forall is_digit fp ->
  number_text ((if neg as b return str then [45%N] else []) ++ t) ng v -> ng = neg /\ v = IZR (dec (ip ++ fp)) * powerRZ 10 (- Z.of_nat (length fp)).
Proof.
  intros S F L G T. destruct (split_number t ip fp S F L G) as (d & D & V).
  assert (Hd : exists c r, t = c :: r /\ is_digit c).
  { destruct L as (c & r & E & _). subst ip. apply Forall_inv in F. inversion S; subst; cbn [app]; eauto. }
  destruct Hd as (c & r & Et & Dc).
  remember ((if neg as b return str then [45%N] else []) ++ t)%list as s eqn:Eq. destruct T as [sg ng ip' pt fp' ex x S' F' P E N].
  destruct (body_head ip' pt fp' ex x F' P E N) as (c' & r' & Hb & Hc).
  assert (K : ng = neg /\ ip' ++ pt ++ ex = t).
  { destruct S' as [| |]; destruct neg; cbn [app] in Eq.
    - rewrite Hb in Eq. injection Eq as Q _. subst c'. unfold is_digit in Hc. exfalso. lia.
    - split; [reflexivity|exact Eq].
    - exfalso. discriminate Eq.
    - rewrite Et in Eq. injection Eq as Q _. subst c. unfold is_digit in Dc. exfalso. lia.
    - injection Eq as Q. split; [reflexivity|exact Q].
    - rewrite Et in Eq. injection Eq as Q _. subst c. unfold is_digit in Dc. exfalso. lia. }
  destruct K as [-> K]. split; [reflexivity|]. destruct (dec_of_fw ip' pt fp' ex x F' P E N) as (d' & D' & V'). rewrite K, D in D'. injection D' as Ed Ee. subst d'.
  rewrite <- V', V. f_equal. f_equal. lia.
Qed.
Theorem plain_unique t u neg v : plain t -> plain u -> number_text t neg v -> number_text u neg v -> t = u.
Proof.
  intros P Q T U. destruct (plain_split t P) as (a & x & S & A & A' & X). destruct (plain_split u Q) as (b & y & R & B & B' & Y).
  destruct (split_value false neg t a x v S A A' X T) as [_ E1]. destruct (split_value false neg u b y v R B B' Y U) as [_ E2].
  apply (split_same t a x u b y); try assumption. now rewrite <- E1, <- E2.
Qed.

(** ** What is read is written again *)
Lemma signed_app neg t : signed neg t = ((if neg as b return str then [45%N] else []) ++ t)%list.
Proof. now destruct neg. Qed.
Theorem kept_text t neg v : plain t -> number_text t false v -> powerRZ 10 (-300) <= v <= powerRZ 10 300 -> decimal 15 v ->
  exists x, f64_of_str (signed neg t) = Some x /\ is_finite x = true /\ f64_to_str x = signed neg t.
Proof.
  intros P T [R1 R2] D. destruct (plain_split t P) as (a & y & S & A & A' & Y). destruct (split_value false false t a y v S A A' Y T) as [_ Ev].
  assert (Ts : number_text (signed neg t) neg v).
  { destruct neg; [|exact T]. clear - T S A A'.
    assert (Hd : exists c r, t = c :: r /\ is_digit c).
    { destruct A' as (c & r & E & _). subst a. apply Forall_inv in A. inversion S; subst; cbn [app]; eauto. }
    destruct Hd as (c & r & Et & Dc). clear S A A'. remember false as ng eqn:Eg. destruct T as [sg ng ip pt fp ex z S' F' P' E N]. destruct S' as [| |]; cbn [signed app].
    - exact (number_is [45%N] true ip pt fp ex z sign_minus F' P' E N).
    - exfalso. cbn [app] in Et. injection Et as Q _. subst c. unfold is_digit in Dc. lia.
    - discriminate Eg. }
  destruct (number_fw _ _ _ Ts) as (x & Hx & [(Nf & Fx & Ax & Sx)|(Nf & _)]); [|pose proof (near_fin v R2); lra].
  exists x. split; [exact Hx|]. split; [exact Fx|].
  pose proof (near_pos v R1) as Np. pose proof (bpow_gt_0 radix2 (-1022)) as B0.
  assert (Fs : is_finite_strict x = true).
  { destruct x as [s0|s0| |s0 m e H]; try discriminate; [|reflexivity]. cbn [B2R] in Ax. rewrite Rabs_R0 in Ax. lra. }
  destruct (shown x Fs) as (w & n & Tw & Nw & _ & Dw & Mn & _). destruct (shown_plain x Fx) as (u & Pu & Eu).
  rewrite Ax in Nw, Mn. assert (Ln : (n <= 15)%nat) by exact (Mn 15%nat v D eq_refl).
  assert (Ew : v = w) by (apply near_inj; [exact R1|exact D|now apply (decimal_more n)|now symmetry]).
  rewrite Eu, Sx, <- signed_app. rewrite Eu, Sx in Tw. destruct (plain_split u Pu) as (b & z & S2 & B & B' & Z0).
  destruct (split_value neg neg u b z w S2 B B' Z0 Tw) as [_ Ew'].
  f_equal. symmetry. apply (split_same t a y u b z); try assumption. now rewrite <- Ev, <- Ew'.
Qed.
Lemma plain_number t : plain t -> exists v, number_text t false v.
Proof.
  intros [ip F (c & r & N & _)|ip fp F (c & r & N & _) G L].
  - eexists. pose proof (number_is [] false ip [] [] [] 0 sign_none F point_none exp_none) as Q. rewrite !app_nil_r in Q. apply Q. rewrite N. discriminate.
  - eexists. pose proof (number_is [] false ip (46%N :: fp) fp [] 0 sign_none F (point_some fp G) exp_none) as Q. rewrite app_nil_r in Q. apply Q. rewrite N. discriminate.
Qed.
Lemma zero_text neg : exists x, f64_of_str (signed neg [48%N]) = Some x /\ is_finite x = true /\ f64_to_str x = signed neg [48%N].
Proof. exists (B754_zero neg). destruct neg; split; (split; reflexivity) || reflexivity. Qed.
(** Texts with at most 15 digits *)
Lemma count_digits s : Forall is_digit s -> digit_count s = length s.
Proof.
  unfold digit_count. induction s as [|c s IH]; intros F; [reflexivity|]. inversion F as [|? ? D F']; subst. cbn [filter length].
  assert (E : (c =? 46)%N = false) by (unfold is_digit in D; lia). rewrite E. cbn [negb length]. now rewrite IH.
Qed.
Lemma count_app a b : digit_count (a ++ b) = (digit_count a + digit_count b)%nat.
Proof. unfold digit_count. now rewrite filter_app, app_length. Qed.
Lemma split_count t ip fp : split_at_point t ip fp -> Forall is_digit ip -> Forall is_digit fp -> digit_count t = length (ip ++ fp).
Proof.
  intros [a|a f _] A F; [now rewrite app_nil_r, count_digits|]. rewrite count_app. change (46%N :: f) with ([46%N] ++ f)%list. rewrite count_app, (count_digits a A), (count_digits f F), app_length. reflexivity.
Qed.
Lemma zero_split t ip fp : split_at_point t ip fp -> Forall is_digit ip -> no_lead ip -> Forall is_digit fp -> dec (ip ++ fp) = 0%Z -> t = [48%N].
Proof.
  intros S A L F Z0. rewrite dec_app in Z0. pose proof (dec_bounds ip A) as B. pose proof (dec_bounds fp F) as C.
  pose proof (Z.pow_pos_nonneg 10 (Z.of_nat (length fp)) ltac:(lia) ltac:(lia)) as P. assert (Di : dec ip = 0%Z) by nia. assert (Df : dec fp = 0%Z) by nia.
  assert (E : ip = [48%N]).
  { apply dec_canon; try assumption; [constructor; [unfold is_digit; lia|constructor]|exists 48%N, []; split; reflexivity]. }
  destruct S as [a|a f Lf]; [exact E|]. pose proof (last_digit f F Lf) as M. rewrite Df in M. now contradiction M.
Qed.
Theorem kept_short t neg : plain t -> (digit_count t <= 15)%nat -> exists x, f64_of_str (signed neg t) = Some x /\ is_finite x = true /\ f64_to_str x = signed neg t.
Proof.
  intros P C. destruct (plain_split t P) as (ip & fp & S & A & L & F). rewrite (split_count t ip fp S A F) in C.
  assert (FA : Forall is_digit (ip ++ fp)) by (apply Forall_app; now split). pose proof (dec_bounds _ FA) as B.
  destruct (Z.eq_dec (dec (ip ++ fp)) 0) as [Z0|Z0]; [rewrite (zero_split t ip fp S A L F Z0); apply zero_text|].
  destruct (plain_number t P) as (v & T). destruct (split_value false false t ip fp v S A L F T) as [_ Ev].
  assert (B' : (0 < dec (ip ++ fp) < 10 ^ 15)%Z).
  { split; [lia|]. eapply Z.lt_le_trans; [apply B|]. apply Z.pow_le_mono_r; lia. }
  assert (Lf : (length fp <= 15)%nat) by (rewrite app_length in C; lia). clear - P T Ev B' Lf.
  assert (P1 : 1 <= IZR (dec (ip ++ fp))) by (apply IZR_le; lia). assert (P2 : IZR (dec (ip ++ fp)) <= powerRZ 10 15) by (rewrite pow10 by lia; apply IZR_le; lia).
  pose proof (pow10_pos (- Z.of_nat (length fp))) as P0.
  apply (kept_text t neg v P T).
  - rewrite Ev. split.
    + apply Rle_trans with (1 * powerRZ 10 (- Z.of_nat (length fp))); [rewrite Rmult_1_l; apply pow10_le; lia|apply Rmult_le_compat_r; lra].
    + apply Rle_trans with (powerRZ 10 15 * powerRZ 10 0); [|rewrite <- pow10_add; apply pow10_le; lia].
      apply Rmult_le_compat; [lra|lra|exact P2|apply pow10_le; lia].
  - rewrite Ev. exists (dec (ip ++ fp)), (- Z.of_nat (length fp))%Z. split; [exact B'|reflexivity].
Qed.
Theorem short_num t neg : plain t -> (digit_count t <= 15)%nat -> num (SStr (signed neg t)).
Proof. intros P C. destruct (kept_short t neg P C) as (x & _ & _ & E). exists x. split; [now rewrite E|exact I]. Qed.
Definition digits16 : str := lit "9007199254740993".
Lemma digits16_plain : plain digits16.
Proof. apply plain_int; [repeat constructor; vm_compute; discriminate|]. eexists _, _. split; [reflexivity|discriminate]. Qed.
Lemma digits16_shown : option_map f64_to_str (f64_of_str digits16) = Some (lit "9007199254740992").
Proof. vm_compute. reflexivity. Qed.
Theorem sixteen : exists t x, plain t /\ digit_count t = 16%nat /\ f64_of_str t = Some x /\ f64_to_str x <> t.
Proof.
  exists digits16. pose proof digits16_shown as H. destruct (f64_of_str digits16) as [x|] eqn:E; [|discriminate H]. exists x. split; [exact digits16_plain|]. split; [reflexivity|].
  split; [reflexivity|]. cbn [option_map] in H. injection H as H. rewrite H. discriminate.
Qed.

(** ** The text of a number is determined (C64) *)
Lemma written_fun x v w : written_for x v -> written_for x w -> v = w.
Proof.
  intros (Nv & n & Dv & Mv & Cv) (Nw & m & Dw & Mw & Cw).
  assert (E : n = m) by (pose proof (Mv m w Dw Nw); pose proof (Mw n v Dv Nv); lia). subst m.
  specialize (Cv w Dw Nw). specialize (Cw v Dv Nv). unfold closer in Cv, Cw. lra.
Qed.
Theorem shown_exact x t : is_finite_strict x = true ->
  (f64_to_str x = t <-> exists u v, t = signed (Bsign x) u /\ plain u /\ number_text u false v /\ written_for (Rabs (B2R x)) v).
Proof.
  destruct x as [s|s| |s m e H]; try discriminate. intros _.
  assert (A : Rabs (B2R (B754_finite s m e H : f64)) = B2R (B754_finite false m e H : f64)).
  { cbn [B2R]. rewrite <- F2R_Zabs. destruct s; reflexivity. }
  rewrite A. destruct (show_facts m e H) as (c & k & n & E & C0 & C1 & R & D & N & Cl & Mn).
  assert (W : written_for (B2R (B754_finite false m e H : f64)) (val c k)) by (split; [exact N|]; exists n; split; [exact D|split; [exact Mn|exact Cl]]).
  assert (P : plain (layout_dec c k)) by (apply layout_plain; assumption).
  assert (T : f64_to_str (B754_finite s m e H) = signed s (layout_dec c k)) by (unfold f64_to_str; cbn [B2SF fabs Babs]; rewrite E; now destruct s).
  rewrite T. cbn [Bsign]. split.
  - intros <-. exists (layout_dec c k), (val c k). split; [reflexivity|]. split; [exact P|]. split; [apply layout_number|exact W].
  - intros (u & v & -> & Pu & Tu & Wu). f_equal. apply (plain_unique _ _ false v); [exact P|exact Pu| |exact Tu].
    rewrite (written_fun _ _ _ Wu W). apply layout_number.
Qed.
