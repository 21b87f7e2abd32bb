(** Reading a decimal number gives the nearest binary64 (C57). *)
From Coq Require Import String.
From Coq Require Import Floats.SpecFloat.
From Coq Require Import Reals.
From Flocq Require Import Core.Core Round_odd IEEE754.BinarySingleNaN.
From Coq Require Import Lia ZifyBool ZifyN ZifyNat Psatz Lra.
From Verif Require Import Base Str Num F64 F64Text NumFacts StrFacts F64Facts DecSpec.

(** ** Rounding with a sticky bit *)
Definition fexpe (c : Z) (e : Z) : Z := Z.min c (FLT_exp (-1076) 55 e).
Instance fexpe_valid c : Valid_exp (fexpe c).
Proof.
  intros k. unfold fexpe, FLT_exp. split; [intros H|intros H; split; [|intros l Hl]]; lia.
Qed.
Instance fexpe_ne c : Exists_NE radix2 (fexpe c).
Proof. right. intros e. unfold fexpe, FLT_exp. split; intros H; lia. Qed.
Instance flt_ne : Exists_NE radix2 (FLT_exp (-1074) 53).
Proof. right. intros e. unfold FLT_exp. split; intros H; lia. Qed.
Instance flt_valid : Valid_exp (FLT_exp (-1074) 53).
Proof. apply FLT_exp_valid. reflexivity. Qed.

Lemma odd_int (q r den : Z) : (0 < den)%Z -> (0 <= r < den)%Z ->
  Zrnd_odd (IZR (2 * q) + 2 * IZR r / IZR den) = (2 * q + (if Z.eqb r 0 then 0 else 1))%Z.
Proof.
  intros D R. assert (D' : (0 < IZR den)%R) by (apply IZR_lt; lia).
  destruct (Z.eqb_spec r 0) as [->|N].
  - replace (IZR (2 * q) + 2 * IZR 0 / IZR den)%R with (IZR (2 * q)) by (field; lra). rewrite Z.add_0_r. apply Zrnd_odd_IZR || (unfold Zrnd_odd; rewrite Zfloor_IZR; destruct (Req_EM_T _ _); [reflexivity|contradiction]).
  - set (y := (IZR (2 * q) + 2 * IZR r / IZR den)%R).
    assert (Y1 : (IZR (2 * q) < y < IZR (2 * q + 2))%R).
    { unfold y. rewrite plus_IZR. assert (0 < IZR r)%R by (apply IZR_lt; lia). assert (IZR r < IZR den)%R by (apply IZR_lt; lia).
      assert (0 < 2 * IZR r / IZR den)%R by (apply Rdiv_lt_0_compat; lra).
      assert (2 * IZR r / IZR den < 2)%R by (apply Rmult_lt_reg_r with (IZR den); [lra|]; unfold Rdiv; rewrite Rmult_assoc, Rinv_l; lra). lra. }
    unfold Zrnd_odd. destruct (Req_EM_T y (IZR (Zfloor y))) as [E|E].
    + assert (2 * q < Zfloor y < 2 * q + 2)%Z by (split; apply lt_IZR; rewrite <- E; lra). lia.
    + destruct (Z_lt_le_dec (Zfloor y) (2 * q + 1)) as [L|L].
      * assert (F : Zfloor y = (2 * q)%Z).
        { apply Z.le_antisymm; [lia|]. apply Zfloor_lub. lra. }
        rewrite F. rewrite Z.even_mul. cbn [Z.even orb]. rewrite Zceil_floor_neq; [rewrite F; reflexivity|]. intros K. apply E. symmetry. exact K.
      * assert (F : Zfloor y = (2 * q + 1)%Z).
        { apply Z.le_antisymm; [|lia]. apply Z.lt_succ_r. apply lt_IZR. apply Rle_lt_trans with y; [apply Zfloor_lb|]. rewrite <- Z.add_1_r. replace (2 * q + 1 + 1)%Z with (2 * q + 2)%Z by ring. lra. }
        rewrite F. rewrite Z.even_add, Z.even_mul. cbn [Z.even orb Bool.eqb]. reflexivity.
Qed.
Lemma log2_bpow z : (0 < z)%Z -> (bpow radix2 (Z.log2 z) <= IZR z < bpow radix2 (Z.log2 z + 1))%R.
Proof.
  intros H. pose proof (Z.log2_spec z H) as [A B]. pose proof (Z.log2_nonneg z). rewrite <- !IZR_Zpower by lia.
  split; [apply IZR_le|apply IZR_lt]; [exact A|]. rewrite <- Z.add_1_r in B. exact B.
Qed.
Lemma sticky_round (d k : Z) : (0 < d)%Z -> (0 <= k)%Z ->
  let den := (10 ^ k)%Z in let sc := dec_scale d den k in let num := (d * 2 ^ sc)%Z in
  nearest (F2R (Float radix2 (2 * (num / den) + (if Z.eqb (num mod den) 0 then 0 else 1)) (- sc - 1))) = nearest (IZR d / IZR den).
Proof.
  intros D K den sc num. assert (Hden : (0 < den)%Z) by (apply Z.pow_pos_nonneg; lia).
  assert (Hden' : (0 < IZR den)%R) by (apply IZR_lt; lia). assert (Hd' : (0 < IZR d)%R) by (apply IZR_lt; lia).
  assert (Hsc0 : (0 <= sc)%Z) by (unfold sc, dec_scale; lia).
  set (v := (IZR d / IZR den)%R). assert (V : (0 < v)%R) by (apply Rdiv_lt_0_compat; lra).
  set (c := (- sc - 1)%Z).
  assert (C : fexpe c (mag radix2 v) = c).
  { unfold fexpe. apply Z.min_l. unfold FLT_exp. destruct (Z_le_gt_dec 1140 sc) as [G|G]; [lia|].
    assert (S : (Z.log2 den - Z.log2 d + 70 <= sc)%Z) by (unfold sc, dec_scale in *; lia).
    assert (M : (Z.log2 d - (Z.log2 den + 1) + 1 <= mag radix2 v)%Z).
    { apply mag_ge_bpow. rewrite Rabs_pos_eq by lra.
      replace (Z.log2 d - (Z.log2 den + 1) + 1 - 1)%Z with (Z.log2 d + - (Z.log2 den + 1))%Z by ring. rewrite bpow_plus, bpow_opp.
      unfold v, Rdiv. destruct (log2_bpow d D) as [A1 _]. destruct (log2_bpow den Hden) as [_ A2].
      apply Rmult_le_compat; [apply bpow_ge_0|left; apply Rinv_0_lt_compat, bpow_gt_0|exact A1|]. apply Rinv_le; [exact Hden'|left; exact A2]. }
    unfold c. lia. }
  assert (O : F2R (Float radix2 (2 * (num / den) + (if Z.eqb (num mod den) 0 then 0 else 1)) c) = round radix2 (fexpe c) Zrnd_odd v).
  { unfold round, scaled_mantissa, cexp. rewrite C. f_equal. f_equal. rewrite <- (odd_int (num / den) (num mod den) den Hden (Z.mod_pos_bound _ _ Hden)).
    f_equal. unfold v, c. replace (- (- sc - 1))%Z with (sc + 1)%Z by ring. rewrite bpow_plus. rewrite <- IZR_Zpower by lia. change (bpow radix2 1) with 2%R.
    change (radix_val radix2) with 2%Z. rewrite mult_IZR.
    assert (N : (IZR d * IZR (2 ^ sc) = IZR den * IZR (num / den) + IZR (num mod den))%R).
    { rewrite <- !mult_IZR, <- plus_IZR. f_equal. apply Z.div_mod. lia. }
    apply Rmult_eq_reg_r with (IZR den); [|lra]. field_simplify; [|lra|lra]. lra. }
  fold c. rewrite O. unfold nearest. apply round_N_odd; [reflexivity|exact _..|].
  intros e. unfold fexpe, FLT_exp. lia.
Qed.

(** ** Decimal numbers *)
Lemma nearest_nonneg v : (0 <= v)%R -> (0 <= nearest v)%R.
Proof. intros H. unfold nearest. rewrite <- (round_0 radix2 (FLT_exp (-1074) 53) ZnearestE). apply round_le; [exact _..|exact H]. Qed.
Lemma norm_reads mx ex v : (0 < F2R (Float radix2 mx ex))%R -> nearest (F2R (Float radix2 mx ex)) = nearest v ->
  reads (binary_normalize 53 1024 prec_gt_0 prec_lt_emax mode_NE mx ex false) false v.
Proof.
  intros P E. pose proof (binary_normalize_correct 53 1024 prec_gt_0 prec_lt_emax mode_NE mx ex false) as C. cbv zeta in C.
  change (SpecFloat.fexp 53 1024) with (FLT_exp (3 - 1024 - 53) 53) in C. change (3 - 1024 - 53)%Z with (-1074)%Z in C.
  change (round_mode mode_NE) with ZnearestE in C. fold (nearest (F2R (Float radix2 mx ex))) in C.
  pose proof (nearest_nonneg _ (Rlt_le _ _ P)) as N. rewrite (Rabs_pos_eq _ N) in C. rewrite (Rcompare_Gt _ _ P) in C. rewrite (Rlt_bool_false _ _ (Rlt_le _ _ P)) in C.
  rewrite E in *. destruct (Rlt_bool_spec (nearest v) (bpow radix2 1024)) as [L|L].
  - left. destruct C as (C1 & C2 & C3). rewrite C1, (Rabs_pos_eq _ N). repeat split; [exact L|exact C2|exact C3].
  - right. split; [exact L|]. apply B2SF_inj. exact C.
Qed.
Lemma pow10 k : (0 <= k)%Z -> powerRZ 10 k = IZR (10 ^ k).
Proof.
  intros H. rewrite <- (Z2Nat.id k H) at 1. rewrite <- pow_powerRZ. rewrite pow_IZR, Z2Nat.id by lia. reflexivity.
Qed.
Lemma pow10_neg k : (0 <= k)%Z -> powerRZ 10 (- k) = (/ IZR (10 ^ k))%R.
Proof. intros H. rewrite powerRZ_neg', pow10 by lia. reflexivity. Qed.
Lemma pow10_pos k : (0 < powerRZ 10 k)%R. Proof. apply powerRZ_lt. lra. Qed.
Lemma pow10_le a b : (a <= b)%Z -> (powerRZ 10 a <= powerRZ 10 b)%R.
Proof.
  intros H. replace b with (a + (b - a))%Z by ring. rewrite powerRZ_add by lra. rewrite (pow10 (b - a)) by lia.
  rewrite <- (Rmult_1_r (powerRZ 10 a)) at 1. apply Rmult_le_compat_l; [left; apply pow10_pos|]. apply IZR_le.
  assert (0 < 10 ^ (b - a))%Z by (apply Z.pow_pos_nonneg; lia). lia.
Qed.
Lemma big3 : (2 ^ 1024 < 10 ^ 400)%Z. Proof. apply Z.ltb_lt. vm_compute. reflexivity. Qed.
Lemma big4 : (2 ^ 1075 < 10 ^ 400)%Z. Proof. apply Z.ltb_lt. vm_compute. reflexivity. Qed.
Lemma nearest_big v : (bpow radix2 1024 <= v)%R -> (bpow radix2 1024 <= nearest v)%R.
Proof.
  intros H. unfold nearest. rewrite <- (round_generic radix2 (FLT_exp (-1074) 53) ZnearestE (bpow radix2 1024)).
  - apply round_le; [exact _..|exact H].
  - apply generic_format_bpow. unfold FLT_exp. lia.
Qed.
Lemma nearest_small v : (0 < v < bpow radix2 (-1075))%R -> nearest v = 0%R.
Proof.
  intros [P H]. unfold nearest. destruct (mag radix2 v) as [ex E] eqn:M. assert (Ex := E ltac:(lra)). rewrite Rabs_pos_eq in Ex by lra.
  apply (round_N_small_pos radix2 (FLT_exp (-1074) 53) _ v ex Ex). unfold FLT_exp.
  assert (ex - 1 < -1075)%Z by (apply (lt_bpow radix2); lra). lia.
Qed.
Lemma dec_reads d e : reads (f64_of_dec d e) false (IZR (Z.of_N d) * powerRZ 10 e).
Proof.
  unfold f64_of_dec. destruct (N.eqb_spec d 0) as [->|N].
  { left. change (Z.of_N 0) with 0%Z. rewrite Rmult_0_l. unfold nearest. rewrite round_0 by exact _.
    split; [apply bpow_gt_0|]. split; [reflexivity|]. split; [|reflexivity]. change (B2R fzero) with 0%R. apply Rabs_R0. }
  destruct (to_digits_len 10 d ltac:(lia) ltac:(lia)) as [k [Hl [Hk1 Hk2]]]. rewrite Hl. cbv zeta.
  assert (E1 : (10 ^ Z.of_nat k <= Z.of_N d)%Z).
  { apply N2Z.inj_le in Hk1. rewrite N2Z.inj_pow in Hk1. rewrite nat_N_Z in Hk1. exact Hk1. }
  assert (E2 : (Z.of_N d < 10 ^ Z.of_nat (S k))%Z).
  { apply N2Z.inj_lt in Hk2. rewrite N2Z.inj_pow in Hk2. rewrite nat_N_Z in Hk2. exact Hk2. }
  assert (Pd : (0 < IZR (Z.of_N d))%R) by (apply IZR_lt; lia).
  destruct (Z.ltb_spec 400 (e + Z.of_nat (S k))) as [G1|G1].
  { right. split; [|reflexivity]. apply nearest_big. apply Rle_trans with (powerRZ 10 400).
    - rewrite pow10 by lia. rewrite <- IZR_Zpower by lia. apply IZR_le. apply Z.lt_le_incl. exact big3.
    - apply Rle_trans with (powerRZ 10 (Z.of_nat k + e)); [apply pow10_le; lia|]. rewrite powerRZ_add by lra.
      apply Rmult_le_compat_r; [left; apply pow10_pos|]. rewrite pow10 by lia. now apply IZR_le. }
  destruct (Z.ltb_spec (e + Z.of_nat (S k)) (-400)) as [G2|G2].
  { left. assert (Z0 : nearest (IZR (Z.of_N d) * powerRZ 10 e) = 0%R).
    { apply nearest_small. split; [apply Rmult_lt_0_compat; [exact Pd|apply pow10_pos]|].
      apply Rlt_trans with (powerRZ 10 (Z.of_nat (S k) + e)).
      - rewrite powerRZ_add by lra. apply Rmult_lt_compat_r; [apply pow10_pos|]. rewrite pow10 by lia. now apply IZR_lt.
      - apply Rle_lt_trans with (powerRZ 10 (- (400))); [apply pow10_le; lia|]. rewrite pow10_neg by lia.
        change (-1075)%Z with (- (1075))%Z. rewrite bpow_opp. rewrite <- IZR_Zpower by lia. apply Rinv_lt_contravar.
        + apply Rmult_lt_0_compat; apply IZR_lt; (apply Z.pow_pos_nonneg; [reflexivity|lia]).
        + apply IZR_lt. exact big4. }
    rewrite Z0. split; [apply bpow_gt_0|]. split; [reflexivity|]. split; [|reflexivity]. change (B2R fzero) with 0%R. apply Rabs_R0. }
  destruct (Z.leb_spec 0 e) as [G3|G3].
  - assert (Q : F2R (Float radix2 (Z.of_N d * 10 ^ e) 0) = (IZR (Z.of_N d) * powerRZ 10 e)%R).
    { unfold F2R; cbn [Fnum Fexp]. rewrite mult_IZR, (pow10 e G3). change (bpow radix2 0) with 1%R. ring. }
    apply norm_reads; rewrite Q; [|reflexivity]. apply Rmult_lt_0_compat; [exact Pd|apply pow10_pos].
  - assert (Q : (IZR (Z.of_N d) * powerRZ 10 e = IZR (Z.of_N d) / IZR (10 ^ (- e)))%R).
    { replace e with (- (- e))%Z at 1 by ring. rewrite pow10_neg by lia. reflexivity. }
    rewrite Q. pose proof (sticky_round (Z.of_N d) (- e) ltac:(lia) ltac:(lia)) as S. cbv zeta in S.
    apply norm_reads; [|exact S]. apply F2R_gt_0. cbn [Fnum].
    set (den := (10 ^ - e)%Z) in *. set (sc := dec_scale _ _ _) in *. set (num := (Z.of_N d * 2 ^ sc)%Z) in *.
    assert (Hden : (0 < den)%Z) by (apply Z.pow_pos_nonneg; lia).
    assert (Hsc : (0 <= sc)%Z) by (unfold sc, dec_scale; lia).
    assert (Hnum : (0 < num)%Z) by (apply Z.mul_pos_pos; [lia|apply Z.pow_pos_nonneg; lia]).
    pose proof (Z.div_mod num den ltac:(lia)) as DM. assert (Hq : (0 <= num / den)%Z) by (apply Z.div_pos; lia).
    destruct (Z.eqb_spec (num mod den) 0); [|lia]. nia.
Qed.
Lemma neg_reads x v : reads x false v -> reads (fneg x) true v.
Proof.
  intros [(A & B & C & D)|(A & ->)]; [left|right; split; [exact A|reflexivity]].
  split; [exact A|]. unfold fneg. rewrite is_finite_Bopp, B2R_Bopp, Rabs_Ropp. split; [exact B|]. split; [exact C|].
  rewrite Bsign_Bopp; [now rewrite D|]. destruct x; try discriminate B; reflexivity.
Qed.

(** ** Texts *)
Lemma digit_some c d : char_digit 10 c = Some d <-> is_digit c /\ d = (c - 48)%N.
Proof.
  unfold char_digit, is_digit. split.
  - destruct ((48 <=? c) && (c <=? 57))%N eqn:E1; [destruct (c - 48 <? 10)%N eqn:L; [|discriminate]; intros [= <-]; lia|].
    destruct ((97 <=? c) && (c <=? 122))%N eqn:E2; [destruct (c - 87 <? 10)%N eqn:L; [|discriminate]; lia|].
    destruct ((65 <=? c) && (c <=? 90))%N eqn:E3; [destruct (c - 55 <? 10)%N eqn:L; [|discriminate]; lia|discriminate].
  - intros [H ->]. replace ((48 <=? c) && (c <=? 57))%N with true by lia. replace (c - 48 <? 10)%N with true by lia. reflexivity.
Qed.
Lemma digit_none c : char_digit 10 c = None <-> ~ is_digit c.
Proof.
  split.
  - intros H D. assert (K : char_digit 10 c = Some (c - 48)%N) by now apply digit_some. congruence.
  - intros H. destruct (char_digit 10 c) as [d|] eqn:E; [|reflexivity]. apply digit_some in E as [E _]. contradiction.
Qed.
Definition unchar (c : N) : N := (c - 48)%N.
Lemma span_fw ip r : Forall is_digit ip -> match r with [] => True | c :: _ => ~ is_digit c end -> span_digits (ip ++ r) = (map unchar ip, r).
Proof.
  induction ip as [|c ip IH]; intros F H; cbn [app map].
  - destruct r as [|c r]; [reflexivity|]. cbn [span_digits]. apply digit_none in H. now rewrite H.
  - inversion F as [|? ? D F']; subst. cbn [span_digits]. rewrite (proj2 (digit_some c (c - 48)%N) (conj D eq_refl)). rewrite (IH F' H). reflexivity.
Qed.
Lemma span_bw s ds r : span_digits s = (ds, r) -> exists ip, s = ip ++ r /\ Forall is_digit ip /\ ds = map unchar ip.
Proof.
  revert ds. induction s as [|c s IH]; intros ds H; cbn [span_digits] in H.
  - injection H as <- <-. exists []. auto.
  - destruct (char_digit 10 c) as [d|] eqn:E.
    + destruct (span_digits s) as [ds' r'] eqn:Es. injection H as <- ->. destruct (IH _ eq_refl) as (ip & -> & F & ->).
      apply digit_some in E as [D ->]. exists (c :: ip). split; [reflexivity|]. split; [now constructor|reflexivity].
    + injection H as <- <-. exists []. auto.
Qed.
Lemma digits_fw ds : Forall is_digit ds -> digits_of_str 10 ds = Some (map unchar ds).
Proof.
  induction ds as [|c ds IH]; intros F; [reflexivity|]. inversion F as [|? ? D F']; subst. cbn [digits_of_str map].
  rewrite (proj2 (digit_some c (c - 48)%N) (conj D eq_refl)), (IH F'). reflexivity.
Qed.
Lemma digits_bw s ds : digits_of_str 10 s = Some ds -> Forall is_digit s /\ ds = map unchar s.
Proof.
  revert ds. induction s as [|c s IH]; intros ds H; cbn [digits_of_str] in H; [injection H as <-; auto|].
  destruct (char_digit 10 c) as [d|] eqn:E; [|discriminate]. destruct (digits_of_str 10 s) as [x|]; [|discriminate]. injection H as <-.
  destruct (IH _ eq_refl) as [F ->]. apply digit_some in E as [D ->]. split; [now constructor|reflexivity].
Qed.
Lemma val_dec s : Forall is_digit s -> Z.of_N (digits_val 10 (map unchar s)) = dec s.
Proof.
  unfold digits_val, dec. change 0%Z with (Z.of_N 0). generalize 0%N. induction s as [|c s IH]; intros a F; [reflexivity|].
  inversion F as [|? ? D F']; subst. cbn [map fold_left dec_from]. rewrite (IH _ F'). f_equal. unfold unchar, is_digit in *. lia.
Qed.
Lemma exp_fw ex x : exp_text ex x -> parse_exp ex = Some x.
Proof.
  intros [|c sg neg ds C S F N]; [reflexivity|]. unfold parse_exp.
  replace ((c =? 101) || (c =? 69))%N with true by lia.
  assert (H : match sg ++ ds with x :: r' => if (x =? 45)%N then (true, r') else if (x =? 43)%N then (false, r') else (false, sg ++ ds) | [] => (false, []) end = (neg, ds)).
  { destruct S; [|reflexivity|reflexivity]. cbn [app]. destruct ds as [|d ds]; [contradiction|]. inversion F as [|? ? D F']; subst. unfold is_digit in D.
    replace (d =? 45)%N with false by lia. replace (d =? 43)%N with false by lia. reflexivity. }
  rewrite H. destruct ds as [|d ds]; [contradiction|]. rewrite digits_fw by exact F. cbv zeta. rewrite val_dec by exact F. reflexivity.
Qed.
Lemma exp_bw ex x : parse_exp ex = Some x -> exp_text ex x.
Proof.
  unfold parse_exp. destruct ex as [|c r]; [intros [= <-]; constructor|].
  destruct ((c =? 101) || (c =? 69))%N eqn:E; [|discriminate]. assert (C : c = 101%N \/ c = 69%N) by lia.
  assert (H : exists sg neg body, match r with x :: r' => if (x =? 45)%N then (true, r') else if (x =? 43)%N then (false, r') else (false, r) | [] => (false, []) end = (neg, body)
    /\ r = sg ++ body /\ sign_text sg neg).
  { destruct r as [|y r]; [exists [], false, []; split; [reflexivity|]; split; [reflexivity|constructor]|].
    destruct (N.eqb_spec y 45) as [->|]; [exists [45%N], true, r; split; [reflexivity|]; split; [reflexivity|constructor]|].
    destruct (N.eqb_spec y 43) as [->|]; [exists [43%N], false, r; split; [reflexivity|]; split; [reflexivity|constructor]|].
    exists [], false, (y :: r). split; [reflexivity|]. split; [reflexivity|constructor]. }
  destruct H as (sg & neg & body & -> & -> & S). destruct body as [|d body]; [discriminate|].
  destruct (digits_of_str 10 (d :: body)) as [ds|] eqn:D; [|discriminate]. apply digits_bw in D as [F ->]. cbv zeta. rewrite val_dec by exact F.
  intros [= <-]. apply exp_some; [exact C|exact S|exact F|discriminate].
Qed.
Lemma exp_head ex x : exp_text ex x -> match ex with [] => True | c :: _ => ~ is_digit c end.
Proof. intros [|c sg neg ds C _ _ _]; [exact I|]. unfold is_digit. lia. Qed.
Lemma dec_of_fw ip pt fp ex x : Forall is_digit ip -> point_text pt fp -> exp_text ex x -> ip ++ fp <> [] ->
  exists d, dec_of_str (ip ++ pt ++ ex) = Some (d, (x - Z.of_nat (length fp))%Z) /\ Z.of_N d = dec (ip ++ fp).
Proof.
  intros F P E N. unfold dec_of_str.
  assert (Ff : Forall is_digit fp) by (destruct P; auto).
  assert (H : match pt ++ ex with [] => True | c :: _ => ~ is_digit c end).
  { destruct P; [exact (exp_head _ _ E)|]. cbn. unfold is_digit. lia. }
  rewrite (span_fw ip (pt ++ ex) F H). cbv beta iota.
  assert (G : match pt ++ ex with c :: r => if (c =? 46)%N then span_digits r else ([], pt ++ ex) | [] => ([], []) end = (map unchar fp, ex)).
  { destruct P; cbn [app].
    - destruct E as [|c sg neg ds C _ _ _]; [reflexivity|]. replace (c =? 46)%N with false by lia. reflexivity.
    - rewrite N.eqb_refl. apply span_fw; [exact Ff|exact (exp_head _ _ E)]. }
  match goal with |- exists d, (match ?M with pair _ _ => _ end) = _ /\ _ => replace M with (map unchar fp, ex) by (symmetry; exact G) end.
  cbv beta iota. rewrite <- map_app. rewrite (exp_fw _ _ E).
  destruct (map unchar (ip ++ fp)) as [|u us] eqn:Em; [destruct (ip ++ fp); [contradiction|discriminate]|].
  rewrite <- Em. exists (digits_val 10 (map unchar (ip ++ fp))). rewrite map_length. split; [reflexivity|].
  apply val_dec. apply Forall_app. now split.
Qed.
Lemma dec_of_bw s d e : dec_of_str s = Some (d, e) -> exists ip pt fp ex x, s = ip ++ pt ++ ex /\ Forall is_digit ip /\ point_text pt fp /\ exp_text ex x
  /\ ip ++ fp <> [] /\ e = (x - Z.of_nat (length fp))%Z /\ Z.of_N d = dec (ip ++ fp).
Proof.
  unfold dec_of_str. destruct (span_digits s) as [di r1] eqn:E1. apply span_bw in E1 as (ip & -> & Fi & ->).
  assert (G : exists pt fp ex, match r1 with c :: r => if (c =? 46)%N then span_digits r else ([], r1) | [] => ([], []) end = (map unchar fp, ex)
    /\ r1 = pt ++ ex /\ point_text pt fp).
  { destruct r1 as [|c r]; [exists [], [], []; split; [reflexivity|]; split; [reflexivity|constructor]|].
    destruct (N.eqb_spec c 46) as [->|].
    - destruct (span_digits r) as [df r2] eqn:E2. apply span_bw in E2 as (fp & -> & Ff & ->). exists (46%N :: fp), fp, r2.
      split; [reflexivity|]. split; [reflexivity|]. now constructor.
    - exists [], [], (c :: r). split; [reflexivity|]. split; [reflexivity|constructor]. }
  destruct G as (pt & fp & ex & G & -> & P).
  match goal with |- (match ?M with pair _ _ => _ end) = _ -> _ => replace M with (map unchar fp, ex) by (symmetry; exact G) end.
  cbv beta iota. rewrite <- map_app.
  destruct (map unchar (ip ++ fp)) as [|u us] eqn:Em; [discriminate|]. rewrite <- Em.
  destruct (parse_exp ex) as [x|] eqn:Ex; [|discriminate]. intros [= <- <-]. exists ip, pt, fp, ex, x.
  split; [reflexivity|]. split; [exact Fi|]. split; [exact P|]. split; [now apply exp_bw|]. split; [intros K; rewrite K in Em; discriminate|].
  rewrite map_length. split; [reflexivity|]. apply val_dec. apply Forall_app. split; [exact Fi|]. destruct P; auto.
Qed.
Lemma lower_letters a s : (forall c, In c a -> (97 <= c <= 122)%N) -> (str_eqb (lower s) a = true <-> Forall2 same_letter a s).
Proof.
  intros A.
  revert s. induction a as [|c a IH]; intros s.
  - split; [|intros H; inversion H; reflexivity]. destruct s; [constructor|]. intros H. destruct (str_eqb_spec (lower (n :: s)) []); [discriminate|discriminate].
  - destruct s as [|x s]; [split; [intros H; discriminate|intros H; inversion H]|].
    assert (X : str_eqb (lower (x :: s)) (c :: a) = true <-> lower_ascii x = c /\ str_eqb (lower s) a = true).
    { unfold lower. cbn [map]. destruct (str_eqb_spec (lower_ascii x :: map lower_ascii s) (c :: a)) as [E|E].
      - injection E as E1 E2. split; [|reflexivity]. intros _. split; [exact E1|]. rewrite <- E2. apply str_eqb_refl.
      - split; [discriminate|]. intros [K H]. exfalso. apply E. rewrite K. f_equal. destruct (str_eqb_spec (map lower_ascii s) a) as [Q|Q]; [exact Q|discriminate H]. }
    rewrite X, (IH ltac:(intros y I; apply A; now right)). specialize (A c (or_introl eq_refl)).
    assert (L : lower_ascii x = c <-> same_letter c x).
    { unfold lower_ascii, same_letter. destruct ((65 <=? x) && (x <=? 90))%N eqn:E; lia. }
    rewrite L. split; [intros [H1 H2]; now constructor|]. intros H. inversion H; subst. now split.
Qed.

(** ** [f64::from_str] *)
Lemma special_no_digit w s : special_text w s -> (forall c, In c (lit w) -> (97 <= c <= 122)%N) -> Forall (fun c => ~ is_digit c /\ c <> 46%N) s.
Proof.
  unfold special_text. intros H A. induction H as [|a c l r L _ IH]; [constructor|]. constructor; [|apply IH; intros y I; apply A; now right].
  specialize (A a (or_introl eq_refl)). unfold same_letter, is_digit in *. lia.
Qed.
Lemma inf_letters c : In c (lit "inf") -> (97 <= c <= 122)%N. Proof. cbn. intuition lia. Qed.
Lemma infinity_letters c : In c (lit "infinity") -> (97 <= c <= 122)%N. Proof. cbn. intuition lia. Qed.
Lemma nan_letters c : In c (lit "nan") -> (97 <= c <= 122)%N. Proof. cbn. intuition lia. Qed.
Lemma not_special w s c r : s = c :: r -> (is_digit c \/ c = 46%N) -> (forall c, In c (lit w) -> (97 <= c <= 122)%N) -> str_eqb (lower s) (lit w) = false.
Proof.
  intros -> D A. destruct (str_eqb (lower (c :: r)) (lit w)) eqn:E; [exfalso|reflexivity]. apply (lower_letters _ _ A) in E.
  pose proof (special_no_digit w _ E A) as F. inversion F as [|? ? [X Y] _]; subst. destruct D; contradiction.
Qed.
Lemma body_head ip pt fp ex x : Forall is_digit ip -> point_text pt fp -> exp_text ex x -> ip ++ fp <> [] ->
  exists c r, ip ++ pt ++ ex = c :: r /\ (is_digit c \/ c = 46%N).
Proof.
  intros F P E N. destruct ip as [|c ip].
  - destruct P; [contradiction|]. exists 46%N. eexists. split; [reflexivity|now right].
  - inversion F; subst. exists c. eexists. split; [reflexivity|now left].
Qed.
Lemma ufloat_fw ip pt fp ex x : Forall is_digit ip -> point_text pt fp -> exp_text ex x -> ip ++ fp <> [] ->
  exists y, ufloat_of_str (ip ++ pt ++ ex) = Some y /\ reads y false (IZR (dec (ip ++ fp)) * powerRZ 10 (x - Z.of_nat (length fp))).
Proof.
  intros F P E N. destruct (body_head _ _ _ _ _ F P E N) as (c & r & H & D). destruct (dec_of_fw _ _ _ _ _ F P E N) as (d & Hd & V).
  unfold ufloat_of_str. rewrite (not_special "inf" _ _ _ H D inf_letters), (not_special "infinity" _ _ _ H D infinity_letters),
    (not_special "nan" _ _ _ H D nan_letters). cbn [orb]. rewrite Hd. eexists. split; [reflexivity|]. rewrite <- V. apply dec_reads.
Qed.
Lemma number_fw s neg v : number_text s neg v -> exists x, f64_of_str s = Some x /\ reads x neg v.
Proof.
  intros [sg ng ip pt fp ex x S F P E N]. destruct (ufloat_fw _ _ _ _ _ F P E N) as (y & U & R).
  destruct S; cbn [app f64_of_str].
  - destruct (body_head _ _ _ _ _ F P E N) as (c & r & H & D). rewrite H in *. unfold is_digit in D. unfold f64_of_str.
    replace (c =? 45)%N with false by lia. replace (c =? 43)%N with false by lia. exists y. split; [exact U|exact R].
  - exists y. split; [exact U|exact R].
  - rewrite N.eqb_refl, U. exists (fneg y). split; [reflexivity|now apply neg_reads].
Qed.
Lemma ufloat_bw s y : ufloat_of_str s = Some y ->
  special_value s y \/ exists ip pt fp ex x, s = ip ++ pt ++ ex /\ Forall is_digit ip /\ point_text pt fp /\ exp_text ex x /\ ip ++ fp <> [] /\
    reads y false (IZR (dec (ip ++ fp)) * powerRZ 10 (x - Z.of_nat (length fp))).
Proof.
  unfold ufloat_of_str. destruct (str_eqb (lower s) (lit "inf")) eqn:E1; cbn [orb].
  { intros [= <-]. left. left. split; [left; now apply (lower_letters _ _ inf_letters)|reflexivity]. }
  destruct (str_eqb (lower s) (lit "infinity")) eqn:E2.
  { intros [= <-]. left. left. split; [right; now apply (lower_letters _ _ infinity_letters)|reflexivity]. }
  destruct (str_eqb (lower s) (lit "nan")) eqn:E3.
  { intros [= <-]. left. right. split; [now apply (lower_letters _ _ nan_letters)|reflexivity]. }
  destruct (dec_of_str s) as [[d e]|] eqn:Ed; [|discriminate]. intros [= <-]. right.
  destruct (dec_of_bw _ _ _ Ed) as (ip & pt & fp & ex & x & -> & F & P & E & N & -> & V). exists ip, pt, fp, ex, x. rewrite <- V.
  split; [reflexivity|]. split; [exact F|]. split; [exact P|]. split; [exact E|]. split; [exact N|]. apply dec_reads.
Qed.
Lemma number_bw s x : f64_of_str s = Some x ->
  (exists neg v, number_text s neg v /\ reads x neg v) \/
  exists sg neg w y, s = sg ++ w /\ sign_text sg neg /\ special_value w y /\ x = if neg then fneg y else y.
Proof.
  intros H.
  assert (K : exists sg neg w y, s = sg ++ w /\ sign_text sg neg /\ ufloat_of_str w = Some y /\ x = if neg then fneg y else y).
  { unfold f64_of_str in H. destruct s as [|c r]; [discriminate|].
    destruct (N.eqb_spec c 45) as [->|].
    - destruct (ufloat_of_str r) as [y|] eqn:U; [|discriminate]. injection H as <-. exists [45%N], true, r, y.
      split; [reflexivity|]. split; [constructor|]. split; [exact U|reflexivity].
    - destruct (N.eqb_spec c 43) as [->|].
      + exists [43%N], false, r, x. split; [reflexivity|]. split; [constructor|]. split; [exact H|reflexivity].
      + exists [], false, (c :: r), x. split; [reflexivity|]. split; [constructor|]. split; [exact H|reflexivity]. }
  destruct K as (sg & neg & w & y & -> & S & U & ->). destruct (ufloat_bw _ _ U) as [Sp|(ip & pt & fp & ex & x & -> & F & P & E & N & R)].
  - right. exists sg, neg, w, y. split; [reflexivity|]. split; [exact S|]. split; [exact Sp|reflexivity].
  - left. eexists neg, _. split; [exact (number_is sg neg ip pt fp ex x S F P E N)|]. destruct neg; [now apply neg_reads|exact R].
Qed.
(** [reads] determines the number. *)
Lemma reads_fun x y neg v : reads x neg v -> reads y neg v -> (0 <= v)%R -> x = y.
Proof.
  intros [(A & B & C & D)|(A & ->)] [(A' & B' & C' & D')|(A' & ->)] V; [|lra|lra|reflexivity].
  apply B2R_Bsign_inj; [exact B|exact B'| |congruence].
  assert (S : forall z : f64, is_finite z = true -> B2R z = if Bsign z then (- Rabs (B2R z))%R else Rabs (B2R z)).
  { intros z F. destruct z as [s|s| |s m e Bd]; try discriminate F; cbn [B2R Bsign]; [rewrite Rabs_R0; destruct s; lra|].
    rewrite <- F2R_Zabs. destruct s; cbn [cond_Zopp Z.opp Z.abs]; [|reflexivity]. change (Z.neg m) with (- Z.pos m)%Z. rewrite F2R_Zopp. reflexivity. }
  rewrite (S x B), (S y B'), C, C', D, D'. reflexivity.
Qed.
(** The result is nearest. *)
Lemma reads_nearest x neg v : reads x neg v -> is_finite x = true ->
  forall y : f64, is_finite y = true -> (Rabs (Rabs (B2R x) - v) <= Rabs (B2R y - v))%R.
Proof.
  intros [(A & B & C & D)|(A & ->)] F y Fy; [|discriminate F]. rewrite C.
  destruct (round_N_pt radix2 (FLT_exp (-1074) 53) (fun z => negb (Z.even z)) v) as [_ H]. apply H.
  pose proof (generic_format_B2R 53 1024 y) as G. exact G.
Qed.
Lemma number_nonneg s neg v : number_text s neg v -> (0 <= v)%R.
Proof.
  intros [sg ng ip pt fp ex x S F P E N]. apply Rmult_le_pos; [|left; apply pow10_pos]. apply IZR_le.
  assert (G : Forall is_digit (ip ++ fp)) by (apply Forall_app; split; [exact F|destruct P; auto]).
  rewrite <- (val_dec _ G). lia.
Qed.

(** ** [i64::from_str] *)
Lemma int_iff s z : i64_of_str s = Some z <->
  exists sg neg ds, s = sg ++ ds /\ sign_text sg neg /\ Forall is_digit ds /\ ds <> [] /\ z = (if neg then - dec ds else dec ds)%Z /\ (- 2 ^ 63 <= z < 2 ^ 63)%Z.
Proof.
  unfold i64_of_str, parse_int. split.
  - assert (H : exists sg neg body, match s with c :: r => if (c =? 45)%N then (true, r) else if (c =? 43)%N then (false, r) else (false, s) | [] => (false, []) end = (neg, body)
      /\ s = sg ++ body /\ sign_text sg neg).
    { destruct s as [|y r]; [exists [], false, []; split; [reflexivity|]; split; [reflexivity|constructor]|].
      destruct (N.eqb_spec y 45) as [->|]; [exists [45%N], true, r; split; [reflexivity|]; split; [reflexivity|constructor]|].
      destruct (N.eqb_spec y 43) as [->|]; [exists [43%N], false, r; split; [reflexivity|]; split; [reflexivity|constructor]|].
      exists [], false, (y :: r). split; [reflexivity|]. split; [reflexivity|constructor]. }
    destruct H as (sg & neg & body & G & -> & S).
    match goal with |- (match ?M with pair _ _ => _ end) = _ -> _ => replace M with (neg, body) by (symmetry; exact G) end. cbv beta iota.
    destruct body as [|d body]; [discriminate|]. destruct (digits_of_str 10 (d :: body)) as [ds|] eqn:D; [|discriminate].
    apply digits_bw in D as [F ->]. cbv zeta. rewrite val_dec by exact F.
    set (w := if neg then (- dec (d :: body))%Z else dec (d :: body)). destruct (i64_ok w) eqn:O; [|discriminate]. intros [= <-].
    exists sg, neg, (d :: body). split; [reflexivity|]. split; [exact S|]. split; [exact F|]. split; [discriminate|]. split; [reflexivity|].
    unfold i64_ok, i64_min, i64_max in O. lia.
  - intros (sg & neg & ds & -> & S & F & N & E & R).
    assert (G : match sg ++ ds with c :: r => if (c =? 45)%N then (true, r) else if (c =? 43)%N then (false, r) else (false, sg ++ ds) | [] => (false, []) end = (neg, ds)).
    { destruct S; [|reflexivity|reflexivity]. cbn [app]. destruct ds as [|d ds]; [contradiction|]. inversion F as [|? ? D F']; subst. unfold is_digit in D.
      replace (d =? 45)%N with false by lia. replace (d =? 43)%N with false by lia. reflexivity. }
    match goal with |- (match ?M with pair _ _ => _ end) = _ => replace M with (neg, ds) by (symmetry; exact G) end. cbv beta iota.
    destruct ds as [|d ds]; [contradiction|]. rewrite digits_fw by exact F. cbv zeta. rewrite val_dec by exact F. rewrite <- E.
    replace (i64_ok z) with true; [reflexivity|]. unfold i64_ok, i64_min, i64_max. lia.
Qed.

Lemma special_fw sg neg w y : sign_text sg neg -> special_value w y -> f64_of_str (sg ++ w) = Some (if neg then fneg y else y).
Proof.
  intros S V.
  assert (U : ufloat_of_str w = Some y).
  { unfold ufloat_of_str. destruct V as [[[H|H] ->]|[H ->]].
    - replace (str_eqb (lower w) (lit "inf")) with true by (symmetry; now apply (lower_letters _ _ inf_letters)). reflexivity.
    - replace (str_eqb (lower w) (lit "infinity")) with true by (symmetry; now apply (lower_letters _ _ infinity_letters)).
      rewrite Bool.orb_true_r. reflexivity.
    - pose proof (proj2 (lower_letters _ _ nan_letters) H) as E. rewrite E.
      destruct (str_eqb_spec (lower w) (lit "nan")) as [Q|Q]; [rewrite Q; reflexivity|discriminate E]. }
  assert (L : exists c r, w = c :: r /\ c <> 45%N /\ c <> 43%N).
  { destruct V as [[[H|H] _]|[H _]]; unfold special_text, lit in H; cbn in H; inversion H as [|a c l r L _]; subst; exists c, r;
      unfold same_letter in L; (split; [reflexivity|]); split; lia. }
  destruct L as (c & r & -> & N1 & N2). destruct S; cbn [app].
  - unfold f64_of_str. replace (c =? 45)%N with false by lia. replace (c =? 43)%N with false by lia. exact U.
  - exact U.
  - unfold f64_of_str. rewrite N.eqb_refl, U. reflexivity.
Qed.
Lemma f64_accepts s x : f64_of_str s = Some x <->
  (exists neg v, number_text s neg v /\ reads x neg v) \/
  exists sg neg w y, s = sg ++ w /\ sign_text sg neg /\ special_value w y /\ x = if neg then fneg y else y.
Proof.
  split; [apply number_bw|]. intros [(neg & v & T & R)|(sg & neg & w & y & -> & S & V & ->)]; [|now apply special_fw].
  destruct (number_fw _ _ _ T) as (x' & H & R'). rewrite H. f_equal. apply (reads_fun _ _ _ _ R' R (number_nonneg _ _ _ T)).
Qed.
Lemma f64_nearest s neg v x : number_text s neg v -> f64_of_str s = Some x -> is_finite x = true ->
  forall y : f64, is_finite y = true -> (Rabs (B2R x - (if neg then - v else v)) <= Rabs (B2R y - (if neg then - v else v)))%R.
Proof.
  intros T H F y Fy. destruct (number_fw _ _ _ T) as (x' & H' & R). rewrite H in H'. injection H' as <-.
  assert (S : B2R x = if neg then (- Rabs (B2R x))%R else Rabs (B2R x)).
  { destruct R as [(_ & _ & _ & B)|(_ & ->)]; [|discriminate F]. revert B.
    destruct x as [s0|s0| |s0 m e Bd]; try discriminate F; cbn [B2R Bsign]; intros <-; [rewrite Rabs_R0; destruct s0; lra|].
    rewrite <- F2R_Zabs. destruct s0; cbn [cond_Zopp Z.opp Z.abs]; [|reflexivity]. change (Z.neg m) with (- Z.pos m)%Z. rewrite F2R_Zopp. reflexivity. }
  rewrite S. destruct neg.
  - pose proof (reads_nearest _ _ _ R F (fneg y)) as N. unfold fneg in N. rewrite is_finite_Bopp, B2R_Bopp in N. specialize (N Fy).
    replace (- Rabs (B2R x) - - v)%R with (- (Rabs (B2R x) - v))%R by lra. replace (B2R y - - v)%R with (- (- B2R y - v))%R by lra.
    rewrite !Rabs_Ropp. exact N.
  - exact (reads_nearest _ _ _ R F y Fy).
Qed.
Lemma f64_overflow s neg v x : number_text s neg v -> f64_of_str s = Some x ->
  (is_finite x = true <-> (nearest v < bpow radix2 1024)%R) /\ Bsign x = neg /\ x <> B754_nan.
Proof.
  intros T H. destruct (number_fw _ _ _ T) as (x' & H' & R). rewrite H in H'. injection H' as <-.
  destruct R as [(A & B & C & D)|(A & ->)].
  - split; [split; auto|]. split; [exact D|]. intros ->. discriminate B.
  - split; [split; [discriminate|lra]|]. split; [reflexivity|discriminate].
Qed.
