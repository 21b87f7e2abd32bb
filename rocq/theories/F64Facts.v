(** The f64 text codec is exact. *)
From Coq Require Import String.
From Coq Require Import Floats.SpecFloat.
From Coq Require Import Reals.
From Flocq Require Import Core.Core IEEE754.BinarySingleNaN.
From Coq Require Import Lia ZifyBool ZifyN ZifyNat Psatz.
From Verif Require Import Base Str Num F64 F64Text NumFacts StrFacts.
Open Scope N_scope.

Lemma fsame_eq x y : fsame x y = true <-> x = y.
Proof.
  unfold fsame, sf_eqb. split.
  - intros H. apply B2SF_inj.
    destruct (B2SF x) as [a|a| |a m e], (B2SF y) as [b|b| |b n f]; try discriminate; try reflexivity.
    + apply eqb_prop in H. congruence.
    + apply eqb_prop in H. congruence.
    + apply andb_true_iff in H as [H He]. apply andb_true_iff in H as [Ha Hm].
      apply eqb_prop in Ha. apply Pos.eqb_eq in Hm. apply Z.eqb_eq in He. congruence.
  - intros ->. destruct (B2SF y); try reflexivity; try apply eqb_reflx.
    rewrite eqb_reflx, Pos.eqb_refl, Z.eqb_refl. reflexivity.
Qed.

Lemma fsame_refl x : fsame x x = true.
Proof. apply fsame_eq; reflexivity. Qed.

(** Normalising an exact representation of a float gives that float. *)
Lemma norm_exact (m : positive) (e : Z) H (mx ex : Z) :
  F2R (Float radix2 mx ex) = F2R (Float radix2 (Zpos m) e) ->
  binary_normalize 53 1024 _ _ mode_NE mx ex false = B754_finite false m e H.
Proof.
  intros HR.
  set (x := B754_finite false m e H : f64).
  pose proof (binary_normalize_correct 53 1024 prec_gt_0 prec_lt_emax mode_NE mx ex false) as C.
  cbv zeta in C. rewrite HR in C.
  change (F2R (Float radix2 (Zpos m) e)) with (B2R x) in C.
  rewrite round_generic in C; [|apply valid_rnd_round_mode|apply generic_format_B2R].
  rewrite Rlt_bool_true in C by apply abs_B2R_lt_emax.
  destruct C as [C1 [C2 C3]].
  apply B2R_Bsign_inj; [exact C2|reflexivity|exact C1|].
  rewrite C3. change (B2R x) with (F2R (Float radix2 (Zpos m) e)).
  rewrite Rcompare_Gt; [reflexivity|]. apply F2R_gt_0. reflexivity.
Qed.

(** Bounds on mantissa and exponent of a binary64. *)
Lemma bounded_facts m e :
  SpecFloat.bounded 53 1024 m e = true -> (Zpos m < 2 ^ 53 /\ -1074 <= e <= 971)%Z.
Proof.
  intros H. pose proof H as H0. unfold SpecFloat.bounded in H.
  apply andb_true_iff in H as [H1 H2].
  unfold SpecFloat.canonical_mantissa in H1. apply Zeq_bool_eq in H1.
  unfold SpecFloat.fexp, SpecFloat.emin in H1.
  apply Zle_bool_imp_le in H2.
  split; [|lia].
  assert (Hd : (Zpos (SpecFloat.digits2_pos m) <= 53)%Z) by lia.
  rewrite Digits.Zpos_digits2_pos in Hd.
  apply (Digits.Zpower_gt_Zdigits radix2) in Hd. cbn in Hd. change (radix_val radix2 ^ 53)%Z with (2^53)%Z in Hd.
  exact Hd.
Qed.

(** ** Decimal layout reads back *)

Lemma span_digits_map ds r :
  Forall (fun d => d < 10) ds ->
  (match r with [] => True | c :: _ => char_digit 10 c = None end) ->
  span_digits (map digit_char ds ++ r) = (ds, r).
Proof.
  intros Hf Hr. induction Hf as [|d ds Hd Hds IH]; cbn [map app span_digits].
  - destruct r as [|c r]; cbn [span_digits]; [reflexivity|]. rewrite Hr. reflexivity.
  - rewrite char_digit_char by lia. rewrite IH. reflexivity.
Qed.

Lemma map_repeat {A B} (f : A -> B) x n : map f (repeat x n) = repeat (f x) n.
Proof. induction n as [|n IH]; cbn; [reflexivity|]. now rewrite IH. Qed.

Lemma Forall_repeat {A} (P : A -> Prop) x n : P x -> Forall P (repeat x n).
Proof. intros H. induction n; cbn; constructor; auto. Qed.

Lemma Forall_firstn' {A} (P : A -> Prop) n l : Forall P l -> Forall P (firstn n l).
Proof. intros H. rewrite <- (firstn_skipn n l) in H. apply Forall_app in H. tauto. Qed.
Lemma Forall_skipn' {A} (P : A -> Prop) n l : Forall P l -> Forall P (skipn n l).
Proof. intros H. rewrite <- (firstn_skipn n l) in H. apply Forall_app in H. tauto. Qed.

Lemma dec_of_layout d e :
  dec_of_str (layout_dec d e) =
    if (0 <=? e)%Z then Some (d * 10 ^ Z.to_N e, 0%Z) else Some (d, e).
Proof.
  unfold layout_dec, dec_of_str.
  pose proof (to_digits_bound 10 d ltac:(lia)) as Hb.
  pose proof (to_digits_nonnil 10 d) as Hn.
  pose proof (to_digits_val 10 d ltac:(lia)) as Hv.
  set (ds := to_digits 10 d) in *. clearbody ds.
  destruct (Z.leb_spec 0 e) as [He|He].
  - change 48 with (digit_char 0). rewrite <- map_repeat, <- map_app.
    rewrite <- (app_nil_r (map digit_char _)).
    rewrite span_digits_map; [|apply Forall_app; split; [exact Hb|apply Forall_repeat; lia]|exact I].
    rewrite app_nil_r.
    destruct (ds ++ repeat 0 (Z.to_nat e)) as [|x l] eqn:E.
    + apply app_eq_nil in E. tauto.
    + rewrite <- E. cbn [parse_exp length]. rewrite digits_val_app, Hv.
      rewrite repeat_length.
      replace (digits_val 10 (repeat 0 (Z.to_nat e))) with 0
        by (rewrite <- (app_nil_r (repeat _ _)), digits_val_repeat0; reflexivity).
      rewrite N.add_0_r. do 4 f_equal. lia.
  - set (k := Z.to_nat (- e)).
    set (padded := repeat 0 (S k - length ds) ++ ds).
    assert (Hpl : (S k <= length padded)%nat)
      by (unfold padded; rewrite app_length, repeat_length; lia).
    assert (Hpb : Forall (fun d => d < 10) padded)
      by (apply Forall_app; split; [apply Forall_repeat; lia|exact Hb]).
    assert (Hpv : digits_val 10 padded = d) by (unfold padded; rewrite digits_val_repeat0; exact Hv).
    clearbody padded.
    rewrite span_digits_map; [|apply Forall_firstn'; exact Hpb|reflexivity].
    cbn [app]. change (46 =? 46) with true. cbv iota.
    rewrite <- (app_nil_r (map digit_char (skipn _ _))).
    rewrite span_digits_map; [|apply Forall_skipn'; exact Hpb|exact I].
    rewrite firstn_skipn.
    destruct padded as [|x l] eqn:E; [cbn in Hpl; lia|]. rewrite <- E in *.
    cbn [parse_exp]. rewrite Hpv. rewrite skipn_length.
    do 2 f_equal. lia.
Qed.

(** First character of a layout is a digit, so it is not read as inf or nan. *)
Lemma layout_head d e : exists c r, layout_dec d e = c :: r /\ is_dec_digit c = true.
Proof.
  unfold layout_dec.
  pose proof (to_digits_bound 10 d ltac:(lia)) as Hb.
  pose proof (to_digits_nonnil 10 d) as Hn.
  set (ds := to_digits 10 d) in *. clearbody ds.
  assert (Hd : forall x, x < 10 -> is_dec_digit (digit_char x) = true).
  { intros x Hx. unfold is_dec_digit, digit_char. destruct (N.ltb_spec x 10); lia. }
  destruct (0 <=? e)%Z.
  - destruct ds as [|x l]; [congruence|]. inversion Hb; subst. cbn. eauto.
  - set (k := Z.to_nat (- e)).
    set (padded := repeat 0 (S k - length ds) ++ ds).
    assert (Hpl : (S k <= length padded)%nat)
      by (unfold padded; rewrite app_length, repeat_length; lia).
    assert (Hpb : Forall (fun d => d < 10) padded)
      by (apply Forall_app; split; [apply Forall_repeat; lia|exact Hb]).
    clearbody padded.
    destruct padded as [|x l]; [cbn in Hpl; lia|].
    replace (length (x :: l) - k)%nat with (S (length (x :: l) - k - 1))%nat by lia.
    inversion Hpb; subst. cbn [firstn map app]. eauto.
Qed.

Lemma ufloat_of_layout d e :
  ufloat_of_str (layout_dec d e) =
    match dec_of_str (layout_dec d e) with
    | Some (d, e) => Some (f64_of_dec d e)
    | None => None
    end.
Proof.
  destruct (layout_head d e) as [c [r [E Hc]]]. unfold ufloat_of_str. rewrite E.
  change (lit "inf") with [105; 110; 102].
  change (lit "infinity") with [105; 110; 102; 105; 110; 105; 116; 121].
  change (lit "nan") with [110; 97; 110].
  unfold lower. cbn [map str_eqb].
  assert (H : lower_ascii c = c).
  { unfold lower_ascii, is_dec_digit in *. destruct ((65 <=? c) && (c <=? 90)) eqn:F; lia. }
  rewrite H.
  assert (H1 : (c =? 105) = false) by (unfold is_dec_digit in Hc; lia).
  assert (H2 : (c =? 110) = false) by (unfold is_dec_digit in Hc; lia).
  rewrite H1, H2. reflexivity.
Qed.

(** The exact expansion reads back as the number itself. *)
Lemma pow_2_5_10 k : (0 <= k)%Z -> (10 ^ k = 2 ^ k * 5 ^ k)%Z.
Proof. intros H. rewrite <- Z.pow_mul_l. reflexivity. Qed.

Lemma f64_of_dec_guard d e :
  (0 < d)%N ->
  (forall k, (0 <= k)%Z -> (10 ^ k <= Z.of_N d)%Z -> (e + k < 400)%Z) ->
  (forall k, (0 <= k)%Z -> (Z.of_N d < 10 ^ k)%Z -> (-400 <= e + k)%Z) ->
  f64_of_dec d e =
    if (0 <=? e)%Z then
      binary_normalize 53 1024 _ _ mode_NE (Z.of_N d * 10 ^ e) 0 false
    else
      let den := (10 ^ (- e))%Z in
      let sc := dec_scale (Z.of_N d) den (- e) in
      let num := (Z.of_N d * 2 ^ sc)%Z in
      let q := (num / den)%Z in
      let sticky := if (num mod den =? 0)%Z then 0%Z else 1%Z in
      binary_normalize 53 1024 _ _ mode_NE (2 * q + sticky) (- sc - 1) false.
Proof.
  intros Hd H1 H2. unfold f64_of_dec.
  destruct (N.eqb_spec d 0) as [E|_]; [lia|].
  destruct (to_digits_len 10 d ltac:(lia) Hd) as [k [Hl [Hk1 Hk2]]].
  rewrite Hl. cbv zeta.
  specialize (H1 (Z.of_nat k) ltac:(lia)).
  specialize (H2 (Z.of_nat (S k)) ltac:(lia)).
  assert (E1 : (10 ^ Z.of_nat k <= Z.of_N d)%Z).
  { apply N2Z.inj_le in Hk1. rewrite N2Z.inj_pow in Hk1. rewrite nat_N_Z in Hk1. exact Hk1. }
  assert (E2 : (Z.of_N d < 10 ^ Z.of_nat (S k))%Z).
  { apply N2Z.inj_lt in Hk2. rewrite N2Z.inj_pow in Hk2. rewrite nat_N_Z in Hk2. exact Hk2. }
  specialize (H1 E1). specialize (H2 E2).
  destruct (Z.ltb_spec 400 (e + Z.of_nat (S k))) as [F|_]; [lia|].
  destruct (Z.ltb_spec (e + Z.of_nat (S k)) (-400)) as [F|_]; [lia|].
  reflexivity.
Qed.

Lemma big1 : (2 ^ 53 * 2 ^ 971 < 10 ^ 400)%Z.
Proof. apply Z.ltb_lt. vm_compute. reflexivity. Qed.
Lemma big2 : (2 ^ 1074 < 10 ^ 400)%Z.
Proof. apply Z.ltb_lt. vm_compute. reflexivity. Qed.

Lemma f64_of_exact_nonneg m e H :
  (0 <= e)%Z ->
  f64_of_dec (Z.to_N (Zpos m * 2 ^ e)) 0 = B754_finite false m e H.
Proof.
  intros Hp. pose proof (bounded_facts m e H) as [Hm He].
  set (v := (Zpos m * 2 ^ e)%Z).
  assert (Hv : (0 < v)%Z) by (unfold v; apply Z.mul_pos_pos; [lia|apply Z.pow_pos_nonneg; lia]).
  assert (Hv2 : (v < 10 ^ 400)%Z).
  { eapply Z.le_lt_trans; [|apply big1]. unfold v.
    apply Z.mul_le_mono_nonneg; [lia|lia|apply Z.pow_nonneg; lia|apply Z.pow_le_mono_r; lia]. }
  rewrite f64_of_dec_guard.
  - cbn [Z.leb Z.compare]. apply norm_exact. rewrite Z2N.id by lia. rewrite Z.mul_1_r.
    symmetry. rewrite (F2R_change_exp radix2 0 (Zpos m) e) by lia.
    rewrite Z.sub_0_r. reflexivity.
  - lia.
  - intros k Hk Hle. rewrite Z2N.id in Hle by lia.
    destruct (Z.lt_ge_cases (0 + k) 400) as [G|G]; [exact G|exfalso].
    assert (10 ^ 400 <= 10 ^ k)%Z by (apply Z.pow_le_mono_r; lia). lia.
  - intros k Hk _. lia.
Qed.

Lemma f64_of_exact_neg m e H :
  (e < 0)%Z ->
  f64_of_dec (Z.to_N (Zpos m * 5 ^ (- e))) e = B754_finite false m e H.
Proof.
  intros Hp. pose proof (bounded_facts m e H) as [Hm He].
  set (k := (- e)%Z). assert (Hk : (0 < k <= 1074)%Z) by lia.
  assert (H5 : (0 < 5 ^ k)%Z) by (apply Z.pow_pos_nonneg; lia).
  assert (H2 : (0 < 2 ^ k)%Z) by (apply Z.pow_pos_nonneg; lia).
  assert (H21 : (2 ^ k <= 2 ^ 1074)%Z) by (apply Z.pow_le_mono_r; lia).
  pose proof (pow_2_5_10 k ltac:(lia)) as E10.
  set (v := (Zpos m * 5 ^ k)%Z).
  assert (Hv : (0 < v)%Z) by (unfold v; nia).
  rewrite f64_of_dec_guard.
  - destruct (Z.leb_spec 0 e) as [G|_]; [lia|]. cbv zeta.
    rewrite Z2N.id by lia. fold k.
    set (sc := dec_scale v (10 ^ k) k).
    assert (Hsc : (k <= sc)%Z) by (unfold sc, dec_scale; lia).
    assert (En : (v * 2 ^ sc = (Zpos m * 2 ^ (sc - k)) * 10 ^ k)%Z).
    { unfold v. rewrite E10. replace sc with ((sc - k) + k)%Z at 1 by lia.
      rewrite Z.pow_add_r by lia. ring. }
    rewrite En. rewrite Z.mod_mul, Z.div_mul by (rewrite E10; nia). cbn [Z.eqb].
    apply norm_exact. symmetry.
    rewrite (F2R_change_exp radix2 (- sc - 1) (Zpos m) e) by lia.
    f_equal. f_equal. change (radix_val radix2) with 2%Z.
    replace (e - (- sc - 1))%Z with (Z.succ (sc - k)) by lia.
    rewrite Z.pow_succ_r by lia. ring.
  - lia.
  - intros j Hj Hle. rewrite Z2N.id in Hle by lia.
    destruct (Z.lt_ge_cases (e + j) 400) as [G|G]; [exact G|exfalso].
    assert (A : (10 ^ (k + 400) <= 10 ^ j)%Z) by (apply Z.pow_le_mono_r; lia).
    rewrite Z.pow_add_r, E10 in A by lia. pose proof big2 as B.
    assert (C : (2 ^ 53 <= 2 ^ 1074)%Z) by (apply Z.pow_le_mono_r; lia).
    unfold v in Hle. generalize dependent (10 ^ 400)%Z. intros T A B.
    assert (D : (2 ^ k * 5 ^ k * T <= Zpos m * 5 ^ k)%Z) by lia.
    assert (D2 : (2 ^ k * T <= Zpos m)%Z) by nia. nia.
  - intros j Hj Hlt. rewrite Z2N.id in Hlt by lia.
    destruct (Z.le_gt_cases (-400) (e + j)) as [G|G]; [exact G|exfalso].
    assert (A : (10 ^ (j + 400) <= 10 ^ k)%Z) by (apply Z.pow_le_mono_r; lia).
    rewrite Z.pow_add_r, E10 in A by lia. pose proof big2 as B.
    unfold v in Hlt. generalize dependent (10 ^ 400)%Z. intros T A B.
    assert (D : (Zpos m * 5 ^ k * T < 2 ^ k * 5 ^ k)%Z) by nia.
    assert (D2 : (Zpos m * T < 2 ^ k)%Z) by nia. nia.
Qed.

Lemma show_pos_reads m e H :
  ufloat_of_str (show_pos m e (B754_finite false m e H)) = Some (B754_finite false m e H).
Proof.
  unfold show_pos.
  assert (X : let '(d0, e0) := exact_dec m e in
              ufloat_of_str (layout_dec d0 e0) = Some (B754_finite false m e H)).
  { unfold exact_dec. destruct (Z.leb_spec 0 e) as [G|G]; rewrite ufloat_of_layout, dec_of_layout.
    - cbn [Z.leb Z.compare]. change (Z.to_N 0) with 0. rewrite N.pow_0_r, N.mul_1_r.
      f_equal. apply f64_of_exact_nonneg. exact G.
    - destruct (Z.leb_spec 0 e) as [F|_]; [lia|]. f_equal. apply f64_of_exact_neg. exact G. }
  destruct (exact_dec m e) as [d0 e0].
  destruct (strip_zeros (length (to_digits 10 d0)) d0 e0) as [d e1].
  set (len := length (to_digits 10 d)). clearbody len.
  set (ns := seq 1 17). clearbody ns.
  induction ns as [|n ns IH]; cbn [first_short]; [exact X|].
  destruct (shorter (B754_finite false m e H) d e1 len n) as [s|] eqn:E; [|exact IH].
  unfold shorter in E.
  destruct (if 2 * (d mod 10 ^ N.of_nat (len - n)) <? 10 ^ N.of_nat (len - n)
            then (d / 10 ^ N.of_nat (len - n), d / 10 ^ N.of_nat (len - n) + 1)
            else (d / 10 ^ N.of_nat (len - n) + 1, d / 10 ^ N.of_nat (len - n))) as [a b].
  revert E.
  set (cand := fun c => let '(c', e') := strip_zeros n c (e1 + Z.of_nat (len - n))%Z in layout_dec c' e').
  intros E. fold (cand a) (cand b) in E.
  destruct (ufloat_of_str (cand a)) as [y|] eqn:Ya.
  - destruct (fsame (B754_finite false m e H) y) eqn:Fa.
    + injection E as <-. apply fsame_eq in Fa. subst y. exact Ya.
    + destruct (ufloat_of_str (cand b)) as [z|] eqn:Yb; [|discriminate].
      destruct (fsame (B754_finite false m e H) z) eqn:Fb; [|discriminate].
      injection E as <-. apply fsame_eq in Fb. subst z. exact Yb.
  - destruct (ufloat_of_str (cand b)) as [z|] eqn:Yb; [|discriminate].
    destruct (fsame (B754_finite false m e H) z) eqn:Fb; [|discriminate].
    injection E as <-. apply fsame_eq in Fb. subst z. exact Yb.
Qed.

(** Every string produced by [show_pos] starts with a digit. *)
Lemma show_pos_layout m e x : exists d k, show_pos m e x = layout_dec d k.
Proof.
  unfold show_pos. destruct (exact_dec m e) as [d0 e0].
  destruct (strip_zeros (length (to_digits 10 d0)) d0 e0) as [d e1].
  set (len := length (to_digits 10 d)). clearbody len.
  set (ns := seq 1 17). clearbody ns.
  induction ns as [|n ns IH]; cbn [first_short]; [eauto|].
  destruct (shorter x d e1 len n) as [s|] eqn:E; [|exact IH].
  unfold shorter in E.
  destruct (if 2 * (d mod 10 ^ N.of_nat (len - n)) <? 10 ^ N.of_nat (len - n)
            then (d / 10 ^ N.of_nat (len - n), d / 10 ^ N.of_nat (len - n) + 1)
            else (d / 10 ^ N.of_nat (len - n) + 1, d / 10 ^ N.of_nat (len - n))) as [a b].
  set (P := (e1 + Z.of_nat (len - n))%Z) in *.
  destruct (strip_zeros n a P) as [a' ea], (strip_zeros n b P) as [b' eb].
  destruct (match ufloat_of_str (layout_dec a' ea) with Some y => fsame x y | None => false end);
    [injection E as <-; eauto|].
  destruct (match ufloat_of_str (layout_dec b' eb) with Some y => fsame x y | None => false end);
    [injection E as <-; eauto|discriminate].
Qed.

(** Main fact: what is printed reads back as the identical number. *)
Theorem f64_roundtrip x : f64_of_str (f64_to_str x) = Some x.
Proof.
  destruct x as [s|s| |s m e H].
  - destruct s; reflexivity.
  - destruct s; reflexivity.
  - reflexivity.
  - unfold f64_to_str. cbn [B2SF fabs Babs].
    pose proof (show_pos_reads m e H) as R.
    destruct (show_pos_layout m e (B754_finite false m e H)) as [d [k L]].
    destruct (layout_head d k) as [c [r [E Hc]]]. rewrite <- L in E.
    destruct s.
    + cbn [app f64_of_str]. change (45 =? 45) with true. cbv iota. rewrite R. reflexivity.
    + cbn [app]. rewrite E in *. unfold f64_of_str.
      assert (H1 : (c =? 45) = false) by (unfold is_dec_digit in Hc; lia).
      assert (H2 : (c =? 43) = false) by (unfold is_dec_digit in Hc; lia).
      rewrite H1, H2. exact R.
Qed.

Lemma f64_to_str_inj x y : f64_to_str x = f64_to_str y -> x = y.
Proof. intros H. apply (f_equal f64_of_str) in H. rewrite !f64_roundtrip in H. congruence. Qed.

(** Characters of a printed float: digits, point, minus, or letters of inf/NaN. *)
Definition float_char (c : N) : bool :=
  is_dec_digit c || (c =? 46) || (c =? 45)
  || (c =? 105) || (c =? 110) || (c =? 102) || (c =? 78) || (c =? 97).

Lemma digits_float_chars ds :
  Forall (fun d => d < 10) ds -> Forall (fun c => float_char c = true) (map digit_char ds).
Proof.
  intros H. apply Forall_map. eapply Forall_impl; [|exact H].
  intros d Hd; cbn beta in *. unfold float_char, is_dec_digit, digit_char.
  destruct (N.ltb_spec d 10); lia.
Qed.

Lemma layout_chars d e : Forall (fun c => float_char c = true) (layout_dec d e).
Proof.
  unfold layout_dec.
  pose proof (to_digits_bound 10 d ltac:(lia)) as Hb.
  set (ds := to_digits 10 d) in *. clearbody ds.
  destruct (0 <=? e)%Z.
  - apply Forall_app; split; [apply digits_float_chars; exact Hb|apply Forall_repeat; reflexivity].
  - set (k := Z.to_nat (- e)).
    set (padded := repeat 0 (S k - length ds) ++ ds).
    assert (Hpb : Forall (fun d => d < 10) padded)
      by (apply Forall_app; split; [apply Forall_repeat; lia|exact Hb]).
    clearbody padded.
    repeat (apply Forall_app; split).
    + apply digits_float_chars, Forall_firstn'; exact Hpb.
    + constructor; [reflexivity|constructor].
    + apply digits_float_chars, Forall_skipn'; exact Hpb.
Qed.

Lemma f64_to_str_chars x : Forall (fun c => float_char c = true) (f64_to_str x).
Proof.
  unfold f64_to_str. destruct (B2SF x) as [s|s| |s m e].
  - destruct s; repeat constructor.
  - destruct s; repeat constructor.
  - repeat constructor.
  - destruct (show_pos_layout m e (fabs x)) as [d [k ->]].
    apply Forall_app; split; [destruct s; repeat constructor|apply layout_chars].
Qed.

Lemma f64_to_str_nonnil x : f64_to_str x <> [].
Proof.
  intros E. pose proof (f64_roundtrip x) as R. rewrite E in R. discriminate.
Qed.
