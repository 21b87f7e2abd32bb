(** Facts about the integer codecs. *)
From Coq Require Import Lia ZifyBool ZifyN ZifyNat Psatz.
From Verif Require Import Base Str Num.
Open Scope N_scope.

Lemma digits_val_from b l a :
  fold_left (fun a d => a * b + d) l a = a * b ^ N.of_nat (length l) + digits_val b l.
Proof.
  unfold digits_val. revert a.
  induction l as [|d l IH]; intros a; cbn [fold_left length].
  - cbn. lia.
  - rewrite (IH (a * b + d)), (IH (0 * b + d)).
    replace (N.of_nat (S (length l))) with (N.succ (N.of_nat (length l))) by lia.
    rewrite N.pow_succ_r'. nia.
Qed.

Lemma digits_val_app b l1 l2 :
  digits_val b (l1 ++ l2) = digits_val b l1 * b ^ N.of_nat (length l2) + digits_val b l2.
Proof.
  unfold digits_val at 1. rewrite fold_left_app. rewrite digits_val_from. reflexivity.
Qed.

Lemma digits_val_cons b d l :
  digits_val b (d :: l) = d * b ^ N.of_nat (length l) + digits_val b l.
Proof.
  change (d :: l) with ([d] ++ l). rewrite digits_val_app. f_equal.
Qed.

Lemma digits_val_repeat0 b k l : digits_val b (repeat 0 k ++ l) = digits_val b l.
Proof.
  induction k as [|k IH]; cbn [repeat app]; [reflexivity|].
  rewrite digits_val_cons, IH. lia.
Qed.

Lemma to_digits_aux_val b n acc fuel :
  2 <= b -> n < b ^ N.of_nat (S fuel) ->
  digits_val b (to_digits_aux fuel b n acc) = n * b ^ N.of_nat (length acc) + digits_val b acc.
Proof.
  intros Hb. revert n acc. induction fuel as [|k IH]; intros n acc Hn; cbn [to_digits_aux].
  - apply digits_val_cons.
  - destruct (N.ltb_spec n b) as [H|H]; [apply digits_val_cons|].
    rewrite IH.
    + cbn [length]. rewrite digits_val_cons.
      replace (N.of_nat (S (length acc))) with (N.succ (N.of_nat (length acc))) by lia.
      rewrite N.pow_succ_r'. pose proof (N.div_mod n b). nia.
    + apply N.div_lt_upper_bound; [lia|].
      replace (N.of_nat (S (S k))) with (N.succ (N.of_nat (S k))) in Hn by lia.
      rewrite N.pow_succ_r' in Hn. exact Hn.
Qed.

Lemma size_nat_bound b n : 2 <= b -> n < b ^ N.of_nat (S (N.size_nat n)).
Proof.
  intros Hb.
  assert (H : n < 2 ^ N.of_nat (N.size_nat n)).
  { assert (E : N.of_nat (N.size_nat n) = N.size n).
    { destruct n as [|p]; cbn; [reflexivity|].
      induction p as [p IH|p IH|]; cbn [Pos.size_nat Pos.size]; try reflexivity;
        rewrite Nat2N.inj_succ, IH; reflexivity. }
    rewrite E. apply N.size_gt. }
  apply N.lt_le_trans with (1 := H).
  apply N.le_trans with (2 ^ N.of_nat (S (N.size_nat n))).
  - apply N.pow_le_mono_r; lia.
  - apply N.pow_le_mono_l; lia.
Qed.

Lemma to_digits_val b n : 2 <= b -> digits_val b (to_digits b n) = n.
Proof.
  intros Hb. unfold to_digits. rewrite to_digits_aux_val; [|exact Hb|apply size_nat_bound; exact Hb].
  cbn. lia.
Qed.

Lemma to_digits_aux_nonnil fuel b n acc : to_digits_aux fuel b n acc <> [].
Proof.
  revert n acc; induction fuel as [|k IH]; intros n acc; cbn [to_digits_aux]; [discriminate|].
  destruct (n <? b); [discriminate|apply IH].
Qed.

Lemma to_digits_nonnil b n : to_digits b n <> [].
Proof. apply to_digits_aux_nonnil. Qed.

Lemma to_digits_aux_bound fuel b n acc :
  2 <= b -> n < b ^ N.of_nat (S fuel) -> Forall (fun d => d < b) acc ->
  Forall (fun d => d < b) (to_digits_aux fuel b n acc).
Proof.
  intros Hb. revert n acc; induction fuel as [|k IH]; intros n acc Hn Ha; cbn [to_digits_aux].
  - constructor; [|exact Ha]. change (N.of_nat 1) with 1 in Hn. rewrite N.pow_1_r in Hn. exact Hn.
  - destruct (N.ltb_spec n b) as [H|H]; [constructor; assumption|].
    apply IH.
    + apply N.div_lt_upper_bound; [lia|].
      replace (N.of_nat (S (S k))) with (N.succ (N.of_nat (S k))) in Hn by lia.
      rewrite N.pow_succ_r' in Hn. exact Hn.
    + constructor; [|exact Ha]. apply N.mod_lt. lia.
Qed.

Lemma to_digits_bound b n : 2 <= b -> Forall (fun d => d < b) (to_digits b n).
Proof.
  intros Hb. apply to_digits_aux_bound; [exact Hb|apply size_nat_bound; exact Hb|constructor].
Qed.

(** A positive number with [len] digits lies between the powers of the base. *)
Lemma to_digits_aux_len b n acc fuel :
  2 <= b -> 0 < n -> n < b ^ N.of_nat (S fuel) ->
  exists k, length (to_digits_aux fuel b n acc) = (S k + length acc)%nat
            /\ b ^ N.of_nat k <= n < b ^ N.of_nat (S k).
Proof.
  intros Hb. revert n acc. induction fuel as [|f IH]; intros n acc Hpos Hn; cbn [to_digits_aux].
  - exists O. cbn [length]. split; [lia|]. change (N.of_nat 0) with 0.
    rewrite N.pow_0_r. split; [lia|exact Hn].
  - destruct (N.ltb_spec n b) as [H|H].
    + exists O. cbn [length]. split; [lia|]. change (N.of_nat 0) with 0. change (N.of_nat 1) with 1.
      rewrite N.pow_0_r, N.pow_1_r. lia.
    + replace (N.of_nat (S (S f))) with (N.succ (N.of_nat (S f))) in Hn by lia.
      rewrite N.pow_succ_r' in Hn.
      destruct (IH (n / b) (n mod b :: acc)) as [k [Hl [Hk1 Hk2]]].
      * apply N.div_str_pos. lia.
      * apply N.div_lt_upper_bound; [lia|exact Hn].
      * exists (S k). split; [rewrite Hl; cbn [length]; lia|].
        replace (N.of_nat (S (S k))) with (N.succ (N.of_nat (S k))) by lia.
        rewrite N.pow_succ_r'.
        replace (N.of_nat (S k)) with (N.succ (N.of_nat k)) in * by lia.
        rewrite N.pow_succ_r' in *.
        pose proof (N.div_mod n b ltac:(lia)) as E.
        pose proof (N.mod_lt n b ltac:(lia)) as F. nia.
Qed.

Lemma to_digits_len b n :
  2 <= b -> 0 < n ->
  exists k, length (to_digits b n) = S k /\ b ^ N.of_nat k <= n < b ^ N.of_nat (S k).
Proof.
  intros Hb Hn. unfold to_digits.
  destruct (to_digits_aux_len b n [] (N.size_nat n) Hb Hn (size_nat_bound b n Hb)) as [k [Hl Hk]].
  exists k. split; [rewrite Hl; cbn [length]; lia|exact Hk].
Qed.

Lemma char_digit_char radix d : d < radix -> radix <= 16 -> char_digit radix (digit_char d) = Some d.
Proof.
  intros H1 H2. unfold char_digit, digit_char.
  destruct (N.ltb_spec d 10) as [H|H].
  - replace ((48 <=? 48 + d) && (48 + d <=? 57)) with true by lia.
    replace (48 + d - 48) with d by lia.
    replace (d <? radix) with true by lia. reflexivity.
  - replace ((48 <=? 55 + d) && (55 + d <=? 57)) with false by lia.
    replace ((97 <=? 55 + d) && (55 + d <=? 122)) with false by lia.
    replace ((65 <=? 55 + d) && (55 + d <=? 90)) with true by lia.
    replace (55 + d - 55) with d by lia.
    replace (d <? radix) with true by lia. reflexivity.
Qed.

Lemma digits_of_str_map radix ds :
  Forall (fun d => d < radix) ds -> radix <= 16 ->
  digits_of_str radix (map digit_char ds) = Some ds.
Proof.
  intros Hf Hr. induction Hf as [|d ds Hd Hds IH]; cbn [map digits_of_str]; [reflexivity|].
  rewrite char_digit_char, IH by assumption. reflexivity.
Qed.

(** Characters of printed digits. *)
Definition is_dec_digit (c : N) : bool := (48 <=? c) && (c <=? 57).
Definition is_hex_digit (c : N) : bool := is_dec_digit c || ((65 <=? c) && (c <=? 70)).

Lemma show_N_digits n : Forall (fun c => is_dec_digit c = true) (show_N n).
Proof.
  unfold show_N. apply Forall_map.
  eapply Forall_impl; [|apply to_digits_bound; lia].
  intros d Hd; cbn beta in *. unfold digit_char, is_dec_digit.
  destruct (N.ltb_spec d 10); lia.
Qed.

Lemma show_hex_digits n : Forall (fun c => is_hex_digit c = true) (show_hex n).
Proof.
  unfold show_hex. apply Forall_map.
  eapply Forall_impl; [|apply to_digits_bound; lia].
  intros d Hd; cbn beta in *. unfold digit_char, is_hex_digit, is_dec_digit.
  destruct (N.ltb_spec d 10); lia.
Qed.

Lemma show_N_nonnil n : show_N n <> [].
Proof.
  unfold show_N. pose proof (to_digits_nonnil 10 n) as H.
  destruct (to_digits 10 n); [congruence|discriminate].
Qed.

Lemma parse_int_digits radix ds :
  radix <= 16 -> Forall (fun d => d < radix) ds -> ds <> [] ->
  parse_int radix (map digit_char ds) =
    let z := Z.of_N (digits_val radix ds) in if i64_ok z then Some z else None.
Proof.
  intros Hr Hf Hne. unfold parse_int.
  destruct ds as [|d ds]; [congruence|].
  inversion Hf as [|? ? Hd Hds]; subst.
  assert (H45 : (digit_char d =? 45) = false)
    by (unfold digit_char; destruct (N.ltb_spec d 10); lia).
  assert (H43 : (digit_char d =? 43) = false)
    by (unfold digit_char; destruct (N.ltb_spec d 10); lia).
  cbn [map]. rewrite H45, H43.
  change (digit_char d :: map digit_char ds) with (map digit_char (d :: ds)).
  rewrite digits_of_str_map by assumption. reflexivity.
Qed.

Lemma parse_int_neg radix ds :
  radix <= 16 -> Forall (fun d => d < radix) ds -> ds <> [] ->
  parse_int radix (45 :: map digit_char ds) =
    let z := (- Z.of_N (digits_val radix ds))%Z in if i64_ok z then Some z else None.
Proof.
  intros Hr Hf Hne. unfold parse_int. rewrite N.eqb_refl.
  rewrite digits_of_str_map by assumption.
  destruct ds as [|d ds]; [congruence|]. reflexivity.
Qed.

Lemma i64_roundtrip z : i64_ok z = true -> i64_of_str (show_Z z) = Some z.
Proof.
  intros Hz. unfold i64_of_str, show_Z, show_N.
  destruct (Z.ltb_spec z 0) as [H|H].
  - rewrite parse_int_neg; [|lia|apply to_digits_bound; lia|apply to_digits_nonnil].
    rewrite to_digits_val by lia. cbv zeta.
    replace (- Z.of_N (Z.abs_N z))%Z with z by lia. rewrite Hz. reflexivity.
  - rewrite parse_int_digits; [|lia|apply to_digits_bound; lia|apply to_digits_nonnil].
    rewrite to_digits_val by lia. cbv zeta.
    replace (Z.of_N (Z.abs_N z)) with z by lia. rewrite Hz. reflexivity.
Qed.

Lemma i64_of_str_range s z : i64_of_str s = Some z -> i64_ok z = true.
Proof.
  unfold i64_of_str, parse_int.
  destruct (match s with [] => (false, []) | c :: r => if c =? 45 then (true, r) else if c =? 43 then (false, r) else (false, s) end) as [neg body].
  destruct body as [|c body]; [discriminate|].
  destruct (digits_of_str 10 (c :: body)) as [ds|]; [|discriminate].
  cbv zeta.
  destruct (i64_ok (if neg then (- Z.of_N (digits_val 10 ds))%Z else Z.of_N (digits_val 10 ds))) eqn:E; [|discriminate].
  intros [= <-]. exact E.
Qed.

Lemma parse_int_range r s z : parse_int r s = Some z -> i64_ok z = true.
Proof.
  unfold parse_int.
  destruct (match s with [] => (false, []) | c :: r => if c =? 45 then (true, r) else if c =? 43 then (false, r) else (false, s) end) as [neg body].
  destruct body as [|c body]; [discriminate|].
  destruct (digits_of_str r (c :: body)) as [ds|]; [|discriminate].
  cbv zeta.
  destruct (i64_ok (if neg then (- Z.of_N (digits_val r ds))%Z else Z.of_N (digits_val r ds))) eqn:E; [|discriminate].
  intros [= <-]. exact E.
Qed.

Lemma hex_roundtrip z :
  i64_ok z = true -> (0 <= z)%Z -> parse_int 16 (show_hex64 z) = Some z.
Proof.
  intros Hz H. unfold show_hex64, show_hex.
  rewrite parse_int_digits; [|lia|apply to_digits_bound; lia|apply to_digits_nonnil].
  rewrite to_digits_val by lia. cbv zeta.
  assert (E : (Z.of_N (Z.to_N (z mod 2 ^ 64)) = z)%Z).
  { unfold i64_ok, i64_max in Hz. rewrite Z.mod_small by lia. lia. }
  rewrite E, Hz. reflexivity.
Qed.

(** A negative stamp is printed as a 16 digit pattern that does not read back. *)
Lemma hex_negative z :
  i64_ok z = true -> (z < 0)%Z -> parse_int 16 (show_hex64 z) = None.
Proof.
  intros Hz H. unfold show_hex64, show_hex.
  rewrite parse_int_digits; [|lia|apply to_digits_bound; lia|apply to_digits_nonnil].
  rewrite to_digits_val by lia. cbv zeta.
  assert (E : (Z.of_N (Z.to_N (z mod 2 ^ 64)) = z + 2 ^ 64)%Z).
  { unfold i64_ok, i64_min, i64_max in Hz.
    rewrite <- (Z.mod_add z 1 (2 ^ 64)) by lia. rewrite Z.mod_small by lia. lia. }
  rewrite E. replace (i64_ok (z + 2 ^ 64)) with false; [reflexivity|].
  unfold i64_ok, i64_min, i64_max in *. lia.
Qed.

Lemma show_Z_nonnil z : show_Z z <> [].
Proof. unfold show_Z. destruct (z <? 0)%Z; [discriminate|apply show_N_nonnil]. Qed.

Lemma show_Z_chars z : Forall (fun c => is_dec_digit c || (c =? 45) = true) (show_Z z).
Proof.
  assert (H : Forall (fun c => is_dec_digit c || (c =? 45) = true) (show_N (Z.abs_N z))).
  { eapply Forall_impl; [|apply show_N_digits]. intros c Hc; cbn beta in *. rewrite Hc. reflexivity. }
  unfold show_Z. destruct (z <? 0)%Z; [constructor; [reflexivity|exact H]|exact H].
Qed.

Lemma show_Z_inj a b : i64_ok a = true -> i64_ok b = true -> show_Z a = show_Z b -> a = b.
Proof.
  intros Ha Hb H. apply (f_equal i64_of_str) in H.
  rewrite !i64_roundtrip in H by assumption. congruence.
Qed.

Lemma i64_ok_iff z : i64_ok z = true <-> (- 2 ^ 63 <= z < 2 ^ 63)%Z.
Proof. unfold i64_ok, i64_min, i64_max. lia. Qed.
Lemma i64_roundtrip_range z : (- 2 ^ 63 <= z < 2 ^ 63)%Z -> i64_of_str (show_Z z) = Some z.
Proof. intros H; apply i64_roundtrip; now apply i64_ok_iff. Qed.
Lemma i64_of_str_bounds s z : i64_of_str s = Some z -> (- 2 ^ 63 <= z < 2 ^ 63)%Z.
Proof. intros H; apply i64_ok_iff; eapply i64_of_str_range, H. Qed.
Lemma stamp_roundtrip_range z : (0 <= z < 2 ^ 63)%Z -> parse_int 16 (show_hex64 z) = Some z.
Proof. intros H; apply hex_roundtrip; [apply i64_ok_iff|]; lia. Qed.
Lemma stamp_negative_range z : (- 2 ^ 63 <= z < 0)%Z -> parse_int 16 (show_hex64 z) = None.
Proof. intros H; apply hex_negative; [apply i64_ok_iff|]; lia. Qed.
