(** How numbers are written (specification side, C64): plain decimal texts and
    decimals with few digits. *)
From Coq Require Import Reals.
From Verif Require Import Base Str DecSpec.

(** Digits without a leading zero, or the digit 0 alone *)
Definition no_lead (ip : str) : Prop := exists c r, ip = c :: r /\ (c = 48%N -> r = []).
(** No exponent, no sign, no zeros that could be left out *)
Inductive plain : str -> Prop :=
| plain_int ip : Forall is_digit ip -> no_lead ip -> plain ip
| plain_frac ip fp : Forall is_digit ip -> no_lead ip -> Forall is_digit fp -> last fp 48%N <> 48%N -> plain (ip ++ 46%N :: fp).
(** Positive numbers with at most [n] significant decimal digits *)
Definition decimal (n : nat) (v : R) : Prop :=
  exists c k : Z, (0 < c < 10 ^ Z.of_nat n)%Z /\ v = (IZR c * powerRZ 10 k)%R.
(** [v] is to be preferred to [w] as a text for [x]: it is closer, or as close and not smaller *)
Definition closer (x v w : R) : Prop := (Rabs (v - x) < Rabs (w - x) \/ Rabs (v - x) = Rabs (w - x) /\ w <= v)%R.
(** The decimal written for the positive number [x] *)
Definition written_for (x v : R) : Prop :=
  nearest v = x /\ exists n, decimal n v /\ (forall m w, decimal m w -> nearest w = x -> (n <= m)%nat) /\ (forall w, decimal n w -> nearest w = x -> closer x v w).
