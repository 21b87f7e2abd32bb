(** What a number in a text means (specification side, C57): an optional sign, decimal
    digits with at most one point, an optional exponent. *)
From Coq Require Import String Reals.
From Flocq Require Import Core.Core IEEE754.BinarySingleNaN.
From Verif Require Import Base Str F64.

Definition is_digit (c : N) : Prop := (48 <= c <= 57)%N.
(** Digits from the left, after a number with value [a]. *)
Fixpoint dec_from (a : Z) (s : str) : Z :=
  match s with [] => a | c :: r => dec_from (10 * a + (Z.of_N c - 48)) r end.
Definition dec (s : str) : Z := dec_from 0 s.

(** [sign_text s neg] *)
Inductive sign_text : str -> bool -> Prop :=
| sign_none : sign_text [] false
| sign_plus : sign_text [43%N] false
| sign_minus : sign_text [45%N] true.
Inductive exp_text : str -> Z -> Prop :=
| exp_none : exp_text [] 0
| exp_some c sg neg ds : c = 101%N \/ c = 69%N -> sign_text sg neg -> Forall is_digit ds -> ds <> [] ->
    exp_text (c :: sg ++ ds) (if neg then - dec ds else dec ds)%Z.
Inductive point_text : str -> str -> Prop :=
| point_none : point_text [] []
| point_some fp : Forall is_digit fp -> point_text (46%N :: fp) fp.

(** [number_text s neg v]: the text [s] has the sign [neg] and the absolute value [v]. *)
Inductive number_text : str -> bool -> R -> Prop :=
| number_is sg neg ip pt fp ex x : sign_text sg neg -> Forall is_digit ip -> point_text pt fp -> exp_text ex x -> ip ++ fp <> [] ->
    number_text (sg ++ ip ++ pt ++ ex) neg (IZR (dec (ip ++ fp)) * powerRZ 10 (x - Z.of_nat (length fp))).

(** Letters of either case. *)
Definition same_letter (a c : N) : Prop := c = a \/ (c + 32 = a)%N.
Definition special_text (w : string) (s : str) : Prop := Forall2 same_letter (lit w) s.

(** The binary64 number for a sign and an absolute value: nearest, ties to even;
    infinity from 2^1024 - 2^970 on. *)
Definition nearest (v : R) : R := round radix2 (FLT_exp (-1074) 53) ZnearestE v.
Definition reads (x : f64) (neg : bool) (v : R) : Prop :=
  (nearest v < bpow radix2 1024 /\ is_finite x = true /\ Rabs (B2R x) = nearest v /\ Bsign x = neg)%R
  \/ (bpow radix2 1024 <= nearest v /\ x = B754_infinity neg)%R.

(** Texts for infinity and for not-a-number (without the sign). *)
Definition special_value (s : str) (x : f64) : Prop :=
  ((special_text "inf" s \/ special_text "infinity" s) /\ x = B754_infinity false) \/ (special_text "nan" s /\ x = B754_nan).
