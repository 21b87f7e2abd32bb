(** f64 arithmetic: IEEE binary64 from Flocq, round to nearest even. *)
From Coq Require Import Floats.SpecFloat.
From Flocq Require Import IEEE754.BinarySingleNaN.
From Verif Require Import Base Str Num.

Definition f64 := binary_float 53 1024.

Lemma prec_gt_0 : FLX.Prec_gt_0 53. Proof. reflexivity. Qed.
Lemma prec_lt_emax : Prec_lt_emax 53 1024. Proof. reflexivity. Qed.
#[global] Existing Instance prec_gt_0.
#[global] Existing Instance prec_lt_emax.

Definition fadd (x y : f64) : f64 := Bplus mode_NE x y.
Definition fsub (x y : f64) : f64 := Bminus mode_NE x y.
Definition fmul (x y : f64) : f64 := Bmult mode_NE x y.
Definition fdiv (x y : f64) : f64 := Bdiv mode_NE x y.
Definition fsqrt (x : f64) : f64 := Bsqrt mode_NE x.
Definition fneg (x : f64) : f64 := Bopp x.
Definition fabs (x : f64) : f64 := Babs x.
(** [==], [<], [<=], [>], [!=] of f64 (false on NaN, except [!=]). *)
Definition feqb (x y : f64) : bool := Beqb x y.
Definition fltb (x y : f64) : bool := Bltb x y.
Definition fleb (x y : f64) : bool := Bleb x y.
Definition fgtb (x y : f64) : bool := Bltb y x.
Definition fneb (x y : f64) : bool := negb (Beqb x y).

(** [f64::min]/[f64::max]: a NaN operand is ignored.  On a tie between 0.0 and
    -0.0 Rust may return either; the model returns the receiver. *)
Definition fmin (x y : f64) : f64 :=
  if is_nan x then y else if is_nan y then x else if fltb y x then y else x.
Definition fmax (x y : f64) : f64 :=
  if is_nan x then y else if is_nan y then x else if fltb x y then y else x.

(** [as f64] on an integer. *)
Definition f64_of_Z (z : Z) : f64 := binary_normalize 53 1024 _ _ mode_NE z 0 false.

Definition fzero : f64 := B754_zero false.
Definition fnegzero : f64 := B754_zero true.
Definition fnan : f64 := B754_nan.
Definition finf (s : bool) : f64 := B754_infinity s.

(** Bit-for-bit identity (with the single NaN), as a boolean. *)
Definition sf_eqb (x y : spec_float) : bool :=
  match x, y with
  | S754_zero a, S754_zero b => Bool.eqb a b
  | S754_infinity a, S754_infinity b => Bool.eqb a b
  | S754_nan, S754_nan => true
  | S754_finite a m e, S754_finite b n f => Bool.eqb a b && Pos.eqb m n && Z.eqb e f
  | _, _ => false
  end.
Definition fsame (x y : f64) : bool := sf_eqb (B2SF x) (B2SF y).
