(** Property theorems: what a number in a file means (C57), and how numbers are written (C64). *)
From Coq Require Import String Reals Lia.
From Flocq Require Import Core.Core IEEE754.BinarySingleNaN.
From Verif Require Import Base Str Num F64 F64Text DecSpec DecFacts ShortSpec ShortFacts KeptSpec ShortKeep.
Local Open Scope R_scope.

(** C57: every decimal text (sign, digits with at most one point, exponent) is read
    as the binary64 number nearest to its value, ties to even, infinity on overflow. *)
Theorem C57_reads (s : str) (neg : bool) (v : R) : number_text s neg v ->
  exists x, f64_of_str s = Some x /\ reads x neg v.
Proof. exact (number_fw s neg v). Qed.
Print Assumptions C57_reads.

(** Nothing else is accepted but [inf], [infinity], [nan] with a sign, in either case. *)
Theorem C57_accepts (s : str) (x : f64) : f64_of_str s = Some x <->
  (exists neg v, number_text s neg v /\ reads x neg v) \/
  exists sg neg w y, s = (sg ++ w)%list /\ sign_text sg neg /\ special_value w y /\ x = if neg then fneg y else y.
Proof. exact (f64_accepts s x). Qed.
Print Assumptions C57_accepts.

(** No binary64 number is nearer to the value of the text than the one read. *)
Theorem C57_nearest (s : str) (neg : bool) (v : R) (x : f64) : number_text s neg v -> f64_of_str s = Some x -> is_finite x = true ->
  forall y : f64, is_finite y = true -> Rabs (B2R x - (if neg then - v else v)) <= Rabs (B2R y - (if neg then - v else v)).
Proof. exact (f64_nearest s neg v x). Qed.
Print Assumptions C57_nearest.

(** A number is read as infinity exactly when it rounds beyond the largest finite one;
    the sign is that of the text (also for zero) and the result is never NaN. *)
Theorem C57_overflow (s : str) (neg : bool) (v : R) (x : f64) : number_text s neg v -> f64_of_str s = Some x ->
  (is_finite x = true <-> nearest v < bpow radix2 1024) /\ Bsign x = neg /\ x <> B754_nan.
Proof. exact (f64_overflow s neg v x). Qed.
Print Assumptions C57_overflow.

(** Integers: an optional sign and decimal digits whose value fits 64 bits, nothing else. *)
Theorem C57_int (s : str) (z : Z) : i64_of_str s = Some z <->
  exists sg neg ds, s = (sg ++ ds)%list /\ sign_text sg neg /\ Forall is_digit ds /\ ds <> [] /\
    z = (if neg then - dec ds else dec ds)%Z /\ (- 2 ^ 63 <= z < 2 ^ 63)%Z.
Proof. exact (int_iff s z). Qed.
Print Assumptions C57_int.

Local Ltac digs := cbv [lit list_ascii_of_string map]; repeat (apply Forall_cons; [unfold is_digit; cbn; lia|]); apply Forall_nil.
(** The text [-12.5E-1] is a number text of value 1.25 with a minus sign. *)
Example C57_ex : number_text (lit "-12.5E-1") true (IZR 125 * powerRZ 10 (-2)).
Proof.
  apply (number_is (lit "-") true (lit "12") (lit ".5") (lit "5") (lit "E-1") (-1)).
  - exact sign_minus.
  - digs.
  - apply point_some. digs.
  - apply (exp_some 69%N (lit "-") true (lit "1")); [now right|exact sign_minus|digs|discriminate].
  - discriminate.
Qed.
(** 2^53 + 1 lies half way between two doubles and goes to the even one; one more
    digit breaks the tie. *)
Example C57_ex_tie :
  match f64_of_str (lit "9007199254740993"), f64_of_str (lit "9007199254740993.000000000000000001"),
        f64_of_str (lit "9007199254740992"), f64_of_str (lit "9007199254740994") with
  | Some a, Some b, Some c, Some d => fsame a c && fsame b d && negb (fsame c d)
  | _, _, _, _ => false
  end = true.
Proof. vm_compute. reflexivity. Qed.
Example C57_ex_special : special_value (lit "InF") (B754_infinity false).
Proof. left. split; [left|reflexivity]. unfold special_text. cbn. repeat (apply Forall2_cons; [unfold same_letter; lia|]). apply Forall2_nil. Qed.
Example C57_ex_int : i64_of_str (lit "+0042") = Some 42%Z /\ i64_of_str (lit "9223372036854775808") = None /\ i64_of_str (lit "-") = None.
Proof. vm_compute. auto. Qed.

(** C64: the text written for a number other than zero has the fewest significant digits among
    all decimals that are read as that number, at most 17; among those with as many digits
    it is the nearest one. *)
Theorem C64_shortest (x : f64) : is_finite_strict x = true ->
  exists v n, number_text (f64_to_str x) (Bsign x) v /\ nearest v = Rabs (B2R x) /\ (n <= 17)%nat /\ decimal n v /\
    (forall m w, decimal m w -> nearest w = Rabs (B2R x) -> (n <= m)%nat) /\
    (forall w, decimal n w -> nearest w = Rabs (B2R x) -> Rabs (v - Rabs (B2R x)) <= Rabs (w - Rabs (B2R x))).
Proof. exact (shown x). Qed.
Print Assumptions C64_shortest.
(** It is written without exponent and without zeros that could be left out. *)
Theorem C64_plain (x : f64) : is_finite x = true -> exists t, plain t /\ f64_to_str x = ((if Bsign x as b return str then [45%N] else []) ++ t)%list.
Proof. exact (shown_plain x). Qed.
Print Assumptions C64_plain.
(** Together: a plain text is written exactly if its value is the decimal to be preferred, which is
    the larger one where two shortest decimals are equally close. *)
Theorem C64_exact (x : f64) (t : str) : is_finite_strict x = true ->
  (f64_to_str x = t <-> exists u v, t = signed (Bsign x) u /\ plain u /\ number_text u false v /\ written_for (Rabs (B2R x)) v).
Proof. exact (shown_exact x t). Qed.
Print Assumptions C64_exact.
(** 8388608 + 1/1024 lies in the middle of two decimals of 16 digits that are both read as it. *)
Example C64_ex_tie : (f64_to_str (flit "8388608.0009765625") = lit "8388608.000976563" /\ feqb (flit "8388608.000976562") (flit "8388608.0009765625") = true)%string.
Proof. split; vm_compute; reflexivity. Qed.
(** 0.1 + 0.2 needs all 17 digits, 5e-324 only one, 1e23 lies between two doubles. *)
Example C64_ex :
  (f64_to_str (fadd (flit "0.1") (flit "0.2")) = lit "0.30000000000000004" /\ f64_to_str (flit "-2.50") = lit "-2.5" /\ f64_to_str (flit "1e23") = lit "100000000000000000000000")%string.
Proof. split; [|split]; vm_compute; reflexivity. Qed.
Example C64_ex_decimal : decimal 2 (IZR 25 * powerRZ 10 (-1)) /\ ~ decimal 0 (IZR 25).
Proof.
  split; [exists 25%Z, (-1)%Z; split; [split; reflexivity|reflexivity]|]. intros (c & k & H & _). cbn in H. lia.
Qed.
Example C64_ex_plain : plain (lit "0.30000000000000004") /\ plain (lit "100").
Proof.
  split.
  - apply (plain_frac (lit "0") (lit "30000000000000004")); [digs| |digs|cbn; discriminate]. eexists _, _. split; reflexivity.
  - apply plain_int; [digs|]. eexists _, _. split; [reflexivity|]. discriminate.
Qed.
