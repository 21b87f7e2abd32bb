(** Property theorems: numbers in files (C43, C06). *)
From Coq Require Import String.
From Verif Require Import Base Str Num F64 F64Text NumFacts F64Facts.
Open Scope string_scope.

(** C43: every f64, including infinities, NaN and -0.0, is read back from its
    decimal text as the identical value. *)
Theorem C43_float_text_exact (x : f64) : f64_of_str (f64_to_str x) = Some x.
Proof. exact (f64_roundtrip x). Qed.
Print Assumptions C43_float_text_exact.

Theorem C43_float_text_injective (x y : f64) : f64_to_str x = f64_to_str y -> x = y.
Proof. exact (f64_to_str_inj x y). Qed.
Print Assumptions C43_float_text_injective.

(** Every i64 is read back from its decimal text. *)
Theorem C43_int_text_exact (z : Z) :
  (- 2 ^ 63 <= z < 2 ^ 63)%Z -> i64_of_str (show_Z z) = Some z.
Proof. exact (i64_roundtrip_range z). Qed.
Print Assumptions C43_int_text_exact.

(** Reading an integer never leaves the i64 range. *)
Theorem C43_int_text_range (s : str) (z : Z) :
  i64_of_str s = Some z -> (- 2 ^ 63 <= z < 2 ^ 63)%Z.
Proof. exact (i64_of_str_bounds s z). Qed.
Print Assumptions C43_int_text_range.

Example C43_float_ex :
  f64_to_str (flit "0.1") = lit "0.1" /\ f64_to_str (flit "-12.70") = lit "-12.7"
  /\ f64_to_str fnegzero = lit "-0".
Proof. vm_compute. repeat split; reflexivity. Qed.
Example C43_int_ex : i64_of_str (lit "-9223372036854775808") = Some (- 2 ^ 63)%Z
  /\ i64_of_str (lit "9223372036854775808") = None.
Proof. vm_compute. split; reflexivity. Qed.

(** C06: hexadecimal time stamps. *)
Theorem C06_stamp_round_trip (z : Z) :
  (0 <= z < 2 ^ 63)%Z -> parse_int 16 (show_hex64 z) = Some z.
Proof. exact (stamp_roundtrip_range z). Qed.
Print Assumptions C06_stamp_round_trip.

(** Every negative stamp is written as text that does not read back at all. *)
Theorem C06_negative_stamp_refuted (z : Z) :
  (- 2 ^ 63 <= z < 0)%Z -> parse_int 16 (show_hex64 z) = None.
Proof. exact (stamp_negative_range z). Qed.
Print Assumptions C06_negative_stamp_refuted.

Example C06_ex : show_hex64 1485440569 = lit "588A0639"
  /\ parse_int 16 (lit "588A0639") = Some 1485440569%Z
  /\ show_hex64 (-1) = lit "FFFFFFFFFFFFFFFF"
  /\ parse_int 16 (lit "-1") = Some (-1)%Z.
Proof. vm_compute. repeat split; reflexivity. Qed.
