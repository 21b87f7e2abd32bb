(** Lemmas for P_Rule.v: the settings of the checks as numbers. *)
From Coq Require Import Reals Lra ZArith String.
From Flocq Require Import Core IEEE754.BinarySingleNaN.
From Verif Require Import Base Str F64 F64Text CheckFix.
Definition parts (x : f64) : option (bool * positive * Z) := match x with B754_finite s m e _ => Some (s, m, e) | _ => None end.
Lemma parts_value x s m e : parts x = Some (s, m, e) -> is_finite x = true /\ B2R x = F2R (Float radix2 (cond_Zopp s (Zpos m)) e).
Proof.
  destruct x as [s'|s'| |s' m' e' H]; [discriminate..|]. cbn [parts]. intros K.
  assert (E : s' = s /\ m' = m /\ e' = e) by now injection K. destruct E as (<- & <- & <-). split; reflexivity.
Qed.
Lemma size_parts : parts (cg_font_size klc) = Some (false, 4503599627370496%positive, (-52)%Z).
Proof. vm_compute. reflexivity. Qed.
Lemma thickness_parts : parts (cg_font_thickness klc) = Some (false, 5404319552844595%positive, (-55)%Z).
Proof. vm_compute. reflexivity. Qed.
Lemma klc_settings : is_finite (cg_font_size klc) = true /\ B2R (cg_font_size klc) = 1%R /\ is_finite (cg_font_thickness klc) = true /\
  (Rabs (B2R (cg_font_thickness klc) - 15 / 100) <= / 2 * bpow radix2 (-55))%R.
Proof.
  destruct (parts_value _ _ _ _ size_parts) as [A B]. destruct (parts_value _ _ _ _ thickness_parts) as [C D].
  split; [exact A|]. rewrite B, D. unfold F2R; cbn [Fnum Fexp cond_Zopp]. split; [|split; [exact C|]].
  - change (bpow radix2 (-52)) with (/ IZR 4503599627370496)%R. field.
  - change (bpow radix2 (-55)) with (/ IZR 36028797018963968)%R. apply Rabs_le. split; lra.
Qed.
