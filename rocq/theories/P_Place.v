(** Property theorems: the rules do not depend on where a footprint lies (C117). *)
From Coq Require Import String Reals.
From Flocq Require Import IEEE754.BinarySingleNaN.
From Verif Require Import Base Str F64 F64Text FpData FpOps FpExamples LyExamples Bound LyData CheckFix SymCheck FpCheck CheckSpec ClassSpec ShiftSpec ShiftFacts
  PlaceSpec PlaceFacts CheckWit.
Open Scope string_scope. Open Scope list_scope.

(** Moving, turning and flipping a footprint, any number of times, leaves the findings
    of the rule check as they are. *)
Theorem C117_check (c : config) (m m' : module) : placement m m' -> fp_check c m' = fp_check c m.
Proof. exact (check_placed c m m'). Qed.
Print Assumptions C117_check.

(** A footprint that has a courtyard may be moved before or after it is fixed, with the
    same result; if it also has a text for the second reference, it may be turned and
    flipped before or after. *)
Theorem C117_fix_moved (c : config) (x y : f64) (m m' : module) : (4 <= length (courtyard_list m))%nat ->
  fp_fix c m = Ok m' -> fp_fix c (adjust_module x y m) = Ok (adjust_module x y m').
Proof. exact (fix_moved c x y m m'). Qed.
Print Assumptions C117_fix_moved.
Theorem C117_fix_turned (c : config) (r : f64) (m m' : module) : (4 <= length (courtyard_list m))%nat -> has_text (lit "user") m ->
  fp_fix c m = Ok m' ->
  fp_fix c (rotate_module r m) = Ok (rotate_module r m') /\ fp_fix c (flip_module m) = Ok (flip_module m').
Proof. exact (fix_turned c r m m'). Qed.
Print Assumptions C117_fix_turned.

(** The courtyard drawn for a footprint is the same wherever the footprint lies, up to
    1/200 mm, if its size is not right at the limit between two distances. *)
Theorem C117_courtyard (c : config) (x y : f64) (m m1 m2 : module) : nearby x -> nearby y -> tame (YModule m) ->
  (length (courtyard_list m) < 4)%nat ->
  let b := module_bound m in clear_size (B2R (bx2 b) - B2R (bx1 b)) (B2R (by2 b) - B2R (by1 b)) ->
  fp_fix c m = Ok m1 -> fp_fix c (adjust_module x y m) = Ok m2 ->
  exists r1 r2 x1 y1 x2 y2 u1 v1 u2 v2, lines_of m1 = lines_of m ++ r1 /\ lines_of m2 = lines_of m ++ r2 /\
    rectangle_of x1 y1 x2 y2 r1 /\ rectangle_of u1 v1 u2 v2 r2 /\
    within (/ 200) x1 u1 /\ within (/ 200) y1 v1 /\ within (/ 200) x2 u2 /\ within (/ 200) y2 v2.
Proof. exact (fixed_courtyard c x y m m1 m2). Qed.
Print Assumptions C117_courtyard.

Definition c117_lines : list element := map EFpLine (courtyard ex_module).
Definition c117_module : module := mk_module (lit "QFN-32") (m_elements ex_module ++ c117_lines ++ [EFpText note]).
Example C117_ex : placement ex_module (flip_module (rotate_module (fl "90") (adjust_module (fl "1") (fl "2") ex_module)))
  /\ length (fp_check klc ex_module) = 8%nat
  /\ length (courtyard_list c117_module) = 4%nat /\ has_text (lit "user") c117_module
  /\ tame (YModule ex_module) /\ nearby (fl "100") /\ length (courtyard_list ex_module) = 0%nat
  /\ clear_size (B2R (bx2 (module_bound ex_module)) - B2R (bx1 (module_bound ex_module))) (B2R (by2 (module_bound ex_module)) - B2R (by1 (module_bound ex_module))).
Proof.
  split; [apply pl_flipped, pl_turned, pl_moved, pl_here|]. split; [vm_compute; reflexivity|]. split; [vm_compute; reflexivity|].
  split; [exists note; split; [unfold c117_module; cbn [m_elements]; apply in_or_app; right; apply in_or_app; right; now left|reflexivity]|].
  split; [apply tameb_ok; vm_compute; reflexivity|]. split; [apply nearbyb_ok; vm_compute; reflexivity|]. split; [vm_compute; reflexivity|].
  apply wide_clear; vm_compute; reflexivity.
Qed.

(** The lines of a new courtyard are on the front, on whichever side the footprint is ... *)
Theorem C117_front (c : config) (m m' : module) : (length (courtyard_list m) < 4)%nat -> fp_fix c m = Ok m' ->
  exists r, lines_of m' = lines_of m ++ r /\ length r = 4%nat /\ Forall (fun l => la_side (li_layer l) = SFront) r.
Proof.
  intros L F. pose proof (fix_lines_spec c m m' F) as E. apply Nat.ltb_lt in L. rewrite L in E. exists (courtyard m). split; [exact E|].
  split; [unfold courtyard; destruct (module_at m); reflexivity|exact (courtyard_front m)].
Qed.
Print Assumptions C117_front.
(** ... so a footprint on the back is not fixed as it would be on the front. *)
Theorem C117_flip_refuted : exists m m1 m2, fp_fix klc m = Ok m1 /\ fp_fix klc (flip_module m) = Ok m2 /\ m2 <> flip_module m1.
Proof.
  destruct (FixFacts.fix_total klc ex_module) as [m1 E1]. destruct (FixFacts.fix_total klc (flip_module ex_module)) as [m2 E2].
  exists ex_module, m1, m2. split; [exact E1|]. split; [exact E2|]. intros H.
  assert (A : map (fun l => la_side (li_layer l)) (fp_lines m2) = map (fun l => la_side (li_layer l)) (fp_lines (flip_module m1))) by now rewrite H.
  assert (X1 : match fp_fix klc ex_module with Ok q => map (fun l => la_side (li_layer l)) (fp_lines (flip_module q)) | _ => [] end
               = [SBack; SBack; SBack; SBack; SBack]) by (vm_compute; reflexivity).
  assert (X2 : match fp_fix klc (flip_module ex_module) with Ok q => map (fun l => la_side (li_layer l)) (fp_lines q) | _ => [] end
               = [SBack; SFront; SFront; SFront; SFront]) by (vm_compute; reflexivity).
  rewrite E1 in X1. rewrite E2 in X2. rewrite X1, X2 in A. discriminate A.
Qed.
Print Assumptions C117_flip_refuted.
