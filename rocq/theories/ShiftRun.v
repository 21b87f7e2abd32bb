(** Lemmas for C116: what adjust_layout prints. *)
From Coq Require Import String Reals Lra.
From Flocq Require Import IEEE754.BinarySingleNaN Core.
From Verif Require Import Base Str StrFacts F64 F64Text Sexp FpData FpOps LyData LyWf LyOps LySpec Bound ClassSpec Formatter FormatterSpec DocText LibFns Bins BinSpec BinFacts
  TightSpec TightFacts ShiftSpec ShiftFacts.
Open Scope string_scope. Open Scope list_scope.

Lemma val100 : is_finite (flit "100.0") = true /\ B2R (flit "100.0") = 100%R.
Proof.
  apply (lit_val (flit "100.0") 7036874417766400 (-46)); [vm_compute; reflexivity|]. unfold F2R; cbn [Fnum Fexp].
  change (bpow radix2 (-46)) with (/ 70368744177664)%R. lra.
Qed.
Lemma val0 : is_finite (flit "0.0") = true /\ B2R (flit "0.0") = 0%R.
Proof.
  assert (E : B2SF (flit "0.0") = SpecFloat.S754_zero false) by (vm_compute; reflexivity).
  split; [rewrite <- is_finite_SF_B2SF, E; reflexivity|]. rewrite <- SF2R_B2SF, E. reflexivity.
Qed.
Lemma near100 : nearby (flit "100.0").
Proof. apply nearbyb_ok. vm_compute. reflexivity. Qed.
Lemma near0 : nearby (flit "0.0").
Proof. apply nearbyb_ok. vm_compute. reflexivity. Qed.
Lemma moved_100 b c : nearly_moved slack (flit "100.0") (flit "0.0") b c -> moved_right (/ 400) 100 b c.
Proof.
  intros [E H]. split; [exact E|]. intros B. destruct (H B) as (_ & _ & A1 & A2 & A3 & A4).
  rewrite (proj2 val100) in A1, A3. rewrite (proj2 val0), Rplus_0_r in A2, A4.
  split; [exact A1|]. split; [exact A2|]. split; [exact A3|exact A4].
Qed.
Lemma program_box nq fs p n rest d l : quote_contract nq -> fs n = Some d -> parse_layout d = Ok l -> layout_clean l = true ->
  (forall e, In e (ly_elements l) -> tame e) ->
  exists t l', adjust_program nq fs (p :: n :: rest) = Ok (mk_ran t [(false, n)]) /\ parse_layout t = Ok l' /\
    moved_right (/ 400) 100 (layout_bound l) (layout_bound l').
Proof.
  intros Q F P C T. destruct (adjust_run nq fs p n rest d l Q F P C) as (t & R & S). exists t, (adjust_layout (flit "100.0") (flit "0.0") l).
  split; [exact R|]. split; [exact S|]. apply moved_100. exact (near_layout _ _ l near100 near0 T).
Qed.
