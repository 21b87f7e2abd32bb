(** Lemmas for C56. *)
From Coq Require Import String.
From Verif Require Import Base Str StrFacts Sexp SexpFacts FpData FpDe FpWf LyData LyDe LyWf FpLibTable Formatter FormatterSpec DocSpec DocText LibFns
  SchData SchPrint SchParse SchWf SchReread SymData SymPrint SymParse SymWf SymReread KicadFile KfSpec KfFacts SxText SaveSpec.
Open Scope string_scope. Open Scope list_scope.

Lemma save_accepted nq n s f : quote_contract nq -> accepted n s f -> file_clean f = true ->
  exists t, save_text nq f = Ok t /\ accepted n t f.
Proof.
  intros Q A C. destruct f as [u|m|c|l|l|d|t]; cbn [accepted file_clean save_text] in *; [discriminate|..].
  - eexists. split; [reflexivity|]. eapply text_module; eassumption.
  - eexists. split; [reflexivity|]. eapply reread_schematic; eassumption.
  - eexists. split; [reflexivity|]. eapply text_layout; eassumption.
  - eapply reread_library; eassumption.
  - eexists. split; [reflexivity|]. unfold parse_project in *.
    destruct (starts_with _ s) eqn:E; [|discriminate]. injection A as <-. now rewrite E.
  - eexists. split; [reflexivity|]. eapply text_table; eassumption.
Qed.
Lemma save_opened nq fs n x f : quote_contract nq -> read_kicad_file fs n x = Ok f -> file_clean f = true ->
  exists t, save_text nq f = Ok t /\ read_kicad_file (write_file fs n t) n x = Ok f.
Proof.
  intros Q H C. unfold read_kicad_file in H. apply bind_inv in H as (s & _ & H).
  assert (K : f <> KUnknown n) by (intros ->; discriminate C).
  apply known_iff in H as [A R]; [|exact K]. destruct (save_accepted nq n s f Q A C) as (t & T & A').
  exists t. split; [exact T|]. now apply read_written.
Qed.
