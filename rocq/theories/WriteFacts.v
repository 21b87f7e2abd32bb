(** What the writing functions leave in a file (C66). *)
From Coq Require Import String.
From Verif Require Import Base Str StrFacts Sexp FpData FpSer LyData LySer Formatter DocText KicadFile TextSpec TextFacts TextMain TextDocs.
Open Scope list_scope.

Lemma write_at fs n d : write_file fs n d n = Some d.
Proof. unfold write_file. now rewrite str_eqb_refl. Qed.
Lemma write_other fs n d k : k <> n -> write_file fs n d k = fs k.
Proof. intros N. unfold write_file. destruct (str_eqb_spec k n); [contradiction|reflexivity]. Qed.
Lemma write_module_text nq fs m n : write_module nq fs m n n = Some (written nq 0 (ser_module m)) /\ forall k, k <> n -> write_module nq fs m n k = fs k.
Proof. unfold write_module. split; [rewrite write_at; now rewrite module_written|intros k; apply write_other]. Qed.
Lemma write_layout_text nq fs l n : usual_layout l = true ->
  write_layout nq fs l n n = Some (written nq 0 (ser_layout l) ++ [10%N]) /\ forall k, k <> n -> write_layout nq fs l n k = fs k.
Proof. intros U. unfold write_layout. split; [rewrite write_at; now rewrite (layout_written _ _ _ U)|intros k; apply write_other]. Qed.
