(** What is said about a whole tree (C106). *)
From Coq Require Import String.
From Verif Require Import Base Str Num F64 Sexp FpData FpDe LyData LyDe GramSpec MeanSpec WideSpec WideSound WideMean WideBoard WideCrash TreeErr TreeErrSpec TreeErrAgree TreeErrFacts TreeErrTells TreeErrBoard.
Open Scope string_scope. Open Scope list_scope.

Lemma same {A} (t : told A) r : agree t r ->
  (forall a, t = TFine a <-> r = Ok a) /\ (t = TStops <-> r = Panic) /\ (((exists m, t = TSays m) \/ t = TOther) <-> exists e, r = Err e).
Proof.
  intros T. destruct t as [a|m| |], r as [b|e|]; try contradiction T; cbn [agree] in T.
  - subst b. split; [intros c; split; intros E; [now injection E as ->|now injection E as ->]|]. split; [split; discriminate|].
    split; [intros [[n E]|E]; discriminate E|intros [e E]; discriminate E].
  - split; [split; discriminate|]. split; [split; discriminate|]. split; [intros _; now exists e|intros _; left; now exists m].
  - split; [split; discriminate|]. split; [split; discriminate|]. split; [intros _; now exists e|intros _; now right].
  - split; [split; discriminate|]. split; [split; reflexivity|]. split; [intros [[n E]|E]; discriminate E|intros [e E]; discriminate E].
Qed.
Lemma other {A} (t : told A) r (f c : Prop) (q : str -> Prop) : agree t r -> ((exists a, r = Ok a) <-> f) -> (r = Panic <-> c) -> (forall m, t = TSays m <-> q m) ->
  t = TOther <-> ~ f /\ ~ c /\ forall m, ~ q m.
Proof.
  intros T F C Q. split.
  - intros ->. destruct r as [b|e|]; try contradiction T. split; [intros H; apply F in H as [a H]; discriminate H|]. split; [intros H; apply C in H; discriminate H|].
    intros m H. apply Q in H. discriminate H.
  - intros (NF & NC & NQ). destruct t as [a|m| |]; [|destruct (NQ m); now apply Q|reflexivity|].
    + destruct r as [b|e|]; try contradiction T. destruct NF. apply F. now exists b.
    + destruct r as [b|e|]; try contradiction T. destruct NC. now apply C.
Qed.
Section Show.
Context (sh : sexp -> str) (dbg : f64 -> str).
Lemma module_same s : (forall m, t_module sh dbg s = TFine m <-> de_module s = Ok m) /\ (t_module sh dbg s = TStops <-> de_module s = Panic) /\
  (((exists m, t_module sh dbg s = TSays m) \/ t_module sh dbg s = TOther) <-> exists e, de_module s = Err e).
Proof. exact (same _ _ (ag_module sh dbg s)). Qed.
Lemma layout_same s : (forall m, t_layout sh dbg s = TFine m <-> de_layout s = Ok m) /\ (t_layout sh dbg s = TStops <-> de_layout s = Panic) /\
  (((exists m, t_layout sh dbg s = TSays m) \/ t_layout sh dbg s = TOther) <-> exists e, de_layout s = Err e).
Proof. exact (same _ _ (ag_layout sh dbg s)). Qed.
Lemma module_other s : t_module sh dbg s = TOther <-> ~ follows w_module s /\ ~ module_crash s /\ forall m, ~ module_says sh dbg s m.
Proof. exact (other _ _ _ _ _ (ag_module sh dbg s) (reads_of _ _ _ sn_module wm_module s) (module_panic s) (module_exact sh dbg s)). Qed.
Lemma layout_other s : t_layout sh dbg s = TOther <-> ~ follows w_board s /\ ~ board_crash s /\ forall m, ~ board_says sh dbg s m.
Proof. exact (other _ _ _ _ _ (ag_layout sh dbg s) (reads_of _ _ _ sn_layout wm_layout s) (layout_panic s) (layout_exact sh dbg s)). Qed.
Lemma one_thing s : (forall m n, module_says sh dbg s m -> module_says sh dbg s n -> m = n) /\ (forall m n, board_says sh dbg s m -> board_says sh dbg s n -> m = n).
Proof.
  split; intros m n M N.
  - apply module_exact in M. apply module_exact in N. rewrite M in N. now injection N.
  - apply layout_exact in M. apply layout_exact in N. rewrite M in N. now injection N.
Qed.
End Show.
Definition bad_layer := node "layer" [a_lit "X.Cu"].
Definition bad_line := node "fp_line" [node "start" [a_lit "0"; a_lit "0"]; node "end" [a_lit "1"; a_lit "0"]; bad_layer; node "width" [a_lit "1"]].
Lemma not_named : exists sh dbg s l m, In l (match s with SList q => q | _ => [] end) /\ layer_says l m /\ t_element sh dbg s = TOther.
Proof.
  exists (fun _ => []), (fun _ => []), bad_line, bad_layer, (lit "unknown layer side X"). split; [right; right; right; left; reflexivity|]. split.
  - apply layer_exact. vm_compute. reflexivity.
  - assert (E : match t_element (fun _ => []) (fun _ => []) bad_line with TOther => true | _ => false end = true) by (vm_compute; reflexivity).
    destruct (t_element (fun _ => []) (fun _ => []) bad_line); try discriminate E. reflexivity.
Qed.
