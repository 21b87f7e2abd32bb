(** Which elements lie inside their own box (C16); components of a schematic (C45). *)
From Verif Require Import Base Str F64 F64Order Bound BoundSpec FpData FpOps FpOpsSpec FpOpsFacts SchData SchOps SymSpec.

Lemma element_exact e : geo_ok e = true ->
  ((forall p, In p (fab_points e) -> inside (fst p) (snd p) (element_bound e) = true)
   <-> (fab_points e <> [] -> ascending e = true)).
Proof.
  intros G. split.
  - intros H N. destruct e; try reflexivity; cbn [fab_points] in *; destruct (ltype_eqb _ LFab); try (now destruct N); cbn [ascending].
    + specialize (H (xy_point (li_end l)) (or_intror (or_introl eq_refl))). unfold inside, element_bound, line_bound, bound_new, xy_point in H.
      cbn [fst snd bx1 by1 bx2 by2] in H. rewrite !andb_true_iff in *. tauto.
    + specialize (H (xy_point (ar_end a)) (or_intror (or_introl eq_refl))). unfold inside, element_bound, arc_bound, bound_new, xy_point in H.
      cbn [fst snd bx1 by1 bx2 by2] in H. rewrite !andb_true_iff in *. tauto.
  - intros A p H. apply (element_points_inside e p G); [|exact H]. apply A. intros E. now rewrite E in H.
Qed.
Lemma components_picks s :
  picks (fun e c => e = SComponent c) (fun e => forall c, e <> SComponent c) (sc_elements s) (components s).
Proof.
  unfold components. induction (sc_elements s) as [|e l IH]; cbn [comps]; [constructor|].
  destruct e; try (apply picks_skip; [discriminate|exact IH]). apply picks_take; [reflexivity|exact IH].
Qed.
