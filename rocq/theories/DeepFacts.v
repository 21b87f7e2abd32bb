(** Lemmas for C118: boards mixed up on both levels. *)
From Coq Require Import String Permutation.
From Flocq Require Import IEEE754.BinarySingleNaN.
From Verif Require Import Base Str F64 F64Order FpData FpOps FpOpsSpec Bound BoundSpec BoundFacts LyData LyOps LySpec LyBoundFacts AnyOrderSpec AnyOrderFacts DeepSpec UnionSpec UnionFacts.
Open Scope string_scope. Open Scope list_scope.

Lemma update_same a b b' : bnum a = true -> bnum b = true -> bnum b' = true -> same_bound b b' = true -> same_bound (bound_update a b) (bound_update a b') = true.
Proof.
  intros A B B' S. eapply same_bound_trans; [| | |apply update_comm|]; auto using update_num.
  eapply same_bound_trans; [| | |apply update_compat; [| | |exact S]|apply update_comm]; auto using update_num.
Qed.
Lemma all_same l l' : Forall2 (fun b b' => bnum b = true /\ bnum b' = true /\ same_bound b b' = true) l l' -> forall a, bnum a = true ->
  same_bound (bound_all a l) (bound_all a l') = true.
Proof.
  intros F. induction F as [|b b' l l' (B & B' & S) F IH]; intros a A; [now apply same_bound_refl|].
  assert (N : Forall (fun b => bnum b = true) l) by (clear -F; induction F as [|x y p q (X & _) _ I]; constructor; auto).
  assert (N' : Forall (fun b => bnum b = true) l') by (clear -F; induction F as [|x y p q (_ & Y & _) _ I]; constructor; auto).
  unfold bound_all. cbn [fold_left]. eapply same_bound_trans; [| | |apply all_compat; [| | |apply update_same; [| | |exact S]]|apply IH]; auto using update_num, all_num.
  all: try (apply all_num; auto using update_num).
Qed.
Lemma inner_geo e e' : inner e e' -> placed_once e -> ly_geo_ok e = true -> ly_geo_ok e' = true.
Proof.
  destruct e as [m|n|n|t|l|a|c|d|s|v|z|s]; cbn [inner]; try (intros ->; auto). intros (m' & -> & M) O. cbn [ly_geo_ok]. rewrite (at_perm m m' O M).
  destruct M as [_ P]. rewrite !andb_true_iff. intros [F G]. split; [exact F|]. now apply (perm_forallb _ _ _ P).
Qed.
Lemma inner_box e e' : inner e e' -> placed_once e -> ly_geo_ok e = true -> same_bound (ly_element_bound e) (ly_element_bound e') = true.
Proof.
  intros I O G. destruct (ly_good e G) as [N _].
  destruct e as [m|n|n|t|l|a|c|d|s|v|z|s]; cbn [inner] in I; try (subst e'; now apply same_bound_refl). destruct I as (m' & -> & M).
  cbn [ly_geo_ok] in G. rewrite !andb_true_iff in G. destruct G as [[Fx Fy] G]. cbn [ly_element_bound]. now apply box_mixed.
Qed.
Lemma deep_box l l' : Forall placed_once (ly_elements l) -> forallb ly_geo_ok (ly_elements l) = true -> deep_mixed l l' -> same_bound (layout_bound l) (layout_bound l') = true.
Proof.
  intros O G (_ & es & P & I). assert (Ge : forallb ly_geo_ok es = true) by now apply (perm_forallb _ _ _ P).
  assert (Oe : Forall placed_once es) by now apply (Permutation_Forall P).
  assert (Gl : forallb ly_geo_ok (ly_elements l') = true).
  { clear P. induction I as [|e e' es es' X I IH]; [reflexivity|]. cbn [forallb] in *. apply andb_prop in Ge as [G1 G2]. inversion Oe; subst. rewrite (inner_geo e e') by assumption. now apply IH. }
  rewrite !layout_all by assumption. pose proof (good_num _ (all_ly_good _ G)) as N. pose proof (good_num _ (all_ly_good _ Ge)) as Ne. pose proof (good_num _ (all_ly_good _ Gl)) as Nl.
  assert (S1 : same_bound (bound_all bound_default (map ly_element_bound (ly_elements l))) (bound_all bound_default (map ly_element_bound es)) = true).
  { apply all_permutation; [now apply Permutation_map|reflexivity|exact N]. }
  assert (S2 : same_bound (bound_all bound_default (map ly_element_bound es)) (bound_all bound_default (map ly_element_bound (ly_elements l'))) = true).
  { apply all_same; [|reflexivity]. clear P N Ne Nl S1. induction I as [|e e' es es' X I IH]; cbn [map forallb] in *; [constructor|]. apply andb_prop in Ge as [G1 G2]. apply andb_prop in Gl as [G3 G4]. inversion Oe; subst.
    constructor; [|now apply IH]. split; [now apply ly_good|]. split; [now apply ly_good|]. now apply inner_box. }
  eapply same_bound_trans; [| | |exact S1|exact S2]; apply all_num; try assumption; reflexivity.
Qed.
Lemma pads_total old new e : snd (update_pad_net (renamed old new) e) = None.
Proof. destruct e; cbn [update_pad_net]; try reflexivity. now destruct (pa_net p). Qed.
Lemma inner_rename old new e e' : inner e e' -> inner (fst (update_element_nets (renamed old new) e)) (fst (update_element_nets (renamed old new) e')).
Proof.
  destruct e as [m|n|n|t|l|a|c|d|s|v|z|s]; cbn [inner].
  2: { intros ->. reflexivity. }
  2: { intros ->. cbn [update_element_nets]. destruct (for_each _ _). reflexivity. }
  all: try (intros ->; reflexivity).
  intros (m' & -> & N & P). cbn [update_element_nets]. rewrite !for_each_total by apply pads_total. cbn [fst]. eexists. split; [reflexivity|]. split; [exact N|]. cbn [m_elements]. now apply Permutation_map.
Qed.
Lemma deep_rename old new l l' q : deep_mixed l l' -> change_net_name old new l = Ok q -> exists q', change_net_name old new l' = Ok q' /\ deep_mixed q q'.
Proof.
  intros (H & es & P & I) E. rewrite change_map in E. injection E as <-. eexists. split; [apply change_map|]. split; [exact H|]. cbn [with_elements ly_elements].
  exists (map (fun e => fst (update_element_nets (renamed old new) e)) es). split; [now apply Permutation_map|].
  clear P. induction I as [|e e' es es' X _ IH]; cbn [map]; constructor; [now apply inner_rename|exact IH].
Qed.
(** Moving *)
Lemma inner_adjust x y e e' : inner e e' -> inner (adjust_ly_element x y e) (adjust_ly_element x y e').
Proof.
  destruct e as [m|n|n|t|l|a|c|d|s|v|z|s]; cbn [inner]; try (intros ->; reflexivity).
  intros (m' & -> & N & P). cbn [adjust_ly_element]. eexists. split; [reflexivity|]. split; [exact N|]. unfold adjust_module. cbn [m_elements]. now apply Permutation_map.
Qed.
Lemma deep_adjust x y l l' : deep_mixed l l' -> deep_mixed (adjust_layout x y l) (adjust_layout x y l').
Proof.
  intros (H & es & P & I). split; [exact H|]. cbn [adjust_layout with_elements ly_elements]. exists (map (adjust_ly_element x y) es). split; [now apply Permutation_map|].
  clear P. induction I as [|e e' es es' X _ IH]; cbn [map]; constructor; [now apply inner_adjust|exact IH].
Qed.
