(** Boxes of schematics are not larger than needed; the sheet count. *)
From Coq Require Import Reals Lra Lia.
From Flocq Require Import Core.Core IEEE754.BinarySingleNaN.
From Verif Require Import Base Num F64 F64Order Bound BoundSpec BoundFacts SchData SchParse SchOps SchSpec SchBoundFacts TightFacts.

(** Integers that f64 represents exactly. *)
Definition small53 (z : Z) : Prop := (Z.abs z <= 2 ^ 53)%Z.
Lemma sheet_exact h b x y : sheet_bound h = Ok b -> small53 (sh_x h) -> small53 (sh_y h - 100) -> small53 (sh_x h + sh_dimx h) ->
  small53 (sh_y h + sh_dimy h + 100) -> small53 x -> small53 y ->
  (inside (f64_of_Z x) (f64_of_Z y) b = true <->
   (sh_x h <= x <= sh_x h + sh_dimx h)%Z /\ (sh_y h - 100 <= y <= sh_y h + sh_dimy h + 100)%Z).
Proof.
  intros H X1 Y1 X2 Y2 X Y. rewrite (sheet_bound_inv _ _ H). unfold inside, bound_new_i64. cbn [bx1 by1 bx2 by2].
  rewrite !f64_of_Z_leb by assumption. rewrite !andb_true_iff, !Z.leb_le. lia.
Qed.
Lemma component_exact c x y : small53 (co_x c) -> small53 (co_y c) -> small53 x -> small53 y ->
  (inside (f64_of_Z x) (f64_of_Z y) (component_bound c) = true <-> (co_y c <= x <= co_x c)%Z /\ y = co_y c).
Proof.
  intros A B X Y. unfold inside, component_bound, bound_new_i64. cbn [bx1 by1 bx2 by2].
  rewrite !f64_of_Z_leb by assumption. rewrite !andb_true_iff, !Z.leb_le. lia.
Qed.
Lemma chk_iff z : (exists y, chk z = Ok y) <-> (- 2 ^ 63 <= z < 2 ^ 63)%Z.
Proof.
  unfold chk, i64_ok, i64_min, i64_max. destruct (_ && _) eqn:E; split; intros H; [lia|eexists; reflexivity|destruct H; discriminate|lia].
Qed.
Lemma sheet_defined h : (sheet_bound h = Panic \/ exists b, sheet_bound h = Ok b) /\
  ((exists b, sheet_bound h = Ok b) <->
   Forall (fun z => (- 2 ^ 63 <= z < 2 ^ 63)%Z) [sh_y h - 100; sh_x h + sh_dimx h; sh_y h + sh_dimy h; sh_y h + sh_dimy h + 100]%Z).
Proof.
  unfold sheet_bound, chk.
  assert (R : forall z, i64_ok z = true <-> (- 2 ^ 63 <= z < 2 ^ 63)%Z) by (intros z; unfold i64_ok, i64_min, i64_max; lia).
  rewrite !Forall_cons_iff, <- !R.
  destruct (i64_ok (sh_y h - 100)); cbn [bind]; [|split; [now left|]; split; [intros [? ?]; discriminate|intros (? & _); discriminate]].
  destruct (i64_ok (sh_x h + sh_dimx h)); cbn [bind]; [|split; [now left|]; split; [intros [? ?]; discriminate|intros (_ & ? & _); discriminate]].
  destruct (i64_ok (sh_y h + sh_dimy h)); cbn [bind]; [|split; [now left|]; split; [intros [? ?]; discriminate|intros (_ & _ & ? & _); discriminate]].
  destruct (i64_ok (sh_y h + sh_dimy h + 100)); cbn [bind]; [|split; [now left|]; split; [intros [? ?]; discriminate|intros (_ & _ & _ & ? & _); discriminate]].
  split; [right; eexists; reflexivity|]. split; [|intros _; eexists; reflexivity]. intros _.
  split; [reflexivity|]. split; [reflexivity|]. split; [reflexivity|]. split; [reflexivity|constructor].
Qed.

Lemma mapM_from {A B} (f : A -> res B) l m y : mapM f l = Ok m -> In y m -> exists x, In x l /\ f x = Ok y.
Proof.
  revert m. induction l as [|a l IH]; cbn; intros m H I; [injection H as <-; contradiction|].
  destruct (f a) as [b| |] eqn:E; cbn in H; try discriminate.
  destruct (mapM f l) as [bs| |]; cbn in H; try discriminate. injection H as <-.
  destruct I as [->|I]; [exists a; split; [left|]; auto|]. destruct (IH bs eq_refl I) as (x & J & X). exists x. split; [right|]; auto.
Qed.
Lemma sch_least s b c : sch_bound s = Ok b -> upright s -> bounded b = true ->
  (forall k, In (SComponent k) (sc_elements s) -> covers c (component_bound k) = true) ->
  (forall h bh, In h (sc_sheets s) -> sheet_bound h = Ok bh -> covers c bh = true) -> covers c b = true.
Proof.
  unfold sch_bound. destruct (mapM sheet_bound (sc_sheets s)) as [hs| |] eqn:M; cbn [bind]; try discriminate.
  intros [= <-] [UC UH] B HC HS. rewrite <- all_app in *. rewrite swap_bounded in B.
  set (l := (map selement_bound (sc_elements s) ++ hs)%list) in *.
  assert (HN : Forall (fun b => bnum b = true) l).
  { apply Forall_app. split.
    - apply Forall_forall. intros x I. apply in_map_iff in I as (e & <- & _). apply selement_num.
    - eapply mapM_all; [exact M|]. intros h y _ E. rewrite (sheet_bound_inv _ _ E). apply of_Z_bnum. }
  assert (HO : Forall (fun b => bnum b = true /\ (bounded b = true -> ordered b = true)) l).
  { apply Forall_app. split.
    - apply Forall_forall. intros x I. apply in_map_iff in I as (e & <- & I). split; [apply selement_num|].
      destruct e as [k| | | | |]; try discriminate. intros _. rewrite Forall_forall in UC.
      assert (J : In k (own (sc_elements s))) by (apply in_flat_map; exists (SComponent k); split; [exact I|left; reflexivity]).
      specialize (UC k J). apply of_Z_ordered; lia.
    - eapply mapM_all; [exact M|]. intros h y I E. rewrite (sheet_bound_inv _ _ E). split; [apply of_Z_bnum|]. intros _.
      rewrite Forall_forall in UH. destruct (UH h I). apply of_Z_ordered; lia. }
  apply swap_covers.
  - now apply BoundFacts.all_num.
  - exact (SchBoundFacts.all_ordered l bound_default ltac:(discriminate) default_num HO B).
  - apply all_least; [reflexivity|exact HN|discriminate| |exact B]. apply Forall_app. split.
    + apply Forall_forall. intros x I Bx. apply in_map_iff in I as (e & <- & I). destruct e as [k| | | | |]; try discriminate Bx. now apply HC.
    + apply Forall_forall. intros x I _. destruct (mapM_from _ _ _ _ M I) as (h & J & E). eauto.
Qed.
Definition is_comp (e : selement) : bool := match e with SComponent _ => true | _ => false end.
Lemma sch_some s b : sch_bound s = Ok b -> (bounded b = true <-> own (sc_elements s) <> [] \/ sc_sheets s <> []).
Proof.
  unfold sch_bound. destruct (mapM sheet_bound (sc_sheets s)) as [hs| |] eqn:M; cbn [bind]; try discriminate.
  intros [= <-]. rewrite <- all_app, swap_bounded, all_unbounded, existsb_app. cbn [bounded bound_default orb].
  assert (C : existsb bounded (map selement_bound (sc_elements s)) = match own (sc_elements s) with [] => false | _ => true end).
  { induction (sc_elements s) as [|e l IH]; [reflexivity|]. destruct e; cbn [map existsb selement_bound own flat_map app]; try exact IH. reflexivity. }
  assert (S : existsb bounded hs = match sc_sheets s with [] => false | _ => true end).
  { destruct (sc_sheets s) as [|h t]; cbn in M; [injection M as <-; reflexivity|].
    destruct (sheet_bound h) as [bh| |] eqn:E; cbn in M; try discriminate. destruct (mapM sheet_bound t) as [u| |]; cbn in M; try discriminate.
    injection M as <-. rewrite (sheet_bound_inv _ _ E). reflexivity. }
  rewrite C, S. destruct (own (sc_elements s)), (sc_sheets s); cbn [orb]; split; try discriminate; intros; try reflexivity.
  - destruct H as [H|H]; now contradiction H.
  - now right.
  - now left.
  - now left.
Qed.

(** The sheet count *)
Lemma count_frame s : (- 2 ^ 63 <= ds_count (sc_description s))%Z ->
  (ds_count (sc_description s) < 2 ^ 63 - 1 -> exists s', increment_sheet_count s = Ok s' /\
     ds_count (sc_description s') = ds_count (sc_description s) + 1 /\
     (sc_filename s', sc_libraries s', sc_elements s', sc_sheets s', sc_eelayer s') = (sc_filename s, sc_libraries s, sc_elements s, sc_sheets s, sc_eelayer s) /\
     (forall A (f : description -> A), (forall a b c d e g h i j k l m n n', f (mk_descr a b c d e g h i j k l m n) = f (mk_descr a b c d e g h i j k l m n')) ->
        f (sc_description s') = f (sc_description s)))%Z /\
  (2 ^ 63 - 1 <= ds_count (sc_description s) -> increment_sheet_count s = Panic)%Z.
Proof.
  intros R. unfold increment_sheet_count, chk, i64_ok, i64_min, i64_max. split; intros C.
  - replace (_ && _) with true by lia. cbn [bind]. eexists. split; [reflexivity|]. split; [reflexivity|]. split; [reflexivity|].
    intros A f F. destruct s as [fn li d el sh ee]. destruct d as [a b c e g h i j k l m n o]. cbn. apply F.
  - replace (_ && _) with false by lia. reflexivity.
Qed.
