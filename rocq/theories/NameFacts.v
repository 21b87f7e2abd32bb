(** Lemmas for C51. *)
From Coq Require Import String Lia.
From Verif Require Import Base Str StrFacts LyOps NameSpec.
Open Scope string_scope. Open Scope list_scope.

Definition slashed (l : list str) : str := concat (map (fun p => 47%N :: p) l).
Lemma join_slashed w l : join [47%N] (w :: l) = w ++ slashed l.
Proof.
  revert w. induction l as [|p l IH]; intros w; [cbn; now rewrite app_nil_r|].
  change (join [47%N] (w :: p :: l)) with (w ++ [47%N] ++ join [47%N] (p :: l)). rewrite IH. reflexivity.
Qed.
Lemma slash_free s w : In w (parts s) -> no_slash w = true.
Proof.
  unfold parts. revert w. induction s as [|c s IH]; intros w; cbn [split_on].
  - intros [<-|[]]. reflexivity.
  - destruct (N.eqb 47 c) eqn:E.
    + intros [<-|I]; [reflexivity|]. now apply IH.
    + destruct (split_on (N.eqb 47) s) as [|v vs].
      * intros [<-|[]]. unfold no_slash; cbn [forallb]. now rewrite E.
      * intros [<-|I]; [|apply IH; now right]. unfold no_slash; cbn [forallb]. rewrite E. cbn [negb andb]. apply IH. now left.
Qed.
Section R.
Variables from to : str.
Hypothesis F : no_slash from = true.
Let pat := 47%N :: from ++ [47%N].
Let sub := 47%N :: to ++ [47%N].
Lemma copy w s : no_slash w = true -> replace_aux 0 pat sub (w ++ s) = w ++ replace_aux 0 pat sub s.
Proof.
  induction w as [|c w IH]; intros H; [reflexivity|]. unfold no_slash in H; cbn [forallb] in H. apply andb_prop in H as [H1 H2].
  cbn [app replace_aux]. unfold pat at 1. cbn [starts_with]. apply negb_true_iff in H1. rewrite H1. cbn [andb]. f_equal. now apply IH.
Qed.
Lemma skip u s : replace_aux (length u) pat sub (u ++ s) = replace_aux 0 pat sub s.
Proof. induction u as [|c u IH]; [reflexivity|]. exact IH. Qed.
Lemma starts_part p s : no_slash p = true -> starts_with (from ++ [47%N]) (p ++ 47%N :: s) = str_eqb p from.
Proof.
  revert F p. clear pat sub. induction from as [|c f IH]; intros Ff p P.
  - destruct p as [|x p]; cbn [app starts_with str_eqb]; [reflexivity|]. unfold no_slash in P; cbn [forallb] in P. apply andb_prop in P as [P _].
    apply negb_true_iff in P. now rewrite P.
  - unfold no_slash in Ff; cbn [forallb] in Ff. apply andb_prop in Ff as [C Ff]. destruct p as [|x p]; cbn [app starts_with str_eqb].
    + apply negb_true_iff in C. rewrite N.eqb_sym in C. now rewrite C.
    + unfold no_slash in P; cbn [forallb] in P. apply andb_prop in P as [_ P]. rewrite IH by assumption. now rewrite (N.eqb_sym c x).
Qed.
Lemma starts_last p : no_slash p = true -> starts_with (from ++ [47%N]) p = false.
Proof.
  clear pat sub. clear F. revert p. induction from as [|c f IH]; intros p P; destruct p as [|x p]; try reflexivity;
    unfold no_slash in P; cbn [forallb] in P; apply andb_prop in P as [C P]; cbn [app starts_with].
  - apply negb_true_iff in C. now rewrite C.
  - rewrite IH by exact P. now rewrite andb_false_r.
Qed.
Lemma replace_slashed n : forall l, (length l <= n)%nat -> forallb no_slash l = true ->
  replace_aux 0 pat sub (slashed l) = slashed (rename_blocks from to l).
Proof.
  induction n as [|n IH]; intros l L S; [destruct l; [reflexivity|cbn in L; lia]|].
  destruct l as [|p [|q r]]; [reflexivity| |]; cbn [forallb] in S; apply andb_prop in S as [Sp S].
  - unfold slashed; cbn [map concat rename_blocks]. rewrite app_nil_r. cbn [replace_aux]. unfold pat at 1. cbn [starts_with].
    rewrite starts_last by exact Sp. cbn [N.eqb Pos.eqb andb]. f_equal.
    rewrite <- (app_nil_r p) at 1. rewrite copy by exact Sp. cbn [replace_aux]. apply app_nil_r.
  - assert (St : starts_with pat (slashed (p :: q :: r)) = str_eqb p from).
    { unfold slashed; cbn [map concat]. unfold pat. cbn [app starts_with]. rewrite starts_part by exact Sp. reflexivity. }
    change (rename_blocks from to (p :: q :: r)) with
      (if str_eqb p from then to :: q :: rename_blocks from to r else p :: rename_blocks from to (q :: r)).
    destruct (str_eqb p from) eqn:E.
    + apply str_eqb_eq in E. subst p. cbn [forallb] in S. apply andb_prop in S as [Sq S].
      change (slashed (from :: q :: r)) with (47%N :: (from ++ 47%N :: q ++ slashed r)).
      change (slashed (from :: q :: r)) with (47%N :: (from ++ 47%N :: q ++ slashed r)) in St.
      cbn [replace_aux]. rewrite St.
      replace (Nat.pred (length pat)) with (length (from ++ [47%N])) by reflexivity.
      replace (from ++ 47%N :: q ++ slashed r) with ((from ++ [47%N]) ++ q ++ slashed r) by (rewrite <- app_assoc; reflexivity).
      rewrite skip, copy by exact Sq. rewrite IH; [|cbn in L; lia|exact S].
      unfold slashed at 2. cbn [map concat]. fold (slashed (rename_blocks from to r)). unfold sub. cbn [app]. now rewrite <- app_assoc.
    + change (slashed (p :: q :: r)) with (47%N :: p ++ slashed (q :: r)).
      change (slashed (p :: q :: r)) with (47%N :: p ++ slashed (q :: r)) in St.
      cbn [replace_aux]. rewrite St. rewrite copy by exact Sp. rewrite IH; [reflexivity|cbn in *; lia|exact S].
Qed.
End R.
Lemma parts_join s : join [47%N] (parts s) = s. Proof. apply join_split. Qed.
Lemma parts_cons s : exists w l, parts s = w :: l.
Proof. unfold parts. pose proof (split_on_nonnil (N.eqb 47) s). destruct (split_on (N.eqb 47) s); [contradiction|eauto]. Qed.
Lemma parts_slashed l : forall w, no_slash w = true -> forallb no_slash l = true -> parts (w ++ slashed l) = w :: l.
Proof.
  induction l as [|p l IH]; intros w W S.
  - cbn. rewrite app_nil_r. now apply split_on_none.
  - cbn [forallb] in S. apply andb_prop in S as [P S]. change (slashed (p :: l)) with (47%N :: p ++ slashed l).
    unfold parts. rewrite split_on_sep; [|exact W|reflexivity]. f_equal. now apply IH.
Qed.
Lemma blocks_slash from to n : forall l, (length l <= n)%nat -> no_slash to = true -> forallb no_slash l = true -> forallb no_slash (rename_blocks from to l) = true.
Proof.
  induction n as [|n IH]; intros l L T S; [destruct l; [reflexivity|cbn in L; lia]|].
  destruct l as [|p [|q r]]; [reflexivity|exact S|].
  change (rename_blocks from to (p :: q :: r)) with
    (if str_eqb p from then to :: q :: rename_blocks from to r else p :: rename_blocks from to (q :: r)).
  cbn [forallb] in S. apply andb_prop in S as [Sp S]. destruct (str_eqb p from).
  - cbn [forallb] in *. apply andb_prop in S as [Sq S]. rewrite T, Sq, IH; [reflexivity|cbn in L; lia|exact T|exact S].
  - cbn [forallb]. rewrite Sp, IH; [reflexivity|cbn in *; lia|exact T|exact S].
Qed.
Lemma replace_block_parts from to s : no_slash from = true ->
  match parts s with
  | w :: l => replace_block from to s = join [47%N] (w :: rename_blocks from to l)
  | [] => False
  end.
Proof.
  intros F. destruct (parts_cons s) as (w & l & E). rewrite E. rewrite join_slashed.
  rewrite <- (parts_join s) at 1. rewrite E, join_slashed.
  assert (W : no_slash w = true) by (apply (slash_free s); rewrite E; now left).
  assert (L : forallb no_slash l = true) by (apply forallb_forall; intros x I; apply (slash_free s); rewrite E; now right).
  unfold replace_block, replace. change (lit "/" ++ from ++ lit "/") with (47%N :: from ++ [47%N]).
  change (lit "/" ++ to ++ lit "/") with (47%N :: to ++ [47%N]). rewrite copy by exact W. f_equal.
  apply (replace_slashed from to F (length l)); [lia|exact L].
Qed.
(** In parts *)
Lemma replace_block_split from to s w l : no_slash from = true -> no_slash to = true -> parts s = w :: l ->
  parts (replace_block from to s) = w :: rename_blocks from to l.
Proof.
  intros F T E. pose proof (replace_block_parts from to s F) as H. rewrite E in H. rewrite H, join_slashed.
  assert (W : no_slash w = true) by (apply (slash_free s); rewrite E; now left).
  assert (L : forallb no_slash l = true) by (apply forallb_forall; intros x I; apply (slash_free s); rewrite E; now right).
  apply parts_slashed; [exact W|]. eapply blocks_slash; [reflexivity|exact T|exact L].
Qed.
Definition sub_part (from to p : str) : str := if str_eqb p from then to else p.
Lemma blocks_map from to z : forall l, no_pair from l = true -> rename_blocks from to (l ++ [z]) = map (sub_part from to) l ++ [z].
Proof.
  assert (H : forall n l, (length l <= n)%nat -> no_pair from l = true -> rename_blocks from to (l ++ [z]) = map (sub_part from to) l ++ [z]).
  { induction n as [|n IH]; intros l L N; [destruct l; [reflexivity|cbn in L; lia]|].
    destruct l as [|p [|q r]]; [reflexivity| |].
    - cbn [app rename_blocks map]. unfold sub_part. now destruct (str_eqb p from).
    - change (no_pair from (p :: q :: r)) with (negb (str_eqb p from && str_eqb q from) && no_pair from (q :: r)) in N.
      apply andb_prop in N as [N1 N2]. cbn [app].
      change (rename_blocks from to (p :: q :: r ++ [z])) with
        (if str_eqb p from then to :: q :: rename_blocks from to (r ++ [z]) else p :: rename_blocks from to (q :: r ++ [z])).
      cbn [map]. unfold sub_part at 1. destruct (str_eqb p from) eqn:E.
      + cbn [andb] in N1. apply negb_true_iff in N1. unfold sub_part at 1. rewrite N1. cbn [app]. f_equal. f_equal.
        apply IH; [cbn in L; lia|]. destruct r as [|a r]; [reflexivity|].
        change (no_pair from (q :: a :: r)) with (negb (str_eqb q from && str_eqb a from) && no_pair from (a :: r)) in N2.
        now apply andb_prop in N2.
      + change (q :: r ++ [z]) with ((q :: r) ++ [z]). rewrite IH; [reflexivity|cbn in *; lia|exact N2]. }
  intros l. now apply (H (length l)).
Qed.
Lemma block_simple from to s w m z : no_slash from = true -> no_slash to = true -> parts s = w :: m ++ [z] -> no_pair from m = true ->
  parts (replace_block from to s) = w :: map (fun p => if str_eqb p from then to else p) m ++ [z].
Proof. intros F T E N. rewrite (replace_block_split from to s w (m ++ [z])) by assumption. now rewrite blocks_map. Qed.
Lemma blocks_none from to : forall l, ~ In from l -> rename_blocks from to l = l.
Proof.
  induction l as [|p [|q r] IH]; intros N; try reflexivity.
  change (rename_blocks from to (p :: q :: r)) with
    (if str_eqb p from then to :: q :: rename_blocks from to r else p :: rename_blocks from to (q :: r)).
  destruct (str_eqb p from) eqn:E; [apply str_eqb_eq in E; destruct N; now left|]. rewrite IH; [reflexivity|]. intros I. apply N. now right.
Qed.
Lemma block_none from to s w l z : no_slash from = true -> parts s = w :: l ++ [z] -> ~ In from l -> replace_block from to s = s.
Proof.
  intros F E N. pose proof (replace_block_parts from to s F) as H. rewrite E in H. rewrite H.
  rewrite blocks_map; [|].
  - replace (map (sub_part from to) l) with l; [rewrite <- E; apply parts_join|].
    clear -N. induction l as [|p l IH]; [reflexivity|]. cbn [map]. unfold sub_part at 1. destruct (str_eqb p from) eqn:Q.
    + apply str_eqb_eq in Q. destruct N. now left.
    + f_equal. apply IH. intros I. apply N. now right.
  - clear -N. induction l as [|p [|q r] IH]; try reflexivity.
    change (no_pair from (p :: q :: r)) with (negb (str_eqb p from && str_eqb q from) && no_pair from (q :: r)).
    destruct (str_eqb p from) eqn:Q; [apply str_eqb_eq in Q; destruct N; now left|]. cbn [andb negb]. apply IH. intros I. apply N. now right.
Qed.
Lemma blocks_back from to n : forall l, (length l <= n)%nat -> ~ In to l -> rename_blocks to from (rename_blocks from to l) = l.
Proof.
  induction n as [|n IH]; intros l L N; [destruct l; [reflexivity|cbn in L; lia]|].
  destruct l as [|p [|q r]]; try reflexivity.
  change (rename_blocks from to (p :: q :: r)) with
    (if str_eqb p from then to :: q :: rename_blocks from to r else p :: rename_blocks from to (q :: r)).
  destruct (str_eqb p from) eqn:E.
  - apply str_eqb_eq in E. subst p.
    change (rename_blocks to from (to :: q :: rename_blocks from to r)) with
      (if str_eqb to to then from :: q :: rename_blocks to from (rename_blocks from to r) else to :: rename_blocks to from (q :: rename_blocks from to r)).
    rewrite str_eqb_refl, IH; [reflexivity|cbn in L; lia|]. intros I. apply N. right; now right.
  - assert (Np : str_eqb p to = false). { destruct (str_eqb p to) eqn:Q; [|reflexivity]. apply str_eqb_eq in Q. destruct N. now left. }
    assert (S : exists x y, rename_blocks from to (q :: r) = x :: y).
    { destruct r as [|a r]; [cbn; eauto|].
      change (rename_blocks from to (q :: a :: r)) with
        (if str_eqb q from then to :: a :: rename_blocks from to r else q :: rename_blocks from to (a :: r)).
      destruct (str_eqb q from); eauto. }
    destruct S as (x & y & S). rewrite S.
    change (rename_blocks to from (p :: x :: y)) with (if str_eqb p to then from :: x :: rename_blocks to from y else p :: rename_blocks to from (x :: y)).
    rewrite Np, <- S, IH; [reflexivity|cbn in *; lia|]. intros I. apply N. now right.
Qed.
Lemma block_back from to s : no_slash from = true -> no_slash to = true -> ~ In to (parts s) ->
  replace_block to from (replace_block from to s) = s.
Proof.
  intros F T N. destruct (parts_cons s) as (w & l & E).
  pose proof (replace_block_parts to from (replace_block from to s) T) as H.
  rewrite (replace_block_split from to s w l F T E) in H. rewrite H.
  rewrite (blocks_back from to (length l)); [rewrite <- E; apply parts_join|lia|]. rewrite E in N. intros I. apply N. now right.
Qed.

(** ** Replacing any text *)
Lemma occurs_cons p c s n : occurs_at p s n -> occurs_at p (c :: s) (S n).
Proof. intros (x & y & -> & L). exists (c :: x), y. split; [reflexivity|]. cbn [length]. now rewrite L. Qed.
Lemma occurs_zero p s : occurs_at p s 0 <-> starts_with p s = true.
Proof.
  rewrite starts_with_iff. split.
  - intros (x & y & -> & L). destruct x; [|discriminate L]. now exists y.
  - intros (y & ->). exists [], y. split; reflexivity.
Qed.
Lemma replace_over p q u : forall s, (replace_aux (length u) p q (u ++ s)) = replace_aux 0 p q s.
Proof. induction u as [|c u IH]; intros s; [reflexivity|]. exact (IH s). Qed.
Lemma replace_until p q a : p <> [] -> forall b, (forall n, occurs_at p (a ++ b) n -> (length a <= n)%nat) -> replace p q (a ++ b) = a ++ replace p q b.
Proof.
  intros P. unfold replace. induction a as [|c a IH]; intros b H; [reflexivity|]. cbn [app replace_aux].
  destruct (starts_with p (c :: a ++ b)) eqn:S.
  - apply occurs_zero in S. apply H in S. cbn [length] in S. lia.
  - f_equal. apply IH. intros n O. apply occurs_cons with (c := c) in O. apply H in O. cbn [length] in O. lia.
Qed.
Lemma replace_here p q b : p <> [] -> replace p q (p ++ b) = q ++ replace p q b.
Proof.
  intros P. destruct p as [|c p]; [contradiction|]. unfold replace. cbn [app replace_aux].
  assert (S : starts_with (c :: p) (c :: p ++ b) = true) by (apply starts_with_iff; now exists b). rewrite S. f_equal. cbn [length Nat.pred]. apply replace_over.
Qed.
Lemma replaced_is p q s r : p <> [] -> replaced p q s r -> replace p q s = r.
Proof.
  intros P H. induction H as [s N|a b c F _ IH].
  - rewrite <- (app_nil_r s) at 1. rewrite replace_until; [unfold replace; cbn [replace_aux]; apply app_nil_r|exact P|].
    intros n O. rewrite app_nil_r in O. now destruct (N n).
  - rewrite replace_until by assumption. rewrite replace_here by exact P. now rewrite IH.
Qed.
Lemma replaced_some p q s : p <> [] -> exists r, replaced p q s r.
Proof.
  intros P. remember (length s) as k eqn:K. revert s K. induction k as [k IH] using lt_wf_ind. intros s ->.
  assert (D : (forall n, ~ occurs_at p s n) \/ exists a b, s = a ++ p ++ b /\ forall n, occurs_at p s n -> (length a <= n)%nat).
  { clear IH. induction s as [|c s [N|(a & b & -> & F)]].
    - left. intros n (x & y & E & _). symmetry in E. apply app_eq_nil in E as [_ E]. apply app_eq_nil in E as [E _]. contradiction.
    - destruct (starts_with p (c :: s)) eqn:S.
      + right. apply starts_with_iff in S as (y & E). exists [], y. split; [exact E|]. intros n _. cbn. lia.
      + left. intros [|n] O; [apply occurs_zero in O; rewrite O in S; discriminate|]. destruct O as (x & y & E & L). destruct x as [|d x]; [discriminate L|].
        injection E as _ E. apply (N n). exists x, y. split; [exact E|]. now injection L.
    - destruct (starts_with p (c :: a ++ p ++ b)) eqn:S.
      + right. apply starts_with_iff in S as (y & E). exists [], y. split; [exact E|]. intros n _. cbn. lia.
      + right. exists (c :: a), b. split; [reflexivity|]. intros [|n] O; [apply occurs_zero in O; rewrite O in S; discriminate|].
        destruct O as (x & y & E & L). destruct x as [|d x]; [discriminate L|]. injection E as _ E. cbn [length]. apply le_n_S. apply F. exists x, y. split; [exact E|]. now injection L. }
  destruct D as [N|(a & b & -> & F)]; [exists s; now constructor|].
  destruct (IH (length b)) with (s := b) as (c & C); [|reflexivity|].
  - rewrite !app_length. destruct p; [contradiction|]. cbn [length]. lia.
  - exists (a ++ q ++ c). now constructor.
Qed.
Lemma replaced_iff p q s r : p <> [] -> replaced p q s r <-> replace p q s = r.
Proof.
  intros P. split; [now apply replaced_is|]. intros <-. destruct (replaced_some p q s P) as (r & R). now rewrite (replaced_is p q s r P R).
Qed.
Lemma replace_block_iff from to s r : replaced (lit "/" ++ from ++ lit "/") (lit "/" ++ to ++ lit "/") s r <-> replace_block from to s = r.
Proof. apply replaced_iff. discriminate. Qed.
