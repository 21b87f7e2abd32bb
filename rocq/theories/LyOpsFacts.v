(** Lemmas about layout operations. *)
From Coq Require Import String Lia.
From Flocq Require Import IEEE754.BinarySingleNaN.
From Verif Require Import Base Str Num F64 F64Text F64Order Sexp StrFacts FpData FpOps FpOpsSpec FpOpsFacts
  Bound BoundSpec BoundFacts LyData LyOps LySpec.
Open Scope string_scope. Open Scope list_scope.

(** ** Moving *)
Definition move (x y : f64) (p : f64 * f64) : f64 * f64 := (fadd (fst p) x, fadd (snd p) y).

Lemma pts_points_adjust x y p : pts_points (adjust_pts x y p) = map (move x y) (pts_points p).
Proof. unfold pts_points, adjust_pts. rewrite !map_map. reflexivity. Qed.
Lemma flat_pts_adjust x y l :
  flat_map pts_points (map (adjust_pts x y) l) = map (move x y) (flat_map pts_points l).
Proof.
  induction l as [|p l IH]; [reflexivity|]. cbn [map flat_map].
  rewrite map_app, pts_points_adjust, IH. reflexivity.
Qed.
Lemma wipe_pts_adjust x y p : wipe_pts (adjust_pts x y p) = wipe_pts p.
Proof. unfold wipe_pts, adjust_pts. rewrite map_map. reflexivity. Qed.
Lemma map_wipe_adjust x y l : map wipe_pts (map (adjust_pts x y) l) = map wipe_pts l.
Proof. rewrite map_map. apply map_ext. apply wipe_pts_adjust. Qed.

Lemma adjust_positions x y e : positions (adjust_ly_element x y e) = map (move x y) (positions e).
Proof.
  destruct e as [m|n|n|t|l|a|c|d|s|v|z|s]; try reflexivity.
  - cbn [adjust_ly_element positions adjust_module m_elements].
    induction (m_elements m) as [|e l IH]; [reflexivity|].
    cbn [map flat_map]. rewrite map_app, <- IH. destruct e; reflexivity.
  - cbn [adjust_ly_element positions]. unfold adjust_dimension, dim_pts.
    cbn [di_text di_feature1 di_feature2 di_crossbar di_arrow1a di_arrow1b di_arrow2a di_arrow2b map].
    rewrite <- (flat_pts_adjust x y
      [di_feature1 d; di_feature2 d; di_crossbar d; di_arrow1a d; di_arrow1b d; di_arrow2a d; di_arrow2b d]).
    reflexivity.
  - cbn [adjust_ly_element positions]. rewrite <- flat_pts_adjust. f_equal.
    unfold zone_pts, adjust_zone; cbn [zo_polygons zo_filled zo_segments].
    rewrite !map_app. destruct (zo_segments z); reflexivity.
Qed.

Lemma adjust_wipe x y e : wipe (adjust_ly_element x y e) = wipe e.
Proof.
  destruct e as [m|n|n|t|l|a|c|d|s|v|z|s]; try reflexivity;
    [| destruct l; reflexivity | destruct a; reflexivity | destruct c; reflexivity | | destruct s; reflexivity
     | destruct v; reflexivity |].
  - cbn [adjust_ly_element wipe adjust_module m_name m_elements]. do 2 f_equal.
    rewrite map_map. apply map_ext. intros e; destruct e; reflexivity.
  - destruct d as [n w l t tx f1 f2 cb a1 b1 a2 b2].
    cbn [adjust_ly_element adjust_dimension wipe di_name di_width di_layer di_tstamp di_text di_feature1
      di_feature2 di_crossbar di_arrow1a di_arrow1b di_arrow2a di_arrow2b].
    rewrite !wipe_pts_adjust. reflexivity.
  - destruct z as [n nn l t h pr cp mt ko fi ps fs sg ot].
    cbn [adjust_ly_element adjust_zone wipe zo_net zo_net_name zo_layer zo_tstamp zo_hatch zo_priority zo_connect
      zo_min zo_keepout zo_fill zo_polygons zo_filled zo_segments zo_other].
    rewrite !map_wipe_adjust. destruct sg; cbn [option_map]; rewrite ?wipe_pts_adjust; reflexivity.
Qed.

Lemma adjust_layout_spec x y l :
  let l' := adjust_layout x y l in
  ly_header l' = ly_header l
  /\ map wipe (ly_elements l') = map wipe (ly_elements l)
  /\ map positions (ly_elements l')
     = map (fun e => map (fun p => (fadd (fst p) x, fadd (snd p) y)) (positions e)) (ly_elements l).
Proof.
  cbn zeta. unfold adjust_layout, with_elements. cbn [ly_elements]. split; [reflexivity|]. split.
  - rewrite map_map. apply map_ext. apply adjust_wipe.
  - rewrite map_map. apply map_ext. apply adjust_positions.
Qed.

Lemma move_zero p : is_nan (fst p) = false -> is_nan (snd p) = false ->
  feqb (fst (move fzero fzero p)) (fst p) = true /\ feqb (snd (move fzero fzero p)) (snd p) = true.
Proof. intros; cbn [move fst snd]; split; now apply fadd_zero. Qed.

(** The two views determine the element. *)
Lemma xy_det a b : xy_point a = xy_point b -> wipe_xy a = wipe_xy b -> a = b.
Proof. destruct a, b; cbn; intros [= -> ->] [= ->]. reflexivity. Qed.
Lemma at_det a b : at_point a = at_point b -> wipe_at a = wipe_at b -> a = b.
Proof. destruct a, b; cbn; intros [= -> ->] [= ->]. reflexivity. Qed.
Lemma pts_det p : forall q, wipe_pts p = wipe_pts q -> pts_points p = pts_points q -> p = q.
Proof.
  induction p as [|a p IH]; intros [|b q]; cbn; try discriminate; [reflexivity|].
  intros [= W1 W2] [= P1 P1' P2]. f_equal; [apply xy_det|apply IH]; auto.
  - unfold xy_point; congruence.
  - unfold wipe_xy; congruence.
Qed.
Lemma wipe_pts_length p q : wipe_pts p = wipe_pts q -> length (pts_points p) = length (pts_points q).
Proof. intros H. apply (f_equal (@length _)) in H. unfold wipe_pts, pts_points in *. rewrite !map_length in *. exact H. Qed.
Lemma app_eq_len {A} (a b c d : list A) : length a = length c -> a ++ b = c ++ d -> a = c /\ b = d.
Proof.
  revert c; induction a as [|x a IH]; intros [|y c]; cbn; try discriminate; [auto|].
  intros [= L] [= -> E]. destruct (IH c L E) as [-> ->]. auto.
Qed.
Lemma ptss_det l : forall m, map wipe_pts l = map wipe_pts m ->
  flat_map pts_points l = flat_map pts_points m -> l = m.
Proof.
  induction l as [|p l IH]; intros [|q m]; cbn [map flat_map]; try discriminate; [reflexivity|].
  intros [= W1 W2] P. destruct (app_eq_len _ _ _ _ (wipe_pts_length _ _ W1) P) as [P1 P2].
  f_equal; [now apply pts_det|now apply IH].
Qed.

Lemma element_det l : forall m,
  map (fun x => match x with EAt a => EAt (wipe_at a) | _ => x end) l
  = map (fun x => match x with EAt a => EAt (wipe_at a) | _ => x end) m ->
  flat_map place_points l = flat_map place_points m -> l = m.
Proof.
  induction l as [|e l IH]; intros [|f m]; cbn [map flat_map]; try discriminate; [reflexivity|].
  intros [= W1 W2] P.
  assert (H : e = f /\ flat_map place_points l = flat_map place_points m).
  { destruct e, f;
      try discriminate W1; try (injection W1; intros; subst; split; [reflexivity|exact P]);
      try (split; [reflexivity|exact P]).
    match goal with |- EAt ?a = EAt ?b /\ _ =>
      assert (W : wipe_at a = wipe_at b) by (unfold wipe_at; injection W1 as ->; reflexivity);
      cbn [place_points app] in P; pose proof (at_det a b) as D end.
    split; [f_equal; apply D; [congruence|exact W]|congruence]. }
  destruct H as [-> H]. f_equal. now apply IH.
Qed.

Lemma wipe_text_det t u : wipe_text t = wipe_text u -> at_point (gt_at t) = at_point (gt_at u) -> t = u.
Proof.
  destruct t, u; cbn. intros W P. injection W as -> W' -> -> ->.
  erewrite (at_det gt_at gt_at0); [reflexivity|exact P|unfold wipe_at; congruence].
Qed.

Definition kind (e : ly_element) : nat :=
  match e with
  | YModule _ => 0 | YNet _ => 1 | YNetClass _ => 2 | YGrText _ => 3 | YGrLine _ => 4 | YGrArc _ => 5
  | YGrCircle _ => 6 | YDimension _ => 7 | YSegment _ => 8 | YVia _ => 9 | YZone _ => 10 | YOther _ => 11
  end%nat.
Lemma kind_wipe e : kind (wipe e) = kind e.
Proof.
  destruct e as [m|n|n|t|l|a|c|d|s|v|z|s]; try reflexivity;
    [destruct l|destruct a|destruct c|destruct d|destruct s|destruct v|destruct z]; reflexivity.
Qed.

Lemma views_det e f : wipe e = wipe f -> positions e = positions f -> e = f.
Proof.
  intros W. assert (K : kind e = kind f) by (rewrite <- (kind_wipe e), W; apply kind_wipe). revert W.
  destruct e as [m|n|n|t|l|a|c|d|s|v|z|s], f as [m'|n'|n'|t'|l'|a'|c'|d'|s'|v'|z'|s'];
    try discriminate K; clear K; try (cbn; intros E _; exact E).
  - destruct m as [n l], m' as [n' l']. cbn. intros W P. injection W as -> W. f_equal. f_equal. now apply element_det.
  - cbn. intros W P. injection W. intros. injection P. intros. f_equal. apply wipe_text_det.
    + unfold wipe_text, wipe_at. congruence.
    + unfold at_point. congruence.
  - destruct l as [a b an l w t], l' as [a' b' an' l' w' t']. cbn. intros W P. injection W as W1 W2 -> -> -> ->.
    injection P as P1 P2 P3 P4. f_equal. f_equal; apply xy_det; unfold xy_point, wipe_xy; congruence.
  - destruct a as [a b an l w t], a' as [a' b' an' l' w' t']. cbn. intros W P. injection W as W1 W2 -> -> -> ->.
    injection P as P1 P2 P3 P4. f_equal. f_equal; apply xy_det; unfold xy_point, wipe_xy; congruence.
  - destruct c as [a b l w t], c' as [a' b' l' w' t']. cbn. intros W P. injection W as W1 W2 -> -> ->.
    injection P as P1 P2 P3 P4. f_equal. f_equal; apply xy_det; unfold xy_point, wipe_xy; congruence.
  - destruct d as [n w l t tx f1 f2 cb a1 b1 a2 b2], d' as [n' w' l' t' tx' f1' f2' cb' a1' b1' a2' b2'].
    cbn [wipe positions dim_pts di_text di_feature1 di_feature2 di_crossbar di_arrow1a di_arrow1b di_arrow2a di_arrow2b].
    intros W P.
    assert (H1 : map wipe_pts [f1; f2; cb; a1; b1; a2; b2] = map wipe_pts [f1'; f2'; cb'; a1'; b1'; a2'; b2']).
    { cbn [map]. congruence. }
    assert (H2 : flat_map pts_points [f1; f2; cb; a1; b1; a2; b2]
                 = flat_map pts_points [f1'; f2'; cb'; a1'; b1'; a2'; b2']).
    { apply (f_equal (@tl _)) in P. exact P. }
    pose proof (ptss_det _ _ H1 H2) as E. injection E as -> -> -> -> -> -> ->.
    assert (T : tx = tx') by (apply wipe_text_det; [congruence|apply (f_equal (hd (fzero, fzero))) in P; exact P]). subst tx'.
    congruence.
  - destruct s as [a b w l n t st], s' as [a' b' w' l' n' t' st']. cbn. intros W P. injection W as W1 W2 -> -> -> -> ->.
    injection P as P1 P2 P3 P4. f_equal. f_equal; apply xy_det; unfold xy_point, wipe_xy; congruence.
  - destruct v as [b m a s d l n], v' as [b' m' a' s' d' l' n']. cbn. intros W P. injection W as -> -> W -> -> -> ->.
    injection P as P1 P2. f_equal. f_equal. apply at_det; unfold at_point, wipe_at; congruence.
  - destruct z as [n nn l t h pr cp mt ko fi ps fs sg ot], z' as [n' nn' l' t' h' pr' cp' mt' ko' fi' ps' fs' sg' ot'].
    cbn [wipe positions zone_pts zo_polygons zo_filled zo_segments]. intros W P.
    set (sl := match sg with Some p => [p] | None => [] end) in *.
    set (sl' := match sg' with Some p => [p] | None => [] end) in *.
    injection W as -> -> -> -> -> -> -> -> -> -> Hp Hf Hs ->.
    assert (Hsl : map wipe_pts sl = map wipe_pts sl').
    { unfold sl, sl'. clear - Hs. destruct sg, sg'; cbn [map option_map] in *; congruence. }
    assert (E : ps ++ fs ++ sl = ps' ++ fs' ++ sl').
    { apply ptss_det; [rewrite !map_app, Hp, Hf, Hsl; reflexivity|exact P]. }
    assert (Lp : length ps = length ps').
    { apply (f_equal (@length _)) in Hp. rewrite !map_length in Hp. exact Hp. }
    assert (Lf : length fs = length fs').
    { apply (f_equal (@length _)) in Hf. rewrite !map_length in Hf. exact Hf. }
    destruct (app_eq_len _ _ _ _ Lp E) as [-> E']. destruct (app_eq_len _ _ _ _ Lf E') as [-> E2].
    assert (sg = sg') as ->.
    { unfold sl, sl' in E2. clear - E2. destruct sg, sg'; congruence. }
    reflexivity.
Qed.
