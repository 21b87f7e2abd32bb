(** Lemmas for C117: rules and fixes on footprints put somewhere else. *)
From Coq Require Import String Lia Reals Lra.
From Flocq Require Import IEEE754.BinarySingleNaN Core.
From Verif Require Import Base Str Num F64 F64Text F64Order Sexp StrFacts FpData FpLayer FpOps FpOpsSpec FpOpsFacts
  Bound BoundSpec BoundFacts LyData LyOps LySpec CheckFix SymCheck FpCheck CheckSpec FixFacts CheckWit ReportFacts ClassSpec TightSpec TightFacts CircleFacts
  ShiftSpec ShiftFacts PlaceSpec.
Open Scope string_scope. Open Scope list_scope.

(** ** Changes of elements that the rules do not see *)
Definition act (f : element -> element) (m : module) : module := mk_module (m_name m) (map f (m_elements m)).
Record unseen (f : element -> element) (g : fp_text -> fp_text) (h : fp_line -> fp_line) (k : pad -> pad) : Prop := {
  u_text : forall t, f (EFpText t) = EFpText (g t);
  u_line : forall l, f (EFpLine l) = EFpLine (h l);
  u_pad : forall p, f (EPad p) = EPad (k p);
  u_attr : forall a, f (EAttr a) = EAttr a;
  u_other : forall e, (forall t, e <> EFpText t) -> (forall l, e <> EFpLine l) -> (forall p, e <> EPad p) -> (forall a, e <> EAttr a) ->
    (forall t, f e <> EFpText t) /\ (forall l, f e <> EFpLine l) /\ (forall p, f e <> EPad p) /\ (forall a, f e <> EAttr a);
  u_name : forall t, tx_name (g t) = tx_name t;
  u_value : forall t, tx_value (g t) = tx_value t;
  u_layer : forall t, la_t (tx_layer (g t)) = la_t (tx_layer t);
  u_hide : forall t, tx_hide (g t) = tx_hide t;
  u_font : forall t, ef_font (tx_effects (g t)) = ef_font (tx_effects t);
  u_ltype : forall l, la_t (li_layer (h l)) = la_t (li_layer l);
  u_ptype : forall p, pa_t (k p) = pa_t p;
  u_fix : forall c v lt t, fix_text c v lt (g t) = g (fix_text c v lt t) }.

Ltac other := intros e A B C D; destruct e; try (exfalso; solve [eapply A; reflexivity | eapply B; reflexivity | eapply C; reflexivity | eapply D; reflexivity]);
  (split; [intros; discriminate|]); (split; [intros; discriminate|]); (split; intros; discriminate).
Lemma unseen_move x y : unseen (fun e => match e with EAt a => EAt (adjust_at x y a) | _ => e end) (fun t => t) (fun l => l) (fun p => p).
Proof. constructor; try reflexivity. other. Qed.
Lemma unseen_turn r : unseen (rotate_element r) (rotate_text r) (fun l => l) (rotate_pad r).
Proof. constructor; try reflexivity. other. Qed.
Lemma unseen_flip : unseen flip_element flip_text flip_line flip_pad.
Proof. constructor; try reflexivity. other. Qed.

Section Unseen.
Variables (f : element -> element) (g : fp_text -> fp_text) (h : fp_line -> fp_line) (k : pad -> pad) (U : unseen f g h k).
Lemma kinds e : (exists t, e = EFpText t) \/ (exists l, e = EFpLine l) \/ (exists p, e = EPad p) \/ (exists a, e = EAttr a) \/
  ((forall t, e <> EFpText t) /\ (forall l, e <> EFpLine l) /\ (forall p, e <> EPad p) /\ (forall a, e <> EAttr a)).
Proof.
  destruct e; try (right; right; right; right; split; [intros; discriminate|]; split; [intros; discriminate|]; split; intros; discriminate).
  all: first [left; eexists; reflexivity | right; left; eexists; reflexivity | right; right; left; eexists; reflexivity | right; right; right; left; eexists; reflexivity].
Qed.
Lemma find_act w l : find_text w (map f l) = option_map g (find_text w l).
Proof.
  induction l as [|e l IH]; [reflexivity|]. cbn [map]. destruct (kinds e) as [[t ->]|[[t ->]|[[t ->]|[[t ->]|O]]]].
  - rewrite (u_text _ _ _ _ U). cbn [find_text]. rewrite (u_name _ _ _ _ U). destruct (str_eqb (tx_name t) w); [reflexivity|exact IH].
  - rewrite (u_line _ _ _ _ U). exact IH.
  - rewrite (u_pad _ _ _ _ U). exact IH.
  - rewrite (u_attr _ _ _ _ U). exact IH.
  - destruct O as (A & B & C & D). destruct (u_other _ _ _ _ U e A B C D) as (A' & _).
    assert (N : forall e l, (forall t, e <> EFpText t) -> find_text w (e :: l) = find_text w l)
      by (intros e0 l0 H; destruct e0; try reflexivity; exfalso; eapply H; reflexivity).
    rewrite (N _ _ A), (N _ _ A'). exact IH.
Qed.
Lemma upd_act w F l : (forall t, F (g t) = g (F t)) -> upd_text w F (map f l) = option_map (map f) (upd_text w F l).
Proof.
  intros HF. induction l as [|e l IH]; [reflexivity|]. cbn [map].
  assert (N : forall e l, (forall t, e <> EFpText t) -> upd_text w F (e :: l) = option_map (cons e) (upd_text w F l))
    by (intros e0 l0 H; destruct e0; try reflexivity; exfalso; eapply H; reflexivity).
  assert (S : forall e l, (forall t, e <> EFpText t) -> (forall t, f e <> EFpText t) -> upd_text w F (map f l) = option_map (map f) (upd_text w F l) ->
    upd_text w F (f e :: map f l) = option_map (map f) (upd_text w F (e :: l))).
  { intros e0 l0 A A' H. rewrite (N _ _ A), (N _ _ A'), H. destruct (upd_text w F l0); reflexivity. }
  destruct (kinds e) as [[t ->]|[[t ->]|[[t ->]|[[t ->]|O]]]].
  - rewrite (u_text _ _ _ _ U). cbn [upd_text]. rewrite (u_name _ _ _ _ U). destruct (str_eqb (tx_name t) w).
    + cbn [option_map map]. rewrite HF, (u_text _ _ _ _ U). reflexivity.
    + rewrite IH. destruct (upd_text w F l); [|reflexivity]. cbn [option_map map]. rewrite (u_text _ _ _ _ U). reflexivity.
  - apply S; [intros; discriminate| |exact IH]. rewrite (u_line _ _ _ _ U). intros; discriminate.
  - apply S; [intros; discriminate| |exact IH]. rewrite (u_pad _ _ _ _ U). intros; discriminate.
  - apply S; [intros; discriminate| |exact IH]. rewrite (u_attr _ _ _ _ U). intros; discriminate.
  - destruct O as (A & B & C & D). destruct (u_other _ _ _ _ U e A B C D) as (A' & _). now apply S.
Qed.
Lemma lines_act m : fp_lines (act f m) = map h (fp_lines m).
Proof.
  unfold fp_lines, act. cbn [m_elements]. induction (m_elements m) as [|e l IH]; [reflexivity|]. cbn [map flat_map]. rewrite IH, map_app. f_equal.
  destruct (kinds e) as [[t ->]|[[t ->]|[[t ->]|[[t ->]|O]]]].
  - now rewrite (u_text _ _ _ _ U).
  - now rewrite (u_line _ _ _ _ U).
  - now rewrite (u_pad _ _ _ _ U).
  - now rewrite (u_attr _ _ _ _ U).
  - destruct O as (A & B & C & D). destruct (u_other _ _ _ _ U e A B C D) as (_ & B' & _).
    destruct e; destruct (f _); try reflexivity; exfalso; solve [eapply B; reflexivity|eapply B'; reflexivity].
Qed.
Lemma pads_act m : pads (act f m) = map k (pads m).
Proof.
  unfold pads, act. cbn [m_elements]. induction (m_elements m) as [|e l IH]; [reflexivity|]. cbn [map flat_map]. rewrite IH, map_app. f_equal.
  destruct (kinds e) as [[t ->]|[[t ->]|[[t ->]|[[t ->]|O]]]].
  - now rewrite (u_text _ _ _ _ U).
  - now rewrite (u_line _ _ _ _ U).
  - now rewrite (u_pad _ _ _ _ U).
  - now rewrite (u_attr _ _ _ _ U).
  - destruct O as (A & B & C & D). destruct (u_other _ _ _ _ U e A B C D) as (_ & _ & B' & _).
    destruct e; destruct (f _); try reflexivity; exfalso; solve [eapply C; reflexivity|eapply B'; reflexivity].
Qed.
Lemma smd_act m : has_smd_attr (act f m) = has_smd_attr m.
Proof.
  unfold has_smd_attr, act. cbn [m_elements]. induction (m_elements m) as [|e l IH]; [reflexivity|]. cbn [map existsb]. rewrite IH. f_equal.
  destruct (kinds e) as [[t ->]|[[t ->]|[[t ->]|[[t ->]|O]]]].
  - now rewrite (u_text _ _ _ _ U).
  - now rewrite (u_line _ _ _ _ U).
  - now rewrite (u_pad _ _ _ _ U).
  - now rewrite (u_attr _ _ _ _ U).
  - destruct O as (A & B & C & D). destruct (u_other _ _ _ _ U e A B C D) as (_ & _ & _ & B').
    destruct e; destruct (f _); try reflexivity; exfalso; solve [eapply D; reflexivity|eapply B'; reflexivity].
Qed.
Lemma count_map {A B} (q : B -> bool) (r : A -> bool) (u : A -> B) l : (forall a, q (u a) = r a) -> count q (map u l) = count r l.
Proof. intros H. unfold count. induction l as [|a l IH]; [reflexivity|]. cbn [map filter]. rewrite H. destruct (r a); cbn [length]; now rewrite IH. Qed.
Lemma court_act m : courtyard_lines (act f m) = courtyard_lines m.
Proof. unfold courtyard_lines. rewrite lines_act. apply count_map. intros l. now rewrite (u_ltype _ _ _ _ U). Qed.
Lemma only_act m : smd_only (act f m) = smd_only m /\ pth_only (act f m) = pth_only m.
Proof.
  assert (S : smd_pads (act f m) = smd_pads m) by (unfold smd_pads; rewrite pads_act; apply count_map; intros p; now rewrite (u_ptype _ _ _ _ U)).
  assert (P : pth_pads (act f m) = pth_pads m) by (unfold pth_pads; rewrite pads_act; apply count_map; intros p; now rewrite (u_ptype _ _ _ _ U)).
  unfold smd_only, pth_only. now rewrite S, P.
Qed.
Lemma check_act c m : fp_check c (act f m) = fp_check c m.
Proof.
  assert (R : check_reference c (act f m) = check_reference c m).
  { unfold check_reference, get_text, act. cbn [m_elements m_name]. rewrite find_act. destruct (find_text (lit "reference") (m_elements m)) as [t|]; [|reflexivity].
    cbn [option_map]. unfold tx_size, tx_thick. now rewrite (u_value _ _ _ _ U), (u_layer _ _ _ _ U), (u_hide _ _ _ _ U), (u_font _ _ _ _ U). }
  assert (V : check_value c (act f m) = check_value c m).
  { unfold check_value, get_text, act. cbn [m_elements m_name]. rewrite find_act. destruct (find_text (lit "value") (m_elements m)) as [t|]; [|reflexivity].
    cbn [option_map]. unfold tx_size, tx_thick. now rewrite (u_value _ _ _ _ U), (u_layer _ _ _ _ U), (u_hide _ _ _ _ U), (u_font _ _ _ _ U). }
  assert (R2 : check_reference2 c (act f m) = check_reference2 c m).
  { unfold check_reference2, get_text, act. cbn [m_elements m_name]. rewrite find_act. destruct (find_text (lit "user") (m_elements m)) as [t|]; [|reflexivity].
    cbn [option_map]. unfold tx_size, tx_thick. now rewrite (u_value _ _ _ _ U), (u_layer _ _ _ _ U), (u_font _ _ _ _ U). }
  destruct (only_act m) as [S P]. unfold fp_check. rewrite R, V, R2, court_act, S, P, smd_act. reflexivity.
Qed.
(** Fixing what is there *)
Lemma modify_act w F m : (forall t, F (g t) = g (F t)) -> modify_text (act f m) w F = option_map (act f) (modify_text m w F).
Proof. intros H. unfold modify_text, act. cbn [m_name m_elements]. rewrite (upd_act _ _ _ H). destruct (upd_text w F (m_elements m)); reflexivity. Qed.
Lemma reference_act c m : fix_reference c (act f m) = act f (fix_reference c m).
Proof.
  unfold fix_reference. rewrite (modify_act _ _ _ (u_fix _ _ _ _ U c (lit "REF**") LSilkS)). destruct (modify_text m _ _); reflexivity.
Qed.
Lemma value_act c n m : fix_value c n (act f m) = act f (fix_value c n m).
Proof. unfold fix_value. rewrite (modify_act _ _ _ (u_fix _ _ _ _ U c n LFab)). destruct (modify_text m _ _); reflexivity. Qed.
Lemma reference2_act c m : (find_text (lit "user") (m_elements m) = None -> f (EFpText (new_ref2 c)) = EFpText (new_ref2 c)) ->
  fix_reference2 c (act f m) = match fix_reference2 c m with Ok x => Ok (act f x) | Err e => Err e | Panic => Panic end.
Proof.
  intros H. unfold fix_reference2, get_text. cbn [act m_elements]. rewrite find_act. destruct (find_text (lit "user") (m_elements m)) as [t|]; cbn [option_map].
  - change (mk_module (m_name m) (map f (m_elements m))) with (act f m). rewrite (modify_act _ _ _ (u_fix _ _ _ _ U c (lit "%R") LFab)). destruct (modify_text m _ _); reflexivity.
  - assert (E : push [EFpText (new_ref2 c)] (act f m) = act f (push [EFpText (new_ref2 c)] m))
      by (unfold push, act; cbn [m_name m_elements]; rewrite map_app; cbn [map]; now rewrite (H eq_refl)).
    rewrite E, (modify_act _ _ _ (u_fix _ _ _ _ U c (lit "%R") LFab)). destruct (modify_text (push _ m) _ _); reflexivity.
Qed.
Lemma attr_act m : fix_attr (act f m) = act f (fix_attr m).
Proof.
  unfold fix_attr. destruct (only_act m) as [S _]. rewrite S, smd_act. destruct (smd_only m && negb (has_smd_attr m))%bool; [|reflexivity].
  unfold push, act. cbn [m_name m_elements]. rewrite map_app. cbn [map]. now rewrite (u_attr _ _ _ _ U).
Qed.
End Unseen.

(** Which texts there are after fixing the first two *)
Lemma find_upd w v F l l' : (forall t, tx_name (F t) = tx_name t) -> str_eqb v w = false -> upd_text v F l = Some l' -> find_text w l' = find_text w l.
Proof.
  intros HF N. revert l'. induction l as [|e l IH]; intros l' H; [discriminate H|].
  assert (G : (exists t, e = EFpText t) \/ forall t, e <> EFpText t) by (destruct e; try (right; intros; discriminate); left; eexists; reflexivity).
  destruct G as [[t ->]|G].
  - cbn [upd_text] in H. destruct (str_eqb (tx_name t) v) eqn:E.
    + injection H as <-. cbn [find_text]. rewrite HF. apply str_eqb_eq in E. rewrite E, N. reflexivity.
    + destruct (upd_text v F l) as [r|]; [|discriminate H]. injection H as <-. cbn [find_text]. destruct (str_eqb (tx_name t) w); [reflexivity|]. now apply IH.
  - assert (X : upd_text v F (e :: l) = option_map (cons e) (upd_text v F l)) by (destruct e; try reflexivity; exfalso; eapply G; reflexivity).
    assert (Y : forall q, find_text w (e :: q) = find_text w q) by (intros q; destruct e; try reflexivity; exfalso; eapply G; reflexivity).
    rewrite X in H. destruct (upd_text v F l) as [r|]; [|discriminate H]. injection H as <-. rewrite !Y. now apply IH.
Qed.
Lemma find_fixed c n m : find_text (lit "user") (m_elements (fix_value c n (fix_reference c m))) = find_text (lit "user") (m_elements m).
Proof.
  assert (A : forall m v x lt, str_eqb v (lit "user") = false -> find_text (lit "user") (m_elements (or_same m (modify_text m v (fix_text c x lt)))) = find_text (lit "user") (m_elements m)).
  { intros m0 v x lt N. unfold modify_text. destruct (upd_text v (fix_text c x lt) (m_elements m0)) as [l|] eqn:E; [|reflexivity].
    cbn [option_map or_same m_elements]. eapply find_upd; [|exact N|exact E]. reflexivity. }
  unfold fix_value. rewrite A by (vm_compute; reflexivity). unfold fix_reference. apply A. vm_compute; reflexivity.
Qed.
Lemma upd_lines w F l l' : upd_text w F l = Some l' ->
  flat_map (fun e => match e with EFpLine p => [p] | _ => [] end) l' = flat_map (fun e => match e with EFpLine p => [p] | _ => [] end) l.
Proof.
  revert l'. induction l as [|e l IH]; intros l' H; [discriminate H|].
  assert (G : (exists t, e = EFpText t) \/ forall t, e <> EFpText t) by (destruct e; try (right; intros; discriminate); left; eexists; reflexivity).
  destruct G as [[t ->]|G].
  - cbn [upd_text] in H. destruct (str_eqb (tx_name t) w); [injection H as <-; reflexivity|].
    destruct (upd_text w F l) as [r|]; [|discriminate H]. injection H as <-. cbn [flat_map app]. now apply IH.
  - assert (X : upd_text w F (e :: l) = option_map (cons e) (upd_text w F l)) by (destruct e; try reflexivity; exfalso; eapply G; reflexivity).
    rewrite X in H. destruct (upd_text w F l) as [r|]; [|discriminate H]. injection H as <-. cbn [flat_map]. f_equal. now apply IH.
Qed.
Lemma modify_lines m w F q : modify_text m w F = Some q -> fp_lines q = fp_lines m.
Proof.
  unfold modify_text. destruct (upd_text w F (m_elements m)) as [l|] eqn:E; [|discriminate]. intros H. injection H as <-. exact (upd_lines _ _ _ _ E).
Qed.
Lemma or_same_lines m w F : fp_lines (or_same m (modify_text m w F)) = fp_lines m.
Proof. destruct (modify_text m w F) as [q|] eqn:E; [exact (modify_lines _ _ _ _ E)|reflexivity]. Qed.
Lemma push_lines es m : flat_map (fun e => match e with EFpLine p => [p] | _ => [] end) es = [] -> fp_lines (push es m) = fp_lines m.
Proof. intros H. unfold fp_lines, push. cbn [m_elements]. now rewrite flat_map_app, H, app_nil_r. Qed.
Lemma stage_lines c n m q : fix_reference2 c (fix_value c n (fix_reference c m)) = Ok q -> fp_lines (fix_attr q) = fp_lines m.
Proof.
  intros Q. assert (A : fp_lines (fix_attr q) = fp_lines q) by (unfold fix_attr; destruct (smd_only q && negb (has_smd_attr q))%bool; [now apply push_lines|reflexivity]).
  rewrite A. set (m2 := fix_value c n (fix_reference c m)) in *.
  assert (B : fp_lines m2 = fp_lines m) by (unfold m2, fix_value; rewrite or_same_lines; unfold fix_reference; apply or_same_lines).
  rewrite <- B. unfold fix_reference2 in Q. destruct (get_text m2 (lit "user")) as [t|].
  - destruct (modify_text m2 _ _) as [r|] eqn:E; [|discriminate Q]. injection Q as <-. exact (modify_lines _ _ _ _ E).
  - destruct (modify_text (push _ m2) _ _) as [r|] eqn:E; [|discriminate Q]. injection Q as <-. rewrite (modify_lines _ _ _ _ E). now apply push_lines.
Qed.
Lemma fix_act f g h k c m m' : unseen f g h k -> (find_text (lit "user") (m_elements m) = None -> f (EFpText (new_ref2 c)) = EFpText (new_ref2 c)) ->
  (4 <= courtyard_lines m)%nat -> fp_fix c m = Ok m' -> fp_fix c (act f m) = Ok (act f m').
Proof.
  intros U H C E. unfold fp_fix in *. cbn [act m_name]. change (mk_module (m_name m) (map f (m_elements m))) with (act f m).
  rewrite (reference_act _ _ _ _ U), (value_act _ _ _ _ U), (reference2_act _ _ _ _ U) by (rewrite find_fixed; exact H).
  destruct (fix_reference2 c (fix_value c (m_name m) (fix_reference c m))) as [q| |] eqn:Q; try discriminate E. cbn [bind] in *.
  injection E as <-. rewrite (attr_act _ _ _ _ U). f_equal. unfold fix_courtyard. rewrite (court_act _ _ _ _ U).
  assert (K : courtyard_lines (fix_attr q) = courtyard_lines m) by (unfold courtyard_lines; now rewrite (stage_lines _ _ _ _ Q)).
  destruct (Nat.ltb (courtyard_lines (fix_attr q)) 4) eqn:L; [|reflexivity]. exfalso. rewrite K in L. apply Nat.ltb_lt in L. lia.
Qed.

(** ** The three operations *)
Lemma check_placed c m m' : placement m m' -> fp_check c m' = fp_check c m.
Proof.
  induction 1 as [|x y m' _ IH|r m' _ IH|m' _ IH]; [reflexivity| | |]; rewrite <- IH.
  - exact (check_act _ _ _ _ (unseen_move x y) c m').
  - exact (check_act _ _ _ _ (unseen_turn r) c m').
  - exact (check_act _ _ _ _ unseen_flip c m').
Qed.
Lemma fix_moved c x y m m' : (4 <= length (courtyard_list m))%nat -> fp_fix c m = Ok m' -> fp_fix c (adjust_module x y m) = Ok (adjust_module x y m').
Proof. rewrite courtyard_list_spec. intros C. apply (fix_act _ _ _ _ c m m' (unseen_move x y)); [reflexivity|exact C]. Qed.
Lemma has_find k m : has_text k m -> find_text k (m_elements m) <> None.
Proof.
  intros (t & H & N). induction (m_elements m) as [|e l IH]; [contradiction|]. destruct H as [->|H].
  - cbn [find_text]. rewrite N. assert (E : str_eqb k k = true) by now apply str_eqb_eq. rewrite E. discriminate.
  - specialize (IH H). destruct e; try exact IH. cbn [find_text]. destruct (str_eqb _ k); [discriminate|exact IH].
Qed.
Lemma fix_turned c r m m' : (4 <= length (courtyard_list m))%nat -> has_text (lit "user") m -> fp_fix c m = Ok m' ->
  fp_fix c (rotate_module r m) = Ok (rotate_module r m') /\ fp_fix c (flip_module m) = Ok (flip_module m').
Proof.
  rewrite courtyard_list_spec. intros C T E. apply has_find in T. split.
  - apply (fix_act _ _ _ _ c m m' (unseen_turn r)); [intros N; now rewrite N in T|exact C|exact E].
  - apply (fix_act _ _ _ _ c m m' unseen_flip); [intros N; now rewrite N in T|exact C|exact E].
Qed.

(** ** The courtyard of a moved footprint *)
Open Scope R_scope.
Lemma clear_both n w h w' h' : clear_size w h -> Rabs (w' - w) <= / 150 -> Rabs (h' - h) <= / 150 -> exists t, clearance n w h t /\ clearance n w' h' t.
Proof.
  intros C W H. apply Rabs_le_inv in W, H. destruct C as [[C1 C2]|C].
  - exists 0.15. split; apply cl_small; lra.
  - assert (D : 2.001 <= w \/ 2.001 <= h) by (destruct C; [left|right]; lra). assert (D' : 2.001 <= w' \/ 2.001 <= h') by (destruct C; [left|right]; lra).
    destruct (list_eq_dec N.eq_dec (firstn 3 n) (lit "BGA")) as [B|B].
    + exists 0.1. split; now apply cl_bga.
    + exists 0.25. split; now apply cl_other.
Qed.
Lemma near_within b c x1 y1 x2 y2 u1 v1 u2 v2 : near_box b x1 y1 x2 y2 -> near_box c u1 v1 u2 v2 ->
  Rabs (u1 - x1) <= / 350 -> Rabs (v1 - y1) <= / 350 -> Rabs (u2 - x2) <= / 350 -> Rabs (v2 - y2) <= / 350 ->
  within (/ 200) (bx1 b) (bx1 c) /\ within (/ 200) (by1 b) (by1 c) /\ within (/ 200) (bx2 b) (bx2 c) /\ within (/ 200) (by2 b) (by2 c).
Proof.
  intros (_ & _ & B1 & B2 & B3 & B4) (_ & _ & C1 & C2 & C3 & C4) D1 D2 D3 D4. apply Rabs_le_inv in B1, B2, B3, B4, C1, C2, C3, C4, D1, D2, D3, D4.
  unfold within. split; [|split; [|split]]; apply Rabs_le; lra.
Qed.
Lemma courtyard_moved x y m : nearby x -> nearby y -> tame (YModule m) ->
  let b := module_bound m in clear_size (B2R (bx2 b) - B2R (bx1 b)) (B2R (by2 b) - B2R (by1 b)) ->
  exists x1 y1 x2 y2 u1 v1 u2 v2, rectangle_of x1 y1 x2 y2 (courtyard m) /\ rectangle_of u1 v1 u2 v2 (courtyard (adjust_module x y m)) /\
    within (/ 200) x1 u1 /\ within (/ 200) y1 v1 /\ within (/ 200) x2 u2 /\ within (/ 200) y2 v2.
Proof.
  intros Nx Ny T. cbv zeta. intros C. pose proof (near_module x y m Nx Ny T) as [_ N]. pose proof (modest_module x y m Nx Ny T) as [_ M].
  assert (B : bounded (module_bound m) = true) by (exact (element_some (YModule m))).
  destruct (N B) as ((_ & _ & N1) & (_ & _ & N2) & (_ & _ & N3) & (_ & _ & N4)). destruct (M B) as ([M1 M1'] & [M2 M2'] & [M3 M3'] & [M4 M4']).
  destruct T as [P [H _]]. destruct (find_at x y _ H) as (a & A1 & A2 & A3).
  assert (NA : nearby (at_x a) /\ nearby (at_y a)).
  { apply (P (at_point a)). cbn [positions]. apply in_flat_map. exists (EAt a). split; [exact A2|now left]. }
  destruct NA as [NA1 NA2].
  assert (Z : module_at m = (at_x a, at_y a)) by (unfold module_at; now rewrite A1).
  assert (Z' : module_at (adjust_module x y m) = (fadd (at_x a) x, fadd (at_y a) y)) by (unfold module_at, adjust_module; cbn [m_elements]; now rewrite A3).
  destruct (add_near _ _ NA1 Nx) as [_ E1], (add_near _ _ NA2 Ny) as [_ E2].
  unfold slack in N1, N2, N3, N4. apply Rabs_le_inv in N1, N2, N3, N4, E1, E2.
  destruct (clear_both (m_name m) _ _ (B2R (bx2 (module_bound (adjust_module x y m))) - B2R (bx1 (module_bound (adjust_module x y m))))
              (B2R (by2 (module_bound (adjust_module x y m))) - B2R (by1 (module_bound (adjust_module x y m)))) C) as (t & C1 & C2); [apply Rabs_le; lra|apply Rabs_le; lra|].
  destruct (courtyard_margin m _ _ t Z (nearby_modest _ NA1) (nearby_modest _ NA2) (conj M1 (conj M2 (conj M3 M4))) C1) as (x1 & y1 & x2 & y2 & R & G).
  destruct (courtyard_margin (adjust_module x y m) _ _ t Z' (add_modest _ _ NA1 Nx) (add_modest _ _ NA2 Ny) (conj M1' (conj M2' (conj M3' M4'))) C2) as (u1 & v1 & u2 & v2 & R' & G').
  exists x1, y1, x2, y2, u1, v1, u2, v2. split; [exact R|]. split; [exact R'|].
  apply (near_within _ _ _ _ _ _ _ _ _ _ G G'); apply Rabs_le; lra.
Qed.
Close Scope R_scope.
Lemma lines_moved x y m : lines_of (adjust_module x y m) = lines_of m.
Proof.
  pose proof (lines_act _ _ _ _ (unseen_move x y) m) as H. rewrite map_id in H. exact H.
Qed.
Lemma fixed_courtyard c x y m m1 m2 : nearby x -> nearby y -> tame (YModule m) -> (length (courtyard_list m) < 4)%nat ->
  let b := module_bound m in clear_size (B2R (bx2 b) - B2R (bx1 b)) (B2R (by2 b) - B2R (by1 b)) ->
  fp_fix c m = Ok m1 -> fp_fix c (adjust_module x y m) = Ok m2 ->
  exists r1 r2 x1 y1 x2 y2 u1 v1 u2 v2, lines_of m1 = lines_of m ++ r1 /\ lines_of m2 = lines_of m ++ r2 /\
    rectangle_of x1 y1 x2 y2 r1 /\ rectangle_of u1 v1 u2 v2 r2 /\
    within (/ 200) x1 u1 /\ within (/ 200) y1 v1 /\ within (/ 200) x2 u2 /\ within (/ 200) y2 v2.
Proof.
  intros Nx Ny T L. cbv zeta. intros C F1 F2. pose proof (fix_lines_spec c m m1 F1) as L1. pose proof (fix_lines_spec c _ m2 F2) as L2.
  assert (K : length (courtyard_list (adjust_module x y m)) = length (courtyard_list m))
    by (rewrite !courtyard_list_spec; exact (court_act _ _ _ _ (unseen_move x y) m)).
  rewrite K, lines_moved in L2. apply Nat.ltb_lt in L. rewrite L in L1, L2.
  destruct (courtyard_moved x y m Nx Ny T C) as (x1 & y1 & x2 & y2 & u1 & v1 & u2 & v2 & R & R' & W).
  exists (courtyard m), (courtyard (adjust_module x y m)), x1, y1, x2, y2, u1, v1, u2, v2.
  split; [exact L1|]. split; [exact L2|]. split; [exact R|]. split; [exact R'|exact W].
Qed.
Lemma courtyard_front m : Forall (fun l => la_side (li_layer l) = SFront) (courtyard m).
Proof. unfold courtyard. destruct (module_at m) as [x y]. repeat (constructor; [reflexivity|]). constructor. Qed.
Lemma wide_clear (b : bound) : finite_box b = true -> fleb (bx1 b) (f64_of_Z 10) = true -> fleb (f64_of_Z 13) (bx2 b) = true ->
  clear_size (B2R (bx2 b) - B2R (bx1 b))%R (B2R (by2 b) - B2R (by1 b))%R.
Proof.
  intros F A B. unfold finite_box in F. rewrite !Bool.andb_true_iff in F. destruct F as (((F1 & F2) & F3) & F4).
  destruct (lit_val (f64_of_Z 10) 5629499534213120 (-49) 10%R) as [G1 V1]; [vm_compute; reflexivity|unfold F2R; cbn [Fnum Fexp]; change (bpow radix2 (-49)) with (/ 562949953421312)%R; lra|].
  destruct (lit_val (f64_of_Z 13) 7318349394477056 (-49) 13%R) as [G2 V2]; [vm_compute; reflexivity|unfold F2R; cbn [Fnum Fexp]; change (bpow radix2 (-49)) with (/ 562949953421312)%R; lra|].
  apply fleb_rx in A; [|now apply finite_nan|now apply finite_nan]. apply fleb_rx in B; [|now apply finite_nan|now apply finite_nan].
  rewrite !rx_finite in A by assumption. rewrite !rx_finite in B by assumption. rewrite V1 in A. rewrite V2 in B. right. left. lra.
Qed.
