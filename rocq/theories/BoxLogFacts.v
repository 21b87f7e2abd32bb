(** Lemmas for C119: records about bounding boxes. *)
From Coq Require Import String Lia.
From Verif Require Import Base Str F64 F64Text Bound BoundSpec BoundFacts LyBoundFacts FpData FpOps FpOpsFacts LyData LyOps SchData SchOps CheckFix SymCheck FpCheck CheckSpec CheckFacts FixFacts
  ReportFacts CheckWit ClassSpec LyLog LogSpec LogFacts BoxLog BoxLogSpec.
Open Scope string_scope. Open Scope list_scope.

Lemma module_silent m : module_box_log m = [].
Proof.
  unfold module_box_log. induction (m_elements m) as [|e l IH]; [reflexivity|].
  destruct e; cbn [filter is_graphics]; try exact IH; destruct (is_fab _ || is_pad _)%bool; cbn [filter]; try destruct (is_fab _ || is_pad _)%bool; cbn [flat_map element_box_log app]; exact IH.
Qed.
Lemma board_log l : layout_box_log l = repeat (lit "poor bounding box for GrText") (length (filter lettered (ly_elements l))).
Proof.
  unfold layout_box_log. induction (ly_elements l) as [|e r IH]; [reflexivity|].
  destruct e; cbn [flat_map ly_element_box_log filter lettered length repeat app gr_text_box_log]; rewrite ?module_silent; cbn [app]; rewrite ?IH; reflexivity.
Qed.
Lemma sheet_log s k : nth_error (sch_box_log s) k =
  match nth_error (sc_elements s) k with
  | Some (SComponent _) => Some (lit "Component bound calculation is poor")
  | Some _ => Some (lit "unhandled schematic element for bounding box")
  | None => None
  end.
Proof. unfold sch_box_log. rewrite nth_error_map. destruct (nth_error (sc_elements s) k) as [[]|]; reflexivity. Qed.
Lemma module_bounded m : bounded (module_bound m) = true.
Proof. unfold module_bound. destruct (module_at m) as [x y]. rewrite swap_bounded. now apply all_bounded. Qed.
Lemma fix_told dbg c m m' : fp_fix c m = Ok m' ->
  ((4 <= length (courtyard_list m))%nat /\ fix_records dbg c m = []) \/
  ((length (courtyard_list m) < 4)%nat /\ exists l1 l2 l3 l4 o, lines_of m' = lines_of m ++ [l1; l2; l3; l4] /\ In o [flit "0.15"; flit "0.1"; flit "0.25"] /\
   let b := module_bound m in let x := fst (module_at m) in let y := snd (module_at m) in
   let u1 := fsub (bx1 b) x in let v1 := fsub (by1 b) y in let u2 := fsub (bx2 b) x in let v2 := fsub (by2 b) y in
   fix_records dbg c m = told_steps dbg (bx1 b) (by1 b) (bx2 b) (by2 b) x y u1 v1 u2 v2 (says_courtyard l1 l2) /\
   xy_x (li_start l1) = fsub (fmin u1 u2) o /\ xy_y (li_start l1) = fsub (fmin v1 v2) o /\
   xy_x (li_end l2) = fadd (fmax u1 u2) o /\ xy_y (li_end l2) = fadd (fmax v1 v2) o).
Proof.
  intros H. pose proof (fix_lines_spec c m m' H) as L. pose proof (fix_finds c m m' H) as N0. rewrite courtyard_list_spec in *. unfold fp_fix in H. unfold fix_records.
  destruct (fix_reference2 c (fix_value c (m_name m) (fix_reference c m))) as [m3| |] eqn:R; cbn [bind] in H; [|discriminate H|discriminate H].
  assert (C : core (m_elements (fix_attr m3)) = core (m_elements m)).
  { rewrite attr_core, (ref2_core _ _ _ R). unfold fix_value. rewrite same_core by reflexivity. unfold fix_reference. now rewrite same_core by reflexivity. }
  destruct (core_same_counts m (fix_attr m3) C) as (E & _ & _). cbv zeta. rewrite E.
  assert (N : m_name (fix_attr m3) = m_name m).
  { rewrite <- (proj1 N0). assert (X : m' = fix_courtyard (fix_attr m3)) by now injection H as <-. rewrite X. unfold fix_courtyard. destruct (Nat.ltb (courtyard_lines (fix_attr m3)) 4); reflexivity. }
  pose proof (core_same_courtyard m (fix_attr m3) C N) as K.
  destruct (Nat.ltb (courtyard_lines m) 4) eqn:Q; [right|left]; [apply Nat.ltb_lt in Q|apply Nat.ltb_ge in Q; split; [exact Q|reflexivity]].
  split; [exact Q|].
  destruct (courtyard_logs (fix_attr m3)) as (a & b & c' & d & K' & S). rewrite K in K'.
  exists a, b, c', d, (courtyard_offset m (module_bound m)). split; [rewrite L, K'; reflexivity|].
  split. { unfold courtyard_offset. destruct (_ && _)%bool; [now left|]. destruct (starts_with _ _); [right; now left|right; right; now left]. }
  split.
  - unfold courtyard_records. rewrite (core_same_bound m (fix_attr m3) C), (core_same_at m (fix_attr m3) C), module_silent. rewrite S.
    pose proof (module_bounded m) as B. destruct (module_at m) as [x y]. cbn [fst snd map app]. unfold told_steps, dbg_bound, box_text. rewrite B. reflexivity.
  - unfold courtyard in K'. destruct (module_at m) as [x y]. cbn [fst snd]. injection K' as <- <- _ _. cbn [line_make li_start li_end xy_x xy_y]. repeat split.
Qed.
Lemma board_silent l : layout_box_log l = [] <-> forall e, In e (ly_elements l) -> lettered e = false.
Proof.
  rewrite board_log. split.
  - intros H e I. apply Bool.not_true_is_false. intros T. assert (J : In e (filter lettered (ly_elements l))) by now apply filter_In.
    destruct (filter lettered (ly_elements l)); [destruct J|discriminate H].
  - intros H. assert (Z : filter lettered (ly_elements l) = []); [|now rewrite Z].
    induction (ly_elements l) as [|e r IH]; [reflexivity|]. cbn [filter]. rewrite (H e (or_introl eq_refl)). apply IH. intros x I. apply H. now right.
Qed.
Lemma fix_info dbg c m : filter (fun r : record => match fst r with Info => true | _ => false end) (fix_records dbg c m) = fix_log c m.
Proof.
  unfold fix_records, fix_log. destruct (fix_reference2 c (fix_value c (m_name m) (fix_reference c m))) as [m3| |]; [|reflexivity|reflexivity]. cbv zeta.
  destruct (Nat.ltb (courtyard_lines (fix_attr m3)) 4); [|reflexivity]. unfold courtyard_records. destruct (module_at (fix_attr m3)). rewrite module_silent. reflexivity.
Qed.
