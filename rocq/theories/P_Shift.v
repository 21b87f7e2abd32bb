(** Property theorems: the box of a moved board is the moved box (C116). *)
From Coq Require Import String Reals Lra.
From Flocq Require Import IEEE754.BinarySingleNaN Core.
From Verif Require Import Base Str F64 F64Text F64Order FpData FpOps FpOpsSpec FpExamples LyExamples Bound BoundSpec LyData LyOps LySpec
  ClassSpec TightSpec TightFacts ShiftSpec ShiftFacts LyWf Formatter FormatterSpec DocText LibFns KicadFile Bins ShiftRun P_Formatter.
Open Scope string_scope. Open Scope list_scope.

(** Lines, arcs, texts, dimensions, tracks and zones: the box of what is moved is exactly
    the box with the offset added to its four sides, whatever the finite numbers are. *)
Theorem C116_exact_element (x y : f64) (e : ly_element) : is_finite x = true -> is_finite y = true ->
  ly_geo_ok e = true -> pointlike e = true ->
  exactly_moved x y (ly_element_bound e) (ly_element_bound (adjust_ly_element x y e)).
Proof. exact (exact_element x y e). Qed.
Print Assumptions C116_exact_element.
Theorem C116_exact (x y : f64) (l : layout) : is_finite x = true -> is_finite y = true ->
  forallb ly_geo_ok (ly_elements l) = true -> forallb pointlike (ly_elements l) = true ->
  exactly_moved x y (layout_bound l) (layout_bound (adjust_layout x y l)).
Proof. exact (exact_layout x y l). Qed.
Print Assumptions C116_exact.

(** Any element of ordinary size, and any board of such: up to a four-hundredth of a
    millimetre. *)
Theorem C116_near_element (x y : f64) (e : ly_element) : nearby x -> nearby y -> tame e ->
  nearly_moved (/ 400) x y (ly_element_bound e) (ly_element_bound (adjust_ly_element x y e)).
Proof. exact (near_element x y e). Qed.
Print Assumptions C116_near_element.
Theorem C116_near (x y : f64) (l : layout) : nearby x -> nearby y -> (forall e, In e (ly_elements l) -> tame e) ->
  nearly_moved (/ 400) x y (layout_bound l) (layout_bound (adjust_layout x y l)).
Proof. exact (near_layout x y l). Qed.
Print Assumptions C116_near.

(** Moving a board does not change its reported width and height by more than a
    hundredth of a millimetre. *)
Theorem C116_size (x y : f64) (l : layout) : nearby x -> nearby y -> (forall e, In e (ly_elements l) -> tame e) ->
  bounded (layout_bound l) = true ->
  (Rabs (B2R (bound_width (layout_bound (adjust_layout x y l))) - B2R (bound_width (layout_bound l))) <= / 100 /\
   Rabs (B2R (bound_height (layout_bound (adjust_layout x y l))) - B2R (bound_height (layout_bound l))) <= / 100)%R.
Proof. exact (size_layout x y l). Qed.
Print Assumptions C116_size.

Example C116_ex : is_finite (fl "10.25") = true /\ forallb ly_geo_ok [YGrText ex_gtext; YDimension ex_dim; YZone ex_zone] = true
  /\ forallb pointlike [YGrText ex_gtext; YDimension ex_dim; YZone ex_zone] = true
  /\ nearby (fl "10.25") /\ nearby (fl "-3.5") /\ (forall e, In e (ly_elements ex_layout) -> tame e)
  /\ same_bound (layout_bound ex_layout) (bound_new (fl "-4") (fl "-3") (fl "13.5") (fl "24.5")) = true
  /\ same_bound (layout_bound (adjust_layout (fl "10.25") (fl "-3.5") ex_layout))
       (bound_new (fl "6.25") (fl "-6.5") (fl "23.75") (fl "21")) = true.
Proof.
  do 3 (split; [vm_compute; reflexivity|]). do 2 (split; [apply nearbyb_ok; vm_compute; reflexivity|]).
  split; [|split; vm_compute; reflexivity].
  assert (H : forallb tameb (ly_elements ex_layout) = true) by (vm_compute; reflexivity).
  intros e He. apply tameb_ok. rewrite forallb_forall in H. exact (H e He).
Qed.

(** Exactness fails for a via of 0.6 mm at (1,1): rounding differs before and after. *)
Definition c116_via : ly_element := YVia (mk_via false false (mkat "1" "1" "0") (fl "0.6") (fl "0.3") [] 12).
Theorem C116_exact_refuted : exists x y e, nearby x /\ nearby y /\ tame e /\ ly_geo_ok e = true /\
  ~ exactly_moved x y (ly_element_bound e) (ly_element_bound (adjust_ly_element x y e)).
Proof.
  exists (fl "0.1"), (fl "0.1"), c116_via. do 2 (split; [apply nearbyb_ok; vm_compute; reflexivity|]).
  split; [apply tameb_ok; vm_compute; reflexivity|]. split; [vm_compute; reflexivity|].
  intros [_ H]. destruct (H eq_refl) as [A _].
  assert (E : feqb (bx1 (ly_element_bound (adjust_ly_element (fl "0.1") (fl "0.1") c116_via)))
                   (fadd (bx1 (ly_element_bound c116_via)) (fl "0.1")) = false) by (vm_compute; reflexivity).
  rewrite A in E. discriminate E.
Qed.
Print Assumptions C116_exact_refuted.

(** A footprint without a place does not move at all when the board is moved: here the
    offset is 90 mm, and the box stays behind by all of it. *)
Definition c116_module : module := mk_module (lit "R1") [ELayer f_cu; EPad ex_pad1; EPad ex_pad2].
Theorem C116_unplaced_refuted : exists x y m, nearby x /\ nearby y /\ positions (YModule m) = [] /\
  (forall d, In d (m_elements m) -> nearby_box (element_bound d)) /\ bounded (module_bound m) = true /\
  ly_element_bound (adjust_ly_element x y (YModule m)) = ly_element_bound (YModule m) /\
  ~ nearly_moved 89 x y (ly_element_bound (YModule m)) (ly_element_bound (adjust_ly_element x y (YModule m))).
Proof.
  assert (Z : nearby f90) by (apply nearbyb_ok; vm_compute; reflexivity).
  exists f90, f90, c116_module. split; [exact Z|]. split; [exact Z|]. split; [reflexivity|]. split.
  { assert (H : forallb (fun d => nearby_boxb (element_bound d)) (m_elements c116_module) = true) by (vm_compute; reflexivity).
    rewrite forallb_forall in H. intros d Hd. specialize (H d Hd). unfold nearby_boxb in H. rewrite !Bool.andb_true_iff in H.
    destruct H as (((A & B) & C) & D). split; [now apply nearbyb_ok|]. split; [now apply nearbyb_ok|]. split; now apply nearbyb_ok. }
  assert (B : bounded (module_bound c116_module) = true) by (vm_compute; reflexivity). split; [exact B|].
  split; [reflexivity|]. change (adjust_ly_element f90 f90 (YModule c116_module)) with (YModule c116_module).
  cbn [ly_element_bound]. intros [_ H]. destruct (H B) as (_ & _ & A & _). rewrite (proj2 val90) in A. apply Rabs_le_inv in A. lra.
Qed.
Print Assumptions C116_unplaced_refuted.

(** The program adjust_layout: what it prints for a board of ordinary size is a board
    whose box lies 100 mm further to the right. *)
Theorem C116_program (nq : str -> bool) (fs : files) (p n : str) (rest : list str) (d : str) (l : layout) :
  quote_contract nq -> fs n = Some d -> parse_layout d = Ok l -> layout_clean l = true ->
  (forall e, In e (ly_elements l) -> tame e) ->
  exists t l', adjust_program nq fs (p :: n :: rest) = Ok (mk_ran t [(false, n)]) /\ parse_layout t = Ok l' /\
    moved_right (/ 400) 100 (layout_bound l) (layout_bound l').
Proof. exact (program_box nq fs p n rest d l). Qed.
Print Assumptions C116_program.
Example C116_ex_program : match parse_layout (layout_to_string quote_special (with_elements layout_default [c116_via; YGrText ex_gtext; YModule ex_module2]) 0) with
  | Ok l => layout_clean l && forallb tameb (ly_elements l) && bounded (layout_bound l) | _ => false end = true.
Proof. vm_compute. reflexivity. Qed.
