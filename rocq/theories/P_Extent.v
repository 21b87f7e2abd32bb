(** Property theorems: the box of a schematic in whole numbers (C123). *)
From Coq Require Import String Lia.
From Verif Require Import Base Str F64 Bound BoundSpec SchData SchOps SchSpec SchTight ExtentSpec ExtentFacts.
From Verif Require P_Schematic P_SchMix.
Import ListNotations.
Open Scope string_scope. Open Scope list_scope.

(** ** C123 *)
(** The box of a schematic is exactly this: the smallest of the left and top edges and the
    greatest of the right and bottom edges of its parts, put the right way round at the end.
    The left edge of a component is its y. *)
Theorem C123_box (s : schematic) (b : bound) (q : quad) : sch_bound s = Ok b -> Forall small_quad (quads s) -> outline (quads s) q ->
  b = bound_new_i64 (Z.min (q_left q) (q_right q)) (Z.min (q_top q) (q_bottom q)) (Z.max (q_left q) (q_right q)) (Z.max (q_top q) (q_bottom q)).
Proof. exact (sch_extent s b q). Qed.
Print Assumptions C123_box.
(** There is such an outline as soon as there is a part, and only one; without parts there
    is no box. *)
Theorem C123_outline (s : schematic) : (quads s <> [] -> exists q, outline (quads s) q) /\ (forall p q, outline (quads s) p -> outline (quads s) q -> p = q)
  /\ forall b, sch_bound s = Ok b -> quads s = [] -> b = bound_default.
Proof. exact (conj (has_outline (quads s)) (conj (outline_unique (quads s)) (sch_none s))). Qed.
Print Assumptions C123_outline.
(** So these points with whole coordinates are in the box, and no others. *)
Theorem C123_points (s : schematic) (b : bound) (q : quad) (x y : Z) : sch_bound s = Ok b -> Forall small_quad (quads s) -> outline (quads s) q -> small53 x -> small53 y ->
  (inside (f64_of_Z x) (f64_of_Z y) b = true <->
   (Z.min (q_left q) (q_right q) <= x <= Z.max (q_left q) (q_right q) /\ Z.min (q_top q) (q_bottom q) <= y <= Z.max (q_top q) (q_bottom q))%Z).
Proof. exact (point_extent s b q x y). Qed.
Print Assumptions C123_points.
(** The box of a schematic without sheets holds all its components exactly if the y of one
    of them is at most the x of all, or all have the same x. *)
Theorem C123_every (s : schematic) (b : bound) : sch_bound s = Ok b -> sc_sheets s = [] -> Forall small_quad (quads s) ->
  ((forall c, In (SComponent c) (sc_elements s) -> inside (f64_of_Z (co_x c)) (f64_of_Z (co_y c)) b = true) <->
   (exists c0, In (SComponent c0) (sc_elements s) /\ forall c, In (SComponent c) (sc_elements s) -> (co_y c0 <= co_x c)%Z)
   \/ (forall c d, In (SComponent c) (sc_elements s) -> In (SComponent d) (sc_elements s) -> co_x c = co_x d)).
Proof. exact (every_extent s b). Qed.
Print Assumptions C123_every.

Definition c123_at (x y : Z) : selement := SComponent (mk_comp (lit "R") (lit "R1") [] x y [] [] (mk_rotation 1 0 0 (-1))).
Definition c123_sch (hs : list sheet) (l : list selement) : schematic := mk_sch None [] descr_default l hs [].
Ltac smalls := repeat (constructor; [unfold small_quad, small53; cbn; lia|]); constructor.
Ltac extreme := split; [cbn; auto 10|cbn; intros ? K; repeat destruct K as [<-|K]; try contradiction; cbn; lia].
Example C123_box_ex : let s := c123_sch [sheet_default] [c123_at 4000 1000; SConnection (mk_spoint 1 1); c123_at 500 3000] in
  P_SchMix.ok_box (sch_bound s) = true /\ Forall small_quad (quads s) /\ outline (quads s) (mk_quad 0 (-100) 4000 3000).
Proof. split; [vm_compute; reflexivity|]. split; [smalls|]. split; [extreme|]. split; [extreme|]. split; extreme. Qed.
(** Both sides of [C123_every] can be true and false *)
Example C123_every_ex : let s := c123_sch [] [c123_at 4000 1000; c123_at 1500 3000] in let t := c123_sch [] [c123_at 4000 1000; c123_at 500 3000] in
  (P_SchMix.ok_box (sch_bound s) = true /\ Forall small_quad (quads s) /\ forall c, In (SComponent c) (sc_elements s) -> (1000 <= co_x c)%Z) /\
  (P_SchMix.ok_box (sch_bound t) = true /\ Forall small_quad (quads t) /\ In (c123_at 500 3000) (sc_elements t) /\
   match sch_bound t with Ok b => inside (f64_of_Z 500) (f64_of_Z 3000) b | _ => true end = false).
Proof.
  split; (split; [vm_compute; reflexivity|split; [smalls|]]).
  - intros c [K|[K|[]]]; injection K as <-; cbn; lia.
  - split; [now right; left|vm_compute; reflexivity].
Qed.
