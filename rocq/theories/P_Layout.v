(** Property theorems: layout round trip (C07) and layout box (C15). *)
From Coq Require Import String.
From Verif Require Import Base Str Num F64 F64Text Sexp FpData FpOps Bound BoundSpec LyData LySer LyDe LyWf
  LyFacts LyReread LyOps LySpec LyBoundFacts LyExamples.
Open Scope string_scope. Open Scope list_scope.

(** C07: every layout in the representable domain is read back exactly. *)
Theorem C07_layout_round_trip (l : layout) :
  layout_ok l = true -> de_layout (ser_layout l) = Ok l.
Proof. exact (rt_layout l). Qed.
Print Assumptions C07_layout_round_trip.
Example C07_ex : layout_ok ex_layout = true.
Proof. exact ex_layout_ok. Qed.

(** Every layout that was read is written and read back as itself. *)
Theorem C07_layout_reread (s : sexp) (l : layout) :
  de_layout s = Ok l -> layout_clean l = true -> de_layout (ser_layout l) = Ok l.
Proof. exact (reread_layout s l). Qed.
Print Assumptions C07_layout_reread.
Example C07_ex_reread : exists s l, de_layout s = Ok l /\ layout_clean l = true.
Proof. exact ex_layout_reread. Qed.

(** Outside the domain it is false: a setup element called pcbplotparams or a
    priority of 2^63 make the file unreadable, and an uninterpreted element
    with a known name comes back interpreted. *)
Theorem C07_domain_refuted :
  (exists l, is_ok (de_layout (ser_layout l)) = false /\ su_elements (ly_setup l) <> [])
  /\ (exists l z, ly_elements l = [YZone z] /\ (zo_priority z < 2 ^ 64)%Z
        /\ is_ok (de_layout (ser_layout l)) = false)
  /\ (exists l l' s n, ly_elements l = [YOther s] /\ de_layout (ser_layout l) = Ok l'
        /\ ly_elements l' = [YNet n]).
Proof. exact layout_witnesses. Qed.
Print Assumptions C07_domain_refuted.

(** A file with a zone of priority -1 is read, but what is then written cannot
    be read any more. *)
Theorem C07_reread_refuted :
  exists s l z, de_layout s = Ok l /\ ly_elements l = [YZone z]
   /\ zo_priority z = 18446744073709551615%Z /\ is_ok (de_layout (ser_layout l)) = false.
Proof. exact layout_neg_witness. Qed.
Print Assumptions C07_reread_refuted.

(** C15: every point of a board graphic, dimension, zone, segment or via is in
    the layout's box. *)
Theorem C15_layout_box (l : layout) :
  forallb ly_geo_ok (ly_elements l) = true ->
  forall e p, In e (ly_elements l) -> In p (drawn_points e) ->
  inside (fst p) (snd p) (layout_bound l) = true.
Proof. exact (layout_bound_points l). Qed.
Print Assumptions C15_layout_box.

(** The box of every footprint is covered. *)
Theorem C15_layout_box_modules (l : layout) :
  forallb ly_geo_ok (ly_elements l) = true ->
  forall m, In (YModule m) (ly_elements l) -> covers (layout_bound l) (module_bound m) = true.
Proof. exact (layout_bound_modules l). Qed.
Print Assumptions C15_layout_box_modules.
Example C15_ex : forallb ly_geo_ok (ly_elements ex_layout) = true.
Proof. exact ex_layout_geo. Qed.
