(** C106: what the program says about a tree that is not a footprint or a board. *)
From Coq Require Import String.
From Verif Require Import Base Str StrFacts Num F64 Sexp FpData FpDe LyData LyDe GramSpec WideSpec WideCrash TreeErr TreeErrSpec TreeErrTells TreeErrBoard TreeErrWhole.
Open Scope string_scope. Open Scope list_scope.

(** The readers with texts read what the readers without them read, and fail and stop where
    these do. *)
Theorem C106_module_same sh dbg s :
  (forall m, t_module sh dbg s = TFine m <-> de_module s = Ok m) /\ (t_module sh dbg s = TStops <-> de_module s = Panic) /\
  (((exists m, t_module sh dbg s = TSays m) \/ t_module sh dbg s = TOther) <-> exists e, de_module s = Err e).
Proof. exact (module_same sh dbg s). Qed.
Print Assumptions C106_module_same.
Theorem C106_layout_same sh dbg s :
  (forall m, t_layout sh dbg s = TFine m <-> de_layout s = Ok m) /\ (t_layout sh dbg s = TStops <-> de_layout s = Panic) /\
  (((exists m, t_layout sh dbg s = TSays m) \/ t_layout sh dbg s = TOther) <-> exists e, de_layout s = Err e).
Proof. exact (layout_same sh dbg s). Qed.
Print Assumptions C106_layout_same.

(** Exactly what is said. *)
Theorem C106_module sh dbg s m : t_module sh dbg s = TSays m <-> module_says sh dbg s m.
Proof. exact (module_exact sh dbg s m). Qed.
Print Assumptions C106_module.
Theorem C106_layout sh dbg s m : t_layout sh dbg s = TSays m <-> board_says sh dbg s m.
Proof. exact (layout_exact sh dbg s m). Qed.
Print Assumptions C106_layout.
(** All other errors are left to the dependency. *)
Theorem C106_module_other sh dbg s :
  t_module sh dbg s = TOther <-> ~ follows w_module s /\ ~ module_crash s /\ forall m, ~ module_says sh dbg s m.
Proof. exact (module_other sh dbg s). Qed.
Print Assumptions C106_module_other.
Theorem C106_layout_other sh dbg s :
  t_layout sh dbg s = TOther <-> ~ follows w_board s /\ ~ board_crash s /\ forall m, ~ board_says sh dbg s m.
Proof. exact (layout_other sh dbg s). Qed.
Print Assumptions C106_layout_other.
(** There is only one thing to say. *)
Theorem C106_one sh dbg s : (forall m n, module_says sh dbg s m -> module_says sh dbg s n -> m = n) /\
  (forall m n, board_says sh dbg s m -> board_says sh dbg s n -> m = n).
Proof. exact (one_thing sh dbg s). Qed.
Print Assumptions C106_one.

(** Wrong trees *)
Definition shown : sexp -> str := fun _ => lit "<tree>".
Definition shown_f : f64 -> str := fun _ => lit "0.1".
Definition at0 := node "at" [a_lit "0"; a_lit "0"].
Definition fp (l : list sexp) := node "module" (a_lit "R1" :: node "layer" [a_lit "F.Cu"] :: l).
Definition a_pad (l : list sexp) := node "pad" (a_lit "1" :: l).
Definition fp_bad : list (sexp * str) :=
  [(fp [a_lit "lokced"], lit "unknown element in module: lokced");
   (fp [node "fp_curve" []], lit "unknown element in module: fp_curve");
   (fp [node "layer" [a_lit "X.Cu"]], lit "unknown layer side X");
   (fp [a_pad [a_lit "hole"; a_lit "disc"]], lit "unknown PadType hole");
   (fp [a_pad [a_lit "smd"; a_lit "disc"; at0]], lit "unknown PadShape: disc");
   (fp [a_pad [a_lit "smd"; a_lit "rect"; at0; node "die_length" [a_lit "1"]]], lit "unknown part die_length");
   (fp [a_pad [a_lit "smd"; a_lit "rect"; at0; node "layers" [a_lit "X.Cu"]]], lit "unknown part layers");
   (fp [a_pad [a_lit "smd"; a_lit "rect"; node "clearance" []; node "what" []]], lit "not enough elements in <tree>");
   (fp [a_pad [a_lit "smd"; a_lit "rect"; node "thickness" [a_lit "0.1"]; node "clearance" [a_lit "2"]]], lit "pad: unknown Thickness(0.1)");
   (fp [a_pad [a_lit "smd"; a_lit "rect"; node "thickness" [a_lit "0.1"]; node "what" []]; a_lit "lokced"], lit "unknown part what")].
Definition said_by {A} (r : told A) : str := match r with TSays m => m | _ => [] end.
Definition says_it {A} (t : sexp -> told A) (x : sexp * str) : bool := str_eqb (said_by (t (fst x))) (snd x) && negb (str_eqb (snd x) []).
Lemma says_all {A} (t : sexp -> told A) (c : says) l : (forall s m, t s = TSays m <-> c s m) -> forallb (says_it t) l = true -> Forall (fun x => c (fst x) (snd x)) l.
Proof.
  intros C H. apply Forall_forall. intros x I. rewrite forallb_forall in H. apply H in I. unfold says_it in I. apply andb_prop in I as [E N]. apply C.
  apply str_eqb_eq in E. destruct (t (fst x)); cbn [said_by] in E; try (rewrite <- E in N; discriminate N). now rewrite E.
Qed.
Example C106_module_ex : Forall (fun x => module_says shown shown_f (fst x) (snd x)) fp_bad.
Proof. apply (says_all _ _ _ (C106_module shown shown_f)). vm_compute. reflexivity. Qed.
Definition pt (k : string) := node k [a_lit "0"; a_lit "0"].
Definition pcb (l : list sexp) := node "kicad_pcb" (node "version" [a_lit "4"] :: node "anything" [] :: l).
Definition pcb_bad : list (sexp * str) :=
  [(pcb [node "layers" [SList [a_lit "0"; a_lit "F.Cu"; a_lit "signal"]; SList [a_lit "31"; a_lit "B.Cu"; a_lit "earth"; a_lit "x"; a_lit "y"]]],
     lit "unknown layertype earth in <tree>");
   (pcb [node "layers" [SList [a_lit "0"; a_lit "Q.Cu"; a_lit "signal"]]], lit "unknown layer side Q");
   (pcb [fp [a_lit "lokced"]], lit "unknown element in module: lokced");
   (pcb [node "net_class" [a_lit "a"; a_lit "b"; node "clearance" [a_lit "1"]; node "colour" [a_lit "1"]]], lit "unknown net_class field colour");
   (pcb [node "gr_line" [pt "start"; pt "stop"]], lit "unknown XyType stop");
   (pcb [node "gr_line" [pt "start"; pt "end"; node "angle" [a_lit "1"]; node "layer" [a_lit "Q.Cu"]]], lit "unknown layer side Q");
   (pcb [node "segment" [pt "start"; pt "end"; node "width" [a_lit "1"]; node "layer" [a_lit "Q.Cu"]]], lit "unknown layer side Q");
   (pcb [node "via" [a_lit "micro"; at0; node "size" [a_lit "1"]; node "layers" [a_lit "F.Cu"; a_lit "Q.Cu"]]], lit "unknown layer side Q")].
Example C106_layout_ex : Forall (fun x => board_says shown shown_f (fst x) (snd x)) pcb_bad.
Proof. apply (says_all _ _ _ (C106_layout shown shown_f)). vm_compute. reflexivity. Qed.

(** A mistake in a part of an element is not always named: where the part may be missing, what
    is wrong with it is forgotten. *)
Theorem C106_named_refuted : exists sh dbg s l m, In l (match s with SList q => q | _ => [] end) /\ layer_says l m /\ t_element sh dbg s = TOther.
Proof. exact not_named. Qed.
Print Assumptions C106_named_refuted.
