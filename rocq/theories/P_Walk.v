(** Property theorems: what happens when a schematic is walked through its
    sheets (C84, C85). *)
From Coq Require Import String Lia.
From Verif Require Import Base Str StrFacts SchData SchPrint SchParse SchWf SchEnds SchOps SchSpec SchOpsFacts WalkSpec WalkFacts WalkFind P_SchOps.
Open Scope string_scope. Open Scope list_scope.

(** ** C84 *)
(** Collecting all components has three outcomes and always exactly one of them:
    the list of [comps_of] (C32), the failure of the first sheet in reading order
    that cannot be opened, or a descent without end. *)
Theorem C84_fails : forall fs, (forall p, fs_read fs p <> Err EFuel) -> forall s e,
  stops fs s (Err e) <-> e <> EFuel /\ exists n, forall m, (n <= m)%nat -> all_components fs m s = Err e.
Proof. exact stops_err_iff. Qed.
Print Assumptions C84_fails.
Theorem C84_aborts : forall fs, (forall p, fs_read fs p <> Err EFuel) -> forall s,
  stops fs s Panic <-> exists n, forall m, (n <= m)%nat -> all_components fs m s = Panic.
Proof. intros fs _. exact (stops_panic_iff fs). Qed.
Print Assumptions C84_aborts.
Theorem C84_never : forall fs, (forall p, fs_read fs p <> Err EFuel) -> forall s,
  endless fs s <-> forall n, all_components fs n s = Err EFuel.
Proof. exact endless_iff. Qed.
Print Assumptions C84_never.
Theorem C84_one : forall fs, (forall p, fs_read fs p <> Err EFuel) -> forall s,
  ((exists l, comps_of fs s l) \/ (exists x, stops fs s x) \/ endless fs s) /\
  ((exists l, comps_of fs s l) -> (exists x, stops fs s x) -> False) /\
  ((exists l, comps_of fs s l) -> endless fs s -> False) /\ ((exists x, stops fs s x) -> endless fs s -> False) /\
  (forall x y, stops fs s x -> stops fs s y -> x = y).
Proof. intros fs NF s. exact (conj (walk_one fs NF s) (walk_excl fs NF s)). Qed.
Print Assumptions C84_one.
(** With finitely many files the descent never ends exactly if it comes back to
    a schematic it is inside of; a call that is not over at a depth of one more
    than the number of files is never over. *)
Theorem C84_cycle : forall fs, (forall p, fs_read fs p <> Err EFuel) -> forall P s, files_among fs s P ->
  (endless fs s <-> all_components fs (S (length P)) s = Err EFuel) /\
  (endless fs s <-> exists t, plus (goes_into fs) s t /\ plus (goes_into fs) t t) /\
  (endless fs s \/ forall n, (length P < n)%nat ->
     all_components fs n s = all_components fs (S (length P)) s /\ all_components fs n s <> Err EFuel).
Proof. exact all_finite. Qed.
Print Assumptions C84_cycle.

Lemma tfs_nf l p : fs_read (tfs l) p <> Err EFuel.
Proof. cbn. destruct (find _ l); discriminate. Qed.
(** The files of [tfs l] are finitely many. *)
Lemma tfs_among l s : files_among (tfs l) s (map (fun x => lit (fst x)) l).
Proof.
  intros t h p u _ _ _ Q. unfold parse_file in Q. cbn [fs_read tfs] in Q.
  destruct (find (fun x => str_eqb (lit (fst x)) p) l) as [x|] eqn:E; [|discriminate].
  apply find_some in E as [I E]. apply str_eqb_eq in E as <-. now apply (in_map (fun x => lit (fst x))).
Qed.
Definition w_b : schematic := tsch "b.sch" ["R2"] [].
Definition w_c : schematic := tsch "c.sch" ["R3"] ["gone.sch"].
Definition w_fs : fsys := tfs [("b.sch", w_b); ("c.sch", w_c)].
Lemma w_open_b s : sc_filename s <> None -> opens w_fs s (tsheet "b.sch") w_b.
Proof. intros F. apply (tfs_load _ s "b.sch" ("b.sch", w_b)); [reflexivity|reflexivity|vm_compute; reflexivity|exact F]. Qed.
Lemma w_open_c s : sc_filename s <> None -> opens w_fs s (tsheet "c.sch") w_c.
Proof. intros F. apply (tfs_load _ s "c.sch" ("c.sch", w_c)); [reflexivity|reflexivity|vm_compute; reflexivity|exact F]. Qed.
Lemma w_gone : parse_file_for_sheet w_fs w_c (tsheet "gone.sch") = Err EIo.
Proof. reflexivity. Qed.
Lemma w_b_comps : comps_of w_fs w_b [tcomp "R2"].
Proof. apply (comps_node w_fs w_b []). constructor. Qed.
(** b.sch is collected, c.sch is entered, its sheet is missing. *)
Example C84_fails_ex : stops w_fs (tsch "a.sch" ["R1"] ["b.sch"; "c.sch"]) (Err EIo).
Proof.
  eapply stop_in with (t := w_c).
  - exists [tsheet "b.sch"], (tsheet "c.sch"), []. split; [reflexivity|]. split.
    + constructor; [|constructor]. exists w_b, [tcomp "R2"]. split; [apply w_open_b; discriminate|exact w_b_comps].
    + apply w_open_c. discriminate.
  - apply (stop_at w_fs w_c [] (tsheet "gone.sch") []); [reflexivity|constructor|exact w_gone|discriminate].
Qed.
(** Two files that contain each other, behind a harmless one *)
Definition v_p : schematic := tsch "p.sch" ["R1"] ["b.sch"; "q.sch"].
Definition v_q : schematic := tsch "q.sch" ["R3"] ["p.sch"].
Definition v_fs : fsys := tfs [("b.sch", w_b); ("p.sch", v_p); ("q.sch", v_q)].
Lemma v_pq : goes_into v_fs v_p v_q.
Proof.
  exists [tsheet "b.sch"], (tsheet "q.sch"), []. split; [reflexivity|]. split.
  - constructor; [|constructor]. exists w_b, [tcomp "R2"]. split.
    + apply (tfs_load _ v_p "b.sch" ("b.sch", w_b)); [reflexivity|reflexivity|vm_compute; reflexivity|discriminate].
    + apply (comps_node v_fs w_b []). constructor.
  - apply (tfs_load _ v_p "q.sch" ("q.sch", v_q)); [reflexivity|reflexivity|vm_compute; reflexivity|discriminate].
Qed.
Lemma v_qp : goes_into v_fs v_q v_p.
Proof.
  exists [], (tsheet "p.sch"), []. split; [reflexivity|]. split; [constructor|].
  apply (tfs_load _ v_q "p.sch" ("p.sch", v_p)); [reflexivity|reflexivity|vm_compute; reflexivity|discriminate].
Qed.
Example C84_never_ex : endless v_fs v_p /\ files_among v_fs v_p (map lit ["b.sch"; "p.sch"; "q.sch"]) /\
  plus (goes_into v_fs) v_p v_p.
Proof.
  assert (C : plus (goes_into v_fs) v_p v_p) by (eapply plus_more; [exact v_pq|apply plus_one, v_qp]).
  split; [now apply cycle_endless|]. split; [exact (tfs_among _ v_p)|exact C].
Qed.

(** ** C85 *)
(** Looking for a reference: found, not found or not searchable with its error,
    aborted, or a search without end; always exactly one of them. *)
Theorem C85_finds : forall fs r, (forall p, fs_read fs p <> Err EFuel) -> forall s c,
  finds fs r s c <-> exists n, forall m, (n <= m)%nat -> component_by_reference fs m r s = Ok c.
Proof. exact finds_iff. Qed.
Print Assumptions C85_finds.
Theorem C85_fails : forall fs r, (forall p, fs_read fs p <> Err EFuel) -> forall s e,
  fails fs r s e <-> e <> EFuel /\ exists n, forall m, (n <= m)%nat -> component_by_reference fs m r s = Err e.
Proof. exact fails_iff. Qed.
Print Assumptions C85_fails.
Theorem C85_aborts : forall fs r, (forall p, fs_read fs p <> Err EFuel) -> forall s,
  breaks fs r s <-> exists n, forall m, (n <= m)%nat -> component_by_reference fs m r s = Panic.
Proof. exact breaks_iff. Qed.
Print Assumptions C85_aborts.
Theorem C85_never : forall fs r, (forall p, fs_read fs p <> Err EFuel) -> forall s,
  hunts fs r s <-> forall n, component_by_reference fs n r s = Err EFuel.
Proof. exact hunts_iff. Qed.
Print Assumptions C85_never.
Theorem C85_one : forall fs r, (forall p, fs_read fs p <> Err EFuel) -> forall s,
  ((exists c, finds fs r s c) \/ (exists e, fails fs r s e) \/ breaks fs r s \/ hunts fs r s) /\
  (forall c d, finds fs r s c -> finds fs r s d -> c = d) /\ (forall e f, fails fs r s e -> fails fs r s f -> e = f) /\
  (forall c e, finds fs r s c -> fails fs r s e -> False) /\ (forall c, finds fs r s c -> breaks fs r s -> False) /\
  (forall e, fails fs r s e -> breaks fs r s -> False) /\
  (hunts fs r s -> (forall c, ~ finds fs r s c) /\ (forall e, ~ fails fs r s e) /\ ~ breaks fs r s).
Proof. intros fs r NF s. exact (conj (look_one fs r NF s) (look_excl fs r NF s)). Qed.
Print Assumptions C85_one.
Theorem C85_cycle : forall fs r, (forall p, fs_read fs p <> Err EFuel) -> forall P s, files_among fs s P ->
  (hunts fs r s <-> component_by_reference fs (S (length P)) r s = Err EFuel) /\
  (hunts fs r s <-> exists t, plus (looks_into fs r) s t /\ plus (looks_into fs r) t t) /\
  (hunts fs r s \/ forall n, (length P < n)%nat ->
     component_by_reference fs n r s = component_by_reference fs (S (length P)) r s /\ component_by_reference fs n r s <> Err EFuel).
Proof. exact by_finite. Qed.
Print Assumptions C85_cycle.
(** c.sch has a missing sheet; searched from above that is only "not found", and
    the search goes on in b.sch.  Searched from c.sch itself it is the error. *)
Example C85_finds_ex : finds w_fs (lit "R2") (tsch "a.sch" ["R1"] ["c.sch"; "b.sch"]) (tcomp "R2") /\
  fails w_fs (lit "R2") w_c EIo.
Proof.
  assert (F : fails w_fs (lit "R2") w_c EIo).
  { apply (fail_at w_fs (lit "R2") w_c [] (tsheet "gone.sch") []); [|reflexivity|constructor|exact w_gone].
    intros c [<-|[]]. discriminate. }
  split; [|exact F]. apply find_in with (t := w_b).
  - split; [intros c [<-|[]]; discriminate|]. exists [tsheet "c.sch"], (tsheet "b.sch"), []. split; [reflexivity|]. split.
    + apply missed_cons with (t := w_c) (e := EIo); [apply w_open_c; discriminate|exact F|constructor].
    + apply w_open_b. discriminate.
  - apply (find_own w_fs (lit "R2") w_b [] (tcomp "R2") []); [reflexivity|constructor|reflexivity].
Qed.
Example C85_never_ex : hunts v_fs (lit "R9") v_q.
Proof.
  apply (hunts_in v_fs (lit "R9") v_q v_p); [split; [intros c [<-|[]]; discriminate|]|].
  - exists [], (tsheet "p.sch"), []. split; [reflexivity|]. split; [constructor|].
    apply (tfs_load _ v_q "p.sch" ("p.sch", v_p)); [reflexivity|reflexivity|vm_compute; reflexivity|discriminate].
  - apply cycle_hunts.
    assert (L : looks_into v_fs (lit "R9") v_p v_q).
    { split; [intros c [<-|[]]; discriminate|]. exists [tsheet "b.sch"], (tsheet "q.sch"), []. split; [reflexivity|]. split.
      - apply missed_cons with (t := w_b) (e := EOther); [|apply fail_all; [intros c [<-|[]]; discriminate|constructor]|constructor].
        apply (tfs_load _ v_p "b.sch" ("b.sch", w_b)); [reflexivity|reflexivity|vm_compute; reflexivity|discriminate].
      - apply (tfs_load _ v_p "q.sch" ("q.sch", v_q)); [reflexivity|reflexivity|vm_compute; reflexivity|discriminate]. }
    eapply plus_more; [exact L|]. apply plus_one. split; [intros c [<-|[]]; discriminate|].
    exists [], (tsheet "p.sch"), []. split; [reflexivity|]. split; [constructor|].
    apply (tfs_load _ v_q "p.sch" ("p.sch", v_p)); [reflexivity|reflexivity|vm_compute; reflexivity|discriminate].
Qed.
(** The claim is false: the error of a missing file further down is lost. *)
Theorem C85_error_refuted : exists fs r s t, reachable fs s t /\ (exists h, In h (sc_sheets t) /\ parse_file_for_sheet fs t h = Err EIo) /\
  fails fs r s EOther.
Proof.
  exists w_fs, (lit "R9"), (tsch "a.sch" ["R1"] ["c.sch"]), w_c. split; [|split].
  - eapply reach_sheet; [left; reflexivity|apply w_open_c; discriminate|apply reach_here].
  - exists (tsheet "gone.sch"). split; [left; reflexivity|exact w_gone].
  - apply fail_all; [intros c [<-|[]]; discriminate|].
    apply missed_cons with (t := w_c) (e := EIo); [apply w_open_c; discriminate| |constructor].
    apply (fail_at w_fs (lit "R9") w_c [] (tsheet "gone.sch") []); [|reflexivity|constructor|exact w_gone].
    intros c [<-|[]]. discriminate.
Qed.
Print Assumptions C85_error_refuted.
