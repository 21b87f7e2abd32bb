(** Trees without rules are written on one line (lemmas for C66). *)
From Coq Require Import String Lia.
From Verif Require Import Base Str StrFacts Sexp Formatter FormatterSpec FormatterFacts TextSpec TextFacts PlainSpec.
Open Scope string_scope. Open Scope list_scope.

Definition bare (e : option (str * option indent)) : Prop := match e with None => True | Some (n, w) => w = None /\ one_of layout_names n = false end.
Definition quiet_state (f : fstate) : Prop := Forall bare (fs_stack f) /\ fs_seen_module f = false.
Lemma not_name n k : one_of layout_names n = false -> In k layout_names -> seqb n k = false.
Proof.
  intros H I. destruct (seqb n k) eqn:E; [|reflexivity]. rewrite <- H. symmetry. unfold one_of. apply existsb_exists. exists k. split; [exact I|exact E].
Qed.
Lemma bare_is f k : quiet_state f -> In k layout_names -> fm_is f k = false.
Proof.
  intros [F _] I. unfold fm_is. induction F as [|[[n w]|] l B _ IH]; [reflexivity| |exact IH]. cbn [existsb]. rewrite IH. destruct B as [_ B]. now rewrite (not_name _ _ B I).
Qed.
Lemma bare_parent f k : quiet_state f -> In k layout_names -> fm_parent f k = false.
Proof. intros [F _] I. unfold fm_parent. destruct F as [|[[n w]|] l B _]; [reflexivity| |reflexivity]. destruct B as [_ B]. exact (not_name _ _ B I). Qed.
Lemma bare_want f e : quiet_state f -> want_name f e = None.
Proof.
  intros Q. unfold want_name, want_module, want_layout, want_fp_lib_table. rewrite (bare_is f "kicad_pcb"), (bare_is f "fp_lib_table") by (exact Q || (cbn; tauto)).
  rewrite (bare_parent f "module"), (bare_parent f "dimension"), (bare_parent f "fp_text"), (bare_parent f "gr_text"), (bare_parent f "pts"), (bare_parent f "model"), (bare_parent f "pad") by (exact Q || (cbn; tauto)).
  reflexivity.
Qed.
Definition after (f : fstate) (p : Z) : fstate := mk_fs (fs_indent f) (fs_stack f) p false (fs_seen_segment f).
Lemma quiet_after f p : quiet_state f -> quiet_state (after f p).
Proof. intros [F _]. split; [exact F|reflexivity]. Qed.
Lemma bare_open f v : quiet_state f -> one_of layout_names (head_name v) = false -> exists p e, bare e /\
  fm_open f v = (mk_fs (fs_indent f) (e :: fs_stack f) p false (fs_seen_segment f), [40%N]).
Proof.
  intros Q H. unfold fm_open. cbv zeta. rewrite (proj2 Q), andb_false_r. cbn [text_if].
  rewrite (not_name _ "module" H ltac:(cbn; tauto)), (not_name _ "segment" H ltac:(cbn; tauto)). rewrite !andb_false_r. cbn [text_if fs_indent fs_stack fs_pts fs_seen_module fs_seen_segment].
  rewrite orb_false_r. rewrite bare_want by (split; [exact (proj1 Q)|reflexivity]). cbn [text_if fs_indent fs_stack fs_pts fs_seen_module fs_seen_segment app].
  eexists _, _. split; [|reflexivity]. destruct (negb (is_empty (head_name v))); [|exact I]. split; [reflexivity|exact H].
Qed.
Lemma bare_close f e l : fs_stack f = e :: l -> bare e -> fm_close f = (mk_fs (fs_indent f) l (fs_pts f) (fs_seen_module f) (fs_seen_segment f), [41%N]).
Proof.
  intros E B. unfold fm_close. rewrite E. cbn [tl]. destruct e as [[n w]|]; [|reflexivity]. destruct B as [-> B].
  assert (M : mem n ["module"; "kicad_pcb"; "fp_lib_table"] = false).
  { unfold mem. cbn [existsb]. rewrite !(not_name n) by (exact B || (cbn; tauto)). reflexivity. }
  rewrite M, andb_false_r. reflexivity.
Qed.
Lemma bare_element f v : quiet_state f -> fm_element f v = [32%N].
Proof. intros Q. unfold fm_element, want. destruct v as [x|[|[x|?|] ?]|]; rewrite ?(bare_want f) by exact Q; reflexivity. Qed.
Section Plain.
Variable nq : str -> bool.
Definition plain_at (s : sexp) : Prop := ordinary s = true -> forall f, quiet_state f -> exists p, fm_ser nq s f = (after f p, compact nq s).
Lemma plain_rest l : Forall plain_at l -> forallb ordinary l = true -> forall f, quiet_state f -> exists p, fm_rest nq l f = (after f p, flat_map (fun y => 32%N :: compact nq y) l).
Proof.
  induction 1 as [|y l Y _ IH]; intros O f Q; cbn [fm_rest flat_map].
  - exists (fs_pts f). destruct Q as [_ Q]. destruct f. cbn in *. subst. reflexivity.
  - cbn [forallb] in O. apply andb_true_iff in O as [O1 O2]. destruct (Y O1 f Q) as [p P]. rewrite P. destruct (IH O2 (after f p) (quiet_after _ _ Q)) as [q R]. rewrite R.
    rewrite (bare_element _ _ Q). exists q. reflexivity.
Qed.
Lemma plain_all s : plain_at s.
Proof.
  induction s as [x| |l IH] using sexp_nest_ind; intros O f Q.
  - exists (fs_pts f). destruct Q as [_ Q]. destruct f. cbn in *. subst. reflexivity.
  - exists (fs_pts f). destruct Q as [_ Q]. destruct f. cbn in *. subst. reflexivity.
  - cbn [ordinary] in O. apply andb_true_iff in O as [H O]. assert (N : one_of layout_names (head_name (hd_error l)) = false).
    { destruct l as [|[h|?|] l]; try reflexivity. cbn [hd_error head_name]. now apply negb_true_iff in H. }
    destruct (bare_open f (hd_error l) Q N) as (p & e & B & OP). destruct l as [|x r].
    + rewrite fm_ser_nil. cbn [hd_error] in OP. rewrite OP. erewrite bare_close; [|reflexivity|exact B]. exists p. reflexivity.
    + rewrite fm_ser_cons. cbn [hd_error] in OP. rewrite OP. inversion IH as [|? ? X R]; subst. cbn [forallb] in O. apply andb_true_iff in O as [O1 O2].
      assert (Q1 : quiet_state (mk_fs (fs_indent f) (e :: fs_stack f) p false (fs_seen_segment f))) by (split; [constructor; [exact B|exact (proj1 Q)]|reflexivity]).
      destruct (X O1 _ Q1) as [p1 P1]. rewrite P1. destruct (plain_rest r R O2 _ (quiet_after _ p1 Q1)) as [p2 P2]. rewrite P2.
      erewrite bare_close; [|reflexivity|exact B]. exists p2. cbn [compact app]. reflexivity.
Qed.
Lemma pretty_plain n s : ordinary s = true -> pretty nq n s = compact nq s.
Proof. intros O. destruct (plain_all s O (fs_new n)) as [p P]; [split; [constructor|reflexivity]|]. unfold pretty. now rewrite P. Qed.
End Plain.
