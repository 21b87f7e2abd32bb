(** Proofs: further facts and witnesses about checks and fixes (C35-C37, C47, C48). *)
From Coq Require Import String Lia.
From Verif Require Import Base Str StrFacts Num F64 F64Text F64Facts Sexp FpData FpLayer FpSer FpDe FpWf FpFacts FpOps FpOpsSpec FpExamples SymData SymOps CheckFix SymCheck FpCheck
  CheckSpec CheckFacts FixFacts CourtFacts ReportFacts.
Open Scope string_scope. Open Scope list_scope.

Lemma combine_seq_in {A} (s : list A) a k c : In (k, c) (combine (seq a (length s)) s) <-> (a <= k)%nat /\ nth_error s (k - a) = Some c.
Proof.
  revert a. induction s as [|x s IH]; intros a; cbn [length seq combine In].
  - split; [intros []|]. intros [_ H]. destruct (k - a)%nat; discriminate.
  - rewrite IH. split.
    + intros [[= -> ->]|[L H]]; [split; [lia|]; rewrite Nat.sub_diag; reflexivity|]. split; [lia|].
      replace (k - a)%nat with (S (k - S a)) by lia. exact H.
    + intros [L H]. destruct (Nat.eq_dec k a) as [->|N].
      * rewrite Nat.sub_diag in H. injection H as ->. now left.
      * right. split; [lia|]. replace (k - a)%nat with (S (k - S a)) in H by lia. exact H.
Qed.
Lemma bad_chars_in s k c : In (k, c) (bad_chars s) <-> nth_error s k = Some c /\ ~ name_char c.
Proof.
  unfold bad_chars. rewrite filter_In, combine_seq_in, Nat.sub_0_r. cbn [snd]. rewrite Bool.negb_true_iff, <- Bool.not_true_iff_false, name_charb_spec.
  split; [intros [[_ H] N]|intros [H N]]; auto using Nat.le_0_l.
Qed.

Lemma grid_100 x : on_grid 100 x -> on_grid 10 x. Proof. intros [k ->]. exists (10 * k)%Z. lia. Qed.
Lemma grid_50 x : on_grid 50 x -> on_grid 5 x. Proof. intros [k ->]. exists (10 * k)%Z. lia. Qed.
Lemma pin_no_false_alarm p : on_grid 100 (pn_x p) -> on_grid 100 (pn_y p) -> on_grid 50 (pn_len p) -> (100 <= pn_len p <= 300)%Z ->
  forall i, In i (all_findings (pin_check p)) -> it_rule i <> 1%Z.
Proof.
  intros X Y L B i H. apply grid_100 in X, Y. apply grid_50 in L. apply pin_reports in H.
  repeat (destruct H as [[C ->]|H]; [first [contradiction | lia | discriminate]|]). destruct H as [_ ->]. discriminate.
Qed.
Lemma pin_grid_refuted : exists p, pin_check p = [] /\ ~ on_grid 100 (pn_x p) /\ ~ on_grid 100 (pn_y p) /\ ~ on_grid 50 (pn_len p).
Proof.
  exists (mk_pin (lit "A") (lit "1") 10 (-30) 105 PRight 50 50 1 1 PTInput true PSLine). split; [reflexivity|].
  repeat split; intros [k H]; cbn [pn_x pn_y pn_len] in H; lia.
Qed.

Lemma fix_name c m m' : fp_fix c m = Ok m' -> m_name m' = m_name m.
Proof. intros F. exact (proj1 (fix_finds c m m' F)). Qed.
Lemma fix_saves c m m' : module_ok m = true -> fgtb (cg_font_size c) fzero = true -> fp_fix c m = Ok m' ->
  module_ok m' = true /\ de_module (ser_module m') = Ok m'.
Proof. intros W S F. assert (O := fix_ok c m m' W S F). split; [exact O|]. apply rt_module, O. Qed.
Lemma fix_lines_spec c m m' : fp_fix c m = Ok m' ->
  lines_of m' = lines_of m ++ (if Nat.ltb (length (courtyard_list m)) 4 then courtyard m else []).
Proof. intros F. rewrite courtyard_list_spec. exact (proj1 (proj2 (fix_lines c m m' F))). Qed.

Lemma ok_get {A} (P : A -> bool) (r : res A) : match r with Ok a => P a | _ => false end = true -> exists a, r = Ok a /\ P a = true.
Proof. destruct r as [a| |]; try discriminate. eauto. Qed.
Definition note : fp_text := mk_text (lit "user") (lit "pin 1 here") (mkat "0" "0" "0") f_silk ex_effects false.
Lemma user_text_lost : exists m m' t t' k, fp_fix klc m = Ok m' /\ nth_error (m_elements m) k = Some (EFpText t) /\ nth_error (m_elements m') k = Some (EFpText t')
  /\ tx_name t = lit "user" /\ tx_value t' <> tx_value t.
Proof.
  set (m := mk_module (lit "X") [EFpText note]).
  destruct (ok_get (fun m' => match nth_error (m_elements m') 0 with Some (EFpText t') => negb (str_eqb (tx_value t') (tx_value note)) | _ => false end) (fp_fix klc m))
    as (m' & F & H); [vm_compute; reflexivity|].
  destruct (nth_error (m_elements m') 0) as [e|] eqn:E; [|discriminate]. destruct e; try discriminate.
  exists m, m', note, t, 0%nat. split; [exact F|]. split; [reflexivity|]. split; [exact E|]. split; [reflexivity|].
  intros C. rewrite C, str_eqb_refl in H. discriminate.
Qed.
Definition back (t : layer_type) : layer := mk_layer SBack t.
Definition back_module : module :=
  mk_module (lit "X") [ELayer (back LCu); EFpText (mk_text (lit "reference") (lit "R1") (mkat "0" "0" "0") (back LSilkS) ex_effects false);
    EPad (mk_pad (lit "1") Smd Rect (mkxy "1" "1" XSize) None (mkat "0" "0" "0") [back LCu; back LMask] None None None None None None None)].
Lemma side_lost : exists m m' l, fp_fix klc m = Ok m' /\ In (ELayer (mk_layer SBack LCu)) (m_elements m)
  /\ forallb back_only (m_elements m) = true /\ In (EFpLine l) (m_elements m') /\ la_side (li_layer l) = SFront.
Proof.
  destruct (ok_get (fun m' => existsb (fun e => match e with EFpLine l => match la_side (li_layer l) with SFront => true | _ => false end | _ => false end) (m_elements m')) (fp_fix klc back_module))
    as (m' & F & H); [vm_compute; reflexivity|].
  apply existsb_exists in H as (e & I & S). destruct e; try discriminate.
  exists back_module, m', l. split; [exact F|]. split; [left; reflexivity|]. split; [reflexivity|]. split; [exact I|].
  destruct (la_side (li_layer l)); try discriminate. reflexivity.
Qed.
(** A line drawn from right to left is left out when another line is drawn the other
    way. *)
Definition f_line (x1 x2 : string) : element := EFpLine (mk_line (mkxy x1 "0" XStart) (mkxy x2 "1" XEnd) f_fab (fl "0.1")).
Definition rl_module : module := mk_module (lit "X") [f_line "9" "-9"; f_line "0" "1"].
Lemma courtyard_refuted : exists m e p l, forallb geo_ok (m_elements m) = true /\ In e (m_elements m) /\ In p (fab_points e) /\ smallb (fst p) = true /\ smallb (snd p) = true
  /\ In l (courtyard m) /\ fltb (xy_x (li_start l)) (fst p) = true /\ forall l', In l' (courtyard m) -> fltb (xy_x (li_start l')) (fst p) = true.
Proof.
  exists rl_module, (f_line "9" "-9"), (xy_point (mkxy "9" "0" XStart)), (hd ex_line (courtyard rl_module)).
  split; [vm_compute; reflexivity|]. split; [left; reflexivity|]. split; [left; reflexivity|].
  split; [vm_compute; reflexivity|]. split; [vm_compute; reflexivity|]. split.
  - unfold courtyard. destruct (module_at rl_module). left. reflexivity.
  - assert (H : forallb (fun l' => fltb (xy_x (li_start l')) (fst (xy_point (mkxy "9" "0" XStart)))) (courtyard rl_module) = true) by (vm_compute; reflexivity).
    split; [vm_compute; reflexivity|]. intros l' I. rewrite forallb_forall in H. exact (H l' I).
Qed.
