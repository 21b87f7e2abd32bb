(** The formatter lays texts out as specified (lemmas for C66). *)
From Coq Require Import String Lia.
From Verif Require Import Base Str StrFacts Sexp Formatter FormatterSpec FormatterFacts TextSpec.
Open Scope string_scope. Open Scope list_scope.

(** ** Line breaks *)
Definition to_indent (b : brk) : indent := mk_indent (Z.of_nat (b_lines b)) (b_close b) (if b_after b then 1 else 0).
Definition names (f : fstate) (anc : list str) : Prop := exists st, fs_stack f = map Some st /\ map fst st = anc.
Lemma names_is f anc w : names f anc -> fm_is f w = inside anc [w].
Proof.
  intros (st & E & <-). unfold fm_is, inside. rewrite E. clear E. induction st as [|[n i] st IH]; [reflexivity|]. cbn [map existsb fst]. rewrite IH.
  unfold one_of, seqb. cbn [existsb]. now rewrite orb_false_r.
Qed.
Lemma names_parent f anc w : names f anc -> fm_parent f w = match anc with p :: _ => seqb p w | [] => false end.
Proof. intros (st & E & <-). unfold fm_parent. rewrite E. now destruct st as [|[n i] st]. Qed.
Lemma by_rules_cons ps cs b rs p c : by_rules ((ps, cs, b) :: rs) p c =
  if one_of ps p && (match cs with [] => true | _ => one_of cs c end) then Some b else by_rules rs p c.
Proof. unfold by_rules. cbn [find applies]. now destruct (_ && _). Qed.
Lemma by_rules_nil p c : by_rules [] p c = None. Proof. reflexivity. Qed.
Lemma one_of_mem l s : one_of l s = mem s l.
Proof. reflexivity. Qed.
Lemma one_of_1 w s : one_of [w] s = seqb s w.
Proof. unfold one_of, seqb. cbn [existsb]. apply orb_false_r. Qed.
Lemma inside_or anc a b : inside anc [a; b] = inside anc [a] || inside anc [b].
Proof.
  unfold inside. induction anc as [|x anc IH]; [reflexivity|]. cbn [existsb]. rewrite IH. unfold one_of. cbn [existsb].
  destruct (str_eqb x (lit a)), (str_eqb x (lit b)), (existsb (fun s => str_eqb s (lit a) || false) anc); reflexivity.
Qed.
Lemma pts_rem k w : (0 < w)%nat -> Z.eqb (Z.rem (Z.of_nat k) (Z.of_nat w)) 0 = Nat.eqb (k mod w) 0.
Proof.
  intros H. rewrite Z.rem_mod_nonneg by lia. rewrite <- Nat2Z.inj_mod. destruct (Nat.eqb_spec (k mod w) 0) as [->|E]; [reflexivity|].
  apply Z.eqb_neq. lia.
Qed.
Lemma seqb_eq s w : seqb s w = true -> s = lit w.
Proof. apply str_eqb_eq. Qed.
Lemma mem_perm (a b : list string) s : (forall x, In x a <-> In x b) -> mem s a = mem s b.
Proof.
  intros H. unfold mem. apply Bool.eq_true_iff_eq. rewrite !existsb_exists. split; intros (x & I & E); exists x; (split; [now apply H|exact E]).
Qed.
Lemma one_of_perm (a b : list string) s : (forall x, In x a <-> In x b) -> one_of a s = one_of b s.
Proof. apply mem_perm. Qed.
Lemma one_of_or2 a b s : one_of [a; b] s = seqb s a || seqb s b.
Proof. unfold one_of. cbn [existsb]. now rewrite orb_false_r. Qed.
Lemma one_of_or5 a b c d e s : one_of [a; b; c; d; e] s = seqb s a || seqb s b || seqb s c || seqb s d || seqb s e.
Proof. unfold one_of. cbn [existsb]. now rewrite orb_false_r, !orb_assoc. Qed.
Ltac perm := intros x; cbn [In]; tauto.

Lemma want_spec f anc c k : names f anc -> (match anc with p :: _ => seqb p "pts" | [] => false end = true -> fs_pts f = Z.of_nat k) ->
  want_name f c = option_map to_indent (break_of anc c k).
Proof.
  intros HN HP. unfold want_name, want_module, want_layout, want_fp_lib_table.
  rewrite !(names_parent _ _ _ HN), !(names_is _ _ _ HN). destruct anc as [|p anc]; [reflexivity|]. cbn [break_of].
  rewrite !one_of_1.
  destruct (seqb p "pts") eqn:EP.
  - specialize (HP eq_refl). apply seqb_eq in EP. subst p.
    rewrite HP. cbn [andb].
    destruct (seqb c "xy") eqn:EC.
    + cbn [andb].
      assert (PB : ((0 <? Z.of_nat k)%Z && Z.eqb (Z.rem (Z.of_nat k) (if inside (lit "pts" :: anc) ["fp_poly"] then 4 else 5)) 0
         || Z.eqb (Z.of_nat k) 0 && (inside (lit "pts" :: anc) ["polygon"] || inside (lit "pts" :: anc) ["filled_polygon"]))
         = point_breaks (lit "pts" :: anc) k).
      { unfold point_breaks. destruct k as [|k].
        - cbn [Z.of_nat]. rewrite inside_or. reflexivity.
        - replace (Z.eqb (Z.of_nat (S k)) 0) with false by (symmetry; apply Z.eqb_neq; lia). rewrite orb_false_r.
          replace (0 <? Z.of_nat (S k))%Z with true by (symmetry; apply Z.ltb_lt; lia). cbn [andb].
          destruct (inside (lit "pts" :: anc) ["fp_poly"]); [apply (pts_rem (S k) 4)|apply (pts_rem (S k) 5)]; lia. }
      rewrite PB. destruct (point_breaks (lit "pts" :: anc) k); [reflexivity|].
      unfold part_rules, board_rules. rewrite !by_rules_cons, !by_rules_nil.
      generalize (inside (lit "pts" :: anc) ["kicad_pcb"]), (inside (lit "pts" :: anc) ["fp_lib_table"]). intros [|] [|]; reflexivity.
    + cbn [andb]. unfold part_rules, board_rules. rewrite !by_rules_cons, !by_rules_nil.
      generalize (inside (lit "pts" :: anc) ["kicad_pcb"]), (inside (lit "pts" :: anc) ["fp_lib_table"]). intros [|] [|]; reflexivity.
  - cbn [andb]. unfold part_rules, board_rules. rewrite !by_rules_cons, !by_rules_nil, !one_of_1.
    rewrite (one_of_perm ["at"; "attr"; "descr"; "fp_circle"; "fp_line"; "fp_poly"; "pad"; "path"] ["at"; "descr"; "fp_line"; "fp_poly"; "pad"; "path"; "fp_circle"; "attr"]) by perm.
    rewrite (one_of_perm ["fp_text"; "gr_text"; "model"] ["model"; "fp_text"; "gr_text"]) by perm.
    rewrite (one_of_perm ["at"; "rotate"; "scale"] ["at"; "scale"; "rotate"]) by perm.
    rewrite (one_of_perm ["net"; "segment"; "via"; "gr_arc"; "gr_circle"; "gr_line"] ["net"; "gr_circle"; "gr_line"; "gr_arc"; "segment"; "via"]) by perm.
    rewrite (one_of_perm ["dimension"; "gr_text"; "layers"; "zone"] ["layers"; "gr_text"; "dimension"; "zone"]) by perm.
    rewrite (one_of_perm ["general"; "module"; "net_class"] ["general"; "net_class"; "module"]) by perm.
    rewrite (one_of_perm ["connect_pads"; "fill"; "keepout"; "min_thickness"; "priority"] ["connect_pads"; "min_thickness"; "fill"; "keepout"; "priority"]) by perm.
    rewrite (one_of_perm ["filled_polygon"; "polygon"] ["polygon"; "filled_polygon"] c) by perm.
    rewrite (one_of_perm ["filled_polygon"; "polygon"] ["polygon"; "filled_polygon"] p) by perm.
    rewrite (one_of_perm ["general"; "layers"; "net_class"; "pcbplotparams"; "setup"] ["general"; "layers"; "setup"; "pcbplotparams"; "net_class"]) by perm.
    rewrite (one_of_or2 "fp_text" "gr_text"), (one_of_or2 "polygon" "filled_polygon" p), one_of_or5.
    generalize (inside (p :: anc) ["kicad_pcb"]), (inside (p :: anc) ["fp_lib_table"]). intros ib it.
    change (one_of ?l c) with (mem c l).
    match goal with |- context [seqb p "dimension" && mem c ("gr_text" :: ?l)] =>
      replace (seqb p "dimension" && mem c ("gr_text" :: l)) with (seqb p "dimension" && seqb c "gr_text" || seqb p "dimension" && mem c l)
        by (symmetry; apply andb_orb_distrib_r) end.
    rewrite !andb_true_r. destruct ib, it; cbn [negb];
    repeat match goal with |- context [if ?b then _ else _] => destruct b; cbn [orb]; try reflexivity end.
Qed.

(** ** Opening and closing *)
Definition set_pts (f : fstate) (p : Z) : fstate := mk_fs (fs_indent f) (fs_stack f) p (fs_seen_module f) (fs_seen_segment f).
Lemma indent_text f n : fm_indent f (Z.of_nat n) = repeat 10%N n ++ blanks (fs_indent f).
Proof.
  unfold fm_indent, blanks. rewrite Nat2Z.id. f_equal. induction (Z.to_nat (fs_indent f)) as [|k IH]; [reflexivity|].
  replace (2 * S k)%nat with (S (S (2 * k))) by lia. cbn [repeat flat_map app]. now rewrite IH.
Qed.
Lemma indent_1 f : fm_indent f 1 = new_lines 1 (fs_indent f).
Proof. exact (indent_text f 1). Qed.
Definition seen_after (f : fstate) (p c : str) : bool :=
  if seqb c "module" then true else if seqb p "kicad_pcb" then false else fs_seen_module f.
Definition open_gaps (f : fstate) (p c : str) : str :=
  (if negb (seqb c "module") && seqb p "kicad_pcb" && fs_seen_module f then new_lines 1 (fs_indent f) else [])
  ++ (if negb (fs_seen_segment f) && seqb c "segment" then new_lines 1 (fs_indent f) else []).
Definition deeper (d : Z) (b : option brk) : Z := match b with Some _ => d + 1 | None => d end.
Lemma open_spec f p anc c k : names f (p :: anc) -> (seqb p "pts" = true -> fs_pts f = Z.of_nat k) -> is_empty c = false ->
  fm_open f (Some (SStr c)) =
  (mk_fs (deeper (fs_indent f) (break_of (p :: anc) c k)) (Some (c, option_map to_indent (break_of (p :: anc) c k)) :: fs_stack f)
     (if seqb p "pts" && seqb c "xy" then (if seqb c "pts" then 0 else fs_pts f) + 1 else (if seqb c "pts" then 0 else fs_pts f))%Z
     (seen_after f p c) (fs_seen_segment f || seqb c "segment"),
   open_gaps f p c ++ match break_of (p :: anc) c k with Some b => new_lines (b_lines b) (fs_indent f + 1) | None => [] end ++ [40%N]).
Proof.
  intros HN HP HE.
  assert (PN : forall i q m s w, fm_parent (mk_fs i (fs_stack f) q m s) w = seqb p w)
    by (intros i q m s w; exact (names_parent (mk_fs i (fs_stack f) q m s) (p :: anc) w HN)).
  unfold fm_open. cbn [head_name]. rewrite (names_parent _ _ "kicad_pcb" HN).
  cbn [fs_seen_segment fs_seen_module fs_indent fs_stack fs_pts].
  match goal with |- context [want_name ?F c] => replace (want_name F c) with (option_map to_indent (break_of (p :: anc) c k))
    by (symmetry; apply want_spec; [exact HN|exact HP]) end.
  rewrite HE. cbn [negb]. unfold seen_after, open_gaps, text_if.
  destruct (break_of (p :: anc) c k) as [b|]; cbn [option_map deeper fs_indent fs_stack fs_pts fs_seen_module fs_seen_segment]; rewrite PN.
  - f_equal.
    + f_equal; [destruct (seqb c "module"), (seqb p "kicad_pcb"), (fs_seen_module f)|destruct (fs_seen_segment f), (seqb c "segment")]; reflexivity.
    + rewrite <- app_assoc, !indent_1. cbn [fs_indent]. f_equal. f_equal. f_equal. unfold to_indent. cbn [in_before].
      rewrite indent_text. cbn [fs_indent]. destruct (b_lines b) as [|n]; [reflexivity|].
      replace (0 <? Z.of_nat (S n))%Z with true by (symmetry; apply Z.ltb_lt; lia). reflexivity.
  - f_equal.
    + f_equal; [destruct (seqb c "module"), (seqb p "kicad_pcb"), (fs_seen_module f)|destruct (fs_seen_segment f), (seqb c "segment")]; reflexivity.
    + rewrite <- app_assoc, !indent_1. reflexivity.
Qed.
Lemma close_spec f c b st : fs_stack f = Some (c, option_map to_indent b) :: st -> st <> [] ->
  fm_close f = (mk_fs (match b with Some _ => fs_indent f - 1 | None => fs_indent f end)%Z st (fs_pts f) (fs_seen_module f) (fs_seen_segment f),
    match b with
    | Some b => (if b_close b then new_lines 1 (fs_indent f) else []) ++ [41%N] ++ (if b_after b then [10%N] else [])
    | None => [41%N]
    end).
Proof.
  intros E HS. unfold fm_close. rewrite E. destruct st as [|x st]; [contradiction|]. destruct b as [b|]; cbn [option_map].
  - f_equal. unfold text_if, to_indent. cbn [in_close in_after]. rewrite andb_false_r. cbn [app]. unfold fm_indent_plus. cbn [fs_indent fs_stack fs_pts fs_seen_module fs_seen_segment].
    rewrite indent_1. cbn [fs_indent]. replace (fs_indent f - 1 + 1)%Z with (fs_indent f) by lia. destruct (b_close b), (b_after b); reflexivity.
  - reflexivity.
Qed.
