(** Schematic text round trip (lemmas for C09). *)
From Coq Require Import String Lia.
From Verif Require Import Base Str StrFacts Num NumFacts F64 F64Text F64Facts LibFns LibSpec LibFacts SchData SchPrint SchParse SchWf SchLine.
Open Scope string_scope. Open Scope list_scope.

Ltac bsplit := repeat match goal with H : _ && _ = true |- _ => apply andb_prop in H as [? ?] end.
Ltac pieces := cbn [forallb word_ok fst app]; rewrite ?andb_true_r;
  repeat match goal with |- _ && _ = true => apply andb_true_intro; split end;
  first [ apply word_piece; assumption | apply quote_piece; assumption | reflexivity ].
Ltac line_eq := repeat (progress (cbn; rewrite <- ?app_assoc, ?app_nil_r)); reflexivity.
Ltac split_with l w :=
  match goal with |- split_quote_aware_n ?n ?s = _ =>
    transitivity (split_quote_aware_n n (spaced (single l) ++ word_text w));
    [ f_equal; line_eq
    | rewrite split_n_exact; [cbn; rewrite ?app_nil_r; reflexivity|reflexivity|pieces|pieces] ] end.

Section Lines.
Variables a b c d e f g : str.
Lemma spl_l : word_str a = true -> word_str b = true ->
  split_quote_aware_n 3 (lit "L " ++ a ++ bl ++ b) = Ok [lit "L"; a; b].
Proof. intros Ha Hb. split_with [[Plain (lit "L")]; [Plain a]] [Plain b]. Qed.
Lemma spl_p : word_str a = true -> word_str b = true ->
  split_quote_aware_n 3 (lit "P " ++ a ++ bl ++ b) = Ok [lit "P"; a; b].
Proof. intros Ha Hb. split_with [[Plain (lit "P")]; [Plain a]] [Plain b]. Qed.
Lemma spl_sheet : word_str a = true -> word_str b = true ->
  split_quote_aware_n 3 (lit "Sheet " ++ a ++ bl ++ b) = Ok [lit "Sheet"; a; b].
Proof. intros Ha Hb. split_with [[Plain (lit "Sheet")]; [Plain a]] [Plain b]. Qed.
Lemma spl_descr : word_str a = true -> word_str b = true -> word_str c = true ->
  split_quote_aware_n 4 (lit "$Descr " ++ a ++ bl ++ b ++ bl ++ c) = Ok [lit "$Descr"; a; b; c].
Proof. intros Ha Hb Hc. split_with [[Plain (lit "$Descr")]; [Plain a]; [Plain b]] [Plain c]. Qed.
Lemma spl_s : word_str a = true -> word_str b = true -> word_str c = true -> word_str d = true ->
  split_quote_aware_n 5 (lit "S " ++ a ++ bl ++ b ++ bl ++ c ++ bl ++ d) = Ok [lit "S"; a; b; c; d].
Proof. intros Ha Hb Hc Hd. split_with [[Plain (lit "S")]; [Plain a]; [Plain b]; [Plain c]] [Plain d]. Qed.
Lemma spl_u : word_str a = true -> split_quote_aware_n 2 (lit "U " ++ a) = Ok [lit "U"; a].
Proof. intros Ha. split_with [[Plain (lit "U")]] [Plain a]. Qed.
Lemma spl_f0 : quotable a = true -> word_str b = true ->
  split_quote_aware_n 3 (lit "F0 " ++ quoted a ++ bl ++ b) = Ok [lit "F0"; a; b].
Proof. intros Ha Hb. split_with [[Plain (lit "F0")]; [Quoted a]] [Plain b]. Qed.
Lemma spl_f1 : quotable a = true -> word_str b = true ->
  split_quote_aware_n 3 (lit "F1 " ++ quoted a ++ bl ++ b) = Ok [lit "F1"; a; b].
Proof. intros Ha Hb. split_with [[Plain (lit "F1")]; [Quoted a]] [Plain b]. Qed.
Lemma spl_label : word_str a = true -> quotable b = true -> word_str c = true -> word_str d = true ->
  word_str e = true -> word_str f = true -> word_str g = true ->
  split_quote_aware_n 7 (a ++ bl ++ quoted b ++ bl ++ c ++ bl ++ d ++ bl ++ e ++ bl ++ f ++ bl ++ g) = Ok [a; b; c; d; e; f; g].
Proof. intros. split_with [[Plain a]; [Quoted b]; [Plain c]; [Plain d]; [Plain e]; [Plain f]] [Plain g]. Qed.
Lemma wq name : word_str (lit name) = true -> quotable a = true ->
  word_and_qstring name (lit name ++ bl ++ quoted a) = Ok a.
Proof.
  intros Hn Ha. unfold word_and_qstring.
  replace (split_quote_aware_n 2 (lit name ++ bl ++ quoted a)) with (Ok [lit name; a]); [|symmetry].
  - cbn [bind idx nth_error of_option]. unfold assume_string, seq. rewrite str_eqb_refl. reflexivity.
  - split_with [[Plain (lit name)]] [Quoted a].
Qed.
End Lines.

Lemma pad_spaced n w s : pad_right n w ++ 32%N :: s = w ++ blanks (S (n - length w)) ++ s.
Proof.
  unfold pad_right. rewrite <- app_assoc. f_equal. unfold blanks. cbn [repeat]. rewrite repeat_cons, <- app_assoc. reflexivity.
Qed.
(** The field line *)
Lemma spl_field a b c d e f g h i j z :
  word_str a = true -> quotable b = true -> word_str c = true -> word_str d = true -> word_str e = true -> word_str f = true ->
  word_str g = true -> word_str h = true -> word_str i = true -> match z with Some n => quotable n = true | None => True end ->
  j = match z with Some n => [n] | None => [] end ->
  split_quote_aware (lit "F " ++ a ++ bl ++ quoted b ++ bl ++ c ++ bl ++ pad_right 3 d ++ bl ++ pad_right 3 e ++ bl
    ++ pad_right 3 f ++ bl ++ g ++ bl ++ h ++ bl ++ i ++ match z with Some n => bl ++ quoted n | None => [] end)
  = Ok ([lit "F"; a; b; c; d; e; f; g; h; i] ++ j).
Proof.
  intros Ha Hb Hc Hd He Hf Hg Hh Hi Hz ->.
  set (l := [([Plain (lit "F")], O); ([Plain a], O); ([Quoted b], O); ([Plain c], O); ([Plain d], (3 - length d)%nat);
     ([Plain e], (3 - length e)%nat); ([Plain f], (3 - length f)%nat); ([Plain g], O); ([Plain h], O)]).
  destruct z as [n|].
  - transitivity (split_quote_aware (blanks 0 ++ spaced (l ++ [([Plain i], O)]) ++ word_text [Quoted n] ++ blanks 0)).
    + f_equal. unfold bl. cbn [app]. rewrite !pad_spaced. unfold l, spaced, word_text.
      cbn [flat_map app fst snd piece_text]. change (blanks 1) with [32%N]. change (blanks 0) with (@nil N). unfold quoted.
      repeat (progress (rewrite <- ?app_assoc, ?app_nil_r; cbn [app])). reflexivity.
    + rewrite split_words; [|unfold l, spaced_ok; cbn [app fst]; pieces|pieces].
      unfold l. cbn. rewrite !app_nil_r. reflexivity.
  - transitivity (split_quote_aware (blanks 0 ++ spaced l ++ word_text [Plain i] ++ blanks 0)).
    + f_equal. unfold bl. cbn [app]. rewrite !pad_spaced. unfold l, spaced, word_text.
      cbn [flat_map app fst snd piece_text]. change (blanks 1) with [32%N]. change (blanks 0) with (@nil N). unfold quoted.
      repeat (progress (rewrite <- ?app_assoc, ?app_nil_r; cbn [app])). reflexivity.
    + rewrite split_words; [|unfold l, spaced_ok; cbn [app fst]; pieces|pieces].
      unfold l. cbn. rewrite !app_nil_r. reflexivity.
Qed.

(** ** Components *)
Lemma i64_show z : i64_ok z = true -> i64_from_string (show_Z z) = Ok z.
Proof. intros H. unfold i64_from_string. now rewrite i64_roundtrip. Qed.
Lemma f64_show x : f64_from_string (f64_to_str x) = Ok x.
Proof. unfold f64_from_string. now rewrite f64_roundtrip. Qed.

Lemma word_is_begins w s : begins w s = word_is s w.
Proof. unfold begins, word_is, first_word. destruct (split_ws s); reflexivity. Qed.
Lemma word_is_lead w s k : ws_word (lit w) = true -> word_is (lit w ++ 32%N :: s) k = str_eqb (lit w) (lit k).
Proof. intros H. unfold word_is. now rewrite first_word_cons. Qed.

Lemma orientation_rt o : exists c, show_orientation o = [c] /\ orientation_new c = Ok o.
Proof. destruct o; eexists; split; reflexivity. Qed.
Lemma sjustify_rt j : exists c, show_sjustify j = [c] /\ sjustify_new c = Ok j.
Proof. destruct j; eexists; split; reflexivity. Qed.

Lemma field_split f : quotable (cf_value f) = true -> quotable (cf_name f) = true ->
  split_quote_aware (print_field f)
  = Ok ([lit "F"; show_Z (cf_i f); cf_value f; show_orientation (cf_orient f); f64_to_str (cf_x f); f64_to_str (cf_y f);
         show_Z (cf_size f); lit (if cf_visible f then "0000" else "0001"); show_sjustify (cf_hjust f);
         show_sjustify (cf_vjust f) ++ lit (if cf_italic f then "I" else "N") ++ lit (if cf_bold f then "B" else "N")]
        ++ (if (3 <? cf_i f)%Z then [cf_name f] else [])).
Proof.
  intros Hq Hn. unfold print_field.
  set (z := if (3 <? cf_i f)%Z then Some (cf_name f) else None).
  pose proof (spl_field (show_Z (cf_i f)) (cf_value f) (show_orientation (cf_orient f)) (f64_to_str (cf_x f)) (f64_to_str (cf_y f))
    (show_Z (cf_size f)) (lit (if cf_visible f then "0000" else "0001")) (show_sjustify (cf_hjust f))
    (show_sjustify (cf_vjust f) ++ lit (if cf_italic f then "I" else "N") ++ lit (if cf_bold f then "B" else "N"))
    (match z with Some n => [n] | None => [] end) z) as S.
  replace (if (3 <? cf_i f)%Z then [cf_name f] else []) with (match z with Some n => [n] | None => [] end)
    by (unfold z; destruct (3 <? cf_i f)%Z; reflexivity).
  eapply eq_trans; [|apply S]; clear S; try apply word_num; try apply word_f; try assumption; try reflexivity.
  - f_equal. rewrite <- !app_assoc. unfold z. destruct (3 <? cf_i f)%Z; reflexivity.
  - destruct (cf_orient f); reflexivity.
  - destruct (cf_visible f); reflexivity.
  - destruct (cf_hjust f); reflexivity.
  - destruct (cf_vjust f), (cf_italic f), (cf_bold f); reflexivity.
  - unfold z. destruct (3 <? cf_i f)%Z; [assumption|exact I].
Qed.

Lemma default_name i n : (0 <= i)%Z -> (3 <? i)%Z = false -> str_eqb n (field_name i) = true -> default_field_name i = Some n.
Proof.
  intros H0 H3 Hn. apply Z.ltb_ge in H3. apply str_eqb_eq in Hn. subst n.
  assert (i = 0 \/ i = 1 \/ i = 2 \/ i = 3)%Z as [->|[->|[->| ->]]] by lia; reflexivity.
Qed.

Lemma rt_field f : cfield_ok f = true -> (do v <- split_quote_aware (print_field f); cfield_new v) = Ok f.
Proof.
  intros H. unfold cfield_ok in H. bsplit. rewrite field_split by assumption. cbn [bind].
  destruct f as [i va o x y sz vi hj vj it bo nm]. cbn [cf_i cf_value cf_orient cf_x cf_y cf_size cf_visible cf_hjust cf_vjust cf_italic cf_bold cf_name] in *.
  destruct (orientation_rt o) as (co & Eo & Ro). destruct (sjustify_rt hj) as (ch & Eh & Rh). destruct (sjustify_rt vj) as (cv & Ev & Rv).
  rewrite Eo, Eh, Ev. destruct (3 <? i)%Z eqn:E3; unfold cfield_new; cbn [app length Nat.eqb negb andb idx nth_error bind].
  - rewrite i64_show by assumption. cbn [bind char_at idx nth_error]. rewrite Ro. cbn [bind]. rewrite !f64_show. cbn [bind].
    rewrite i64_show by assumption. cbn [bind].
    destruct vi, it, bo; cbn; rewrite Rh; cbn [bind]; rewrite Rv; reflexivity.
  - rewrite i64_show by assumption. cbn [bind].
    match goal with H : _ || _ = true |- _ => cbn [orb] in H end.
    rewrite (default_name i nm) by (assumption || now apply Z.leb_le). cbn [of_option bind idx nth_error char_at].
    rewrite Ro. cbn [bind]. rewrite !f64_show. cbn [bind].
    rewrite i64_show by assumption. cbn [bind].
    destruct vi, it, bo; cbn; rewrite Rh; cbn [bind]; rewrite Rv; reflexivity.
Qed.

Lemma field_word f : cfield_ok f = true -> forall k, word_is (print_field f) k = str_eqb (lit "F") (lit k).
Proof. intros _ k. unfold print_field. apply (word_is_lead "F"). reflexivity. Qed.
Lemma line_fields fs d r : forallb cfield_ok fs = true ->
  component_loop (map print_field fs ++ r) d = component_loop r (set_fields d (co_fields d ++ fs)).
Proof.
  revert d. induction fs as [|f fs IH]; intros d H; cbn [map app].
  - rewrite app_nil_r. destruct d; reflexivity.
  - cbn [forallb] in H. apply andb_prop in H as [H1 H2]. cbn [component_loop].
    replace (seq (print_field f) "$EndComp") with false by reflexivity.
    unfold component_line. rewrite !field_word by assumption.
    replace (str_eqb (lit "F") (lit "1") || str_eqb (lit "F") (lit "0")) with false by reflexivity.
    change (str_eqb (lit "F") (lit "L")) with false. change (str_eqb (lit "F") (lit "U")) with false.
    change (str_eqb (lit "F") (lit "P")) with false. change (str_eqb (lit "F") (lit "F")) with true. cbn [orb].
    pose proof (rt_field f H1) as RT. destruct (split_quote_aware (print_field f)) as [v| |]; try discriminate.
    cbn [bind] in RT |- *. rewrite RT. cbn [bind]. rewrite IH by assumption. destruct d; cbn. now rewrite <- app_assoc.
Qed.
Lemma line_ars l d r : forallb (fun a => begins "AR" a && line_ok a) l = true ->
  component_loop (l ++ r) d = component_loop r (mk_comp (co_name d) (co_reference d) (co_u d) (co_x d) (co_y d) (co_ar d ++ l) (co_fields d) (co_rotation d)).
Proof.
  revert d. induction l as [|a l IH]; intros d H; cbn [app].
  - rewrite app_nil_r. destruct d; reflexivity.
  - cbn [forallb] in H. apply andb_prop in H as [H1 H2]. apply andb_prop in H1 as [H1 _]. cbn [component_loop].
    assert (W : forall k, word_is a k = str_eqb (lit "AR") (lit k)).
    { intros k. unfold begins in H1. unfold word_is, first_word. destruct (split_ws a); [discriminate|].
      apply str_eqb_eq in H1. subst. reflexivity. }
    unfold seq. destruct (str_eqb_spec a (lit "$EndComp")) as [->|_]; [discriminate|].
    unfold component_line. rewrite !W. cbn -[component_loop]. rewrite IH by assumption. cbn. now rewrite <- app_assoc.
Qed.

Lemma first_word_skip c s : is_ws c = true -> first_word (c :: s) = first_word s.
Proof. intros H. unfold first_word. now rewrite split_ws_skip. Qed.
Lemma four_pad a b c d : i64_ok a = true -> i64_ok b = true -> i64_ok c = true -> i64_ok d = true ->
  four (tab ++ pad_right 4 (show_Z a) ++ bl ++ pad_right 4 (show_Z b) ++ bl ++ pad_right 4 (show_Z c) ++ bl ++ pad_right 4 (show_Z d))
  = Ok (a, b, c, d).
Proof.
  intros. unfold four. unfold tab, bl. cbn [app]. rewrite split_ws_skip by reflexivity.
  rewrite !split_ws_pad, split_ws_pad_last by apply ws_num. rewrite !i64_show by assumption. reflexivity.
Qed.
Lemma four_plain a b c d : i64_ok a = true -> i64_ok b = true -> i64_ok c = true -> i64_ok d = true ->
  four (tab ++ show_Z a ++ bl ++ show_Z b ++ bl ++ show_Z c ++ bl ++ show_Z d) = Ok (a, b, c, d).
Proof.
  intros. unfold four. unfold tab, bl. cbn [app]. rewrite split_ws_skip by reflexivity.
  rewrite !split_ws_cons, split_ws_last by (apply ws_num || reflexivity). rewrite !i64_show by assumption. reflexivity.
Qed.

Lemma end_word_word s : end_word s = true -> word_str s = true.
Proof. unfold end_word. intros H. now apply andb_prop in H as [H _]. Qed.
Lemma loop_line s r d d' : seq s "$EndComp" = false -> word_is s "1" = false -> word_is s "0" = false ->
  component_line s d = Ok d' -> component_loop (s :: r) d = component_loop r d'.
Proof. intros H1 H2 H3 H. cbn [component_loop]. rewrite H1, H2, H3. cbn [orb]. rewrite H. reflexivity. Qed.
Lemma cl_l n re d : word_str n = true -> word_str re = true ->
  component_line (lit "L " ++ n ++ bl ++ re) d = Ok (set_l d n re).
Proof.
  intros. unfold component_line.
  replace (word_is (lit "L " ++ n ++ bl ++ re) "L") with true by (symmetry; exact (word_is_lead "L" (n ++ bl ++ re) "L" eq_refl)).
  rewrite spl_l by assumption. reflexivity.
Qed.
Lemma cl_p x y d : i64_ok x = true -> i64_ok y = true ->
  component_line (lit "P " ++ show_Z x ++ bl ++ show_Z y) d = Ok (set_p d x y).
Proof.
  intros. unfold component_line.
  assert (W : forall k, word_is (lit "P " ++ show_Z x ++ bl ++ show_Z y) k = str_eqb (lit "P") (lit k))
    by (intros k; exact (word_is_lead "P" _ k eq_refl)).
  rewrite !W. clear W.
  change (str_eqb (lit "P") (lit "L")) with false. change (str_eqb (lit "P") (lit "U")) with false.
  change (str_eqb (lit "P") (lit "P")) with true. cbv iota.
  rewrite spl_p by apply word_num. cbn [bind idx nth_error]. rewrite !i64_show by assumption. reflexivity.
Qed.
Lemma cl_u u d : is_empty u || begins "U" u = true ->
  seq u "$EndComp" = false /\ word_is u "1" = false /\ word_is u "0" = false
  /\ component_line u d = Ok (match u with [] => d | _ => set_u d u end).
Proof.
  intros H.
  assert (U : forall k, word_is u k = match u with [] => false | _ => str_eqb (lit "U") (lit k) end).
  { intros k. apply orb_true_iff in H as [H|H].
    - destruct u; [reflexivity|discriminate].
    - unfold word_is, first_word, begins in *. destruct u as [|x u]; [discriminate|].
      destruct (split_ws (x :: u)); [discriminate|]. apply str_eqb_eq in H. subst. reflexivity. }
  repeat split.
  - unfold seq. apply str_eqb_neq. intros E. specialize (U "$EndComp"). rewrite E in U. discriminate.
  - rewrite U. destruct u; reflexivity.
  - rewrite U. destruct u; reflexivity.
  - unfold component_line. rewrite !U. destruct u; reflexivity.
Qed.
Lemma rt_component c r : component_ok c = true ->
  parse_component (print_component c ++ r) = Ok (c, lit "$EndComp" :: r).
Proof.
  intros H. unfold component_ok in H. bsplit. cbn [forallb] in *. bsplit.
  unfold parse_component, print_component, next. rewrite <- !app_assoc. cbn [app tl].
  rewrite (loop_line _ _ _ (set_l comp_default (co_name c) (co_reference c)));
    [|reflexivity|exact (word_is_lead "L" _ _ eq_refl)|exact (word_is_lead "L" _ _ eq_refl)|apply cl_l; [assumption|now apply end_word_word]].
  match goal with H : is_empty (co_u c) || _ = true |- _ =>
    destruct (cl_u _ (set_l comp_default (co_name c) (co_reference c)) H) as (U1 & U2 & U3 & U4) end.
  rewrite (loop_line _ _ _ _ U1 U2 U3 U4).
  replace (match co_u c with [] => set_l comp_default (co_name c) (co_reference c) | _ => set_u (set_l comp_default (co_name c) (co_reference c)) (co_u c) end)
    with (set_u (set_l comp_default (co_name c) (co_reference c)) (co_u c)) by (destruct (co_u c); reflexivity).
  rewrite (loop_line (lit "P " ++ _) _ _ _ eq_refl (word_is_lead "P" _ _ eq_refl) (word_is_lead "P" _ _ eq_refl)
    (cl_p (co_x c) (co_y c) _ ltac:(assumption) ltac:(assumption))).
  rewrite line_ars by assumption. rewrite line_fields by assumption.
  cbn [component_loop].
  match goal with |- context [seq (tab ++ ?x) "$EndComp"] => change (seq (tab ++ x) "$EndComp") with false end.
  replace (word_is (tab ++ pad_right 4 (lit "1") ++ bl ++ pad_right 4 (show_Z (co_x c)) ++ bl ++ pad_right 4 (show_Z (co_y c))) "1")
    with true.
  cbn [orb]. rewrite four_pad by assumption. cbn [bind].
  change (seq (lit "$EndComp") "$EndComp") with true. cbn.
  destruct c as [? ? ? ? ? ? ? [? ? ? ?]]; reflexivity.
Qed.

(** ** Sheets *)
Lemma sheet_loop_line s r d d' : seq s "$EndSheet" = false -> sheet_line s d = Ok d' -> sheet_loop (s :: r) d = sheet_loop r d'.
Proof. intros H1 H. cbn [sheet_loop]. rewrite H1, H. reflexivity. Qed.
Lemma form_rt f : parse_label_form (show_form f) = Ok f. Proof. destruct f; reflexivity. Qed.
Lemma side_rt f : parse_label_side (show_lside f) = Ok f. Proof. destruct f; reflexivity. Qed.

Lemma fword_ws i : ws_word (70%N :: show_Z i) = true.
Proof. pose proof (ws_num i) as H. unfold ws_word in *. apply andb_prop in H as [_ H]. cbn [is_empty negb andb forallb]. rewrite H. reflexivity. Qed.
Lemma fword_word i : word_str (70%N :: show_Z i) = true.
Proof. pose proof (word_num i) as H. unfold word_str in *. apply andb_prop in H as [_ H]. cbn [is_empty negb andb forallb]. rewrite H. reflexivity. Qed.
Lemma label_line i l s : (2 <= i < 2 ^ 63)%Z -> label_ok l = true ->
  sheet_line (lit "F" ++ show_Z i ++ bl ++ print_label l) s
  = Ok (mk_sheet (sh_x s) (sh_y s) (sh_dimx s) (sh_dimy s) (sh_unique s) (sh_name s) (sh_name_size s) (sh_filename s)
          (sh_filename_size s) (sh_labels s ++ [l])).
Proof.
  intros Hi H. unfold label_ok in H. cbn [forallb] in H. bsplit.
  unfold sheet_line. change (lit "F" ++ show_Z i ++ bl ++ print_label l) with ((70%N :: show_Z i) ++ 32%N :: print_label l).
  rewrite first_word_cons by apply fword_ws.
  change (seq (70%N :: show_Z i) "S") with false. change (seq (70%N :: show_Z i) "U") with false. cbv iota.
  change (starts_with (lit "F") (70%N :: show_Z i)) with true. cbv iota. cbn [tl].
  rewrite i64_show by (apply i64_ok_iff; lia). cbn [bind].
  destruct (Z.eqb_spec i 0); [lia|]. destruct (Z.eqb_spec i 1); [lia|].
  unfold parse_sheet_label, print_label.
  pose proof (spl_label (70%N :: show_Z i) (sl_name l) (show_form (sl_form l)) (show_lside (sl_side l))
    (show_Z (sl_x l)) (show_Z (sl_y l)) (show_Z (sl_size l)) (fword_word i)) as E.
  change ((70%N :: show_Z i) ++ 32%N :: ?x) with ((70%N :: show_Z i) ++ bl ++ x).
  rewrite E; try assumption; try apply word_num; [|destruct (sl_form l); reflexivity|destruct (sl_side l); reflexivity].
  cbn [bind idx nth_error]. rewrite form_rt. cbn [bind]. rewrite side_rt. cbn [bind]. rewrite !i64_show by assumption.
  destruct l; reflexivity.
Qed.
Lemma label_lines ls : forall i s r, (2 <= i)%Z -> (i + Z.of_nat (length ls) < 2 ^ 63)%Z -> forallb label_ok ls = true ->
  sheet_loop (print_labels i ls ++ r) s
  = sheet_loop r (mk_sheet (sh_x s) (sh_y s) (sh_dimx s) (sh_dimy s) (sh_unique s) (sh_name s) (sh_name_size s) (sh_filename s)
          (sh_filename_size s) (sh_labels s ++ ls)).
Proof.
  induction ls as [|l ls IH]; intros i s r H2 Hi H; cbn [print_labels app].
  - rewrite app_nil_r. destruct s; reflexivity.
  - cbn [forallb] in H. apply andb_prop in H as [Hl H]. cbn [length] in Hi.
    erewrite sheet_loop_line; [|reflexivity|apply label_line; [lia|assumption]].
    rewrite IH; [|lia|lia|assumption]. cbn. now rewrite <- app_assoc.
Qed.
Lemma sheet_f0 n z s : quotable n = true -> i64_ok z = true -> sheet_line (lit "F0 " ++ quoted n ++ bl ++ show_Z z) s
  = Ok (mk_sheet (sh_x s) (sh_y s) (sh_dimx s) (sh_dimy s) (sh_unique s) n z (sh_filename s) (sh_filename_size s) (sh_labels s)).
Proof.
  intros Hn Hz. unfold sheet_line.
  replace (first_word (lit "F0 " ++ quoted n ++ bl ++ show_Z z)) with (Some (lit "F0")) by
    (symmetry; exact (first_word_cons (lit "F0") (quoted n ++ bl ++ show_Z z) eq_refl)).
  change (seq (lit "F0") "S") with false. change (seq (lit "F0") "U") with false. change (starts_with (lit "F") (lit "F0")) with true.
  cbv iota. change (i64_from_string (tl (lit "F0"))) with (@Ok Z 0%Z). cbn [bind Z.eqb].
  rewrite spl_f0 by (assumption || apply word_num). cbn [bind idx nth_error]. rewrite i64_show by assumption. reflexivity.
Qed.
Lemma sheet_f1 n z s : quotable n = true -> i64_ok z = true -> sheet_line (lit "F1 " ++ quoted n ++ bl ++ show_Z z) s
  = Ok (mk_sheet (sh_x s) (sh_y s) (sh_dimx s) (sh_dimy s) (sh_unique s) (sh_name s) (sh_name_size s) n z (sh_labels s)).
Proof.
  intros Hn Hz. unfold sheet_line.
  replace (first_word (lit "F1 " ++ quoted n ++ bl ++ show_Z z)) with (Some (lit "F1")) by
    (symmetry; exact (first_word_cons (lit "F1") (quoted n ++ bl ++ show_Z z) eq_refl)).
  change (seq (lit "F1") "S") with false. change (seq (lit "F1") "U") with false. change (starts_with (lit "F") (lit "F1")) with true.
  cbv iota. change (i64_from_string (tl (lit "F1"))) with (@Ok Z 1%Z). cbn [bind Z.eqb Pos.eqb].
  rewrite spl_f1 by (assumption || apply word_num). cbn [bind idx nth_error]. rewrite i64_show by assumption. reflexivity.
Qed.
Lemma sheet_s a b c d s : i64_ok a = true -> i64_ok b = true -> i64_ok c = true -> i64_ok d = true ->
  sheet_line (lit "S " ++ show_Z a ++ bl ++ show_Z b ++ bl ++ show_Z c ++ bl ++ show_Z d) s
  = Ok (mk_sheet a b c d (sh_unique s) (sh_name s) (sh_name_size s) (sh_filename s) (sh_filename_size s) (sh_labels s)).
Proof.
  intros. unfold sheet_line.
  match goal with |- context [first_word (lit "S " ++ ?x)] => replace (first_word (lit "S " ++ x)) with (Some (lit "S")) by
    (symmetry; exact (first_word_cons (lit "S") x eq_refl)) end.
  change (seq (lit "S") "S") with true. cbv iota. rewrite spl_s by apply word_num. cbn [bind idx nth_error].
  rewrite !i64_show by assumption. reflexivity.
Qed.
Lemma sheet_u u s : word_str u = true -> sheet_line (lit "U " ++ u) s
  = Ok (mk_sheet (sh_x s) (sh_y s) (sh_dimx s) (sh_dimy s) u (sh_name s) (sh_name_size s) (sh_filename s) (sh_filename_size s) (sh_labels s)).
Proof.
  intros. unfold sheet_line.
  replace (first_word (lit "U " ++ u)) with (Some (lit "U")) by (symmetry; exact (first_word_cons (lit "U") u eq_refl)).
  change (seq (lit "U") "S") with false. change (seq (lit "U") "U") with true. cbv iota. rewrite spl_u by assumption. reflexivity.
Qed.
Lemma rt_sheet s r : sheet_ok s = true -> parse_sheet (print_sheet s ++ r) = Ok (s, lit "$EndSheet" :: r).
Proof.
  intros H. unfold sheet_ok in H. cbn [forallb] in H. bsplit. unfold parse_sheet, print_sheet, next. rewrite <- !app_assoc. cbn [app tl].
  erewrite sheet_loop_line; [|reflexivity|apply sheet_s; assumption].
  erewrite sheet_loop_line; [|reflexivity|apply sheet_u; now apply end_word_word].
  erewrite sheet_loop_line; [|reflexivity|apply sheet_f0; assumption].
  erewrite sheet_loop_line; [|reflexivity|apply sheet_f1; assumption].
  rewrite label_lines; [|discriminate|match goal with H : (_ <=? _)%Z = true |- _ => apply Z.leb_le in H; clear - H end; lia|assumption].
  cbn. destruct s; reflexivity.
Qed.

(** ** Description *)
Lemma rt_description d r : descr_ok d = true -> parse_description (print_description d ++ r) = Ok (d, lit "$EndDescr" :: r).
Proof.
  intros H. unfold descr_ok in H. cbn [forallb] in H. bsplit. unfold parse_description, print_description, next.
  cbn [app tl here bind]. rewrite spl_descr by (assumption || apply word_num). cbn [bind idx nth_error].
  rewrite !i64_show by assumption. cbn [bind]. rewrite spl_sheet by apply word_num. cbn [bind idx nth_error].
  change (seq (lit "Sheet") "Sheet") with true. cbn [negb]. rewrite !i64_show by assumption. cbn [bind].
  Local Ltac word n := match goal with |- context [word_and_qstring n ?x] =>
    match x with ?k ++ quoted ?q => replace (word_and_qstring n x) with (Ok q) by (symmetry; apply (wq q n); [reflexivity|assumption]) end
  end; cbn [bind].
  word "Title". word "Date". word "Rev". word "Comp". word "Comment1". word "Comment2". word "Comment3". word "Comment4".
  change (assume_string "$EndDescr" (lit "$EndDescr")) with (Ok tt). cbn [bind]. destruct d; reflexivity.
Qed.

(** ** Other elements *)
Lemma rt_wire w r : wire_ok w = true ->
  exists l, parse_wire (print_wire w ++ r) = Ok (w, l :: r).
Proof.
  intros H. unfold wire_ok in H. cbn [forallb] in H. bsplit. destruct w as [t a b c d]. cbn [wi_x1 wi_y1 wi_x2 wi_y2] in *.
  eexists. unfold parse_wire, print_wire, next. cbn [app here bind tl wi_t wi_x1 wi_y1 wi_x2 wi_y2].
  replace (split_ws (lit "Wire " ++ show_wire_type t ++ lit " Line")) with [lit "Wire"; show_wire_type t; lit "Line"]
    by (destruct t; reflexivity).
  rewrite four_plain by assumption. cbn [bind]. destruct t; reflexivity.
Qed.
Lemma split_point k a b : ws_word k = true ->
  split_ws (k ++ lit " ~ " ++ show_Z a ++ bl ++ show_Z b) = [k; lit "~"; show_Z a; show_Z b].
Proof.
  intros H. change (lit " ~ " ++ show_Z a ++ bl ++ show_Z b) with (32%N :: lit "~" ++ 32%N :: show_Z a ++ 32%N :: show_Z b).
  rewrite !split_ws_cons, split_ws_last by (assumption || apply ws_num || reflexivity). reflexivity.
Qed.
Lemma rt_point k a b r : ws_word k = true -> i64_ok a = true -> i64_ok b = true ->
  parse_point ((k ++ lit " ~ " ++ show_Z a ++ bl ++ show_Z b) :: r) = Ok (mk_spoint a b, (k ++ lit " ~ " ++ show_Z a ++ bl ++ show_Z b) :: r).
Proof. intros. unfold parse_point. cbn [here bind]. rewrite split_point by assumption. rewrite !i64_show by assumption. reflexivity. Qed.

Lemma split_text t : stext_ok t = true ->
  split_ws (hd [] (print_text t))
  = [lit "Text"; show_text_type (te_t t); show_Z (te_x t); show_Z (te_y t); show_Z (te_orient t); show_Z (te_size t)]
    ++ match te_shape t with Some s => [s] | None => [] end
    ++ [lit (if te_italic t then "Italic" else "~"); show_Z (te_thickness t)].
Proof.
  intros H. unfold stext_ok in H. bsplit. unfold print_text. cbn [hd].
  change (lit "Text " ++ ?x) with (lit "Text" ++ 32%N :: x). unfold bl. cbn [app].
  rewrite !split_ws_cons by (reflexivity || (destruct (te_t t); reflexivity)).
  rewrite !split_ws_pad by apply ws_num.
  destruct (te_shape t) as [s|].
  - assert (W : ws_word s = true) by (destruct (te_t t); (discriminate || assumption)).
    rewrite <- app_assoc. cbn [app]. rewrite !split_ws_cons by (assumption || reflexivity || (destruct (te_italic t); reflexivity)).
    rewrite split_ws_last by apply ws_num. reflexivity.
  - cbn [app]. rewrite split_ws_cons by (reflexivity || (destruct (te_italic t); reflexivity)).
    rewrite split_ws_last by apply ws_num. reflexivity.
Qed.
Lemma rt_text t r : stext_ok t = true -> parse_text (print_text t ++ r) = Ok (t, te_text t :: r).
Proof.
  intros H. pose proof (split_text t H) as S. unfold print_text in S |- *. cbn [hd] in S. cbn [app]. unfold parse_text, next.
  cbn [here bind tl]. rewrite S. clear S. unfold stext_ok in H. cbn [forallb] in H. bsplit.
  destruct t as [ty x y o sz sh it th tx]. cbn [te_t te_x te_y te_orient te_size te_shape te_italic te_thickness te_text] in *.
  destruct ty, sh as [sh|]; try discriminate; cbn -[show_Z i64_from_string]; rewrite !i64_show by assumption; cbn [bind];
    destruct it; reflexivity.
Qed.

(** ** The whole file *)
Lemma other_word s w : first_word s = Some w -> other_ok s = true ->
  seq w "$Descr" = false /\ seq w "$Comp" = false /\ seq w "$Sheet" = false /\ seq w "$EndSCHEMATC" = false
  /\ seq w "Wire" = false /\ seq w "Connection" = false /\ seq w "NoConn" = false /\ seq w "Text" = false.
Proof.
  unfold first_word, other_ok. destruct (split_ws s) as [|w' l]; [discriminate|]. intros [= <-] H.
  cbn [keywords forallb] in H. bsplit. unfold seq. repeat split; now apply negb_true_iff.
Qed.
Lemma rt_element e c r : selement_ok e = true ->
  exists l, round (print_selement e ++ r) c = Ok (with_element c e, l :: r).
Proof.
  intros H. destruct e as [k|w|k|k|t|s]; cbn [selement_ok print_selement] in *.
  - eexists. unfold round. unfold print_component at 1. cbn [app here bind]. change (first_word (lit "$Comp")) with (Some (lit "$Comp")).
    cbv iota. change (seq (lit "$Comp") "$Descr") with false. change (seq (lit "$Comp") "$Comp") with true. cbv iota.
    rewrite rt_component by assumption. reflexivity.
  - destruct (rt_wire w r H) as (l & E). exists l. unfold round.
    replace (here (print_wire w ++ r)) with (Ok (lit "Wire " ++ show_wire_type (wi_t w) ++ lit " Line")) by reflexivity. cbn [bind].
    replace (first_word (lit "Wire " ++ show_wire_type (wi_t w) ++ lit " Line")) with (Some (lit "Wire"))
      by (destruct (wi_t w); reflexivity).
    change (seq (lit "Wire") "$Descr") with false. change (seq (lit "Wire") "$Comp") with false. change (seq (lit "Wire") "$Sheet") with false.
    change (seq (lit "Wire") "$EndSCHEMATC") with false. change (seq (lit "Wire") "Wire") with true. cbv iota.
    rewrite E. reflexivity.
  - unfold spoint_ok in H. bsplit. eexists. unfold round, print_connection. cbn [app here bind].
    change (lit "Connection ~ " ++ ?x) with (lit "Connection" ++ lit " ~ " ++ x).
    unfold first_word at 1. rewrite split_point by reflexivity. cbn [hd_error].
    change (seq (lit "Connection") "$Descr") with false. change (seq (lit "Connection") "$Comp") with false. change (seq (lit "Connection") "$Sheet") with false.
    change (seq (lit "Connection") "$EndSCHEMATC") with false. change (seq (lit "Connection") "Wire") with false.
    change (seq (lit "Connection") "Connection") with true. cbv iota.
    rewrite rt_point by (assumption || reflexivity). destruct k; reflexivity.
  - unfold spoint_ok in H. bsplit. eexists. unfold round, print_no_connect. cbn [app here bind].
    change (lit "NoConn ~ " ++ ?x) with (lit "NoConn" ++ lit " ~ " ++ x).
    unfold first_word at 1. rewrite split_point by reflexivity. cbn [hd_error].
    change (seq (lit "NoConn") "$Descr") with false. change (seq (lit "NoConn") "$Comp") with false. change (seq (lit "NoConn") "$Sheet") with false.
    change (seq (lit "NoConn") "$EndSCHEMATC") with false. change (seq (lit "NoConn") "Wire") with false.
    change (seq (lit "NoConn") "Connection") with false. change (seq (lit "NoConn") "NoConn") with true. cbv iota.
    rewrite rt_point by (assumption || reflexivity). destruct k; reflexivity.
  - eexists. unfold round. unfold print_text at 1. cbn [app here bind].
    unfold first_word at 1. pose proof (split_text t H) as S. unfold print_text in S. cbn [hd] in S. rewrite S. cbn [app hd_error].
    change (seq (lit "Text") "$Descr") with false. change (seq (lit "Text") "$Comp") with false. change (seq (lit "Text") "$Sheet") with false.
    change (seq (lit "Text") "$EndSCHEMATC") with false. change (seq (lit "Text") "Wire") with false.
    change (seq (lit "Text") "Connection") with false. change (seq (lit "Text") "NoConn") with false. change (seq (lit "Text") "Text") with true. cbv iota.
    rewrite rt_text by assumption. reflexivity.
  - exists s. unfold round. cbn [app here bind]. destruct (first_word s) as [w|] eqn:E.
    + destruct (other_word s w E H) as (H1 & H2 & H3 & H4 & H5 & H6 & H7 & H8).
      rewrite H1, H2, H3, H4, H5, H6, H7, H8. reflexivity.
    + unfold first_word in E. unfold other_ok in H. destruct (split_ws s); [now rewrite andb_false_r in H|discriminate].
Qed.
Lemma rt_sheet_round s c r : sheet_ok s = true ->
  exists l, round (print_sheet s ++ r) c = Ok (with_sheet c s, l :: r).
Proof.
  intros H. eexists. unfold round. unfold print_sheet at 1. cbn [app here bind].
  change (first_word (lit "$Sheet")) with (Some (lit "$Sheet")). cbv iota.
  change (seq (lit "$Sheet") "$Descr") with false. change (seq (lit "$Sheet") "$Comp") with false. change (seq (lit "$Sheet") "$Sheet") with true. cbv iota.
  rewrite rt_sheet by assumption. reflexivity.
Qed.
Lemma rt_descr_round d c r : descr_ok d = true ->
  exists l, round (print_description d ++ r) c = Ok (with_description c d, l :: r).
Proof.
  intros H. eexists. unfold round. unfold print_description at 1. cbn [app here bind].
  match goal with |- context [first_word (lit "$Descr " ++ ?x)] => replace (first_word (lit "$Descr " ++ x)) with (Some (lit "$Descr")) by
    (symmetry; exact (first_word_cons (lit "$Descr") x eq_refl)) end.
  change (seq (lit "$Descr") "$Descr") with true. cbv iota.
  rewrite rt_description by assumption. reflexivity.
Qed.

Lemma loop_step n a p c c' l r : a ++ r = p -> a <> [] -> round p c = Ok (c', l :: r) ->
  main_loop (S n) p c = main_loop n r c'.
Proof. intros <- Ha H. destruct a as [|x a]; [contradiction|]. cbn [app main_loop] in *. rewrite H. reflexivity. Qed.
Lemma print_ne e : print_selement e <> []. Proof. destruct e; discriminate. Qed.

Lemma loop_elements es : forall n c r, forallb selement_ok es = true ->
  (length (flat_map print_selement es ++ r) <= n)%nat ->
  exists m, (length r <= m)%nat /\ main_loop n (flat_map print_selement es ++ r) c
    = main_loop m r (mk_sch (sc_filename c) (sc_libraries c) (sc_description c) (sc_elements c ++ es) (sc_sheets c) (sc_eelayer c)).
Proof.
  induction es as [|e es IH]; intros n c r H Hn; cbn [flat_map app] in *.
  - exists n. split; [assumption|]. rewrite app_nil_r. destruct c; reflexivity.
  - cbn [forallb] in H. apply andb_prop in H as [H1 H2]. rewrite <- app_assoc in Hn |- *.
    pose proof (print_ne e) as Ne. rewrite app_length in Hn.
    destruct n as [|n]; [destruct (print_selement e); [contradiction|cbn in Hn; lia]|].
    destruct (rt_element e c (flat_map print_selement es ++ r) H1) as (l & E).
    rewrite (loop_step n (print_selement e) _ c (with_element c e) l (flat_map print_selement es ++ r) eq_refl Ne E).
    destruct (IH n (with_element c e) r H2) as (m & Hm & E2); [destruct (print_selement e); [contradiction|cbn in Hn; lia]|].
    exists m. split; [assumption|]. rewrite E2. cbn. now rewrite <- app_assoc.
Qed.
Lemma loop_sheets es : forall n c r, forallb sheet_ok es = true ->
  (length (flat_map print_sheet es ++ r) <= n)%nat ->
  exists m, (length r <= m)%nat /\ main_loop n (flat_map print_sheet es ++ r) c
    = main_loop m r (mk_sch (sc_filename c) (sc_libraries c) (sc_description c) (sc_elements c) (sc_sheets c ++ es) (sc_eelayer c)).
Proof.
  induction es as [|e es IH]; intros n c r H Hn; cbn [flat_map app] in *.
  - exists n. split; [assumption|]. rewrite app_nil_r. destruct c; reflexivity.
  - cbn [forallb] in H. apply andb_prop in H as [H1 H2]. rewrite <- app_assoc in Hn |- *.
    assert (Ne : print_sheet e <> []) by discriminate. rewrite app_length in Hn.
    destruct n as [|n]; [cbn in Hn; lia|].
    destruct (rt_sheet_round e c (flat_map print_sheet es ++ r) H1) as (l & E).
    rewrite (loop_step n (print_sheet e) _ c (with_sheet c e) l (flat_map print_sheet es ++ r) eq_refl Ne E).
    destruct (IH n (with_sheet c e) r H2) as (m & Hm & E2); [cbn in Hn; lia|].
    exists m. split; [assumption|]. rewrite E2. cbn. now rewrite <- app_assoc.
Qed.

Lemma libs_rt l : forall acc e r, starts_with (lit "EELAYER ") e = true ->
  libs_loop (map (fun v => lit "LIBS:" ++ v) l ++ e :: r) acc = (acc ++ l, e :: r).
Proof.
  induction l as [|v l IH]; intros acc e r He; cbn [map app libs_loop].
  - rewrite app_nil_r. destruct (starts_with (lit "LIBS:") e) eqn:E; [|reflexivity].
    destruct e as [|x e]; [discriminate|]. change (lit "EELAYER ") with (69%N :: lit "ELAYER ") in He.
    change (lit "LIBS:") with (76%N :: lit "IBS:") in E. cbn [starts_with] in He, E. apply andb_prop in He as [He _]. apply andb_prop in E as [E _].
    apply N.eqb_eq in He, E. congruence.
  - change (starts_with (lit "LIBS:") (lit "LIBS:" ++ v)) with true. cbv iota.
    change (skipn 5 (lit "LIBS:" ++ v)) with v. rewrite IH by assumption. now rewrite <- app_assoc.
Qed.
Lemma rt_lines s : sch_ok s = true -> parse_lines (sc_filename s) (sch_lines s) = Ok s.
Proof.
  intros H. unfold sch_ok in H. bsplit. unfold parse_lines, sch_lines. cbn [app assume_line].
  change (seq (lit "EESchema Schematic File Version 2") "EESchema Schematic File Version 2") with true. cbn [bind].
  rewrite libs_rt by assumption. cbn [here bind]. match goal with H : starts_with _ _ = true |- _ => rewrite H end. cbn [negb next tl assume_line].
  change (seq (lit "EELAYER END") "EELAYER END") with true. cbn [bind].
  match goal with |- main_loop (length ?P) ?P ?c = _ => set (p := P); remember (length p) as n eqn:En; set (c0 := c) end.
  pose proof (rt_descr_round (sc_description s) c0 (flat_map print_selement (sc_elements s) ++ flat_map print_sheet (sc_sheets s) ++ [lit "$EndSCHEMATC"])
    ltac:(assumption)) as (l & E).
  destruct n as [|n]; [discriminate|].
  assert (Ne : print_description (sc_description s) <> []) by discriminate.
  unfold p. match goal with |- main_loop (S n) (_ ++ ?R) _ = _ => rewrite (loop_step n _ _ _ _ l R eq_refl Ne E) end.
  destruct (loop_elements (sc_elements s) n (with_description c0 (sc_description s)) (flat_map print_sheet (sc_sheets s) ++ [lit "$EndSCHEMATC"])
    ltac:(assumption)) as (m & Hm & E2).
  { unfold p in En. rewrite app_length in En. cbn [print_description length] in En. lia. }
  rewrite E2. clear E2.
  match goal with |- main_loop m _ ?c = _ => destruct (loop_sheets (sc_sheets s) m c [lit "$EndSCHEMATC"] ltac:(assumption) Hm) as (m' & Hm' & E3) end.
  rewrite E3. destruct m' as [|m']; [cbn in Hm'; lia|]. cbn [main_loop].
  unfold round. cbn [here bind]. change (first_word (lit "$EndSCHEMATC")) with (Some (lit "$EndSCHEMATC")). cbv iota.
  change (seq (lit "$EndSCHEMATC") "$Descr") with false. change (seq (lit "$EndSCHEMATC") "$Comp") with false.
  change (seq (lit "$EndSCHEMATC") "$Sheet") with false. change (seq (lit "$EndSCHEMATC") "$EndSCHEMATC") with true. cbv iota.
  cbn [bind fst snd next tl]. destruct m'; cbn; destruct s; reflexivity.
Qed.
