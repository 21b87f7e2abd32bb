(** What is known about schematics that were read from a text (lemmas for C09). *)
From Coq Require Import String Lia.
From Verif Require Import Base Str StrFacts Num NumFacts F64 F64Text F64Facts LibFns LibSpec LibFacts SchData SchPrint SchParse SchWf SchLine SchFacts SchEnds.
Open Scope string_scope. Open Scope list_scope.

Ltac binv := repeat match goal with
  | H : bind ?e _ = Ok _ |- _ => let v := fresh "v" in destruct e as [v| |] eqn:?; cbn [bind] in H; [|discriminate H|discriminate H]
  end.

Ltac small := apply Nat.ltb_lt; reflexivity.

(** ** Lines *)
Lemma split_on_lines_nl s : Forall (fun l => no_nl l = true) (split_on (fun c => (c =? 10)%N) s).
Proof.
  induction s as [|c s IH]; cbn [split_on]; [repeat constructor|].
  destruct (c =? 10)%N eqn:E; [constructor; [reflexivity|exact IH]|].
  destruct (split_on _ s) as [|w ws]; [repeat constructor; cbn; now rewrite E|].
  inversion IH; subst. constructor; [|assumption]. unfold no_nl in *. cbn [forallb]. rewrite E. assumption.
Qed.
Lemma drop_last_incl l : incl (drop_last_empty l) l.
Proof.
  induction l as [|w l IH]; [apply incl_refl|]. intros x Hx. destruct w as [|c w].
  - destruct l; cbn [drop_last_empty] in Hx; [destruct Hx|]. destruct Hx as [<-|Hx]; [now left|right; auto].
  - cbn [drop_last_empty] in Hx. destruct Hx as [<-|Hx]; [now left|right; auto].
Qed.
Lemma strip_cr_incl s : incl (strip_cr s) s.
Proof.
  induction s as [|c s IH]; [apply incl_refl|]. intros x Hx. destruct s as [|d s].
  - cbn [strip_cr] in Hx. destruct (c =? 13)%N; [destruct Hx|exact Hx].
  - destruct Hx as [<-|Hx]; [now left|right; auto].
Qed.
Lemma no_nl_incl s t : incl s t -> no_nl t = true -> no_nl s = true.
Proof. unfold no_nl. rewrite !forallb_forall. auto. Qed.
Lemma lines_nl s : Forall (fun l => no_nl l = true) (lines s).
Proof.
  unfold lines. apply Forall_forall. intros x Hx. apply in_map_iff in Hx as (l & <- & Hl). apply drop_last_incl in Hl.
  eapply no_nl_incl; [apply strip_cr_incl|]. pose proof (split_on_lines_nl s) as F. rewrite Forall_forall in F. auto.
Qed.

(** ** Words *)
Definition limit (n : option nat) (k : nat) : Prop := match n with Some m => (k < m)%nat | None => True end.
Definition sp_inv (n : option nat) (st : sp) : Prop :=
  sp_i st = length (sp_v st) /\ Forall (fun w => quotable w = true) (sp_v st) /\ no_nl (sp_s st) = true
  /\ (limit n (sp_i st) -> quotable (sp_s st) = true).
Lemma quotable_app s t : quotable s = true -> quotable t = true -> quotable (s ++ t) = true.
Proof.
  unfold quotable, no_nl. rewrite !forallb_app, !andb_true_iff. tauto.
Qed.
Lemma sp_step_inv n st c : sp_inv n st -> (c =? 10)%N = false -> (match n with Some k => (sp_i st <= k)%nat | None => True end) ->
  sp_inv n (sp_step n st c) /\ (match n with Some k => (sp_i (sp_step n st c) <= k)%nat | None => True end).
Proof.
  destruct st as [i v ins seen s]. intros (H1 & H2 & H3 & H4) Hc Hk. cbn [sp_i sp_v sp_s] in *. unfold sp_step.
  assert (N1 : no_nl (s ++ [c]) = true).
  { apply nl_app; [assumption|]. unfold no_nl. cbn [forallb]. now rewrite Hc. }
  destruct (match n with Some k => Nat.eqb i k | None => false end) eqn:E.
  - destruct n as [k|]; [|discriminate]. apply Nat.eqb_eq in E. subst k. split; [|assumption].
    repeat split; cbn [sp_i sp_v sp_s]; try assumption. cbn [limit]. lia.
  - assert (L : limit n i).
    { destruct n as [k|]; [|exact I]. apply Nat.eqb_neq in E. cbn [limit]. lia. }
    specialize (H4 L).
    destruct (c =? 34)%N eqn:E34; [destruct ins; (split; [|assumption]); repeat split; cbn [sp_i sp_v sp_s]; auto|].
    assert (Q : quotable (s ++ [c]) = true).
    { apply quotable_app; [assumption|]. unfold quotable, no_nl. cbn [forallb]. now rewrite Hc, E34. }
    destruct (negb ins && (c =? 32)%N).
    + destruct (negb (is_empty s) || seen).
      * split.
        -- repeat split; cbn [sp_i sp_v sp_s]; [rewrite app_length; cbn; lia|].
           apply Forall_app; split; [assumption|repeat constructor; assumption].
        -- cbn [sp_i]. destruct n; [cbn [limit] in L; lia|exact I].
      * split; [|assumption]. repeat split; cbn [sp_i sp_v sp_s]; auto.
    + split; [|assumption]. repeat split; cbn [sp_i sp_v sp_s]; auto.
Qed.
Lemma sp_fold_inv n s : forall st, no_nl s = true -> sp_inv n st -> (match n with Some k => (sp_i st <= k)%nat | None => True end) ->
  sp_inv n (fold_left (sp_step n) s st).
Proof.
  induction s as [|c s IH]; intros st Hs Hi Hk; [exact Hi|]. cbn [fold_left]. unfold no_nl in Hs. cbn [forallb] in Hs.
  apply andb_prop in Hs as [Hc Hs]. apply negb_true_iff in Hc.
  destruct (sp_step_inv n st c Hi Hc Hk) as [A B]. apply IH; assumption.
Qed.
Lemma split_words_quotable n s v k w : no_nl s = true -> split_quote_aware_int n s = Ok v -> limit n k ->
  idx v k = Ok w -> quotable w = true.
Proof.
  intros Hs H Hk Hw. unfold split_quote_aware_int in H.
  assert (I0 : sp_inv n (mk_sp 0 [] false false [])) by (repeat split; constructor).
  pose proof (sp_fold_inv n s _ Hs I0) as I. destruct n as [m|].
  - specialize (I (Nat.le_0_l m)). set (st := fold_left _ _ _) in *.
    destruct I as (I1 & I2 & I3 & I4). cbn [limit] in *.
    destruct (negb (is_empty (sp_s st)) || sp_seen st); destruct (Nat.ltb _ _); try discriminate; injection H as <-;
      unfold idx in Hw; destruct (nth_error _ k) eqn:E; try discriminate; injection Hw as ->.
    + destruct (Nat.lt_ge_cases k (length (sp_v st))) as [L|L].
      * rewrite nth_error_app1 in E by assumption. apply nth_error_In in E. rewrite Forall_forall in I2. auto.
      * rewrite nth_error_app2 in E by assumption. destruct (k - length (sp_v st))%nat as [|q] eqn:Eq; [|destruct q; discriminate].
        injection E as <-. apply I4. lia.
    + apply nth_error_In in E. rewrite Forall_forall in I2. auto.
  - specialize (I Logic.I). set (st := fold_left _ _ _) in *. destruct I as (I1 & I2 & I3 & I4). cbn [limit] in *.
    injection H as <-. unfold idx in Hw. destruct (nth_error _ k) eqn:E; try discriminate. injection Hw as ->.
    apply nth_error_In in E. destruct (negb (is_empty (sp_s st)) || sp_seen st).
    + apply in_app_iff in E as [E|[<-|[]]]; [rewrite Forall_forall in I2; auto|auto].
    + rewrite Forall_forall in I2. auto.
Qed.

Lemma i64_from_ok s z : i64_from_string s = Ok z -> i64_ok z = true.
Proof. unfold i64_from_string. destruct (i64_of_str s) eqn:E; [|discriminate]. intros [= <-]. now apply i64_of_str_range in E. Qed.

(** ** Components *)
Definition cfield_pre (f : cfield) : bool :=
  i64_ok (cf_i f) && i64_ok (cf_size f) && quotable (cf_value f) && quotable (cf_name f).
Definition component_pre (c : component) : bool :=
  quotable (co_name c) && quotable (co_reference c) && (is_empty (co_u c) || begins "U" (co_u c)) && no_nl (co_u c)
  && i64_ok (co_x c) && i64_ok (co_y c)
  && forallb (fun a => begins "AR" a && no_nl a) (co_ar c)
  && forallb cfield_pre (co_fields c)
  && forallb i64_ok [ro_a (co_rotation c); ro_b (co_rotation c); ro_c (co_rotation c); ro_d (co_rotation c)].

Lemma default_name_quotable i n : default_field_name i = Some n -> quotable n = true.
Proof.
  unfold default_field_name. destruct i as [|p|p]; try discriminate.
  - intros [= <-]. reflexivity.
  - destruct p as [p|p|]; [destruct p| destruct p|]; try discriminate; intros [= <-]; reflexivity.
Qed.
Lemma cfield_new_pre s v f : no_nl s = true -> split_quote_aware s = Ok v -> cfield_new v = Ok f -> cfield_pre f = true.
Proof.
  intros Hs Hv H. unfold cfield_new in H. destruct (negb _ && negb _); [discriminate|].
  assert (Q : forall k w, idx v k = Ok w -> quotable w = true) by (intros k w; exact (split_words_quotable None s v k w Hs Hv Logic.I)).
  binv. injection H as <-. unfold cfield_pre. cbn [cf_i cf_size cf_value cf_name].
  repeat match goal with H : i64_from_string _ = Ok ?z |- _ => apply i64_from_ok in H; try rewrite H end.
  cbn [andb]. destruct (Nat.eqb (length v) 11).
  - repeat match goal with H : idx v ?k = Ok ?w |- _ => apply Q in H; rewrite ?H end. reflexivity.
  - match goal with H : of_option _ _ = Ok ?n |- _ => unfold of_option in H; destruct (default_field_name _) eqn:E; [|discriminate]; injection H as -> end.
    apply default_name_quotable in E. rewrite E, andb_true_r.
    match goal with H : idx v 2 = Ok _ |- _ => apply Q in H; exact H end.
Qed.

Lemma pre_comp_inv c : component_pre c = true -> quotable (co_name c) = true /\ quotable (co_reference c) = true /\
  is_empty (co_u c) || begins "U" (co_u c) = true /\ no_nl (co_u c) = true /\ i64_ok (co_x c) = true /\ i64_ok (co_y c) = true
  /\ forallb (fun a => begins "AR" a && no_nl a) (co_ar c) = true /\ forallb cfield_pre (co_fields c) = true
  /\ forallb i64_ok [ro_a (co_rotation c); ro_b (co_rotation c); ro_c (co_rotation c); ro_d (co_rotation c)] = true.
Proof. unfold component_pre. rewrite !andb_true_iff. tauto. Qed.
Lemma component_line_pre s d d' : no_nl s = true -> component_pre d = true -> component_line s d = Ok d' -> component_pre d' = true.
Proof.
  intros Hs Hd H. destruct (pre_comp_inv d Hd) as (P1 & P2 & P3 & P4 & P5 & P6 & P7 & P8 & P9).
  assert (Q : forall n k w v, split_quote_aware_n n s = Ok v -> idx v k = Ok w -> Nat.ltb k n = true -> quotable w = true)
    by (intros n k w v Hv Hw Hk; apply Nat.ltb_lt in Hk; exact (split_words_quotable (Some n) s v k w Hs Hv Hk Hw)).
  unfold component_line in H.
  destruct (word_is s "L"); [|destruct (word_is s "U") eqn:EU; [|destruct (word_is s "P"); [|destruct (word_is s "F"); [|destruct (word_is s "AR") eqn:EA]]]].
  - binv. injection H as <-. unfold component_pre, set_l. cbn [co_name co_reference co_u co_x co_y co_ar co_fields co_rotation].
    rewrite P3, P4, P5, P6, P7, P8, P9.
    rewrite (Q _ _ _ _ Heqr Heqr0 eq_refl), (Q _ _ _ _ Heqr Heqr1 eq_refl). reflexivity.
  - injection H as <-. unfold component_pre, set_u. cbn [co_name co_reference co_u co_x co_y co_ar co_fields co_rotation].
    rewrite P1, P2, P5, P6, P7, P8, P9, word_is_begins, EU, Hs, orb_true_r. reflexivity.
  - binv. injection H as <-. unfold component_pre, set_p. cbn [co_name co_reference co_u co_x co_y co_ar co_fields co_rotation].
    rewrite P1, P2, P3, P4, P7, P8, P9. repeat match goal with H : i64_from_string _ = Ok ?z |- _ => apply i64_from_ok in H; rewrite H end. reflexivity.
  - binv. injection H as <-. unfold component_pre, set_fields. cbn [co_name co_reference co_u co_x co_y co_ar co_fields co_rotation].
    rewrite P1, P2, P3, P4, P5, P6, P7, P9, forallb_app, P8. cbn [forallb]. rewrite (cfield_new_pre s v v0) by assumption. reflexivity.
  - injection H as <-. unfold component_pre, push_ar. cbn [co_name co_reference co_u co_x co_y co_ar co_fields co_rotation].
    rewrite P1, P2, P3, P4, P5, P6, P8, P9, forallb_app, P7. cbn [forallb]. rewrite word_is_begins, EA, Hs. reflexivity.
  - injection H as <-. exact Hd.
Qed.
Lemma four_ok s a b c d : four s = Ok (a, b, c, d) -> forallb i64_ok [a; b; c; d] = true.
Proof.
  unfold four. destruct (split_ws s) as [|w1 [|w2 [|w3 [|w4 [|]]]]]; try discriminate. intros H. binv. injection H as -> -> -> ->.
  cbn [forallb]. repeat match goal with H : i64_from_string _ = Ok ?z |- _ => apply i64_from_ok in H; rewrite H end. reflexivity.
Qed.
Definition all_nl (p : list str) : Prop := Forall (fun l => no_nl l = true) p.
(** The position reached is a suffix of the lines, so it is again made of lines. *)
Lemma component_loop_pre n : forall p d d' q, (length p <= n)%nat -> all_nl p -> component_pre d = true -> component_loop p d = Ok (d', q) ->
  component_pre d' = true /\ all_nl q.
Proof.
  induction n as [|n IH]; intros p d d' q Hn Hp Hd H.
  - destruct p; [discriminate|cbn in Hn; lia].
  - destruct p as [|s r]; [discriminate|]. cbn [component_loop] in H. inversion Hp; subst.
    destruct (seq s "$EndComp"); [injection H as <- <-; now split|].
    destruct (word_is s "1" || word_is s "0").
    + destruct r as [|s2 r2]; [discriminate|]. binv. destruct v as [[[a b] c] e]. cbn [length] in Hn.
      apply IH in H; [assumption|lia|now inversion H3|].
      destruct (pre_comp_inv d Hd) as (P1 & P2 & P3 & P4 & P5 & P6 & P7 & P8 & P9).
      unfold component_pre, set_rotation. cbn [co_name co_reference co_u co_x co_y co_ar co_fields co_rotation ro_a ro_b ro_c ro_d].
      rewrite P1, P2, P3, P4, P5, P6, P7, P8. now apply four_ok in Heqr.
    + binv. cbn [length] in Hn. apply IH in H; [assumption|lia|assumption|].
      eapply component_line_pre; eassumption.
Qed.
Lemma parse_component_pre p d q : all_nl p -> parse_component p = Ok (d, q) -> component_pre d = true /\ all_nl q.
Proof.
  intros Hp H. unfold parse_component in H. eapply component_loop_pre in H; [exact H|apply le_n| |reflexivity].
  destruct p; [constructor|now inversion Hp].
Qed.
Lemma line_ok_split s : no_nl s = true -> no_cr s = true -> line_ok s = true.
Proof. unfold line_ok, no_cr. now intros -> ->. Qed.
Lemma component_finish c : component_pre c = true -> component_clean c = true -> component_ok c = true.
Proof.
  intros Hp Hc. destruct (pre_comp_inv c Hp) as (P1 & P2 & P3 & P4 & P5 & P6 & P7 & P8 & P9).
  apply quotable_nl in P1, P2.
  unfold component_clean in Hc. bsplit. unfold component_ok, end_word. rewrite P1, P3, P5, P6, P9.
  repeat match goal with H : word_str _ = true |- _ => rewrite H end.
  rewrite !line_ok_split by assumption. cbn [andb].
  apply andb_true_intro; split; [apply andb_true_intro; split|reflexivity].
  - rewrite forallb_forall in *. intros a Ha. specialize (P7 a Ha). bsplit.
    match goal with H : begins _ _ = true |- _ => rewrite H end. rewrite line_ok_split; auto.
  - rewrite forallb_forall in *. intros f Hf. specialize (P8 f Hf).
    match goal with H : forall x, In x (co_fields c) -> _ |- _ => specialize (H f Hf); rename H into CC end.
    unfold cfield_pre in P8. unfold cfield_clean in CC. unfold cfield_ok. bsplit.
    repeat match goal with H : _ = true |- _ => rewrite H; clear H end. reflexivity.
Qed.

(** ** Sheets *)
Definition sheet_pre (s : sheet) : bool :=
  quotable (sh_unique s) && quotable (sh_name s) && quotable (sh_filename s)
  && forallb i64_ok [sh_x s; sh_y s; sh_dimx s; sh_dimy s; sh_name_size s; sh_filename_size s]
  && forallb label_ok (sh_labels s).
Lemma sheet_line_pre st s s' : no_nl st = true -> sheet_pre s = true -> sheet_line st s = Ok s' -> sheet_pre s' = true.
Proof.
  intros Hs Hd H.
  assert (Q : forall n k w v, split_quote_aware_n n st = Ok v -> idx v k = Ok w -> Nat.ltb k n = true -> quotable w = true)
    by (intros n k w v Hv Hw Hk; apply Nat.ltb_lt in Hk; exact (split_words_quotable (Some n) st v k w Hs Hv Hk Hw)).
  pose proof Hd as Hd0. unfold sheet_pre in Hd. cbn [forallb] in Hd. bsplit.
  unfold sheet_line in H. destruct (first_word st) as [w|]; [|injection H as <-; exact Hd0].
  destruct (seq w "S"); [|destruct (seq w "U"); [|destruct (starts_with (lit "F") w)]].
  - binv. injection H as <-. unfold sheet_pre. cbn [sh_x sh_y sh_dimx sh_dimy sh_unique sh_name sh_name_size sh_filename sh_filename_size sh_labels forallb].
    repeat match goal with H : i64_from_string _ = Ok ?z |- _ => apply i64_from_ok in H; rewrite H end.
    repeat match goal with H : ?x = true |- context [?x] => rewrite H end. reflexivity.
  - binv. injection H as <-. unfold sheet_pre. cbn [sh_x sh_y sh_dimx sh_dimy sh_unique sh_name sh_name_size sh_filename sh_filename_size sh_labels forallb].
    match goal with H : idx ?v 1 = Ok ?w, H' : split_quote_aware_n _ _ = Ok ?v |- _ => rewrite (Q _ _ _ _ H' H eq_refl) end.
    repeat match goal with H : ?x = true |- context [?x] => rewrite H end. reflexivity.
  - binv. destruct (Z.eqb v 0); [|destruct (Z.eqb v 1)].
    + binv. injection H as <-. unfold sheet_pre. cbn [sh_x sh_y sh_dimx sh_dimy sh_unique sh_name sh_name_size sh_filename sh_filename_size sh_labels forallb].
      match goal with H : idx ?v 1 = Ok ?w, H' : split_quote_aware_n _ _ = Ok ?v |- _ => rewrite (Q _ _ _ _ H' H eq_refl) end.
      repeat match goal with H : i64_from_string _ = Ok ?z |- _ => apply i64_from_ok in H; rewrite H end.
      repeat match goal with H : ?x = true |- context [?x] => rewrite H end. reflexivity.
    + binv. injection H as <-. unfold sheet_pre. cbn [sh_x sh_y sh_dimx sh_dimy sh_unique sh_name sh_name_size sh_filename sh_filename_size sh_labels forallb].
      match goal with H : idx ?v 1 = Ok ?w, H' : split_quote_aware_n _ _ = Ok ?v |- _ => rewrite (Q _ _ _ _ H' H eq_refl) end.
      repeat match goal with H : i64_from_string _ = Ok ?z |- _ => apply i64_from_ok in H; rewrite H end.
      repeat match goal with H : ?x = true |- context [?x] => rewrite H end. reflexivity.
    + binv. injection H as <-. unfold sheet_pre. cbn [sh_x sh_y sh_dimx sh_dimy sh_unique sh_name sh_name_size sh_filename sh_filename_size sh_labels forallb].
      rewrite forallb_app. cbn [forallb].
      replace (label_ok v0) with true; [repeat match goal with H : ?x = true |- context [?x] => rewrite H end; reflexivity|].
      symmetry. unfold parse_sheet_label in Heqr0. binv. injection Heqr0 as <-.
      unfold label_ok. cbn [sl_name sl_form sl_side sl_x sl_y sl_size forallb].
      match goal with H : idx ?v 1 = Ok ?w, H' : split_quote_aware_n 7 _ = Ok ?v |- _ => rewrite (Q _ _ _ _ H' H eq_refl) end.
      repeat match goal with H : i64_from_string _ = Ok ?z |- _ => apply i64_from_ok in H; try rewrite H end. reflexivity.
  - injection H as <-. exact Hd0.
Qed.
Lemma sheet_loop_pre p : forall s s' q, all_nl p -> sheet_pre s = true -> sheet_loop p s = Ok (s', q) -> sheet_pre s' = true /\ all_nl q.
Proof.
  induction p as [|st r IH]; intros s s' q Hp Hs H; [discriminate|]. cbn [sheet_loop] in H. pose proof Hp as Hp0. inversion Hp; subst.
  destruct (seq st "$EndSheet"); [injection H as <- <-; now split|]. binv. eapply IH; [assumption| |exact H].
  eapply sheet_line_pre; eassumption.
Qed.
Lemma parse_sheet_pre p d q : all_nl p -> parse_sheet p = Ok (d, q) -> sheet_pre d = true /\ all_nl q.
Proof.
  intros Hp H. unfold parse_sheet in H. eapply sheet_loop_pre in H; [exact H| |reflexivity].
  destruct p; [constructor|now inversion Hp].
Qed.
Lemma sheet_finish s : sheet_pre s = true -> sheet_clean s = true -> sheet_ok s = true.
Proof.
  intros Hp Hc. unfold sheet_pre in Hp. unfold sheet_clean in Hc. unfold sheet_ok, end_word. bsplit.
  rewrite line_ok_split; [|now apply quotable_nl|assumption].
  repeat match goal with H : ?x = true |- context [?x] => rewrite H end. reflexivity.
Qed.

(** ** Description *)
Definition descr_pre (d : description) : bool :=
  quotable (ds_size d) && forallb i64_ok [ds_dimx d; ds_dimy d; ds_sheet d; ds_count d]
  && forallb quotable [ds_title d; ds_date d; ds_rev d; ds_comp d; ds_comment1 d; ds_comment2 d; ds_comment3 d; ds_comment4 d].
Lemma wq_quotable n s w : no_nl s = true -> word_and_qstring n s = Ok w -> quotable w = true.
Proof.
  intros Hs H. unfold word_and_qstring in H. binv.
  refine (split_words_quotable (Some 2%nat) s v 1 w Hs Heqr _ H). cbn [limit]. lia.
Qed.
Lemma here_nl p s : all_nl p -> here p = Ok s -> no_nl s = true.
Proof. intros Hp H. destruct p; [discriminate|]. injection H as <-. now inversion Hp. Qed.
Lemma next_nl p : all_nl p -> all_nl (next p).
Proof. intros Hp. destruct p; [exact Hp|now inversion Hp]. Qed.
Lemma parse_description_pre p d q : all_nl p -> parse_description p = Ok (d, q) -> descr_pre d = true /\ all_nl q.
Proof.
  intros Hp H. unfold parse_description in H. binv. destruct (negb _); [discriminate|]. binv. injection H as <- <-.
  assert (Hs : no_nl v = true) by (eapply here_nl; eassumption).
  split; [|repeat apply next_nl; assumption].
  unfold descr_pre. cbn [ds_size ds_dimx ds_dimy ds_sheet ds_count ds_title ds_date ds_rev ds_comp ds_comment1 ds_comment2 ds_comment3 ds_comment4 forallb].
  match goal with H1 : split_quote_aware_n 4 _ = Ok ?w, H2 : idx ?w 1 = Ok ?x |- _ =>
    rewrite (split_words_quotable (Some 4%nat) v w 1 x Hs H1 (proj1 (Nat.ltb_lt 1 4) eq_refl) H2) end.
  repeat match goal with H : i64_from_string _ = Ok ?z |- _ => apply i64_from_ok in H; rewrite H end.
  repeat match goal with H1 : here ?p = Ok ?s, H : word_and_qstring _ ?s = Ok ?z |- context [quotable ?z] =>
    rewrite (wq_quotable _ s z (here_nl p s ltac:(repeat apply next_nl; assumption) H1) H) end.
  reflexivity.
Qed.

(** ** Other elements *)
Definition selement_pre (e : selement) : bool :=
  match e with
  | SComponent c => component_pre c
  | SWire w => wire_ok w
  | SConnection c | SNoConnect c => spoint_ok c
  | SText t =>
      forallb i64_ok [te_x t; te_y t; te_orient t; te_size t; te_thickness t]
      && match te_t t, te_shape t with
         | (TNote | TLabel), None => true
         | (TGlobal | THier), Some s => ws_word s
         | _, _ => false
         end
      && no_nl (te_text t)
  | SOther s => no_nl s && match split_ws s with w :: _ => forallb (fun k => negb (str_eqb w (lit k))) keywords | [] => false end
  end.
Lemma parse_wire_pre p w q : all_nl p -> parse_wire p = Ok (w, q) -> wire_ok w = true /\ all_nl q.
Proof.
  intros Hp H. unfold parse_wire in H. binv. destruct (split_ws v) as [|a [|b [|c [|]]]]; try discriminate. binv.
  destruct v1 as [[[x1 y1] x2] y2]. injection H as <- <-. split; [|now apply next_nl].
  unfold wire_ok. cbn [wi_x1 wi_y1 wi_x2 wi_y2]. eapply four_ok. eassumption.
Qed.
Lemma parse_point_pre p w q : all_nl p -> parse_point p = Ok (w, q) -> spoint_ok w = true /\ all_nl q.
Proof.
  intros Hp H. unfold parse_point in H. binv. destruct (split_ws v) as [|a [|b [|c [|d [|]]]]]; try discriminate. binv.
  injection H as <- <-. split; [|assumption]. unfold spoint_ok. cbn [cn_x cn_y].
  repeat match goal with H : i64_from_string _ = Ok ?z |- _ => apply i64_from_ok in H; rewrite H end. reflexivity.
Qed.
Lemma split_on_none_in p s : Forall (fun w => forallb (fun c => negb (p c)) w = true) (split_on p s).
Proof.
  induction s as [|c s IH]; cbn [split_on]; [repeat constructor|]. destruct (p c) eqn:E; [constructor; [reflexivity|exact IH]|].
  destruct (split_on p s) as [|w ws]; [repeat constructor; cbn; now rewrite E|]. inversion IH; subst.
  constructor; [|assumption]. cbn [forallb]. now rewrite E.
Qed.
Lemma split_ws_words s : Forall (fun w => ws_word w = true) (split_ws s).
Proof.
  apply Forall_forall. intros w Hw. unfold split_ws in Hw. apply filter_In in Hw as [H1 H2]. unfold ws_word. rewrite H2.
  pose proof (split_on_none_in is_ws s) as F. rewrite Forall_forall in F. apply (F w H1).
Qed.
Lemma parse_text_pre p t q : all_nl p -> parse_text p = Ok (t, q) -> selement_pre (SText t) = true /\ all_nl q.
Proof.
  intros Hp H. unfold parse_text in H. binv. destruct (Nat.ltb _ _); [discriminate|]. binv. injection H as <- <-.
  split; [|now apply next_nl]. cbn [selement_pre te_t te_x te_y te_orient te_size te_shape te_thickness te_text forallb].
  repeat match goal with H : i64_from_string _ = Ok ?z |- _ => apply i64_from_ok in H; try rewrite H end. cbn [andb].
  apply andb_true_intro; split.
  - destruct (is_local v1) eqn:E.
    + match goal with H : Ok None = Ok ?x |- _ => injection H as <- end. destruct v1; (reflexivity || discriminate).
    + binv. match goal with H : Ok (Some ?w) = Ok ?x |- _ => injection H as <- end.
      match goal with H : idx _ 6 = Ok ?w |- _ => unfold idx in H; destruct (nth_error _ 6) eqn:E6; [|discriminate]; injection H as -> end.
      apply nth_error_In in E6. pose proof (split_ws_words v) as F. rewrite Forall_forall in F. apply F in E6.
      destruct v1; (assumption || discriminate).
  - match goal with H : here (next p) = Ok ?w |- no_nl ?w = true => apply (here_nl (next p)); [now apply next_nl|exact H] end.
Qed.

(** ** The loop *)
Definition sch_pre (s : schematic) : bool :=
  forallb no_nl (sc_libraries s)
  && starts_with (lit "EELAYER ") (sc_eelayer s) && no_nl (sc_eelayer s)
  && descr_pre (sc_description s) && forallb selement_pre (sc_elements s) && forallb sheet_pre (sc_sheets s).
Lemma with_element_pre c e : sch_pre c = true -> selement_pre e = true -> sch_pre (with_element c e) = true.
Proof.
  intros Hc He. unfold sch_pre, with_element in *. cbn [sc_libraries sc_eelayer sc_description sc_elements sc_sheets]. bsplit.
  rewrite forallb_app. cbn [forallb]. rewrite He.
  repeat match goal with H : ?x = true |- context [?x] => rewrite H end. reflexivity.
Qed.
Lemma with_sheet_pre c e : sch_pre c = true -> sheet_pre e = true -> sch_pre (with_sheet c e) = true.
Proof.
  intros Hc He. unfold sch_pre, with_sheet in *. cbn [sc_libraries sc_eelayer sc_description sc_elements sc_sheets]. bsplit.
  rewrite forallb_app. cbn [forallb]. rewrite He.
  repeat match goal with H : ?x = true |- context [?x] => rewrite H end. reflexivity.
Qed.
Lemma with_description_pre c e : sch_pre c = true -> descr_pre e = true -> sch_pre (with_description c e) = true.
Proof.
  intros Hc He. unfold sch_pre, with_description in *. cbn [sc_libraries sc_eelayer sc_description sc_elements sc_sheets]. bsplit.
  rewrite He. repeat match goal with H : ?x = true |- context [?x] => rewrite H end. reflexivity.
Qed.
Lemma round_pre p c c' q : all_nl p -> sch_pre c = true -> round p c = Ok (c', q) -> sch_pre c' = true /\ all_nl q /\ sc_filename c' = sc_filename c.
Proof.
  intros Hp Hc H. unfold round in H. binv. destruct (first_word v) as [w|] eqn:Ew; [|discriminate].
  assert (Hs : no_nl v = true) by (eapply here_nl; eassumption).
  destruct (seq w "$Descr") eqn:E1.
  { binv. destruct v0 as [d r]. injection H as <- <-. apply parse_description_pre in Heqr0 as [A B]; [|assumption].
    cbn [fst snd]. split; [now apply with_description_pre|now split]. }
  destruct (seq w "$Comp") eqn:E2.
  { binv. destruct v0 as [d r]. injection H as <- <-. apply parse_component_pre in Heqr0 as [A B]; [|assumption].
    cbn [fst snd]. split; [now apply with_element_pre|now split]. }
  destruct (seq w "$Sheet") eqn:E3.
  { binv. destruct v0 as [d r]. injection H as <- <-. apply parse_sheet_pre in Heqr0 as [A B]; [|assumption].
    cbn [fst snd]. split; [now apply with_sheet_pre|now split]. }
  destruct (seq w "$EndSCHEMATC") eqn:E4; [injection H as <- <-; now split|].
  destruct (seq w "Wire") eqn:E5.
  { binv. destruct v0 as [d r]. injection H as <- <-. apply parse_wire_pre in Heqr0 as [A B]; [|assumption].
    cbn [fst snd]. split; [now apply with_element_pre|now split]. }
  destruct (seq w "Connection") eqn:E6.
  { binv. destruct v0 as [d r]. injection H as <- <-. apply parse_point_pre in Heqr0 as [A B]; [|assumption].
    cbn [fst snd]. split; [now apply with_element_pre|now split]. }
  destruct (seq w "NoConn") eqn:E7.
  { binv. destruct v0 as [d r]. injection H as <- <-. apply parse_point_pre in Heqr0 as [A B]; [|assumption].
    cbn [fst snd]. split; [now apply with_element_pre|now split]. }
  destruct (seq w "Text") eqn:E8.
  { binv. destruct v0 as [d r]. injection H as <- <-. apply parse_text_pre in Heqr0 as [A B]; [|assumption].
    cbn [fst snd]. split; [now apply with_element_pre|now split]. }
  injection H as <- <-. split; [|now split]. apply with_element_pre; [assumption|]. cbn [selement_pre]. rewrite Hs.
  unfold first_word in Ew. destruct (split_ws v) as [|w' l]; [discriminate|]. injection Ew as ->. unfold seq in *.
  cbn [keywords forallb]. rewrite E1, E2, E3, E4, E5, E6, E7, E8. reflexivity.
Qed.
Lemma main_loop_pre n : forall p c s, all_nl p -> sch_pre c = true -> main_loop n p c = Ok s -> sch_pre s = true /\ sc_filename s = sc_filename c.
Proof.
  induction n as [|n IH]; intros p c s Hp Hc H; (destruct p as [|l p]; [injection H as <-; now split|]); [discriminate|].
  cbn [main_loop] in H. binv. destruct v as [c' q]. apply round_pre in Heqr as (A & B & C); [|assumption|assumption].
  cbn [fst snd] in H. rewrite <- C. apply (IH (next q)); [now apply next_nl|assumption|exact H].
Qed.
Lemma skipn_nl k s : no_nl s = true -> no_nl (skipn k s) = true.
Proof.
  revert s. induction k as [|k IH]; intros s H; [exact H|]. destruct s as [|c s]; [reflexivity|]. cbn [skipn]. apply IH.
  unfold no_nl in *. cbn [forallb] in H. now apply andb_prop in H as [_ H].
Qed.
Lemma libs_pre p : forall acc, all_nl p -> forallb no_nl acc = true ->
  forallb no_nl (fst (libs_loop p acc)) = true /\ all_nl (snd (libs_loop p acc)).
Proof.
  induction p as [|s r IH]; intros acc Hp Ha; cbn [libs_loop]; [now split|].
  destruct (starts_with (lit "LIBS:") s); [|now split]. inversion Hp; subst.
  apply IH; [assumption|]. rewrite forallb_app, Ha. cbn [forallb]. rewrite skipn_nl by assumption. reflexivity.
Qed.
Lemma parse_pre fn t s : parse_schematic fn t = Ok s -> sch_pre s = true /\ sc_filename s = fn.
Proof.
  unfold parse_schematic. pose proof (lines_nl t) as Hl. fold (all_nl (lines t)) in Hl. generalize dependent (lines t). intros p Hp H.
  unfold parse_lines in H. binv. assert (Hv : all_nl v).
  { destruct p as [|x p]; [discriminate|]. cbn [assume_line] in Heqr. destruct (seq x _); [|discriminate]. injection Heqr as <-. now inversion Hp. }
  pose proof (libs_pre v [] Hv eq_refl) as [L1 L2]. destruct (libs_loop v []) as [libs p2]. cbn [fst snd] in *. binv.
  destruct (starts_with (lit "EELAYER ") v0) eqn:Ee; cbn [negb] in H; [|discriminate]. binv.
  assert (He : no_nl v0 = true) by (eapply here_nl; eassumption).
  eapply main_loop_pre in H; [exact H| |].
  - pose proof (next_nl _ L2) as N. destruct (next p2) as [|x p3]; [discriminate|].
    cbn [assume_line] in Heqr1. destruct (seq x _); [|discriminate]. injection Heqr1 as <-. now inversion N.
  - unfold sch_pre. cbn [sc_libraries sc_eelayer sc_description sc_elements sc_sheets forallb]. rewrite L1, Ee, He. reflexivity.
Qed.
Lemma selement_finish e : selement_pre e = true -> selement_clean e = true -> selement_ok e = true.
Proof.
  destruct e as [c|w|c|c|t|s]; cbn [selement_pre selement_clean selement_ok]; intros Hp Hc; try assumption.
  - now apply component_finish.
  - unfold stext_ok. bsplit. rewrite line_ok_split by assumption.
    repeat match goal with H : ?x = true |- context [?x] => rewrite H end. reflexivity.
  - unfold other_ok. bsplit. rewrite line_ok_split by assumption. assumption.
Qed.
Lemma sch_finish s : sch_pre s = true -> sch_clean s = true -> sch_ok s = true.
Proof.
  intros Hp Hc. unfold sch_pre in Hp. unfold sch_clean in Hc. unfold sch_ok. bsplit.
  rewrite line_ok_split by assumption.
  match goal with H : starts_with _ _ = true |- _ => rewrite H end.
  unfold descr_pre in *. unfold descr_ok. bsplit. rewrite (quotable_nl (ds_size (sc_description s))) by assumption. repeat match goal with H : ?x = true |- context [?x] => rewrite H end.
  cbn [andb]. rewrite !andb_true_r.
  repeat (apply andb_true_intro; split); rewrite forallb_forall in *; intros x Hx.
  - apply line_ok_split; auto.
  - apply selement_finish; auto.
  - apply sheet_finish; auto.
Qed.
Lemma reread_schematic fn t s : parse_schematic fn t = Ok s -> sch_clean s = true -> parse_schematic fn (print_schematic s) = Ok s.
Proof.
  intros H Hc. apply parse_pre in H as [Hp Hf]. rewrite <- Hf. apply rt_schematic. now apply sch_finish.
Qed.
