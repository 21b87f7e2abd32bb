(** Proofs about the build without overflow checks. *)
From Coq Require Import String Lia.
From Verif Require Import Base Str StrFacts Num F64 Bound SchData SchPrint SchParse SchOps SchSpec SchOpsFacts SchBoundFacts SchTight SchWrap WrapSpec.
Open Scope Z_scope. Open Scope list_scope.

Lemma wrap_machine z : machine (wrap z) z.
Proof.
  unfold wrap, machine, fits64. pose proof (Z.mod_pos_bound (z + 2 ^ 63) (2 ^ 64) ltac:(reflexivity)) as B.
  split; [lia|]. exists ((z + 2 ^ 63) / 2 ^ 64). pose proof (Z.div_mod (z + 2 ^ 63) (2 ^ 64) ltac:(discriminate)). lia.
Qed.
Lemma machine_uniq m n z : machine m z -> machine n z -> m = n.
Proof. unfold machine, fits64. intros (A & k & E) (B & j & F). assert (k = j) by lia. subst. lia. Qed.
Lemma wrap_fits z : fits64 z -> wrap z = z.
Proof. intros F. apply (machine_uniq _ _ z); [apply wrap_machine|]. split; [exact F|]. exists 0. lia. Qed.
Lemma chk_wrap z y : chk z = Ok y -> wrap z = y.
Proof.
  unfold chk, i64_ok, i64_min, i64_max. destruct (_ && _) eqn:E; [|discriminate]. intros [= <-].
  apply wrap_fits. unfold fits64. lia.
Qed.
Lemma wrap_wrap a b : wrap (wrap a + b) = wrap (a + b).
Proof.
  apply (machine_uniq _ _ (a + b)); [|apply wrap_machine].
  destruct (wrap_machine (wrap a + b)) as (F & k & E). destruct (wrap_machine a) as (_ & j & G).
  split; [exact F|]. exists (k + j). lia.
Qed.

(** ** Fields *)
Lemma num_agree c k : get_available_field_num c = Ok k -> w_field_num c = k.
Proof. apply chk_wrap. Qed.
Lemma add_new_agree c t n v d : add_new_field c t n v = Ok d -> w_add_new_field c t n v = d.
Proof.
  unfold add_new_field. destruct (get_available_field_num c) as [k| |] eqn:E; cbn [bind]; try discriminate.
  intros [= <-]. unfold w_add_new_field. now rewrite (num_agree _ _ E).
Qed.
Lemma add_or_update_agree c t n v r : add_or_update_field c t n v = Ok r -> w_add_or_update_field c t n v = r.
Proof.
  unfold add_or_update_field, w_add_or_update_field. destruct (get_field_value c n) as [o|].
  - destruct (str_eqb o v); intros [= <-]; reflexivity.
  - destruct (add_new_field c t n v) as [d| |] eqn:E; cbn [bind]; try discriminate. intros [= <-]. now rewrite (add_new_agree _ _ _ _ _ E).
Qed.
Lemma edit_agree c e d : apply_edit c e = Ok d -> w_edit c e = d.
Proof.
  destruct e as [t n v|t n v|n v|r|n]; cbn [apply_edit w_edit]; try (intros [= <-]; reflexivity).
  - destruct (add_or_update_field c t n v) as [r| |] eqn:E; cbn [bind]; try discriminate. intros [= <-].
    now rewrite (add_or_update_agree _ _ _ _ _ E).
  - apply add_new_agree.
Qed.
Lemma edits_agree l : forall c d, apply_edits c l = Ok d -> w_edits c l = d.
Proof.
  induction l as [|e l IH]; cbn [apply_edits w_edits]; intros c d; [now intros [= <-]|].
  destruct (apply_edit c e) as [c2| |] eqn:E; cbn [bind]; try discriminate. rewrite (edit_agree _ _ _ E). apply IH.
Qed.

Lemma num_top c : exists t, top t c /\ machine (w_field_num c) (t + 1).
Proof.
  destruct (max_fold (co_fields c) 0) as (A & B & C).
  exists (fold_left (fun i f => if i <? cf_i f then cf_i f else i) (co_fields c) 0). split; [|apply wrap_machine].
  split; [exact A|]. split; [intros f I; rewrite Forall_forall in B; exact (B f I)|].
  destruct C as [C|(f & I & C)]; [left; exact C|]. right. unfold numbers. apply in_map_iff. exists f. split; [exact C|exact I].
Qed.
Lemma num_fresh c : Forall fits64 (numbers c) ->
  (In (w_field_num c) (numbers c) <-> In (2 ^ 63 - 1) (numbers c) /\ In (- 2 ^ 63) (numbers c)).
Proof.
  intros F. destruct (num_top c) as (t & (P & L & T) & M).
  assert (LN : forall z, In z (numbers c) -> z <= t).
  { unfold numbers. intros z I. apply in_map_iff in I as (f & <- & I). exact (L f I). }
  rewrite Forall_forall in F.
  assert (FT : fits64 t) by (destruct T as [->|T]; [unfold fits64; lia|exact (F t T)]).
  destruct (Z.eq_dec t (2 ^ 63 - 1)) as [->|N].
  - assert (E : w_field_num c = - 2 ^ 63).
    { apply (machine_uniq _ _ _ M). split; [unfold fits64; lia|]. exists 1. lia. }
    rewrite E. destruct T as [T|T]; [lia|]. tauto.
  - assert (E : w_field_num c = t + 1).
    { apply (machine_uniq _ _ _ M). split; [unfold fits64 in *; lia|]. exists 0. lia. }
    rewrite E. split; intros H; [specialize (LN _ H); lia|]. destruct H as [H _]. specialize (LN _ H). unfold fits64 in FT. lia.
Qed.
Lemma numbers_add c t n v : numbers (w_add_new_field c t n v) = numbers c ++ [w_field_num c].
Proof. unfold numbers, w_add_new_field, set_fields. cbn [co_fields]. now rewrite map_app. Qed.
Lemma numbers_map (g : cfield -> cfield) l : (forall f, cf_i (g f) = cf_i f) -> map cf_i (map g l) = map cf_i l.
Proof. intros E. rewrite map_map. now apply map_ext. Qed.
Lemma numbers_step c e : numbers (w_edit c e) = numbers c \/ numbers (w_edit c e) = numbers c ++ [w_field_num c].
Proof.
  assert (U : forall n v, numbers (update_field c n v) = numbers c).
  { intros n v. apply (numbers_map (update_one n v)). intros f. unfold update_one. destruct (str_eqb (cf_name f) n); cbn; destruct (1 <? cf_i f); reflexivity. }
  destruct e as [t n v|t n v|n v|r|n]; cbn [w_edit].
  - unfold w_add_or_update_field. destruct (get_field_value c n) as [o|]; [left; destruct (str_eqb o v); [reflexivity|apply U]|right; apply numbers_add].
  - right. apply numbers_add.
  - left. apply U.
  - left. unfold numbers, update_reference. cbn [co_fields]. apply numbers_map. intros f. destruct (cf_i f =? 0); reflexivity.
  - left. unfold numbers, update_name. cbn [co_fields]. apply numbers_map. intros f. destruct (cf_i f =? 1); reflexivity.
Qed.
Lemma edits_range l : forall c, Forall fits64 (numbers c) -> Forall fits64 (numbers (w_edits c l)).
Proof.
  induction l as [|e l IH]; intros c F; [exact F|]. cbn [w_edits]. apply IH. destruct (numbers_step c e) as [->| ->]; [exact F|].
  apply Forall_app. split; [exact F|]. constructor; [|constructor]. apply wrap_machine.
Qed.
Lemma nodup_snoc {A} (x : A) l : NoDup l -> ~ In x l -> NoDup (l ++ [x]).
Proof.
  intros N I. induction N as [|y l J N IH]; cbn; [constructor; [intros []|constructor]|]. constructor.
  - rewrite in_app_iff. intros [K|[K|[]]]; [exact (J K)|]. subst. apply I. now left.
  - apply IH. intros K. apply I. now right.
Qed.
(** Distinct numbers stay distinct as long as there is room above the largest. *)
Lemma edits_distinct l : forall c, NoDup (numbers c) -> Forall fits64 (numbers c) ->
  Forall (fun z => z + Z.of_nat (length l) < 2 ^ 63) (numbers c) -> Z.of_nat (length l) < 2 ^ 63 -> NoDup (numbers (w_edits c l)).
Proof.
  induction l as [|e l IH]; intros c N F R LL; [exact N|]. cbn [w_edits]. cbn [length] in R, LL. rewrite Nat2Z.inj_succ in R, LL.
  assert (R2 : Forall (fun z => z + Z.of_nat (length l) < 2 ^ 63) (numbers c)) by (eapply Forall_impl; [|exact R]; cbn beta; intros z; lia).
  destruct (numbers_step c e) as [E|E].
  - apply IH; [rewrite E; exact N|rewrite E; exact F|rewrite E; exact R2|lia].
  - destruct (num_top c) as (t & (P & L & T) & M).
    assert (RT : t + 1 + Z.of_nat (length l) < 2 ^ 63).
    { destruct T as [->|T]; [lia|]. rewrite Forall_forall in R. specialize (R t T). cbn beta in R. lia. }
    assert (W : w_field_num c = t + 1).
    { apply (machine_uniq _ _ _ M). split; [unfold fits64; lia|]. exists 0. lia. }
    apply IH.
    + rewrite E. apply nodup_snoc; [exact N|]. intros I. apply (num_fresh c F) in I as [I _].
      rewrite Forall_forall in R. specialize (R _ I). cbn beta in R. lia.
    + rewrite E. apply Forall_app. split; [exact F|]. constructor; [|constructor]. apply wrap_machine.
    + rewrite E. apply Forall_app. split; [exact R2|]. constructor; [|constructor]. rewrite W. lia.
    + lia.
Qed.
Lemma w_lookup c t n v : let r := w_add_or_update_field c t n v in
  get_field_value (fst r) n = Some v /\ (forall m, m <> n -> get_field_value (fst r) m = get_field_value c m) /\
  sans_fields (fst r) = sans_fields c /\
  (snd r = UNew <-> get_field_value c n = None) /\ (forall old, snd r = UUpdate old <-> get_field_value c n = Some old /\ old <> v) /\
  (snd r = USame <-> get_field_value c n = Some v).
Proof.
  cbv zeta. destruct (get_field_value c n) as [o|] eqn:G.
  - assert (E : exists r, add_or_update_field c t n v = Ok r).
    { unfold add_or_update_field. rewrite G. destruct (str_eqb o v); eexists; reflexivity. }
    destruct E as ((d & u) & E). rewrite (add_or_update_agree _ _ _ _ _ E). cbn [fst snd].
    destruct (add_or_update_lookup _ _ _ _ _ _ E) as (A & B & C). destruct (add_or_update_outcome _ _ _ _ _ _ E) as (X & Y & Z & _).
    rewrite G in X, Y, Z. split; [exact A|]. split; [exact B|]. split; [exact C|]. split; [exact X|]. split; [exact Y|exact Z].
  - unfold w_add_or_update_field. rewrite G. cbn [fst snd].
    assert (V : forall m l, field_value m (l ++ [with_visible (field_new_from (w_field_num c) n v (cf_x t) (cf_y t)) false])
      = match field_value m l with Some x => Some x | None => if str_eqb n m then Some v else None end).
    { intros m l. induction l as [|f l IH]; cbn [app field_value].
      - cbn [with_visible field_new_from cf_name cf_value]. destruct (str_eqb n m); reflexivity.
      - destruct (str_eqb (cf_name f) m); [reflexivity|exact IH]. }
    unfold get_field_value in *. unfold w_add_new_field, set_fields. cbn [co_fields].
    split; [rewrite V, G, str_eqb_refl; reflexivity|].
    split. { intros m D. rewrite V. destruct (field_value m (co_fields c)); [reflexivity|]. destruct (str_eqb n m) eqn:Q; [|reflexivity]. apply str_eqb_eq in Q. congruence. }
    split; [reflexivity|]. split; [split; reflexivity|]. split; [intros old; split; [discriminate|intros [Q _]; discriminate Q]|]. split; discriminate.
Qed.

(** ** Sheets *)
Lemma count_agree s t : increment_sheet_count s = Ok t -> w_increment_sheet_count s = t.
Proof.
  unfold increment_sheet_count. destruct (chk (ds_count (sc_description s) + 1)) as [n| |] eqn:E; cbn [bind]; try discriminate.
  intros [= <-]. unfold w_increment_sheet_count. now rewrite (chk_wrap _ _ E).
Qed.
Lemma sheet_agree h b : sheet_bound h = Ok b -> w_sheet_bound h = b.
Proof.
  intros H. pose proof (proj1 (proj2 (sheet_defined h)) (ex_intro _ b H)) as F.
  rewrite !Forall_cons_iff in F. destruct F as (A & B & C & D & _). rewrite (sheet_bound_inv _ _ H). unfold w_sheet_bound.
  rewrite wrap_wrap, !wrap_fits; [reflexivity| | |]; assumption.
Qed.
Lemma mapM_agree {A B} (f : A -> res B) (g : A -> B) l m : (forall x y, f x = Ok y -> g x = y) -> mapM f l = Ok m -> map g l = m.
Proof.
  intros E. revert m. induction l as [|a l IH]; cbn; intros m H; [now injection H as <-|].
  destruct (f a) as [b| |] eqn:F; cbn in H; try discriminate.
  destruct (mapM f l) as [bs| |]; cbn in H; try discriminate. injection H as <-. now rewrite (E _ _ F), (IH _ eq_refl).
Qed.
Lemma sch_agree s b : sch_bound s = Ok b -> w_sch_bound s = b.
Proof.
  unfold sch_bound. destruct (mapM sheet_bound (sc_sheets s)) as [hs| |] eqn:M; cbn [bind]; try discriminate.
  intros H. unfold w_sch_bound. rewrite (mapM_agree _ _ _ _ sheet_agree M). congruence.
Qed.
Lemma sheet_machine h : exists y1 x2 y2, machine y1 (sh_y h - 100) /\ machine x2 (sh_x h + sh_dimx h) /\
  machine y2 (sh_y h + sh_dimy h + 100) /\ w_sheet_bound h = bound_new_i64 (sh_x h) y1 x2 y2.
Proof.
  exists (wrap (sh_y h - 100)), (wrap (sh_x h + sh_dimx h)), (wrap (sh_y h + sh_dimy h + 100)).
  split; [apply wrap_machine|]. split; [apply wrap_machine|]. split; [apply wrap_machine|].
  unfold w_sheet_bound. now rewrite wrap_wrap.
Qed.
Lemma sheet_true h : fits64 (sh_y h - 100) -> fits64 (sh_x h + sh_dimx h) -> fits64 (sh_y h + sh_dimy h + 100) ->
  w_sheet_bound h = bound_new_i64 (sh_x h) (sh_y h - 100) (sh_x h + sh_dimx h) (sh_y h + sh_dimy h + 100).
Proof. intros A B C. unfold w_sheet_bound. rewrite wrap_wrap, !wrap_fits; auto. Qed.

(** ** Counting, and what reaches the file *)
Lemma count_machine s : machine (ds_count (sc_description (w_increment_sheet_count s))) (ds_count (sc_description s) + 1) /\
  (sc_filename (w_increment_sheet_count s), sc_libraries (w_increment_sheet_count s), sc_elements (w_increment_sheet_count s),
   sc_sheets (w_increment_sheet_count s), sc_eelayer (w_increment_sheet_count s))
  = (sc_filename s, sc_libraries s, sc_elements s, sc_sheets s, sc_eelayer s) /\
  (forall A (f : description -> A), (forall a b c d e g h i j k l m n n', f (mk_descr a b c d e g h i j k l m n) = f (mk_descr a b c d e g h i j k l m n')) ->
     f (sc_description (w_increment_sheet_count s)) = f (sc_description s)).
Proof.
  split; [exact (wrap_machine _)|]. split; [reflexivity|]. intros A f E. unfold w_increment_sheet_count.
  destruct (sc_description s) as [a b c d e g h i j k l m n]. cbn. apply E.
Qed.
Lemma new_line_low c t n v : w_field_num c <= 3 -> print_component (w_add_new_field c t n v)
  = print_component (w_add_new_field c t [] v).
Proof.
  intros H. unfold w_add_new_field. set (k := w_field_num c) in *.
  assert (P : print_field (with_visible (field_new_from k n v (cf_x t) (cf_y t)) false) = print_field (with_visible (field_new_from k [] v (cf_x t) (cf_y t)) false)).
  { unfold print_field, with_visible, field_new_from. cbn [cf_i cf_value cf_orient cf_x cf_y cf_size cf_visible cf_hjust cf_vjust cf_italic cf_bold cf_name].
    assert (L : (3 <? k) = false) by (apply Z.ltb_ge; exact H). rewrite L. reflexivity. }
  unfold print_component, set_fields. cbn [co_fields co_name co_reference co_u co_x co_y co_ar co_rotation].
  rewrite !map_app. cbn [map]. rewrite P. reflexivity.
Qed.
Lemma new_line_high c t n m v : 3 < w_field_num c -> print_component (w_add_new_field c t n v) = print_component (w_add_new_field c t m v) -> n = m.
Proof.
  intros H E. unfold w_add_new_field in E. set (k := w_field_num c) in *.
  unfold print_component, set_fields in E. cbn [co_fields co_name co_reference co_u co_x co_y co_ar co_rotation] in E.
  apply app_inv_head in E. apply app_inv_head in E. apply app_inv_tail in E. rewrite !map_app in E. apply app_inv_head in E.
  apply (f_equal (fun l => match l with x :: _ => x | [] => [] end)) in E. cbn [map] in E.
  unfold print_field, with_visible, field_new_from in E. cbn [cf_i cf_value cf_orient cf_x cf_y cf_size cf_visible cf_hjust cf_vjust cf_italic cf_bold cf_name] in E.
  assert (L : (3 <? k) = true) by (apply Z.ltb_lt; exact H). rewrite L in E. rewrite !app_assoc in E.
  apply app_inv_head in E. unfold quoted in E. apply (f_equal (@tl N)) in E. cbn [tl app] in E. apply app_inv_tail in E. exact E.
Qed.
Lemma name_lost c : Forall fits64 (numbers c) ->
  ((forall t n m v, print_component (w_add_new_field c t n v) = print_component (w_add_new_field c t m v)) <->
   In (2 ^ 63 - 1) (numbers c) \/ Forall (fun z => z <= 2) (numbers c)).
Proof.
  intros F. rewrite Forall_forall in F. destruct (num_top c) as (t & (P & L & T) & M).
  assert (LN : forall z, In z (numbers c) -> z <= t).
  { unfold numbers. intros z I. apply in_map_iff in I as (f & <- & I). exact (L f I). }
  assert (FT : fits64 t) by (destruct T as [->|T]; [unfold fits64; lia|exact (F t T)]).
  assert (K : w_field_num c <= 3 <-> In (2 ^ 63 - 1) (numbers c) \/ Forall (fun z => z <= 2) (numbers c)).
  { destruct (Z.eq_dec t (2 ^ 63 - 1)) as [->|N].
    - assert (E : w_field_num c = - 2 ^ 63) by (apply (machine_uniq _ _ _ M); split; [unfold fits64; lia|]; exists 1; lia).
      rewrite E. split; [intros _|lia]. destruct T as [T|T]; [lia|]. left; exact T.
    - assert (E : w_field_num c = t + 1) by (apply (machine_uniq _ _ _ M); split; [unfold fits64 in *; lia|]; exists 0; lia).
      rewrite E. split.
      + intros B. right. apply Forall_forall. intros z I. specialize (LN z I). lia.
      + intros [I|A]; [specialize (LN _ I); unfold fits64 in FT; lia|]. destruct T as [->|T]; [lia|]. rewrite Forall_forall in A. specialize (A t T). cbn beta in A. lia. }
  rewrite <- K. split.
  - intros A. destruct (Z_le_gt_dec (w_field_num c) 3) as [G|G]; [exact G|].
    specialize (A (mk_cfield 0 [] Horizontal fzero fzero 0 false SJLeft SJLeft false false []) [] [0%N] []).
    apply new_line_high in A; [discriminate A|lia].
  - intros H u n m v. rewrite (new_line_low c u n v H), (new_line_low c u m v H). reflexivity.
Qed.
