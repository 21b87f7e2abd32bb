(** Which edits of schematics and symbols commute, absorb or undo each other
    (lemmas for C90). *)
From Coq Require Import String Lia.
From Verif Require Import Base Str StrFacts Num F64 SchData SchParse SchOps SchSpec SymData SymOps AlgBoard.
Open Scope string_scope. Open Scope list_scope.

Lemma Forall_map_id {A} (f : A -> A) l : map f l = l <-> Forall (fun x => f x = x) l.
Proof. rewrite <- (map_id l) at 2. apply map_same_iff. Qed.
Lemma ref_absorb c a b : update_reference (update_reference c a) b = update_reference c b.
Proof.
  unfold update_reference. cbn [co_fields co_name co_u co_x co_y co_ar co_rotation]. f_equal. rewrite map_map. apply map_ext. intros f.
  destruct (Z.eqb (cf_i f) 0) eqn:E; cbn [with_value cf_i]; rewrite E; reflexivity.
Qed.
Lemma name_absorb c a b : update_name (update_name c a) b = update_name c b.
Proof.
  unfold update_name. cbn [co_fields co_reference co_u co_x co_y co_ar co_rotation]. f_equal. rewrite map_map. apply map_ext. intros f.
  destruct (Z.eqb (cf_i f) 1) eqn:E; cbn [with_value cf_i]; rewrite E; reflexivity.
Qed.
Lemma ref_name c a b : update_name (update_reference c a) b = update_reference (update_name c b) a.
Proof.
  unfold update_name, update_reference. cbn [co_fields co_reference co_name co_u co_x co_y co_ar co_rotation]. f_equal. rewrite !map_map. apply map_ext. intros f.
  destruct (Z.eqb_spec (cf_i f) 0) as [E|E]; destruct (Z.eqb_spec (cf_i f) 1) as [E'|E']; cbn [with_value cf_i].
  - lia.
  - rewrite E. reflexivity.
  - rewrite E'. reflexivity.
  - destruct (Z.eqb_spec (cf_i f) 0); [lia|]. destruct (Z.eqb_spec (cf_i f) 1); [lia|]. reflexivity.
Qed.
Lemma set_fields_twice c a b : set_fields (set_fields c a) b = set_fields c b. Proof. reflexivity. Qed.
Lemma set_fields_inj c a b : set_fields c a = set_fields c b <-> a = b.
Proof. split; [intros H; now injection H|now intros ->]. Qed.
Lemma set_fields_id c a : set_fields c a = c <-> a = co_fields c.
Proof. destruct c. cbn. split; [intros H; now injection H|now intros ->]. Qed.
(** [update_one] in plain words *)
Lemma one_view n v f : update_one n v f =
  mk_cfield (cf_i f) (if str_eqb (cf_name f) n then v else cf_value f) (cf_orient f) (cf_x f) (cf_y f) (cf_size f)
    (if (1 <? cf_i f)%Z then false else cf_visible f) (cf_hjust f) (cf_vjust f) (cf_italic f) (cf_bold f) (cf_name f).
Proof. unfold update_one. destruct f. cbn. destruct (str_eqb _ n); cbn; destruct (1 <? _)%Z; reflexivity. Qed.
Lemma field_absorb c n v w : update_field (update_field c n v) n w = update_field c n w.
Proof.
  unfold update_field. rewrite set_fields_twice. f_equal. change (co_fields (set_fields c ?l)) with l. rewrite map_map. apply map_ext. intros f. rewrite !one_view.
  cbn [cf_i cf_name cf_value cf_orient cf_x cf_y cf_size cf_visible cf_hjust cf_vjust cf_italic cf_bold]. destruct (str_eqb (cf_name f) n); destruct (1 <? cf_i f)%Z; reflexivity.
Qed.
Lemma field_swap c n m v w : n <> m -> update_field (update_field c n v) m w = update_field (update_field c m w) n v.
Proof.
  intros D. unfold update_field. rewrite !set_fields_twice. f_equal. change (co_fields (set_fields c ?l)) with l. rewrite !map_map. apply map_ext. intros f. rewrite !one_view.
  cbn [cf_i cf_name cf_value cf_orient cf_x cf_y cf_size cf_visible cf_hjust cf_vjust cf_italic cf_bold].
  destruct (str_eqb_spec (cf_name f) n); destruct (str_eqb_spec (cf_name f) m); try congruence; destruct (1 <? cf_i f)%Z; reflexivity.
Qed.
Lemma field_undo c n v w : update_field (update_field c n v) n w = c <->
  Forall (fun f => (cf_name f = n -> cf_value f = w) /\ ((1 < cf_i f)%Z -> cf_visible f = false)) (co_fields c).
Proof.
  rewrite field_absorb. unfold update_field. rewrite set_fields_id, Forall_map_id. rewrite !Forall_forall.
  split; intros H f I; specialize (H f I).
  - rewrite one_view in H. destruct f as [i va o x y z vi hj vj it bo na]. cbn [cf_i cf_name cf_value cf_orient cf_x cf_y cf_size cf_visible cf_hjust cf_vjust cf_italic cf_bold] in *.
    injection H as H1 H2. split.
    + intros ->. now rewrite str_eqb_refl in H1.
    + intros L. apply Z.ltb_lt in L. now rewrite L in H2.
  - rewrite one_view. destruct f as [i va o x y z vi hj vj it bo na]. cbn [cf_i cf_name cf_value cf_orient cf_x cf_y cf_size cf_visible cf_hjust cf_vjust cf_italic cf_bold] in *.
    destruct H as [H1 H2]. f_equal.
    + destruct (str_eqb_spec na n); [symmetry; auto|reflexivity].
    + destruct (Z.ltb_spec 1 i); [symmetry; auto|reflexivity].
Qed.
Lemma field_ref c n v r : update_field (update_reference c r) n v = update_reference (update_field c n v) r <->
  v = r \/ Forall (fun f => cf_i f = 0%Z -> cf_name f <> n) (co_fields c).
Proof.
  assert (U : update_field (update_reference c r) n v = update_reference (update_field c n v) r <->
    map (fun f => update_one n v (if Z.eqb (cf_i f) 0 then with_value f r else f)) (co_fields c) = map (fun f => (if Z.eqb (cf_i (update_one n v f)) 0 then with_value (update_one n v f) r else update_one n v f)) (co_fields c)) by
  (unfold update_field, update_reference, set_fields; cbn [co_fields co_reference co_name co_u co_x co_y co_ar co_rotation]; rewrite !map_map; split; [intros H; now injection H|now intros ->]).
  rewrite U. clear U. rewrite map_same_iff, !Forall_forall.
  assert (Q : forall f, (update_one n v (if Z.eqb (cf_i f) 0 then with_value f r else f) = (if Z.eqb (cf_i (update_one n v f)) 0 then with_value (update_one n v f) r else update_one n v f)) <->
     (cf_i f = 0%Z -> cf_name f = n -> v = r)).
  { intros f. assert (I : cf_i (update_one n v f) = cf_i f) by (rewrite one_view; reflexivity). rewrite I.
    destruct (Z.eqb_spec (cf_i f) 0) as [E|E]; [|split; [intros _ C; contradiction|reflexivity]].
    rewrite !one_view. unfold with_value. destruct f as [i va o x y z vi hj vj it bo na]. cbn [cf_i cf_name cf_value cf_orient cf_x cf_y cf_size cf_visible cf_hjust cf_vjust cf_italic cf_bold] in *. subst i.
    split.
    - intros H _ ->. injection H as H. now rewrite str_eqb_refl in H.
    - intros H. f_equal. destruct (str_eqb_spec na n); [now apply H|reflexivity]. }
  split.
  - intros H. destruct (str_eqb_spec v r) as [->|D]; [now left|right]. intros f I Z N. specialize (H f I). apply Q in H; auto.
  - intros [->|H] f I; apply Q; [auto|]. intros Z N. exfalso. exact (H f I Z N).
Qed.
Lemma name_field c n v r : update_field (update_name c r) n v = update_name (update_field c n v) r <->
  v = r \/ Forall (fun f => cf_i f = 1%Z -> cf_name f <> n) (co_fields c).
Proof.
  assert (U : update_field (update_name c r) n v = update_name (update_field c n v) r <->
    map (fun f => update_one n v (if Z.eqb (cf_i f) 1 then with_value f r else f)) (co_fields c) = map (fun f => (if Z.eqb (cf_i (update_one n v f)) 1 then with_value (update_one n v f) r else update_one n v f)) (co_fields c)) by
  (unfold update_field, update_name, set_fields; cbn [co_fields co_reference co_name co_u co_x co_y co_ar co_rotation]; rewrite !map_map; split; [intros H; now injection H|now intros ->]).
  rewrite U. clear U. rewrite map_same_iff, !Forall_forall.
  assert (Q : forall f, (update_one n v (if Z.eqb (cf_i f) 1 then with_value f r else f) = (if Z.eqb (cf_i (update_one n v f)) 1 then with_value (update_one n v f) r else update_one n v f)) <->
     (cf_i f = 1%Z -> cf_name f = n -> v = r)).
  { intros f. assert (I : cf_i (update_one n v f) = cf_i f) by (rewrite one_view; reflexivity). rewrite I.
    destruct (Z.eqb_spec (cf_i f) 1) as [E|E]; [|split; [intros _ C; contradiction|reflexivity]].
    rewrite !one_view. unfold with_value. destruct f as [i va o x y z vi hj vj it bo na]. cbn [cf_i cf_name cf_value cf_orient cf_x cf_y cf_size cf_visible cf_hjust cf_vjust cf_italic cf_bold] in *. subst i.
    split.
    - intros H _ ->. injection H as H. now rewrite str_eqb_refl in H.
    - intros H. f_equal. destruct (str_eqb_spec na n); [now apply H|reflexivity]. }
  split.
  - intros H. destruct (str_eqb_spec v r) as [->|D]; [now left|right]. intros f I Z N. specialize (H f I). apply Q in H; auto.
  - intros [->|H] f I; apply Q; [auto|]. intros Z N. exfalso. exact (H f I Z N).
Qed.

(** ** Components of a schematic *)
Lemma first_swap r q f g l : r <> q -> (forall c, co_reference c = r -> co_reference (f c) <> q) -> (forall c, co_reference c = q -> co_reference (g c) <> r) ->
  modify_first r f (modify_first q g l) = modify_first q g (modify_first r f l).
Proof.
  intros D F G. induction l as [|e l IH]; [reflexivity|]. destruct e; try (cbn [modify_first]; now rewrite IH). cbn [modify_first].
  destruct (str_eqb_spec (co_reference c) q) as [Q|Q]; destruct (str_eqb_spec (co_reference c) r) as [R|R]; cbn [modify_first].
  - congruence.
  - rewrite (neq_false _ r) by now apply G. rewrite Q, str_eqb_refl. reflexivity.
  - rewrite (neq_false _ q) by now apply F. rewrite R, str_eqb_refl. reflexivity.
  - rewrite (neq_false _ q), (neq_false _ r), IH by assumption. reflexivity.
Qed.
Lemma comp_swap s r q f g : r <> q -> (forall c, co_reference c = r -> co_reference (f c) <> q) -> (forall c, co_reference c = q -> co_reference (g c) <> r) ->
  modify_component (modify_component s q g) r f = modify_component (modify_component s r f) q g.
Proof. intros D F G. unfold modify_component, with_elements. cbn [sc_elements sc_filename sc_libraries sc_description sc_sheets sc_eelayer]. f_equal. now apply first_swap. Qed.
Lemma comp_fuse s r f g : (forall c, co_reference c = r -> co_reference (f c) = r) -> modify_component (modify_component s r f) r g = modify_component s r (fun c => g (f c)).
Proof.
  intros F. unfold modify_component, with_elements. cbn [sc_elements sc_filename sc_libraries sc_description sc_sheets sc_eelayer]. f_equal.
  induction (sc_elements s) as [|e l IH]; [reflexivity|]. destruct e; try (cbn [modify_first]; now rewrite IH). cbn [modify_first].
  destruct (str_eqb_spec (co_reference c) r) as [R|R]; cbn [modify_first]; [rewrite (F c R), str_eqb_refl; reflexivity|]. rewrite (neq_false _ r), IH by assumption. reflexivity.
Qed.
Lemma comps_fuse s f g : modify_components (modify_components s f) g = modify_components s (fun c => g (f c)).
Proof.
  unfold modify_components, with_elements. cbn [sc_elements sc_filename sc_libraries sc_description sc_sheets sc_eelayer]. f_equal. rewrite map_map. apply map_ext. intros e. destruct e; reflexivity.
Qed.

(** ** Symbols *)
Lemma name_again a b y y1 y2 : set_name a y = Ok y1 -> set_name b y1 = Ok y2 ->
  (set_name b y = Ok y2 <-> starts_with (lit "~") (sy_name y) = true \/ starts_with (lit "~") a = false).
Proof.
  assert (T : forall c q, starts_with (lit "~") (c :: q) = N.eqb c 126).
  { intros c q. change (lit "~") with [126%N]. cbn [starts_with]. rewrite N.eqb_sym. destruct (c =? 126)%N; reflexivity. }
  unfold set_name. destruct (sy_name y) as [|c0 q0] eqn:E; [discriminate|]. cbn [char_at nth_error of_option bind].
  change (char_at (c0 :: q0) 0) with (Ok c0). cbn [bind]. destruct (sy_fields y) as [|f0 [|f1 r]] eqn:Ef; try discriminate. rewrite T.
  intros H. injection H as <-. cbn [sy_set sy_name sy_fields].
  destruct (N.eqb c0 126) eqn:C0.
  - change (char_at (lit "~" ++ a) 0) with (Ok 126%N). cbn [bind N.eqb Pos.eqb]. intros H. injection H as <-. split; [now left|]. intros _. f_equal; destruct f1; reflexivity.
  - destruct a as [|a0 a']; [discriminate|]. change (char_at (a0 :: a') 0) with (Ok a0). cbn [bind]. rewrite T. intros H. injection H as <-.
    destruct (N.eqb a0 126) eqn:A0.
    + split; [|intros [|]; discriminate]. intros H. exfalso. injection H as H. apply (f_equal (@length N)) in H. cbn in H. lia.
    + split; [now right|]. intros _. f_equal; destruct f1; reflexivity.
Qed.
