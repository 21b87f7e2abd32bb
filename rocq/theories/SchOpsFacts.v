(** Proofs about component and schematic operations. *)
From Coq Require Import String Lia.
From Verif Require Import Base Str StrFacts Num F64 Bound SchData SchPrint SchParse SchWf SchEnds SchOps SchSpec SchTotal.
Open Scope string_scope. Open Scope list_scope.

(** ** Lookup *)
Lemma field_value_none n l : field_value n l = None <-> absent n l.
Proof.
  induction l as [|f r IH]; cbn; [split; auto; constructor|].
  destruct (str_eqb (cf_name f) n) eqn:E.
  - apply str_eqb_eq in E. split; [discriminate|]. intros H. inversion H; contradiction.
  - apply str_eqb_neq in E. rewrite IH. split; [constructor; auto|]. intros H; inversion H; auto.
Qed.
Lemma field_value_some n v l : field_value n l = Some v <-> first_has n v l.
Proof.
  induction l as [|f r IH]; cbn.
  - split; [discriminate|]. intros (a & f & b & E & _). destruct a; discriminate.
  - destruct (str_eqb (cf_name f) n) eqn:E.
    + apply str_eqb_eq in E. split.
      * intros [= <-]. exists [], f, r. auto.
      * intros (a & g & b & X & N & V & F). destruct a as [|h a]; injection X as <- X.
        { congruence. }
        { inversion F; contradiction. }
    + apply str_eqb_neq in E. rewrite IH. split.
      * intros (a & g & b & -> & N & V & F). exists (f :: a), g, b. repeat split; auto.
      * intros (a & g & b & X & N & V & F). destruct a as [|h a]; injection X as <- X; [contradiction|].
        inversion F; subst. exists a, g, b. auto.
Qed.
Lemma find_field_value n l : field_value n l = option_map cf_value (find_field n l).
Proof. induction l as [|f r IH]; cbn; [reflexivity|]. destruct (str_eqb _ _); auto. Qed.
Lemma find_field_first n l : match find_field n l with
  | Some f => exists a b, l = a ++ f :: b /\ cf_name f = n /\ absent n a
  | None => absent n l end.
Proof.
  induction l as [|f r IH]; cbn; [constructor|].
  destruct (str_eqb (cf_name f) n) eqn:E.
  - apply str_eqb_eq in E. exists [], r. repeat split; auto. constructor.
  - apply str_eqb_neq in E. destruct (find_field n r).
    + destruct IH as (a & b & -> & N & F). exists (f :: a), b. repeat split; auto. constructor; auto.
    + constructor; auto.
Qed.

Lemma update_name_kept n v f : cf_name (update_one n v f) = cf_name f.
Proof. unfold update_one. destruct (str_eqb _ _), (1 <? _)%Z; reflexivity. Qed.
Lemma update_num_kept n v f : cf_i (update_one n v f) = cf_i f.
Proof. unfold update_one. destruct (str_eqb _ _), (1 <? _)%Z; reflexivity. Qed.
Lemma update_value n v f : cf_value (update_one n v f) = if str_eqb (cf_name f) n then v else cf_value f.
Proof. unfold update_one. destruct (str_eqb _ _), (1 <? _)%Z; reflexivity. Qed.

Lemma field_value_update m n v l :
  field_value m (map (update_one n v) l)
  = if str_eqb m n then option_map (fun _ => v) (field_value m l) else field_value m l.
Proof.
  induction l as [|f r IH]; cbn; [destruct (str_eqb m n); reflexivity|].
  rewrite update_name_kept, update_value.
  destruct (str_eqb (cf_name f) m) eqn:E.
  - apply str_eqb_eq in E. rewrite <- E. destruct (str_eqb (cf_name f) n); reflexivity.
  - apply IH.
Qed.
Lemma field_value_app m l f : field_value m (l ++ [f])
  = match field_value m l with Some v => Some v | None => if str_eqb (cf_name f) m then Some (cf_value f) else None end.
Proof. induction l as [|g r IH]; cbn; [reflexivity|]. destruct (str_eqb (cf_name g) m); auto. Qed.

(** ** Numbers *)
Lemma max_fold l : forall a, let m := fold_left (fun i f => if (i <? cf_i f)%Z then cf_i f else i) l a in
  (a <= m)%Z /\ Forall (fun f => cf_i f <= m)%Z l /\ (m = a \/ exists f, In f l /\ cf_i f = m).
Proof.
  induction l as [|f r IH]; cbn; intros a; [repeat split; auto; lia|].
  destruct (IH (if (a <? cf_i f)%Z then cf_i f else a)) as (A & B & C).
  destruct (Z.ltb_spec a (cf_i f)) as [L|L].
  - split; [lia|]. split; [constructor; auto|]. destruct C as [C|(g & I & C)].
    + right. exists f. auto.
    + right. exists g. auto.
  - split; [lia|]. split; [constructor; [lia|auto]|]. destruct C as [C|(g & I & C)]; [auto|].
    right. exists g. auto.
Qed.
Lemma free_num c k : get_available_field_num c = Ok k ->
  (1 <= k)%Z /\ (forall f, In f (co_fields c) -> cf_i f < k)%Z /\
  (k = 1%Z \/ exists f, In f (co_fields c) /\ cf_i f = (k - 1)%Z).
Proof.
  unfold get_available_field_num, chk. destruct (i64_ok _); [|discriminate]. intros [= <-].
  destruct (max_fold (co_fields c) 0) as (A & B & C). split; [lia|]. split.
  - intros f I. rewrite Forall_forall in B. specialize (B f I). cbn beta in B. lia.
  - destruct C as [C|(f & I & C)]; [left; rewrite C; reflexivity|]. right. exists f. split; auto. rewrite C. lia.
Qed.
Lemma free_num_defined c : Forall (fun f => cf_i f < 2 ^ 63 - 1)%Z (co_fields c) ->
  exists k, get_available_field_num c = Ok k.
Proof.
  intros F. unfold get_available_field_num, chk.
  destruct (max_fold (co_fields c) 0) as (A & B & C). set (m := fold_left _ _ _) in *.
  assert (m < 2 ^ 63 - 1)%Z.
  { destruct C as [->|(f & I & <-)]; [reflexivity|]. rewrite Forall_forall in F. exact (F f I). }
  clear - A H. replace (i64_ok (m + 1)) with true; [eauto|]. symmetry. unfold i64_ok, i64_min, i64_max.
  apply andb_true_intro; split; apply Z.leb_le; lia.
Qed.
Lemma free_num_cases c : (exists k, get_available_field_num c = Ok k) \/ get_available_field_num c = Panic.
Proof. unfold get_available_field_num, chk. destruct (i64_ok _); eauto. Qed.

(** ** add_or_update_field *)
Lemma add_or_update_cases c t n v r : add_or_update_field c t n v = Ok r ->
  (get_field_value c n = Some v /\ r = (c, USame)) \/
  (exists old, get_field_value c n = Some old /\ old <> v /\ r = (update_field c n v, UUpdate old)) \/
  (exists c', get_field_value c n = None /\ add_new_field c t n v = Ok c' /\ r = (c', UNew)).
Proof.
  unfold add_or_update_field. destruct (get_field_value c n) as [old|].
  - destruct (str_eqb old v) eqn:E; intros [= <-].
    + apply str_eqb_eq in E. subst. auto.
    + apply str_eqb_neq in E. right. left. exists old. auto.
  - destruct (add_new_field c t n v) as [c'| |] eqn:E; cbn; intros [= <-]. right. right. exists c'. auto.
Qed.
Lemma add_new_inv c t n v c' : add_new_field c t n v = Ok c' -> exists k, get_available_field_num c = Ok k /\
  c' = set_fields c (co_fields c ++ [field_new_from k n v (cf_x t) (cf_y t)]).
Proof.
  unfold add_new_field. destruct (get_available_field_num c) as [k| |]; cbn; intros [= <-]. exists k. auto.
Qed.
Lemma fields_set c l : co_fields (set_fields c l) = l. Proof. reflexivity. Qed.
Lemma update_lookup c m n v : get_field_value (update_field c n v) m
  = if str_eqb m n then option_map (fun _ => v) (get_field_value c m) else get_field_value c m.
Proof. apply field_value_update. Qed.
Lemma add_new_lookup c t n v c' m : add_new_field c t n v = Ok c' -> get_field_value c n = None ->
  get_field_value c' m = if str_eqb m n then Some v else get_field_value c m.
Proof.
  intros H N. destruct (add_new_inv _ _ _ _ _ H) as (k & _ & ->). unfold get_field_value in *. rewrite fields_set, field_value_app.
  cbn [field_new_from cf_name cf_value]. destruct (str_eqb m n) eqn:E.
  - apply str_eqb_eq in E. subst m. rewrite N, str_eqb_refl. reflexivity.
  - apply str_eqb_neq in E. replace (str_eqb n m) with false by (symmetry; apply str_eqb_neq; congruence).
    destruct (field_value m (co_fields c)); reflexivity.
Qed.
Lemma add_or_update_value c t n v c' o m : add_or_update_field c t n v = Ok (c', o) ->
  get_field_value c' m = if str_eqb m n then Some v else get_field_value c m.
Proof.
  intros H. destruct (add_or_update_cases _ _ _ _ _ H) as [(G & E)|[(old & G & D & E)|(c2 & G & A & E)]];
    injection E as -> ->.
  - destruct (str_eqb m n) eqn:M; [|reflexivity]. apply str_eqb_eq in M. subst. exact G.
  - rewrite update_lookup. destruct (str_eqb m n) eqn:M; [|reflexivity]. apply str_eqb_eq in M. subst. rewrite G. reflexivity.
  - eapply add_new_lookup; eauto.
Qed.
Lemma add_new_grows c t n v c' : add_new_field c t n v = Ok c' -> c' <> c.
Proof.
  intros H. destruct (add_new_inv _ _ _ _ _ H) as (k & _ & ->). intros E.
  apply (f_equal (fun c => length (co_fields c))) in E. rewrite fields_set, app_length in E. cbn in E. lia.
Qed.
Lemma add_or_update_outcome c t n v c' o : add_or_update_field c t n v = Ok (c', o) ->
  (o = UNew <-> get_field_value c n = None) /\
  (forall old, o = UUpdate old <-> get_field_value c n = Some old /\ old <> v) /\
  (o = USame <-> get_field_value c n = Some v) /\
  (field_changed o = false <-> c' = c).
Proof.
  intros H. destruct (add_or_update_cases _ _ _ _ _ H) as [(G & E)|[(old & G & D & E)|(c2 & G & A & E)]];
    injection E as -> ->; rewrite G.
  - split; [split; discriminate|]. split; [split; [discriminate|intros ([= <-] & X); contradiction]|].
    split; split; auto.
  - split; [split; discriminate|]. split; [intros o2; split; [intros [= <-]; auto|intros ([= <-] & _); reflexivity]|].
    split; [split; [discriminate|intros [= ->]; contradiction]|]. split; [discriminate|].
    intros E. exfalso. assert (X := update_lookup c n n v). rewrite E, str_eqb_refl, G in X. injection X as ->. auto.
  - split; [split; auto|]. split; [split; [discriminate|intros (X & _); discriminate]|].
    split; [split; discriminate|]. split; [discriminate|]. intros E. exfalso. exact (add_new_grows _ _ _ _ _ A E).
Qed.
Lemma add_or_update_total c t n v : Forall (fun f => cf_i f < 2 ^ 63 - 1)%Z (co_fields c) ->
  exists r, add_or_update_field c t n v = Ok r.
Proof.
  intros F. unfold add_or_update_field. destruct (get_field_value c n) as [old|].
  - destruct (str_eqb old v); eauto.
  - unfold add_new_field. destruct (free_num_defined c F) as (k & ->). cbn. eauto.
Qed.
Lemma add_or_update_rest c t n v c' o : add_or_update_field c t n v = Ok (c', o) -> sans_fields c' = sans_fields c.
Proof.
  intros H. destruct (add_or_update_cases _ _ _ _ _ H) as [(G & E)|[(old & G & D & E)|(c2 & G & A & E)]];
    injection E as -> ->; [reflexivity|reflexivity|].
  destruct (add_new_inv _ _ _ _ _ A) as (k & _ & ->). reflexivity.
Qed.

(** ** fields_hash *)
Lemma hash_fold_app n l f a :
  fold_left (fun h f => if str_eqb (cf_name f) n then Some (cf_value f) else h) (l ++ [f]) a
  = if str_eqb (cf_name f) n then Some (cf_value f)
    else fold_left (fun h f => if str_eqb (cf_name f) n then Some (cf_value f) else h) l a.
Proof. rewrite fold_left_app. reflexivity. Qed.
Lemma hash_none n l a :
  fold_left (fun h f => if str_eqb (cf_name f) n then Some (cf_value f) else h) l a = None <-> a = None /\ absent n l.
Proof.
  revert a. induction l as [|f r IH] using rev_ind; intros a; [cbn; split; [intros ->; split; auto; constructor|tauto]|].
  rewrite hash_fold_app. unfold absent. rewrite Forall_app. destruct (str_eqb (cf_name f) n) eqn:E.
  - apply str_eqb_eq in E. split; [discriminate|]. intros (_ & _ & X). inversion X; contradiction.
  - apply str_eqb_neq in E. rewrite IH. unfold absent. intuition.
Qed.
Lemma hash_last c n v : fields_hash c n = Some v <->
  exists a f b, co_fields c = a ++ f :: b /\ cf_name f = n /\ cf_value f = v /\ absent n b.
Proof.
  unfold fields_hash. induction (co_fields c) as [|f r IH] using rev_ind.
  - cbn. split; [discriminate|]. intros (a & f & b & E & _). destruct a; discriminate.
  - rewrite hash_fold_app. destruct (str_eqb (cf_name f) n) eqn:E.
    + apply str_eqb_eq in E. split.
      * intros [= <-]. exists r, f, []. repeat split; auto. constructor.
      * intros (a & g & b & X & N & V & F). destruct b as [|h b _] using rev_ind.
        { apply app_inj_tail in X as [_ <-]. congruence. }
        { rewrite app_comm_cons, app_assoc in X. apply app_inj_tail in X as [_ <-].
          apply Forall_app in F as [_ F]. inversion F; contradiction. }
    + apply str_eqb_neq in E. rewrite IH. split.
      * intros (a & g & b & -> & N & V & F). exists a, g, (b ++ [f]). rewrite <- app_assoc. repeat split; auto.
        apply Forall_app. auto.
      * intros (a & g & b & X & N & V & F). destruct b as [|h b _] using rev_ind.
        { apply app_inj_tail in X as [_ <-]. contradiction. }
        { rewrite app_comm_cons, app_assoc in X. apply app_inj_tail in X as [-> <-].
          apply Forall_app in F as [F _]. exists a, g, b. auto. }
Qed.
(** With distinct names the two lookups agree. *)
Lemma hash_distinct c n : NoDup (map cf_name (co_fields c)) -> fields_hash c n = get_field_value c n.
Proof.
  intros D. destruct (get_field_value c n) as [v|] eqn:G.
  - apply hash_last. apply field_value_some in G as (a & f & b & E & N & V & F). exists a, f, b. repeat split; auto.
    rewrite E, map_app in D. cbn in D. apply NoDup_remove_2 in D. rewrite in_app_iff in D.
    apply Forall_forall. intros g I Q. apply D. right. rewrite N, <- Q. apply in_map. exact I.
  - apply hash_none. split; auto. apply field_value_none. exact G.
Qed.

(** ** Histories *)
Lemma update_ident c n v : map ident (co_fields (update_field c n v)) = map ident (co_fields c).
Proof.
  unfold update_field. rewrite fields_set, map_map. apply map_ext. intros f. unfold ident.
  now rewrite update_num_kept, update_name_kept.
Qed.
Lemma with_value_ident (p : cfield -> bool) v l :
  map ident (map (fun f => if p f then with_value f v else f) l) = map ident l.
Proof. rewrite map_map. apply map_ext. intros f. destruct (p f); reflexivity. Qed.
Lemma add_new_ident c t n v c' : add_new_field c t n v = Ok c' ->
  exists k, map ident (co_fields c') = map ident (co_fields c) ++ [(k, n)] /\ get_available_field_num c = Ok k.
Proof.
  intros H. destruct (add_new_inv _ _ _ _ _ H) as (k & K & ->). exists k. rewrite fields_set, map_app. auto.
Qed.
Lemma numbers_ident c : numbers c = map fst (map ident (co_fields c)).
Proof. unfold numbers. rewrite map_map. reflexivity. Qed.

Lemma edit_step c e c' : apply_edit c e = Ok c' ->
  exists l, map ident (co_fields c') = map ident (co_fields c) ++ l /\ (NoDup (numbers c) -> NoDup (numbers c')) /\
  length (co_fields c') = (length (co_fields c) + length l)%nat.
Proof.
  assert (A : forall t n v c', add_new_field c t n v = Ok c' ->
    exists l, map ident (co_fields c') = map ident (co_fields c) ++ l /\ (NoDup (numbers c) -> NoDup (numbers c')) /\
    length (co_fields c') = (length (co_fields c) + length l)%nat).
  { intros t n v d H. destruct (add_new_ident _ _ _ _ _ H) as (k & E & K). exists [(k, n)]. split; [exact E|]. split.
    - rewrite !numbers_ident, E, map_app. cbn [map fst]. intros D.
      apply NoDup_rev in D. rewrite <- (rev_involutive (_ ++ _)). apply NoDup_rev. rewrite rev_app_distr. cbn. constructor; [|exact D].
      rewrite <- in_rev, map_map. intros I. apply in_map_iff in I as (f & F & I).
      destruct (free_num _ _ K) as (_ & L & _). specialize (L f I). cbn in F. lia.
    - rewrite <- (map_length ident (co_fields d)), E, app_length, map_length. reflexivity. }
  assert (B : forall d, map ident (co_fields d) = map ident (co_fields c) -> 
    exists l, map ident (co_fields d) = map ident (co_fields c) ++ l /\ (NoDup (numbers c) -> NoDup (numbers d)) /\
    length (co_fields d) = (length (co_fields c) + length l)%nat).
  { intros d E. exists []. rewrite app_nil_r. split; [exact E|]. split; [now rewrite !numbers_ident, E|].
    rewrite <- (map_length ident (co_fields d)), E, map_length. cbn. lia. }
  destruct e as [t n v|t n v|n v|r|n]; cbn [apply_edit].
  - destruct (add_or_update_field c t n v) as [[d o]| |] eqn:H; cbn; [|discriminate|discriminate]. intros [= <-].
    destruct (add_or_update_cases _ _ _ _ _ H) as [(G & E)|[(old & G & D & E)|(c2 & G & X & E)]]; injection E as -> ->.
    + apply B. reflexivity.
    + apply B. apply update_ident.
    + eapply A; eauto.
  - apply A.
  - intros [= <-]. apply B. apply update_ident.
  - intros [= <-]. apply B. apply (with_value_ident (fun f => Z.eqb (cf_i f) 0)).
  - intros [= <-]. apply B. apply (with_value_ident (fun f => Z.eqb (cf_i f) 1)).
Qed.
Lemma edit_history l : forall c c', apply_edits c l = Ok c' ->
  (NoDup (numbers c) -> NoDup (numbers c')) /\
  exists m, map ident (co_fields c') = map ident (co_fields c) ++ m.
Proof.
  induction l as [|e l IH]; cbn; intros c c'.
  - intros [= <-]. split; auto. exists []. now rewrite app_nil_r.
  - destruct (apply_edit c e) as [d| |] eqn:E; cbn; [|discriminate|discriminate]. intros H.
    destruct (edit_step _ _ _ E) as (m1 & E1 & D1 & _). destruct (IH _ _ H) as (D2 & m2 & E2).
    split; auto. exists (m1 ++ m2). now rewrite E2, E1, app_assoc.
Qed.
Lemma edit_history_last l : forall c c' t n v, apply_edits c (l ++ [AddOrUpdate t n v]) = Ok c' ->
  get_field_value c' n = Some v.
Proof.
  induction l as [|e l IH]; cbn [app apply_edits]; intros c c' t n v.
  - cbn [apply_edit]. destruct (add_or_update_field c t n v) as [[d o]| |] eqn:H; cbn; [|discriminate|discriminate].
    intros [= <-]. rewrite (add_or_update_value _ _ _ _ _ _ n H), str_eqb_refl. reflexivity.
  - destruct (apply_edit c e) as [d| |]; cbn; [|discriminate|discriminate]. apply IH.
Qed.

(** ** update_field *)
Lemma update_exact c n v : sans_fields (update_field c n v) = sans_fields c /\
  Forall2 (fun f g => sans_value g = sans_value f /\
     cf_value g = (if str_eqb (cf_name f) n then v else cf_value f) /\
     cf_visible g = (if (1 <? cf_i f)%Z then false else cf_visible f)) (co_fields c) (co_fields (update_field c n v)).
Proof.
  split; [reflexivity|]. unfold update_field. rewrite fields_set. induction (co_fields c) as [|f r IH]; cbn; constructor; auto.
  unfold update_one. destruct (str_eqb _ _), (1 <? _)%Z eqn:E; cbn; rewrite ?E; auto.
Qed.
Lemma sans_value_complete f g : sans_value f = sans_value g -> cf_value f = cf_value g -> cf_visible f = cf_visible g -> f = g.
Proof. destruct f, g. cbn. intros [= -> -> -> -> -> -> -> -> -> ->] -> ->. reflexivity. Qed.
Lemma sans_fields_complete c d : sans_fields c = sans_fields d -> co_fields c = co_fields d -> c = d.
Proof. destruct c, d. cbn. intros [= -> -> -> -> -> -> ->] ->. reflexivity. Qed.

(** ** modify *)
Lemma modify_first_spec r f l :
  (Forall (fun e => has_ref r e = false) l /\ modify_first r f l = l) \/
  exists a c b, l = a ++ SComponent c :: b /\ Forall (fun e => has_ref r e = false) a /\ co_reference c = r /\
    modify_first r f l = a ++ SComponent (f c) :: b.
Proof.
  induction l as [|e l IH]; [left; split; [constructor|reflexivity]|].
  assert (K : has_ref r e = false -> modify_first r f (e :: l) = e :: modify_first r f l).
  { destruct e; cbn; try reflexivity. intros ->. reflexivity. }
  destruct (has_ref r e) eqn:H.
  - right. destruct e as [c| | | | |]; try discriminate. cbn in H. exists [], c, l. cbn [modify_first]. rewrite H.
    apply str_eqb_eq in H. auto.
  - rewrite (K eq_refl). destruct IH as [(F & E)|(a & c & b & -> & F & R & E)].
    + left. split; [constructor; auto|]. now rewrite E.
    + right. exists (e :: a), c, b. rewrite E. auto.
Qed.

(** ** Sub-sheets *)
Lemma comps_own l : comps l = own l.
Proof. induction l as [|e l IH]; [reflexivity|]. destruct e; cbn; rewrite ?IH; reflexivity. Qed.

Definition all_go (fs : fsys) (n : nat) (s : schematic) : list sheet -> list component -> res (list component) :=
  fix go (l : list sheet) (v : list component) : res (list component) :=
    match l with
    | [] => Ok v
    | h :: t => do s2 <- parse_file_for_sheet fs s h; do v2 <- all_components fs n s2; go t (v ++ v2)
    end.
Lemma all_S fs n s : all_components fs (S n) s = all_go fs n s (sc_sheets s) (components s).
Proof. reflexivity. Qed.

Lemma all_sound fs n : forall s l, all_components fs n s = Ok l -> comps_of fs s l.
Proof.
  induction n as [|n IH]; intros s l; [discriminate|]. rewrite all_S.
  assert (G : forall hs v w, all_go fs n s hs v = Ok w -> exists m, w = v ++ m /\ comps_sheets fs s hs m).
  { induction hs as [|h hs IHs]; cbn; intros v w.
    - intros [= <-]. exists []. rewrite app_nil_r. split; [reflexivity|constructor].
    - destruct (parse_file_for_sheet fs s h) as [s2| |] eqn:P; cbn; [|discriminate|discriminate].
      destruct (all_components fs n s2) as [v2| |] eqn:A; cbn; [|discriminate|discriminate].
      intros H. destruct (IHs _ _ H) as (m & -> & M). exists (v2 ++ m). rewrite app_assoc. split; [reflexivity|].
      econstructor; eauto. }
  intros H. destruct (G _ _ _ H) as (m & -> & M). unfold components. rewrite comps_own. constructor. exact M.
Qed.

Lemma all_mono fs n : forall s m, all_components fs n s <> Err EFuel -> (n <= m)%nat ->
  all_components fs m s = all_components fs n s.
Proof.
  induction n as [|n IH]; intros s m; [cbn; congruence|]. intros H L. destruct m as [|m]; [lia|].
  rewrite all_S in *. rewrite all_S. revert H. generalize (components s). induction (sc_sheets s) as [|h hs IHs]; cbn; intros v H; [reflexivity|].
  destruct (parse_file_for_sheet fs s h) as [s2|e|]; cbn in *; [|reflexivity|reflexivity].
  assert (X : all_components fs n s2 <> Err EFuel).
  { intros E. rewrite E in H. cbn in H. congruence. }
  rewrite (IH s2 m X ltac:(lia)). destruct (all_components fs n s2) as [v2|e|]; cbn in *; [|reflexivity|reflexivity].
  apply IHs. exact H.
Qed.

Scheme comps_of_mind := Minimality for comps_of Sort Prop
with comps_sheets_mind := Minimality for comps_sheets Sort Prop.

Lemma all_complete fs s l : comps_of fs s l -> exists n, forall m, (n <= m)%nat -> all_components fs m s = Ok l.
Proof.
  apply (comps_of_mind fs (fun s l => exists n, forall m, (n <= m)%nat -> all_components fs m s = Ok l)
    (fun s hs l => exists n, forall m v, (n <= m)%nat -> all_go fs m s hs v = Ok (v ++ l))).
  - intros s0 l0 _ (n & H). exists (S n). intros m L. destruct m as [|m]; [lia|]. rewrite all_S, H by lia.
    unfold components. now rewrite comps_own.
  - intros s0. exists 0%nat. intros m v _. cbn. now rewrite app_nil_r.
  - intros s0 h hs s2 l1 l2 P _ (n1 & H1) _ (n2 & H2). exists (Nat.max n1 n2). intros m v L. cbn.
    rewrite P. cbn. rewrite H1 by lia. cbn. change (all_go fs m s0 hs (v ++ l1) = Ok (v ++ l1 ++ l2)).
    rewrite H2 by lia. now rewrite app_assoc.
Qed.
Lemma comps_unique fs s l m : comps_of fs s l -> comps_of fs s m -> l = m.
Proof.
  intros A B. destruct (all_complete _ _ _ A) as (n1 & H1), (all_complete _ _ _ B) as (n2 & H2).
  specialize (H1 (Nat.max n1 n2) ltac:(lia)). specialize (H2 (Nat.max n1 n2) ltac:(lia)). congruence.
Qed.
(** The nesting ends when the sheets have a rank that falls. *)
Lemma all_terminates fs (rank : schematic -> nat) :
  (forall s h s2, In h (sc_sheets s) -> parse_file_for_sheet fs s h = Ok s2 -> (rank s2 < rank s)%nat) ->
  forall n s, (rank s < n)%nat ->
  (forall s h, parse_file_for_sheet fs s h <> Err EFuel) -> all_components fs n s <> Err EFuel.
Proof.
  intros R. induction n as [|n IH]; intros s L NF; [lia|]. rewrite all_S.
  assert (G : forall hs v, incl hs (sc_sheets s) -> all_go fs n s hs v <> Err EFuel).
  { induction hs as [|h hs IHs]; cbn; intros v I; [discriminate|].
    destruct (parse_file_for_sheet fs s h) as [s2|e|] eqn:P; cbn; [|intros [= ->]; exact (NF _ _ P)|discriminate].
    assert (rank s2 < rank s)%nat by (eapply R; [apply I; left; reflexivity|exact P]).
    assert (X := IH s2 ltac:(lia) NF). destruct (all_components fs n s2); cbn; [|congruence|discriminate].
    apply IHs. intros x J. apply I. right. exact J. }
  apply G. intros x J. exact J.
Qed.

(** *** component_by_reference *)
Definition by_go (fs : fsys) (n : nat) (r : str) (s : schematic) : list sheet -> res component :=
  fix go (l : list sheet) : res component :=
    match l with
    | [] => Err EOther
    | h :: t =>
        do s2 <- parse_file_for_sheet fs s h;
        match component_by_reference fs n r s2 with
        | Ok c => Ok c
        | Err EFuel => Err EFuel
        | Err _ => go t
        | Panic => Panic
        end
    end.
Lemma by_S fs n r s : component_by_reference fs (S n) r s
  = match find_comp r (sc_elements s) with Some c => Ok c | None => by_go fs n r s (sc_sheets s) end.
Proof. reflexivity. Qed.
Definition pick (r : str) (l : list component) : res component :=
  match find (fun c => str_eqb (co_reference c) r) l with Some c => Ok c | None => Err EOther end.
Lemma find_comp_own r l : find_comp r l = find (fun c => str_eqb (co_reference c) r) (own l).
Proof. induction l as [|e l IH]; [reflexivity|]. destruct e; cbn; auto. destruct (str_eqb _ _); auto. Qed.
Lemma find_app {A} (p : A -> bool) l m : find p (l ++ m) = match find p l with Some x => Some x | None => find p m end.
Proof. induction l as [|a l IH]; cbn; [reflexivity|]. destruct (p a); auto. Qed.
Lemma by_complete fs r s l : comps_of fs s l -> exists n, forall m, (n <= m)%nat -> component_by_reference fs m r s = pick r l.
Proof.
  apply (comps_of_mind fs (fun s l => exists n, forall m, (n <= m)%nat -> component_by_reference fs m r s = pick r l)
    (fun s hs l => exists n, forall m, (n <= m)%nat -> by_go fs m r s hs = pick r l)).
  - intros s0 l0 _ (n & H). exists (S n). intros m L. destruct m as [|m]; [lia|]. rewrite by_S, H by lia.
    unfold pick. rewrite find_comp_own, find_app. destruct (find _ (own _)); reflexivity.
  - intros s0. exists 0%nat. intros m _. reflexivity.
  - intros s0 h hs s2 l1 l2 P _ (n1 & H1) _ (n2 & H2). exists (Nat.max n1 n2). intros m L. cbn.
    rewrite P. cbn. rewrite H1 by lia. change ((match pick r l1 with
        | Ok c => Ok c | Err EFuel => Err EFuel | Err _ => by_go fs m r s0 hs | Panic => Panic end) = pick r (l1 ++ l2)).
    rewrite H2 by lia. unfold pick. rewrite find_app. destruct (find _ l1); reflexivity.
Qed.
(** A found component has the reference, and is in the schematic or a sheet. *)
Inductive reachable (fs : fsys) : schematic -> schematic -> Prop :=
| reach_here s : reachable fs s s
| reach_sheet s h s2 t : In h (sc_sheets s) -> parse_file_for_sheet fs s h = Ok s2 -> reachable fs s2 t -> reachable fs s t.
Lemma by_sound fs r n : forall s c, component_by_reference fs n r s = Ok c ->
  co_reference c = r /\ exists t, reachable fs s t /\ In (SComponent c) (sc_elements t).
Proof.
  assert (F : forall l c, find_comp r l = Some c -> co_reference c = r /\ In (SComponent c) l).
  { induction l as [|e l IH]; cbn; [discriminate|]. intros c. destruct e as [d| | | | |]; try (intros H; apply IH in H as [? ?]; auto; fail).
    destruct (str_eqb (co_reference d) r) eqn:E; [intros [= <-]; apply str_eqb_eq in E; auto|].
    intros H; apply IH in H as [? ?]; auto. }
  induction n as [|n IH]; intros s c; [discriminate|]. rewrite by_S. destruct (find_comp r (sc_elements s)) as [d|] eqn:E.
  - intros [= <-]. apply F in E as [R I]. split; auto. exists s. split; [constructor|exact I].
  - assert (G : forall hs, incl hs (sc_sheets s) -> by_go fs n r s hs = Ok c ->
      co_reference c = r /\ exists t, reachable fs s t /\ In (SComponent c) (sc_elements t)).
    { induction hs as [|h hs IHs]; cbn; intros I; [discriminate|].
      destruct (parse_file_for_sheet fs s h) as [s2|e|] eqn:P; cbn; [|discriminate|discriminate].
      destruct (component_by_reference fs n r s2) as [d|e|] eqn:B; [|destruct e; try discriminate; intros H; apply IHs; auto; intros x J; apply I; right; exact J|discriminate].
      intros [= <-]. destruct (IH _ _ B) as (R & t & T & J). split; auto. exists t. split; auto.
      econstructor; eauto. apply I. left. reflexivity. }
    apply G. intros x J. exact J.
Qed.

Lemma add_or_update_lookup : forall c t n v c' o, add_or_update_field c t n v = Ok (c', o) ->
  get_field_value c' n = Some v /\
  (forall m, m <> n -> get_field_value c' m = get_field_value c m) /\
  sans_fields c' = sans_fields c.
Proof.
  intros c t n v c' o H. split; [|split; [|eapply add_or_update_rest, H]].
  - rewrite (add_or_update_value _ _ _ _ _ _ n H), str_eqb_refl. reflexivity.
  - intros m D. rewrite (add_or_update_value _ _ _ _ _ _ m H). now apply str_eqb_neq in D as ->.
Qed.
Lemma add_new_exact : forall c t n v c', add_new_field c t n v = Ok c' ->
  exists k, co_fields c' = co_fields c ++ [mk_cfield k v Horizontal (cf_x t) (cf_y t) 60 false SJCenter SJCenter false false n] /\
    ~ In k (numbers c) /\ sans_fields c' = sans_fields c.
Proof.
  intros c t n v c' H. destruct (add_new_inv _ _ _ _ _ H) as (k & K & ->). exists k. split; [reflexivity|]. split; [|reflexivity].
  intros I. unfold numbers in I. apply in_map_iff in I as (f & E & I). destruct (free_num _ _ K) as (_ & L & _). specialize (L f I). lia.
Qed.
Lemma update_only_named : forall c n v, NoDup (map cf_name (co_fields c)) ->
  Forall (fun f => (1 < cf_i f)%Z -> cf_visible f = false) (co_fields c) ->
  update_field c n v = c \/
  exists a f b, co_fields c = a ++ f :: b /\ cf_name f = n /\ update_field c n v = set_fields c (a ++ with_value f v :: b).
Proof.
  intros c n v D V.
  assert (ID : forall l, absent n l -> Forall (fun f => (1 < cf_i f)%Z -> cf_visible f = false) l -> map (update_one n v) l = l).
  { induction l as [|f l IH]; intros A W; [reflexivity|]. inversion A; subst. inversion W; subst. cbn [map]. rewrite IH by assumption. f_equal.
    unfold update_one. replace (str_eqb (cf_name f) n) with false by (symmetry; now apply str_eqb_neq).
    destruct (Z.ltb_spec 1 (cf_i f)) as [L|L]; [|reflexivity]. unfold with_visible. rewrite <- (H3 L). destruct f; reflexivity. }
  unfold update_field. pose proof (find_field_first n (co_fields c)) as F. destruct (find_field n (co_fields c)) as [f|].
  - destruct F as (a & b & E & N & A). right. exists a, f, b. split; [exact E|]. split; [exact N|].
    assert (B : absent n b).
    { rewrite E, map_app in D. cbn in D. apply NoDup_remove_2 in D. rewrite in_app_iff in D.
      apply Forall_forall. intros g I Q. apply D. right. rewrite N, <- Q. apply in_map. exact I. }
    rewrite E in V |- *. apply Forall_app in V as [Va Vb]. inversion Vb as [|? ? Vf Vb']; subst x l.
    rewrite map_app. cbn [map]. rewrite (ID a A Va), (ID b B Vb'). do 3 f_equal. unfold update_one. rewrite N, str_eqb_refl.
    change (cf_i (with_value f v)) with (cf_i f). destruct (Z.ltb_spec 1 (cf_i f)) as [L|L]; [|reflexivity].
    unfold with_visible, with_value. cbn. rewrite (Vf L). reflexivity.
  - left. rewrite (ID _ F V). destruct c; reflexivity.
Qed.
Lemma modify_component_spec : forall s r f,
  with_elements (modify_component s r f) [] = with_elements s [] /\
  ((Forall (fun e => has_ref r e = false) (sc_elements s) /\ modify_component s r f = s) \/
   exists a c b, sc_elements s = a ++ SComponent c :: b /\ Forall (fun e => has_ref r e = false) a /\ co_reference c = r /\
     sc_elements (modify_component s r f) = a ++ SComponent (f c) :: b).
Proof.
  intros s r f. split; [reflexivity|]. unfold modify_component.
  destruct (modify_first_spec r f (sc_elements s)) as [(F & E)|(a & c & b & E & F & R & M)].
  - left. split; [exact F|]. rewrite E. destruct s; reflexivity.
  - right. exists a, c, b. auto.
Qed.
Lemma modify_components_spec : forall s f,
  with_elements (modify_components s f) [] = with_elements s [] /\
  Forall2 (fun e g => match e with SComponent c => g = SComponent (f c) | _ => g = e end) (sc_elements s) (sc_elements (modify_components s f)).
Proof.
  intros s f. split; [reflexivity|]. cbn. induction (sc_elements s) as [|e l IH]; constructor; auto. destruct e; reflexivity.
Qed.

Lemma own_first fs n r s c : find (fun c => str_eqb (co_reference c) r) (own (sc_elements s)) = Some c ->
  component_by_reference fs (S n) r s = Ok c.
Proof. intros H. rewrite by_S, find_comp_own, H. reflexivity. Qed.

(** A schematic that is one of its own sheets *)
Lemma all_cyclic fs s h : In h (sc_sheets s) -> parse_file_for_sheet fs s h = Ok s ->
  forall n l, all_components fs n s <> Ok l.
Proof.
  intros I P n. induction n as [|n IH]; intros l; [discriminate|]. rewrite all_S. generalize (components s).
  induction (sc_sheets s) as [|k ks IHs]; [contradiction|]. intros v. cbn. destruct I as [->|I].
  - rewrite P. cbn. destruct (all_components fs n s) as [w| |] eqn:E; cbn; [|discriminate|discriminate]. exfalso. exact (IH _ eq_refl).
  - destruct (parse_file_for_sheet fs s k) as [s2| |]; cbn; [|discriminate|discriminate].
    destruct (all_components fs n s2); cbn; [|discriminate|discriminate]. apply IHs, I.
Qed.
Lemma all_self fs s h t : sc_sheets s = h :: t -> parse_file_for_sheet fs s h = Ok s -> forall n, all_components fs n s = Err EFuel.
Proof.
  intros E P n. induction n as [|n IH]; [reflexivity|]. rewrite all_S, E. cbn. rewrite P. cbn. rewrite IH. reflexivity.
Qed.
Lemma by_self fs s h t r : sc_sheets s = h :: t -> parse_file_for_sheet fs s h = Ok s -> find_comp r (sc_elements s) = None ->
  forall n, component_by_reference fs n r s = Err EFuel.
Proof.
  intros E P F n. induction n as [|n IH]; [reflexivity|]. rewrite by_S, F, E. cbn. rewrite P. cbn. rewrite IH. reflexivity.
Qed.
(** An unreadable sheet behind readable ones *)
Lemma all_missing fs s a h b n : sc_sheets s = a ++ h :: b -> is_ok (parse_file_for_sheet fs s h) = false ->
  is_ok (all_components fs n s) = false.
Proof.
  intros E M. destruct n as [|n]; [reflexivity|]. rewrite all_S, E. generalize (components s).
  clear E. induction a as [|k a IH]; intros v; cbn.
  - destruct (parse_file_for_sheet fs s h); [discriminate|reflexivity|reflexivity].
  - destruct (parse_file_for_sheet fs s k) as [s2| |]; cbn; [|reflexivity|reflexivity].
    destruct (all_components fs n s2); cbn; [apply IH|reflexivity|reflexivity].
Qed.
Lemma sheets_no_fuel fs : (forall p, fs_read fs p <> Err EFuel) -> forall s h, parse_file_for_sheet fs s h <> Err EFuel.
Proof.
  intros R s h. unfold parse_file_for_sheet, filename_for_sheet, parse_file. apply (@nf_bind str schematic).
  - apply nf_bind; [apply nf_opt|intros ? _; apply nf_opt].
  - intros f _. apply nf_bind; [apply R|]. intros t _. apply nf_parse.
Qed.
Lemma all_ends fs (rank : schematic -> nat) : (forall p, fs_read fs p <> Err EFuel) ->
  (forall s h s2, In h (sc_sheets s) -> parse_file_for_sheet fs s h = Ok s2 -> (rank s2 < rank s)%nat) ->
  forall s, exists r, r <> Err EFuel /\ forall n, (rank s < n)%nat -> all_components fs n s = r.
Proof.
  intros F R s. exists (all_components fs (S (rank s)) s).
  assert (X : all_components fs (S (rank s)) s <> Err EFuel) by (apply (all_terminates fs rank R); [lia|now apply sheets_no_fuel]).
  split; [exact X|]. intros n L. apply all_mono; [exact X|lia].
Qed.
