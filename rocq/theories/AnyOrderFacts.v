(** Lemmas for C118: elements in another order. *)
From Coq Require Import String Permutation Lia Reals.
From Flocq Require Import IEEE754.BinarySingleNaN.
From Verif Require Import Base Str StrFacts F64 FpData FpOps FpOpsSpec FpOpsFacts Bound BoundSpec BoundFacts LyData LyOps LySpec LyBoundFacts TightFacts
  CheckFix SymCheck FpCheck CheckSpec CheckFacts FixFacts PlaceFacts ReportFacts F64Order AnyOrderSpec.
Open Scope string_scope. Open Scope list_scope.

Section Generic.
Context {A B : Type}.
Definition opt_list (o : option B) : list B := match o with Some b => [b] | None => [] end.
Lemma find_map_hd (f : A -> option B) l : find_map f l = hd_error (flat_map (fun a => opt_list (f a)) l).
Proof. induction l as [|a l IH]; [reflexivity|]. cbn [find_map flat_map]. destruct (f a); [reflexivity|exact IH]. Qed.
Lemma perm_hd (l l' : list B) : Permutation l l' -> (length l <= 1)%nat -> hd_error l' = hd_error l.
Proof.
  intros P L. destruct l as [|b [|b' r]]; [apply Permutation_nil in P; now subst|apply Permutation_length_1_inv in P; now subst|cbn in L; lia].
Qed.
Lemma one_length (P : A -> Prop) (f : A -> option B) l : (forall a b, f a = Some b -> P a) -> at_most_one P l ->
  (length (flat_map (fun a => opt_list (f a)) l) <= 1)%nat.
Proof.
  intros F. induction l as [|a l IH]; intros O; [cbn; lia|]. cbn [flat_map]. rewrite app_length.
  assert (O' : at_most_one P l) by (intros l1 x l2 y l3 E; apply (O (a :: l1) x l2 y l3); now rewrite E).
  destruct (f a) as [b|] eqn:E; [|exact (IH O')]. cbn [opt_list length].
  assert (Z : flat_map (fun a => opt_list (f a)) l = []).
  { clear IH. assert (N : forall x, In x l -> f x = None).
    { intros x I. destruct (f x) as [c|] eqn:C; [|reflexivity]. exfalso. apply in_split in I as (l1 & l2 & ->).
      exact (O [] a l1 x l2 eq_refl (F a b E) (F x c C)). }
    clear O O'. induction l as [|x l IH]; [reflexivity|]. cbn [flat_map]. rewrite (N x (or_introl eq_refl)). apply IH. intros y I. apply N. now right. }
  rewrite Z. cbn. lia.
Qed.
Lemma find_map_perm (P : A -> Prop) (f : A -> option B) l l' : (forall a b, f a = Some b -> P a) -> at_most_one P l -> Permutation l l' ->
  find_map f l' = find_map f l.
Proof. intros F O Q. rewrite !find_map_hd. apply perm_hd; [now apply Permutation_flat_map|now apply (one_length P)]. Qed.
End Generic.

Lemma perm_filter {A} (f : A -> bool) l l' : Permutation l l' -> Permutation (filter f l) (filter f l').
Proof.
  induction 1 as [|x l l' P IH|x y l|l1 l2 l3 P1 IH1 P2 IH2]; cbn [filter]; [constructor| | |now transitivity (filter f l2)].
  - destruct (f x); [now constructor|exact IH].
  - destruct (f x), (f y); try reflexivity. apply perm_swap.
Qed.
Lemma perm_exists {A} (f : A -> bool) l l' : Permutation l l' -> existsb f l' = existsb f l.
Proof.
  intros P. apply Bool.eq_iff_eq_true. rewrite !existsb_exists. split; intros (x & I & H); exists x; split; try exact H;
    [exact (Permutation_in x (Permutation_sym P) I)|exact (Permutation_in x P I)].
Qed.
Lemma perm_count {A} (f : A -> bool) l l' : Permutation l l' -> count f l' = count f l.
Proof. intros P. unfold count. symmetry. apply Permutation_length. now apply perm_filter. Qed.
Lemma perm_forallb {A} (f : A -> bool) l l' : Permutation l l' -> forallb f l = true -> forallb f l' = true.
Proof. intros P H. rewrite forallb_forall in *. intros x I. apply H. exact (Permutation_in x (Permutation_sym P) I). Qed.
Lemma one_perm {A} (P : A -> Prop) l l' : Permutation l l' -> at_most_one P l -> at_most_one P l'.
Proof.
  intros Q O l1 a l2 b l3 -> Pa Pb.
  assert (Q' : Permutation l (a :: b :: l1 ++ l2 ++ l3)).
  { rewrite Q. symmetry. apply Permutation_cons_app. rewrite !app_assoc. apply Permutation_cons_app. reflexivity. }
  assert (I : In a l) by (apply (Permutation_in a (Permutation_sym Q')); now left).
  apply in_split in I as (u & v & ->).
  assert (Q2 : Permutation (u ++ v) (b :: l1 ++ l2 ++ l3)) by (apply Permutation_cons_inv with a; now rewrite Permutation_middle).
  assert (I : In b (u ++ v)) by (apply (Permutation_in b (Permutation_sym Q2)); now left).
  apply in_app_or in I as [I|I]; apply in_split in I as (s & t & ->).
  - rewrite <- app_assoc in O. exact (O s b t a v eq_refl Pb Pa).
  - exact (O u a s b t eq_refl Pa Pb).
Qed.

(** ** Texts *)
Definition text_of (k : str) (e : element) : option fp_text :=
  match e with EFpText t => if str_eqb (tx_name t) k then Some t else None | _ => None end.
Lemma text_of_some k e t : text_of k e = Some t -> a_text k e.
Proof. destruct e; try discriminate. cbn [text_of]. destruct (str_eqb_spec (tx_name t0) k) as [E|]; [|discriminate]. intros _. now exists t0. Qed.
Lemma find_text_map k l : find_text k l = find_map (text_of k) l.
Proof. induction l as [|e l IH]; [reflexivity|]. destruct e; cbn [find_text find_map text_of]; try exact IH. destruct (str_eqb (tx_name t) k); [reflexivity|exact IH]. Qed.
Lemma find_text_perm k l l' : at_most_one (a_text k) l -> Permutation l l' -> find_text k l' = find_text k l.
Proof. intros O P. rewrite !find_text_map. exact (find_map_perm (a_text k) (text_of k) l l' (text_of_some k) O P). Qed.
Lemma at_perm m m' : at_most_one a_place (m_elements m) -> mixed m m' -> module_at m' = module_at m.
Proof.
  intros O [_ P]. unfold module_at. rewrite (find_map_perm a_place (fun e => match e with EAt a => Some (at_x a, at_y a) | _ => None end) _ _) with (3 := P); [reflexivity| |exact O].
  intros e b H. destruct e; try discriminate H. now eexists.
Qed.

(** ** Rules *)
Lemma counts_mixed m m' : mixed m m' -> courtyard_lines m' = courtyard_lines m /\ smd_only m' = smd_only m /\ pth_only m' = pth_only m /\ has_smd_attr m' = has_smd_attr m.
Proof.
  intros [_ P]. split; [unfold courtyard_lines, fp_lines; apply perm_count; now apply Permutation_flat_map|].
  assert (S : smd_pads m' = smd_pads m) by (unfold smd_pads, pads; apply perm_count; now apply Permutation_flat_map).
  assert (T : pth_pads m' = pth_pads m) by (unfold pth_pads, pads; apply perm_count; now apply Permutation_flat_map).
  split; [unfold smd_only; now rewrite S, T|]. split; [unfold pth_only; now rewrite S, T|]. unfold has_smd_attr. now apply perm_exists.
Qed.
Lemma check_mixed c m m' : one_of_each m -> mixed m m' -> fp_check c m' = fp_check c m.
Proof.
  intros (O1 & O2 & O3) M. destruct (counts_mixed m m' M) as (C & S & T & A). destruct M as [N P]. unfold fp_check, check_reference, check_value, check_reference2, get_text.
  rewrite C, S, T, A, N, (find_text_perm (lit "reference") _ _ O1 P), (find_text_perm (lit "value") _ _ O2 P), (find_text_perm (lit "user") _ _ O3 P). reflexivity.
Qed.

(** ** Fixes *)
Definition upd1 (w : str) (F : fp_text -> fp_text) (e : element) : element :=
  match e with EFpText t => if str_eqb (tx_name t) w then EFpText (F t) else e | _ => e end.
Lemma upd1_other w F l : (forall e, In e l -> ~ a_text w e) -> map (upd1 w F) l = l /\ upd_text w F l = None.
Proof.
  induction l as [|e l IH]; intros N; [now split|]. destruct IH as [I1 I2]; [intros x X; apply N; now right|]. specialize (N e (or_introl eq_refl)).
  cbn [map]. rewrite I1. destruct e; cbn [upd1 upd_text]; rewrite ?I2; try (now split).
  destruct (str_eqb_spec (tx_name t) w) as [E|]; [|now split]. exfalso. apply N. now exists t.
Qed.
Lemma one_rest {A} (P : A -> Prop) a l : at_most_one P (a :: l) -> P a -> forall b, In b l -> ~ P b.
Proof. intros O Pa b I Pb. apply in_split in I as (l1 & l2 & ->). exact (O [] a l1 b l2 eq_refl Pa Pb). Qed.
Lemma one_tail {A} (P : A -> Prop) a l : at_most_one P (a :: l) -> at_most_one P l.
Proof. intros O l1 x l2 y l3 E. apply (O (a :: l1) x l2 y l3). now rewrite E. Qed.
Lemma upd_map w F l : at_most_one (a_text w) l -> or_list l (upd_text w F l) = map (upd1 w F) l.
Proof.
  induction l as [|e l IH]; intros O; [reflexivity|]. specialize (IH (one_tail _ _ _ O)).
  assert (K : ~ a_text w e -> upd_text w F (e :: l) = option_map (cons e) (upd_text w F l) -> upd1 w F e = e -> or_list (e :: l) (upd_text w F (e :: l)) = map (upd1 w F) (e :: l)).
  { intros _ E1 E2. rewrite E1. cbn [map]. rewrite E2, <- IH. destruct (upd_text w F l); reflexivity. }
  destruct e; try (apply K; [intros (t' & X & _); discriminate X|reflexivity|reflexivity]).
  cbn [upd_text map upd1]. destruct (str_eqb_spec (tx_name t) w) as [E|N].
  - destruct (upd1_other w F l) as [I _]; [apply (one_rest _ _ _ O); now exists t|]. cbn [or_list]. now rewrite I.
  - rewrite <- IH. destruct (upd_text w F l); reflexivity.
Qed.
Lemma upd1_kind w k F e : (forall t, tx_name (F t) = tx_name t) -> a_text k (upd1 w F e) -> a_text k e.
Proof.
  intros N (t & E & K). destruct e; try discriminate E. cbn [upd1] in E. destruct (str_eqb (tx_name t0) w); injection E as <-; [|now exists t0].
  exists t0. split; [reflexivity|]. now rewrite N in K.
Qed.
Lemma one_map {A} (P : A -> Prop) (g : A -> A) l : (forall a, P (g a) -> P a) -> at_most_one P l -> at_most_one P (map g l).
Proof.
  intros G O l1 a l2 b l3 E Pa Pb. apply map_eq_app in E as (x1 & x2 & -> & _ & E). apply map_eq_cons in E as (x & x3 & -> & <- & E).
  apply map_eq_app in E as (x4 & x5 & -> & _ & E). apply map_eq_cons in E as (y & x6 & -> & <- & _).
  exact (O x1 x x4 y x6 eq_refl (G x Pa) (G y Pb)).
Qed.
Lemma find_none k l : find_text k l = None -> forall e, In e l -> ~ a_text k e.
Proof.
  rewrite find_text_map. induction l as [|x l IH]; intros H e; [intros []|]. intros [<-|I]; cbn [find_map] in H; destruct (text_of k x) as [t|] eqn:X; try discriminate H.
  - intros (t & -> & K). cbn [text_of] in X. destruct (str_eqb_spec (tx_name t) k); [discriminate X|contradiction].
  - now apply IH.
Qed.
Definition stage (c : config) (n : str) (l : list element) : list element :=
  map (upd1 (lit "user") (fU c)) (map (upd1 (lit "value") (fV c n)) (map (upd1 (lit "reference") (fR c)) l) ++ ref2_of c l).
Lemma find_upd1 w k F l : (forall t, tx_name (F t) = tx_name t) -> find_text k (map (upd1 w F) l) = None <-> find_text k l = None.
Proof.
  intros N. rewrite !find_text_map. induction l as [|e l IH]; [reflexivity|]. cbn [map find_map].
  destruct e; cbn [upd1 text_of]; try exact IH. destruct (str_eqb (tx_name t) w); cbn [text_of]; rewrite ?N; destruct (str_eqb (tx_name t) k); try exact IH; now split.
Qed.
Lemma stage_spec c m : one_of_each m ->
  fix_reference2 c (fix_value c (m_name m) (fix_reference c m)) = Ok (mk_module (m_name m) (stage c (m_name m) (m_elements m))).
Proof.
  intros (O1 & O2 & O3). destruct m as [n l]. cbn [m_elements m_name] in *. unfold fix_value, fix_reference.
  rewrite !(or_same_list _ _ _ _ eq_refl). cbn [m_name m_elements]. fold (fR c). fold (fV c n).
  rewrite (upd_map (lit "reference") (fR c) l O1).
  set (l1 := map (upd1 (lit "reference") (fR c)) l).
  assert (P2 : at_most_one (a_text (lit "value")) l1) by (apply one_map; [intros a; apply upd1_kind; reflexivity|exact O2]).
  rewrite (upd_map (lit "value") (fV c n) l1 P2). set (l2 := map (upd1 (lit "value") (fV c n)) l1).
  assert (P3 : at_most_one (a_text (lit "user")) l2).
  { apply one_map; [intros a; apply upd1_kind; reflexivity|]. apply one_map; [intros a; apply upd1_kind; reflexivity|exact O3]. }
  assert (U : find_text (lit "user") l2 = None <-> find_text (lit "user") l = None).
  { unfold l2, l1. rewrite find_upd1 by reflexivity. apply find_upd1. reflexivity. }
  unfold fix_reference2, get_text. cbn [m_elements].
  assert (E : (match find_text (lit "user") l2 with Some _ => mk_module n l2 | None => push [EFpText (new_ref2 c)] (mk_module n l2) end) = mk_module n (l2 ++ ref2_of c l)).
  { unfold ref2_of. destruct (find_text (lit "user") l2) as [t2|], (find_text (lit "user") l) as [t1|]; [now rewrite app_nil_r| | |reflexivity].
    - destruct U as [_ U]. discriminate (U eq_refl).
    - destruct U as [U _]. discriminate (U eq_refl). }
  rewrite E. clear E. unfold modify_text. cbn [m_elements m_name]. fold (fU c).
  assert (Q : at_most_one (a_text (lit "user")) (l2 ++ ref2_of c l)).
  { unfold ref2_of. destruct (find_text (lit "user") l) eqn:F1; [now rewrite app_nil_r|]. destruct U as [_ U]. specialize (U eq_refl).
    intros a x b y d Eq Px Py. pose proof (find_none _ _ U) as N.
    destruct (exists_last (l := y :: d) ltac:(discriminate)) as (q & z & Ez). 
    assert (Hx : In x l2).
    { assert (El : l2 ++ [EFpText (new_ref2 c)] = (a ++ x :: b ++ q) ++ [z]) by (rewrite Eq, Ez, <- app_assoc; cbn [app]; now rewrite <- app_assoc).
      apply app_inj_tail in El as [-> _]. apply in_or_app. right. now left. }
    exact (N x Hx Px). }
  pose proof (upd_map (lit "user") (fU c) _ Q) as R.
  assert (S : find_text (lit "user") (l2 ++ ref2_of c l) <> None).
  { unfold ref2_of. rewrite find_text_app. destruct (find_text (lit "user") l2); [discriminate|]. destruct U as [U _]. rewrite (U eq_refl). discriminate. }
  destruct (upd_some (lit "user") (fU c) _ S) as [l4 X]. rewrite X in *. cbn [option_map or_list] in *. unfold stage. fold l1 l2. now rewrite R.
Qed.
Lemma stage_perm c n l l' : at_most_one (a_text (lit "user")) l -> Permutation l l' -> Permutation (stage c n l) (stage c n l').
Proof.
  intros O P. unfold stage. apply Permutation_map. unfold ref2_of. rewrite (find_text_perm (lit "user") l l' O P). apply Permutation_app_tail. now do 2 apply Permutation_map.
Qed.
Lemma mixed_push es m m' : mixed m m' -> mixed (push es m) (push es m').
Proof. intros [N P]. split; [exact N|]. cbn [push m_elements]. now apply Permutation_app_tail. Qed.
Lemma mixed_attr m m' : mixed m m' -> mixed (fix_attr m) (fix_attr m').
Proof. intros M. destruct (counts_mixed m m' M) as (_ & S & _ & A). unfold fix_attr. rewrite S, A. destruct (smd_only m && negb (has_smd_attr m))%bool; [now apply mixed_push|exact M]. Qed.
Lemma fix_mixed c m m' q : one_of_each m -> (4 <= length (courtyard_list m))%nat -> mixed m m' -> fp_fix c m = Ok q -> exists q', fp_fix c m' = Ok q' /\ mixed q q'.
Proof.
  intros O L M F. destruct (fix_total c m') as [q' F']. exists q'. split; [exact F'|]. pose proof O as (O1 & O2 & O3). pose proof M as [N P].
  assert (O' : one_of_each m') by (split; [|split]; eapply one_perm; eauto).
  unfold fp_fix in F, F'. rewrite (stage_spec c m O) in F. rewrite (stage_spec c m' O') in F'. cbn [bind] in F, F'. assert (F1 : forall x y : module, Ok x = Ok y -> x = y) by (intros x y E; now injection E). apply F1 in F. apply F1 in F'. clear F1. subst q q'.
  pose proof (stage_lines c (m_name m) m _ (stage_spec c m O)) as Lq. 
  assert (S : mixed (fix_attr (mk_module (m_name m) (stage c (m_name m) (m_elements m)))) (fix_attr (mk_module (m_name m') (stage c (m_name m') (m_elements m'))))).
  { apply mixed_attr. split; [exact N|]. cbn [m_elements]. rewrite N. now apply stage_perm. }
  destruct (counts_mixed _ _ S) as (C & _). unfold fix_courtyard. rewrite C. unfold courtyard_lines. rewrite Lq.
  rewrite courtyard_list_spec in L. assert (Z : Nat.ltb (courtyard_lines m) 4 = false) by (apply Nat.ltb_ge; exact L). unfold courtyard_lines in Z. rewrite Z. exact S.
Qed.

(** ** Boxes *)
Lemma fgtb_same a b c d : is_nan a = false -> is_nan b = false -> is_nan c = false -> is_nan d = false -> rx a = rx c -> rx b = rx d -> fgtb a b = fgtb c d.
Proof. intros A B C D E F. apply Bool.eq_iff_eq_true. rewrite !fgtb_rx by assumption. now rewrite E, F. Qed.
Lemma swap_same a b : bnum a = true -> bnum b = true -> same_bound a b = true -> same_bound (bound_swap a) (bound_swap b) = true.
Proof.
  intros A B S. destruct (bounded a) eqn:Ba.
  - assert (Bb : bounded b = true) by (unfold same_bound in S; rewrite Ba in S; now destruct (bounded b)).
    apply same_bound_iff; [now rewrite swap_num|now rewrite swap_num|now rewrite swap_bounded|now rewrite swap_bounded|].
    apply (same_bound_iff a b A B Ba Bb) in S as (E1 & E2 & E3 & E4). apply bnum_iff in A as (A1 & A2 & A3 & A4). apply bnum_iff in B as (B1 & B2 & B3 & B4).
    unfold bound_swap. rewrite <- (fgtb_same (bx1 a) (bx2 a) (bx1 b) (bx2 b)), <- (fgtb_same (by1 a) (by2 a) (by1 b) (by2 b)) by assumption.
    destruct (fgtb (bx1 a) (bx2 a)), (fgtb (by1 a) (by2 a)); cbn [bx1 by1 bx2 by2]; auto.
  - unfold same_bound in *. rewrite swap_bounded, Ba in *. now rewrite swap_bounded.
Qed.
Lemma drawn_num x y l : is_finite x = true -> is_finite y = true -> forallb geo_ok l = true ->
  Forall (fun b => bnum b = true) (map (fun e => bound_shift x y (element_bound e)) (filter (fun e => is_fab e || is_pad e) (filter is_graphics l))).
Proof.
  intros Fx Fy G. apply Forall_forall. intros b Hb. apply in_map_iff in Hb as (e & <- & He).
  apply filter_In in He as [He _]. apply filter_In in He as [He Hg].
  rewrite forallb_forall in G. apply shift_num; auto. now apply geo_bnum; auto.
Qed.
Lemma box_mixed m m' : at_most_one a_place (m_elements m) -> is_finite (fst (module_at m)) = true -> is_finite (snd (module_at m)) = true ->
  forallb geo_ok (m_elements m) = true -> mixed m m' -> same_bound (module_bound m) (module_bound m') = true.
Proof.
  intros O Fx Fy G M. pose proof (at_perm m m' O M) as A. unfold module_bound. rewrite A. destruct (module_at m) as [x y]. cbn [fst snd] in *.
  destruct M as [_ P]. pose proof (drawn_num x y _ Fx Fy G) as N. pose proof (drawn_num x y _ Fx Fy (perm_forallb _ _ _ P G)) as N'.
  assert (N0 : bnum (bound_new x y x y) = true) by now apply point_num.
  apply swap_same; [now apply all_num|now apply all_num|].
  apply all_permutation; [|exact N0|exact N]. apply Permutation_map. now do 2 apply perm_filter.
Qed.
Lemma board_box_mixed l l' : forallb ly_geo_ok (ly_elements l) = true -> mixed_board l l' -> same_bound (layout_bound l) (layout_bound l') = true.
Proof.
  intros G [_ P]. pose proof (layout_bounds_num l G) as N. pose proof (layout_bounds_num l' (perm_forallb _ _ _ P G)) as N'.
  unfold layout_bound. apply swap_same; [now apply all_num|now apply all_num|]. apply all_permutation; [now apply Permutation_map|reflexivity|exact N].
Qed.

(** ** Nets and lookups *)
Lemma for_each_total {A} (f : A -> A * option ekind) l : (forall a, snd (f a) = None) -> for_each f l = (map (fun a => fst (f a)) l, None).
Proof.
  intros F. induction l as [|a l IH]; [reflexivity|]. cbn [for_each map]. specialize (F a). destruct (f a) as [a' k]. cbn [fst snd] in *. subst k. now rewrite IH.
Qed.
Definition renamed (old new : str) : name_update := fun n => (rename old new n, None).
Lemma update_total old new e : snd (update_element_nets (renamed old new) e) = None.
Proof.
  destruct e; cbn [update_element_nets]; try reflexivity.
  - rewrite for_each_total; [reflexivity|]. intros a. destruct a; cbn [update_pad_net]; try reflexivity. now destruct (pa_net p).
  - rewrite for_each_total; reflexivity.
Qed.
Lemma change_map old new l : change_net_name old new l = Ok (with_elements l (map (fun e => fst (update_element_nets (renamed old new) e)) (ly_elements l))).
Proof.
  unfold change_net_name, update_net_names. fold (renamed old new). rewrite for_each_total by apply update_total. reflexivity.
Qed.
Lemma change_mixed old new l l' q : mixed_board l l' -> change_net_name old new l = Ok q -> exists q', change_net_name old new l' = Ok q' /\ mixed_board q q'.
Proof.
  intros [H P] E. rewrite change_map in E. injection E as <-. eexists. split; [apply change_map|]. split; [exact H|]. cbn [with_elements ly_elements]. now apply Permutation_map.
Qed.
Lemma get_mixed l l' r : at_most_one (called r) (ly_elements l) -> mixed_board l l' -> get_module l' r = get_module l r.
Proof.
  intros O [_ P]. unfold get_module. apply (find_map_perm (called r)); [|exact O|exact P].
  intros e b H. destruct e; try discriminate H. destruct (is_reference_with_name m r) eqn:E; [|discriminate H]. now exists m.
Qed.
Definition mod1 (r : str) (f : module -> module) (e : ly_element) : ly_element :=
  match e with YModule m => if is_reference_with_name m r then YModule (f m) else e | _ => e end.
Definition calledb (r : str) (e : ly_element) : bool := match e with YModule m => is_reference_with_name m r | _ => false end.
Lemma calledb_iff r e : calledb r e = true <-> called r e.
Proof. split; [intros H; destruct e; try discriminate H; now exists m|intros (m & -> & H); exact H]. Qed.
Lemma mod1_other r f l : (forall e, In e l -> calledb r e = false) -> map (mod1 r f) l = l.
Proof.
  induction l as [|e l IH]; intros N; [reflexivity|]. cbn [map]. rewrite IH by (intros x X; apply N; now right). f_equal.
  specialize (N e (or_introl eq_refl)). destruct e; try reflexivity. cbn [mod1 calledb] in *. now rewrite N.
Qed.
Lemma modify_map r f l : at_most_one (called r) l -> modify_first r f l = (map (mod1 r f) l, if existsb (calledb r) l then None else Some EOther).
Proof.
  induction l as [|e l IH]; intros O; [reflexivity|]. specialize (IH (one_tail _ _ _ O)). destruct e; cbn [modify_first map mod1 existsb calledb orb]; try (now rewrite IH).
  destruct (is_reference_with_name m r) eqn:E; [|rewrite IH; reflexivity]. cbn [orb].
  rewrite mod1_other; [reflexivity|]. intros x X. apply Bool.not_true_is_false. rewrite calledb_iff. apply (one_rest _ _ _ O); [now exists m|exact X].
Qed.
Lemma modify_mixed l l' r f : at_most_one (called r) (ly_elements l) -> mixed_board l l' ->
  mixed_board (fst (modify_module l r f)) (fst (modify_module l' r f)) /\ snd (modify_module l' r f) = snd (modify_module l r f).
Proof.
  intros O [H P]. pose proof (one_perm _ _ _ P O) as O'. unfold modify_module. rewrite (modify_map r f _ O), (modify_map r f _ O'). cbn [fst snd].
  split; [split; [exact H|cbn [with_elements ly_elements]; now apply Permutation_map]|]. now rewrite (perm_exists (calledb r) _ _ P).
Qed.

(** ** For the examples *)
Lemma once_ok {A} (P : A -> Prop) (p : A -> bool) l : (forall a, P a -> p a = true) -> Nat.leb (count p l) 1 = true -> at_most_one P l.
Proof.
  intros R C l1 a l2 b l3 -> Pa Pb. apply Nat.leb_le in C. unfold count in C.
  rewrite filter_app, app_length in C. cbn [filter] in C. rewrite (R a Pa) in C. cbn [length] in C.
  rewrite filter_app, app_length in C. cbn [filter] in C. rewrite (R b Pb) in C. cbn [length] in C. lia.
Qed.
Definition a_textb (k : str) (e : element) : bool := match e with EFpText t => str_eqb (tx_name t) k | _ => false end.
Definition a_placeb (e : element) : bool := match e with EAt _ => true | _ => false end.
Lemma a_textb_ok k e : a_text k e -> a_textb k e = true. Proof. intros (t & -> & <-). cbn [a_textb]. apply str_eqb_refl. Qed.
Lemma a_placeb_ok e : a_place e -> a_placeb e = true. Proof. now intros (a & ->). Qed.
Lemma calledb_ok r e : called r e -> calledb r e = true. Proof. apply calledb_iff. Qed.
