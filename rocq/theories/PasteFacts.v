(** Facts about footprint files pasted into board files (C112). *)
From Coq Require Import List String Lia.
From Verif Require Import Base Str StrFacts Sexp SexpFacts FpData FpDe FpWf LyData LyDe LyWf LyOps FpOps FpLibTable Formatter FormatterSpec DocSpec DocText MeanSpec SpellSpec SpellFacts TornFacts KeepSpec LySpec P_Exact JoinSpec JoinFacts PasteSpec.
Import ListNotations.
Open Scope string_scope. Open Scope list_scope.

(** ** Spelling *)
Lemma blank_app w z : blank_text w -> blank_text z -> blank_text (w ++ z).
Proof. intros W Z c I. apply in_app_or in I as [I|I]; auto. Qed.
Lemma all_blank w l t : blank_text w -> spelt_all l t -> spelt_all l (w ++ t).
Proof.
  intros W H. destruct H as [z Z|z s t l u Z S L R].
  - constructor. now apply blank_app.
  - rewrite app_assoc. constructor; auto. now apply blank_app.
Qed.
Lemma all_app x u y v : spelt_all x u -> spelt_all y v -> ~ run_together u v -> spelt_all (x ++ y) (u ++ v).
Proof.
  intros H. revert v. induction H as [w W|w s t l u W S L IH R]; intros v V N; cbn [app].
  - now apply all_blank.
  - rewrite <- !app_assoc. constructor; [exact W|exact S| |].
    + apply IH; [exact V|]. intros (t1 & c & d & u1 & -> & -> & C & D). apply N. exists (w ++ t ++ t1), c, d, u1. rewrite <- !app_assoc. auto.
    + intros (t1 & c & d & u1 & -> & E & C & D). destruct u as [|d' u].
      * cbn [app] in E. subst v. apply N. exists (w ++ t1), c, d, u1. rewrite app_nil_r, <- app_assoc. auto.
      * injection E as <- <-. apply R. exists t1, c, d', u. auto.
Qed.
Lemma list_starts k f : document (SList k) f -> forall d r, f = d :: r -> ~ plain d.
Proof.
  intros H d r -> D. apply document_inv in H as (w & a & u & E & W & S & _). destruct D as (D1 & D2 & _). destruct w as [|c w].
  - inversion S; subst. cbn [app] in E. injection E as E _. now apply D2.
  - cbn [app] in E. injection E as E _. subst c. rewrite (W d) in D1 by now left. discriminate.
Qed.
Lemma list_ends k f : document (SList k) f -> forall d r, f = r ++ [d] -> ~ plain d.
Proof.
  intros H d r E D. apply document_inv in H as (w & a & u & -> & W & S & U). destruct D as (D1 & D2 & D3 & _). destruct u as [|c u _] using rev_ind.
  - rewrite app_nil_r in E. inversion S as [| |l t L]; subst. rewrite !app_assoc in E. apply app_inj_tail in E as [_ <-]. now apply D3.
  - rewrite !app_assoc in E. apply app_inj_tail in E as [_ <-]. rewrite (U c) in D1 by (apply in_or_app; right; now left). discriminate.
Qed.
Lemma gap_list p q x y : gap p q x y -> document (SList (x ++ y)) (p ++ q).
Proof.
  intros (w & u & v & z & -> & -> & W & Z & U & V & N). unfold document.
  replace ((w ++ [40%N] ++ u) ++ v ++ [41%N] ++ z) with (w ++ ([40%N] ++ (u ++ v) ++ [41%N]) ++ z) by now rewrite <- !app_assoc.
  constructor; [exact W| | |].
  - constructor. now apply all_app.
  - now constructor.
  - intros (t1 & c & d & u1 & E & _ & C & _). rewrite app_assoc in E. apply app_inj_tail in E as [_ <-]. destruct C as (_ & _ & C & _). now apply C.
Qed.
Lemma document_nonempty k f : document (SList k) f -> f <> [].
Proof. intros H ->. apply document_inv in H as (w & a & u & E & _ & S & _). inversion S; subst. destruct w; discriminate E. Qed.
Lemma gap_paste p q x y k f : gap p q x y -> document (SList k) f -> document (SList (x ++ SList k :: y)) (p ++ f ++ q).
Proof.
  intros (w & u & v & z & -> & -> & W & Z & U & V & N) F.
  assert (FV : spelt_all (SList k :: y) (f ++ v)).
  { apply (all_app [SList k] f y v F V). intros (t1 & c & d & u1 & E & _ & C & _). exact (list_ends k f F c t1 E C). }
  assert (G : gap (w ++ [40%N] ++ u) ((f ++ v) ++ [41%N] ++ z) x (SList k :: y)).
  { exists w, u, (f ++ v), z. repeat (apply conj; [solve [reflexivity|assumption]|]). 
    intros (t1 & c & d & u1 & _ & E & _ & D). destruct f as [|d' f]; [exact (document_nonempty k [] F eq_refl)|]. injection E as <- _.
    exact (list_starts k (d' :: f) F d' f eq_refl D). }
  apply gap_list in G. rewrite <- !app_assoc in G. rewrite <- !app_assoc. exact G.
Qed.
(** The place before the last parenthesis *)
Lemma last_black a c w a' c' w' : blank_text w -> blank_text w' -> is_ws c = false -> is_ws c' = false -> a ++ c :: w = a' ++ c' :: w' -> a = a' /\ w = w'.
Proof.
  revert w'. induction w as [|x w IH] using rev_ind; intros w' W W' C C' E; destruct w' as [|x' w' _] using rev_ind.
  - apply app_inj_tail in E as [E _]. auto.
  - rewrite app_comm_cons, app_assoc in E. apply app_inj_tail in E as [_ <-]. rewrite (W' c) in C by (apply in_or_app; right; now left). discriminate.
  - rewrite app_comm_cons, app_assoc in E. apply app_inj_tail in E as [_ E]. subst x. rewrite (W c') in C' by (apply in_or_app; right; now left). discriminate.
  - rewrite !app_comm_cons, !app_assoc in E. apply app_inj_tail in E as [E <-].
    destruct (IH w') as [<- <-]; auto; intros d I; [apply W|apply W']; apply in_or_app; now left.
Qed.
Lemma end_gap l p w : document (SList l) (p ++ [41%N] ++ w) -> blank_text w -> gap p ([41%N] ++ w) l [].
Proof.
  intros D W. apply document_inv in D as (w' & a & z & E & W' & S & Z). inversion S as [| |l' t L]; subst.
  assert (E' : p ++ 41%N :: w = (w' ++ [40%N] ++ t) ++ 41%N :: z) by (rewrite <- !app_assoc in *; cbn [app] in *; exact E).
  apply (last_black _ _ _ _ _ _ W Z (eq_refl : is_ws 41 = false) (eq_refl : is_ws 41 = false)) in E' as [-> ->].
  exists w', t, [], z. repeat (apply conj; [solve [reflexivity|assumption|constructor; intros ? []]|]). intros (t1 & c & d & u1 & _ & A & _). discriminate A.
Qed.

(** ** Boards *)
Lemma put_skip xs ys e l : ly_header (fold_left put (xs ++ HElement e :: ys) l) = ly_header (fold_left put (xs ++ ys) l).
Proof.
  rewrite !fold_left_app. cbn [fold_left]. generalize (fold_left put xs l). clear l xs.
  assert (G : forall ys l l', ly_header l = ly_header l' -> ly_header (fold_left put ys l) = ly_header (fold_left put ys l')).
  { clear. induction ys as [|y ys IH]; intros l l' E; [exact E|]. cbn [fold_left]. apply IH. destruct l as [a1 a2 a3 a4 a5 a6 a7], l' as [b1 b2 b3 b4 b5 b6 b7], y; unfold ly_header in *; cbn [put ly_version ly_host ly_general ly_page ly_setup ly_layers] in *;
    injection E as -> -> -> -> -> ->; reflexivity. }
  intros l. apply G. destruct l. reflexivity.
Qed.
Lemma header_eq l l' : ly_header l = ly_header l' -> ly_elements l = ly_elements l' -> l = l'.
Proof.
  destruct l as [a1 a2 a3 a4 a5 a6 a7], l' as [b1 b2 b3 b4 b5 b6 b7]. unfold ly_header. cbn [ly_version ly_host ly_general ly_page ly_setup ly_layers ly_elements]. intros E ->. injection E as -> -> -> -> -> ->. reflexivity.
Qed.
Lemma els_count a xs : mapM eff a = Ok xs -> length (els xs) = elements_in a.
Proof.
  revert xs. induction a as [|e a IH]; intros xs H; cbn [mapM] in H; [injection H as <-; reflexivity|].
  apply bind_inv in H as (x & X & H). apply bind_inv in H as (ys & Y & H). injection H as <-. specialize (IH ys Y).
  unfold elements_in in *. cbn [filter].
  assert (B : existsb (fun k => called k e) heads = match x with HElement _ => false | _ => true end).
  { unfold heads. cbn [existsb].
    rewrite (eff_called "version" e x), (eff_called "host" e x), (eff_called "general" e x), (eff_called "page" e x), (eff_called "setup" e x), (eff_called "layers" e x)
      by (try exact X; cbn; auto 10). destruct x; reflexivity. }
  rewrite B. unfold els in *. cbn [flat_map]. rewrite app_length, IH. destruct x; reflexivity.
Qed.
Lemma entry_in a b k e l' : eff k = Ok (HElement e) ->
  (de_layout (board_tree (a ++ k :: b)) = Ok l' <->
   exists l, de_layout (board_tree (a ++ b)) = Ok l /\ (elements_in a <= length (ly_elements l))%nat /\ l' = inserted (elements_in a) e l).
Proof.
  intros K. rewrite !board_tree_eq.
  assert (I : forall xs ys, mapM eff a = Ok xs -> fold_left put (xs ++ HElement e :: ys) layout_default = inserted (elements_in a) e (fold_left put (xs ++ ys) layout_default)).
  { intros xs ys X. apply header_eq; [rewrite put_skip; destruct (fold_left put (xs ++ ys) layout_default); reflexivity|].
    unfold inserted. cbn [ly_elements]. rewrite !put_elements. change (ly_elements layout_default) with (@nil ly_element). cbn [app]. unfold els at 1. rewrite !flat_map_app. cbn [flat_map app].
    fold (els xs) (els ys). assert (E : els (xs ++ ys) = els xs ++ els ys) by apply flat_map_app. rewrite E.
    rewrite <- (els_count a xs X), firstn_app, skipn_app, firstn_all, skipn_all, PeanoNat.Nat.sub_diag, app_nil_r. reflexivity. }
  assert (LE : forall xs ys, mapM eff a = Ok xs -> (elements_in a <= length (ly_elements (fold_left put (xs ++ ys) layout_default)))%nat).
  { intros xs ys X. rewrite put_elements, app_length. assert (E : els (xs ++ ys) = els xs ++ els ys) by apply flat_map_app. rewrite E, app_length, (els_count a xs X). lia. }
  split.
  - intros H. apply bind_inv in H as (zs & Z & H). injection H as <-. apply mapM_iff in Z as (xs & ks & X & Y & ->). cbn [mapM] in Y. rewrite K in Y. cbn [bind] in Y.
    apply bind_inv in Y as (ys & Y & H). injection H as <-. exists (fold_left put (xs ++ ys) layout_default).
    assert (M : mapM eff (a ++ b) = Ok (xs ++ ys)) by (apply mapM_iff; eauto). rewrite M. cbn [bind]. repeat apply conj; [reflexivity|now apply LE|now apply I].
  - intros (l & H & _ & ->). apply bind_inv in H as (zs & Z & H). injection H as <-. apply mapM_iff in Z as (xs & ys & X & Y & ->).
    assert (M : mapM eff (a ++ k :: b) = Ok (xs ++ HElement e :: ys)) by (apply mapM_iff; exists xs, (HElement e :: ys); cbn [mapM]; rewrite K, Y; auto).
    rewrite M. cbn [bind]. rewrite (I xs ys X). reflexivity.
Qed.
Lemma entry_bad a b k l' : (forall x, eff k <> Ok x) -> de_layout (board_tree (a ++ k :: b)) <> Ok l'.
Proof.
  intros N H. rewrite board_tree_eq in H. apply bind_inv in H as (zs & Z & _). apply mapM_iff in Z as (xs & ks & _ & Y & _). cbn [mapM] in Y. apply bind_inv in Y as (x & X & _). exact (N x X).
Qed.
Lemma read_layout s t : document s t -> parse_layout t = de_layout s.
Proof. intros D. apply read_iff in D. unfold parse_layout. now rewrite D. Qed.
Lemma read_module s t : document s t -> parse_module t = de_module s.
Proof. intros D. apply read_iff in D. unfold parse_module. now rewrite D. Qed.
Lemma eff_module k : eff (SList (SStr (lit "module") :: k)) = el YModule (de_module (SList (SStr (lit "module") :: k))).
Proof. reflexivity. Qed.

Theorem paste_module p q a b k f l' : gap p q (SStr (lit "kicad_pcb") :: a) b -> document (SList (SStr (lit "module") :: k)) f ->
  (parse_layout (p ++ f ++ q) = Ok l' <-> exists l m, parse_layout (p ++ q) = Ok l /\ parse_module f = Ok m /\
     (elements_in a <= length (ly_elements l))%nat /\ l' = inserted (elements_in a) (YModule m) l).
Proof.
  intros G F. rewrite (read_layout _ _ (gap_paste _ _ _ _ _ _ G F)), (read_layout _ _ (gap_list _ _ _ _ G)), (read_module _ _ F).
  change ((SStr (lit "kicad_pcb") :: a) ++ SList (SStr (lit "module") :: k) :: b) with (SStr (lit "kicad_pcb") :: (a ++ SList (SStr (lit "module") :: k) :: b)).
  change ((SStr (lit "kicad_pcb") :: a) ++ b) with (SStr (lit "kicad_pcb") :: (a ++ b)). fold (board_tree (a ++ SList (SStr (lit "module") :: k) :: b)) (board_tree (a ++ b)).
  destruct (de_module (SList (SStr (lit "module") :: k))) as [m|e|] eqn:M.
  - rewrite (entry_in a b _ (YModule m) l') by (rewrite eff_module, M; reflexivity). split.
    + intros (l & L & LE & E). exists l, m. auto.
    + intros (l & m' & L & [= <-] & LE & E). exists l. auto.
  - split; [intros H; exfalso; revert H; apply entry_bad; intros x; rewrite eff_module, M; discriminate|intros (? & ? & _ & H & _); discriminate H].
  - split; [intros H; exfalso; revert H; apply entry_bad; intros x; rewrite eff_module, M; discriminate|intros (? & ? & _ & H & _); discriminate H].
Qed.
Lemma layout_head s l : de_layout s = Ok l -> exists a, s = board_tree a.
Proof.
  unfold de_layout, iter_new, board_tree. destruct s as [x|[|[h|h|] s]|]; cbn [sx_list bind]; try discriminate. destruct (str_eqb_spec h (lit "kicad_pcb")) as [->|N]; [eauto|discriminate].
Qed.
Lemma module_head s l : de_module s = Ok l -> exists k, s = SList (SStr (lit "module") :: k).
Proof.
  unfold de_module, iter_new. destruct s as [x|[|[h|h|] s]|]; cbn [sx_list bind]; try discriminate. destruct (str_eqb_spec h (lit "module")) as [->|N]; [eauto|discriminate].
Qed.
Theorem paste_end p w f l m : parse_layout (p ++ [41%N] ++ w) = Ok l -> blank_text w -> parse_module f = Ok m ->
  parse_layout (p ++ f ++ [41%N] ++ w) = Ok (inserted (length (ly_elements l)) (YModule m) l).
Proof.
  intros L W M. unfold parse_layout in L. apply bind_inv in L as (s & R & L). apply read_iff in R. pose proof L as L0. apply layout_head in L as [a ->].
  unfold parse_module in M. apply bind_inv in M as (t & T & M). apply read_iff in T. pose proof M as M0. apply module_head in M as [k ->].
  pose proof (end_gap _ _ _ R W) as G. assert (C : elements_in a = length (ly_elements l)).
  { rewrite board_tree_eq in L0. apply bind_inv in L0 as (xs & X & E). injection E as <-. rewrite put_elements. now rewrite <- (els_count a xs X). }
  rewrite <- C. apply (paste_module _ _ _ _ _ _ _ G T). exists l, m. rewrite (read_layout _ _ R), (read_module _ _ T), C. auto.
Qed.
(** Anything else with a name of its own is kept as it is. *)
Lemma eff_other n k : ~ In n (map lit ["version"; "host"; "general"; "page"; "layers"; "module"; "net"; "net_class"; "gr_text"; "gr_line"; "gr_arc"; "gr_circle"; "dimension"; "zone"; "segment"; "via"; "setup"]) ->
  eff (SList (SStr n :: k)) = Ok (HElement (YOther (SList (SStr n :: k)))).
Proof.
  intros N. unfold eff. cbn [sx_list_name sx_list sx_string bind].
  repeat match goal with |- (if str_eqb n ?w then _ else _) = _ => destruct (str_eqb_spec n w) as [E|_]; [exfalso; apply N; subst n; cbn [map In]; tauto|] end. reflexivity.
Qed.
Theorem paste_other p q a b n k f l' : gap p q (SStr (lit "kicad_pcb") :: a) b -> document (SList (SStr n :: k)) f ->
  ~ In n (map lit ["version"; "host"; "general"; "page"; "layers"; "module"; "net"; "net_class"; "gr_text"; "gr_line"; "gr_arc"; "gr_circle"; "dimension"; "zone"; "segment"; "via"; "setup"]) ->
  (parse_layout (p ++ f ++ q) = Ok l' <-> exists l, parse_layout (p ++ q) = Ok l /\ (elements_in a <= length (ly_elements l))%nat /\ l' = inserted (elements_in a) (YOther (SList (SStr n :: k))) l).
Proof.
  intros G F N. rewrite (read_layout _ _ (gap_paste _ _ _ _ _ _ G F)), (read_layout _ _ (gap_list _ _ _ _ G)).
  exact (entry_in a b _ _ l' (eff_other n k N)).
Qed.

(** ** Saving *)
Lemma inserted_saves n m l : layout_saves l = true -> (layout_saves (inserted n (YModule m) l) = true <-> module_saves m = true).
Proof.
  unfold layout_saves, module_saves, layout_ok, layout_strs, layout_other, inserted. cbn [ly_version ly_host ly_general ly_page ly_setup ly_layers ly_elements].
  rewrite <- (firstn_skipn n (ly_elements l)) at 1 2 3. generalize (firstn n (ly_elements l)) (skipn n (ly_elements l)). intros xs ys.
  cbn [forallb]. rewrite !flat_map_app, !forallb_app. cbn [flat_map forallb ly_element_ok ly_element_strs ly_element_other app]. rewrite !forallb_app. rewrite !Bool.andb_true_iff. tauto.
Qed.
Theorem carried_saves nq n m l k j : quote_contract nq -> parse_layout (layout_to_string nq l k) = Ok l ->
  (parse_layout (layout_to_string nq (inserted n (YModule m) l) k) = Ok (inserted n (YModule m) l) <-> parse_module (module_to_string nq m j) = Ok m).
Proof.
  intros Q L. apply (C62_layout nq l k Q) in L. rewrite (C62_layout nq _ k Q), (C62_module nq m j Q). now apply inserted_saves.
Qed.
Theorem carried_found n m l r : (forall m', In (YModule m') (ly_elements l) -> is_reference_with_name m' r = false) -> is_reference_with_name m r = true ->
  get_module (inserted n (YModule m) l) r = Some m.
Proof.
  intros N R. unfold get_module, inserted. cbn [ly_elements]. rewrite <- (firstn_skipn n (ly_elements l)) in N. revert N. generalize (firstn n (ly_elements l)) (skipn n (ly_elements l)).
  intros xs ys N. induction xs as [|x xs IH]; cbn [app find_map]; [now rewrite R|].
  assert (X : match x with YModule m' => if is_reference_with_name m' r then Some m' else None | _ => None end = None).
  { destruct x; try reflexivity. now rewrite (N m0 (or_introl eq_refl)). }
  rewrite X. apply IH. intros m' I. apply N. now right.
Qed.

(** ** Footprints and library tables *)
Lemma mapM_length {A B} (f : A -> res B) a u : mapM f a = Ok u -> length u = length a.
Proof.
  revert u. induction a as [|x a IH]; intros u H; cbn [mapM] in H; [injection H as <-; reflexivity|].
  apply bind_inv in H as (y & _ & H). apply bind_inv in H as (ys & Y & H). injection H as <-. cbn [length]. now rewrite (IH ys Y).
Qed.
Lemma mapM_into {A B} (f : A -> res B) a k b w : mapM f (a ++ k :: b) = Ok w <->
  exists v e, mapM f (a ++ b) = Ok v /\ f k = Ok e /\ w = firstn (length a) v ++ e :: skipn (length a) v.
Proof.
  split.
  - intros H. apply mapM_iff in H as (u & z & U & Z & ->). cbn [mapM] in Z. apply bind_inv in Z as (e & E & Z). apply bind_inv in Z as (v & V & Z). injection Z as <-.
    exists (u ++ v), e. rewrite <- (mapM_length f a u U), firstn_app, skipn_app, firstn_all, skipn_all, PeanoNat.Nat.sub_diag, app_nil_r.
    split; [apply mapM_iff; eauto|]. auto.
  - intros (v0 & e & V0 & E & ->). apply mapM_iff in V0 as (u & v & U & V & ->).
    rewrite <- (mapM_length f a u U), firstn_app, skipn_app, firstn_all, skipn_all, PeanoNat.Nat.sub_diag, app_nil_r.
    apply mapM_iff. exists u, (e :: v). cbn [mapM]. rewrite E, V. auto.
Qed.
Theorem paste_element p q n a b k f m' : gap p q (SStr (lit "module") :: SStr n :: a) b -> document (SList k) f ->
  (parse_module (p ++ f ++ q) = Ok m' <-> exists m e, parse_module (p ++ q) = Ok m /\ de_element (SList k) = Ok e /\
     m' = mk_module n (firstn (length a) (m_elements m) ++ e :: skipn (length a) (m_elements m))).
Proof.
  intros G F. rewrite (read_module _ _ (gap_paste _ _ _ _ _ _ G F)), (read_module _ _ (gap_list _ _ _ _ G)).
  change (SList ((SStr (lit "module") :: SStr n :: a) ++ SList k :: b)) with (footprint_tree n (a ++ SList k :: b)).
  change (SList ((SStr (lit "module") :: SStr n :: a) ++ b)) with (footprint_tree n (a ++ b)). rewrite !JoinFacts.module_tree. split.
  - intros H. apply bind_inv in H as (w & W & H). injection H as <-. apply mapM_into in W as (v & e & V & E & ->). exists (mk_module n v), e. rewrite V. auto.
  - intros (m & e & M & E & ->). apply bind_inv in M as (v & V & M). injection M as <-. cbn [m_elements].
    assert (W : mapM de_element (a ++ SList k :: b) = Ok (firstn (length a) v ++ e :: skipn (length a) v)) by (apply mapM_into; eauto). rewrite W. reflexivity.
Qed.
Theorem paste_row p q a b k f t' : gap p q (SStr (lit "fp_lib_table") :: a) b -> document (SList k) f ->
  (parse_table (p ++ f ++ q) = Ok t' <-> exists t r, parse_table (p ++ q) = Ok t /\ de_flib (SList k) = Ok r /\ t' = firstn (length a) t ++ r :: skipn (length a) t).
Proof.
  intros G F. pose proof (gap_paste _ _ _ _ _ _ G F) as D1. pose proof (gap_list _ _ _ _ G) as D2. apply read_iff in D1, D2. unfold parse_table. rewrite D1, D2. cbn [bind].
  change (SList ((SStr (lit "fp_lib_table") :: a) ++ SList k :: b)) with (table_tree (a ++ SList k :: b)).
  change (SList ((SStr (lit "fp_lib_table") :: a) ++ b)) with (table_tree (a ++ b)). rewrite !table_tree_eq. apply mapM_into.
Qed.
