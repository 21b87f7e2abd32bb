(** The records of the logger (C114). *)
From Coq Require Import List String.
From Verif Require Import Base Str StrFacts F64 F64Text Bound Sexp SexpFacts LyFacts SxTotal FpData FpDe FpOps LyData LyDe DocText SchData SchParse SymParse Formatter KicadFile KfSpec KfFacts KfTotal LyWf FormatterSpec DocSpec
  CheckFix FpCheck CheckSpec CheckFacts FixFacts ReportFacts CheckWit Bins LyLog LogSpec.
Import ListNotations.
Open Scope string_scope. Open Scope list_scope.

Section log.
Variable show : sexp -> str.
Notation zlog := (map (fun t => lit "'zone': not parsing " ++ show t)).

(** A reader and the one that collects the records *)
Definition alongside {A} (g : A -> list str) (p : P A) (q : P (list str)) : Prop :=
  forall l, match p l with Ok ar => exists r, q l = Ok (g (fst ar), r) | _ => forall v, q l <> Ok v end.
Lemma along_bind {A B} (g : B -> list str) (p : P A) f k : (forall a, alongside g (f a) (k a)) -> alongside g (pbind p f) (pbind p k).
Proof. intros H l. unfold pbind. destruct (p l) as [[a r]| |]; [apply H| |]; discriminate. Qed.
Lemma along_iter {A} (g : A -> list str) s n p q : alongside g p q ->
  match iter_new s n p with Ok a => iter_new s n q = Ok (g a) | _ => forall v, iter_new s n q <> Ok v end.
Proof.
  intros H. unfold iter_new. destruct s as [x|[|[x|l'|] l]|]; cbn [sx_list bind]; try discriminate.
  destruct (str_eqb x n); [|discriminate]. specialize (H l). destruct (p l) as [[a r]| |]; cbn [bind fst] in *.
  - destruct H as [r' ->]. reflexivity.
  - intros v. destruct (q l) as [w| |] eqn:E; cbn [bind]; try discriminate. destruct (H w eq_refl).
  - intros v. destruct (q l) as [w| |] eqn:E; cbn [bind]; try discriminate. destruct (H w eq_refl).
Qed.
Lemma zone_step_log z x : exists z', zone_step z x = Ok z' /\ zlog (zr_other z') = zlog (zr_other z) ++ zone_entry_log show x.
Proof.
  destruct z as [a b c d]. unfold zone_step, zone_entry_log.
  pose proof (np_pts_in "polygon" x). destruct (de_pts_in "polygon" x); [eexists; split; [reflexivity|cbn; now rewrite app_nil_r]| |congruence].
  pose proof (np_pts_in "filled_polygon" x). destruct (de_pts_in "filled_polygon" x); [eexists; split; [reflexivity|cbn; now rewrite app_nil_r]| |congruence].
  pose proof (np_pts_in "fill_segments" x). destruct (de_pts_in "fill_segments" x); [eexists; split; [reflexivity|cbn; now rewrite app_nil_r]| |congruence].
  eexists. split; [reflexivity|]. cbn [zr_other]. now rewrite map_app.
Qed.
Lemma zone_fold_log l : forall z, exists z', foldM zone_step z l = Ok z' /\ zlog (zr_other z') = zlog (zr_other z) ++ flat_map (zone_entry_log show) l.
Proof.
  induction l as [|x l IH]; intros z; cbn [foldM flat_map].
  - exists z. split; [reflexivity|now rewrite app_nil_r].
  - destruct (zone_step_log z x) as (z' & E & L). rewrite E. cbn [bind]. destruct (IH z') as (z2 & E2 & L2). exists z2. split; [exact E2|]. now rewrite L2, L, app_assoc.
Qed.
Lemma zone_logs s : match de_zone s with Ok z => zone_log show s = zlog (zo_other z) | _ => zone_log show s = [] end.
Proof.
  unfold zone_log.
  pose proof (along_iter (fun z => zlog (zo_other z)) s (lit "zone")) as H. unfold de_zone.
  match goal with |- match iter_new _ _ ?p with _ => _ end => specialize (H p) end.
  match goal with |- context [iter_new s (lit "zone") ?q] => match type of q with P (list str) => specialize (H q) end end.
  match type of H with ?A -> _ => assert (K : A) end.
  { do 10 (apply along_bind; intros ?). intros l. destruct (zone_fold_log l (mk_zr [] [] None [])) as (z & E & L). rewrite E. cbn [bind]. eexists. cbn [fst zo_other]. now rewrite L. }
  specialize (H K). clear K. match type of H with match ?a with _ => _ end => destruct a end.
  - now rewrite H.
  - match goal with |- match ?a with _ => _ end = [] => destruct a as [v| |] eqn:E; [destruct (H v eq_refl)|reflexivity|reflexivity] end.
  - match goal with |- match ?a with _ => _ end = [] => destruct a as [v| |] eqn:E; [destruct (H v eq_refl)|reflexivity|reflexivity] end.
Qed.
Lemma push_unread l e : unread show (push_element l e) = unread show l ++ kept_unread show e.
Proof. destruct l as [a1 a2 a3 a4 a5 a6 es]. unfold unread, push_element. cbn [ly_elements]. rewrite flat_map_app. cbn [flat_map]. now rewrite app_nil_r. Qed.
Lemma wrap_unread {A} l (k : A -> ly_element) r : (forall a, kept_unread show (k a) = []) ->
  match push_wrap l k r with Ok l' => unread show l' = unread show l | _ => True end.
Proof. intros H. unfold push_wrap. destruct r as [a| |]; cbn [bind]; [|exact I|exact I]. rewrite push_unread, H. apply app_nil_r. Qed.
Lemma step_logs l e : match layout_step l e with Ok l' => unread show l' = unread show l ++ entry_log show e | _ => entry_log show e = [] end.
Proof.
  destruct l as [a1 a2 a3 a4 a5 a6 es]. unfold layout_step, entry_log. destruct (sx_list_name e) as [k| |]; cbn [bind]; [|reflexivity|reflexivity].
  destruct (str_eqb k (lit "zone")) eqn:Q.
  { apply str_eqb_eq in Q. subst k. unfold board_words. cbn [existsb].
    repeat match goal with |- context [str_eqb (lit "zone") (lit ?w)] => let b := eval vm_compute in (str_eqb (lit "zone") (lit w)) in change (str_eqb (lit "zone") (lit w)) with b end.
    cbn [orb]. cbv iota. pose proof (zone_logs e) as Z. unfold push_wrap. destruct (de_zone e) as [z| |]; cbn [bind]; [rewrite push_unread; now rewrite Z|exact Z|exact Z]. }
  unfold board_words. cbn [existsb].
  repeat (match goal with |- context [str_eqb k (lit ?w)] => destruct (str_eqb k (lit w)) end; cbn [orb];
    [first [ match goal with |- match bind ?r _ with _ => _ end => destruct r; cbn [bind]; [unfold unread; cbn [ly_elements]; now rewrite app_nil_r|reflexivity|reflexivity] end
           | match goal with |- match push_wrap ?l ?k ?r with _ => _ end => pose proof (wrap_unread l k r (fun _ => eq_refl)) as W; destruct (push_wrap l k r); [now rewrite app_nil_r|reflexivity|reflexivity] end ]|]).
  rewrite push_unread. reflexivity.
Qed.
Lemma entries_ok es : forall l l', foldM layout_step l es = Ok l' -> unread show l' = unread show l ++ entries_log show l es.
Proof.
  induction es as [|e es IH]; intros l l' H; cbn [foldM entries_log] in *; [injection H as <-; now rewrite app_nil_r|].
  pose proof (step_logs l e) as S. destruct (layout_step l e) as [l1| |]; cbn [bind] in H; [|discriminate H|discriminate H]. rewrite (IH _ _ H), S. now rewrite app_assoc.
Qed.
Lemma board_ok es l : de_layout (board_of es) = Ok l <-> foldM layout_step layout_default es = Ok l.
Proof.
  unfold de_layout, iter_new, board_of. cbn [sx_list bind]. rewrite str_eqb_refl. destruct (foldM layout_step layout_default es); cbn [bind fst]; split; intros H; congruence.
Qed.
Theorem layout_logs s l : de_layout s = Ok l -> layout_log show s = unread show l.
Proof.
  intros H. assert (B : exists es, s = board_of es).
  { unfold de_layout, iter_new in H. destruct s as [x|[|[x|l'|] es]|]; cbn [sx_list bind] in H; try discriminate H. destruct (str_eqb x (lit "kicad_pcb")) eqn:E; [|discriminate H].
    apply str_eqb_eq in E as ->. exists es. reflexivity. }
  destruct B as [es ->]. apply board_ok in H. unfold layout_log, board_of. rewrite str_eqb_refl. rewrite (entries_ok _ _ _ H). reflexivity.
Qed.
Theorem text_logs t l : parse_layout t = Ok l -> text_log show t = unread show l.
Proof. unfold parse_layout, text_log. destruct (read_sexp t) as [s| |]; cbn [bind]; [apply layout_logs|discriminate|discriminate]. Qed.
Lemma foldM_snoc {A B} (f : A -> B -> res A) l : forall a x, foldM f a (l ++ [x]) = bind (foldM f a l) (fun b => f b x).
Proof.
  induction l as [|y l IH]; intros a x; cbn [app foldM]; [cbn [bind]; destruct (f a x); reflexivity|]. destruct (f a y) as [b| |]; cbn [bind]; [apply IH|reflexivity|reflexivity].
Qed.
Lemma entries_any es : forall l, exists pre rest l', es = pre ++ rest /\ foldM layout_step l pre = Ok l' /\
  (rest = [] \/ exists e r, rest = e :: r /\ forall k, layout_step l' e <> Ok k) /\ unread show l' = unread show l ++ entries_log show l es.
Proof.
  induction es as [|e es IH]; intros l; cbn [entries_log].
  - exists [], [], l. split; [reflexivity|]. split; [reflexivity|]. split; [now left|now rewrite app_nil_r].
  - pose proof (step_logs l e) as S. destruct (layout_step l e) as [l1| |] eqn:E.
    + destruct (IH l1) as (pre & rest & l' & -> & F & R & U). exists (e :: pre), rest, l'. split; [reflexivity|]. cbn [foldM]. rewrite E. cbn [bind]. split; [exact F|]. split; [exact R|].
      rewrite U, S. now rewrite app_assoc.
    + exists [], (e :: es), l. split; [reflexivity|]. split; [reflexivity|]. split; [right; exists e, es; split; [reflexivity|congruence]|]. rewrite S. now rewrite !app_nil_r.
    + exists [], (e :: es), l. split; [reflexivity|]. split; [reflexivity|]. split; [right; exists e, es; split; [reflexivity|congruence]|]. rewrite S. now rewrite !app_nil_r.
Qed.
Theorem any_logs es : exists l, readable es l /\ layout_log show (board_of es) = unread show l.
Proof.
  destruct (entries_any es layout_default) as (pre & rest & l & E & F & R & U). exists l. split.
  - exists pre, rest. split; [exact E|]. split; [now apply board_ok|]. destruct R as [R|(e & r & -> & N)]; [now left|right; exists e, r; split; [reflexivity|]].
    intros k K. apply board_ok in K. rewrite foldM_snoc, F in K. cbn [bind] in K. exact (N k K).
  - unfold layout_log, board_of. rewrite str_eqb_refl. now rewrite U.
Qed.
Lemma readable_one es l l' : readable es l -> readable es l' -> l = l'.
Proof.
  intros (p & r & E & L & R) (p' & r' & E' & L' & R'). apply board_ok in L, L'.
  assert (M : p = p').
  { assert (S : forall (a b c d : list sexp) x, a ++ b = c ++ d -> foldM layout_step layout_default c = Ok x ->
       (b = [] \/ exists e r0, b = e :: r0 /\ forall k, de_layout (board_of (a ++ [e])) <> Ok k) -> exists q, a = c ++ q).
    { intros a b c. revert a b. intros a b d x Q C B.
      assert (T : (exists q, a = c ++ q) \/ exists e q, c = a ++ e :: q /\ b = e :: q ++ d).
      { clear C B. revert c Q. induction a as [|y a IHa]; intros c Q; [destruct c as [|e c]; [left; now exists []|right; exists e, c; split; [reflexivity|exact Q]]|].
        destruct c as [|z c]; [left; now exists (y :: a)|]. cbn [app] in Q. injection Q as -> Q. destruct (IHa c Q) as [[q ->]|(e & q & -> & B)]; [left; now exists q|right; exists e, q; auto]. }
      destruct T as [T|(e & q & -> & ->)]; [exact T|]. exfalso. destruct B as [B|(e' & r0 & B & N)]; [discriminate B|]. injection B as B1 B2. subst e' r0.
      assert (G : exists k, foldM layout_step layout_default (a ++ [e]) = Ok k).
      { revert C. replace (a ++ e :: q) with ((a ++ [e]) ++ q) by now rewrite <- app_assoc. generalize (a ++ [e]). intros u. generalize layout_default. induction u as [|z u IHu]; intros s0 C; [now exists s0|].
        cbn [app foldM] in *. destruct (layout_step s0 z); cbn [bind] in *; [now apply IHu|discriminate C|discriminate C]. }
      destruct G as [k G]. apply board_ok in G. exact (N k G). }
    destruct (S p r p' r' l') as [q Q]; [congruence|exact L'|exact R|]. destruct (S p' r' p r l) as [q' Q']; [congruence|exact L|exact R'|].
    rewrite Q' in Q. rewrite <- app_assoc in Q. rewrite <- (app_nil_r p) in Q at 1. apply app_inv_head in Q. symmetry in Q. apply app_eq_nil in Q as [-> _]. now rewrite app_nil_r in Q'. }
  subst p'. congruence.
Qed.

(** Only texts of boards give records. *)
Lemma log_class t : text_log show t = [] \/ is_class t (class_of XLayout).
Proof.
  unfold text_log. destruct (read_sexp t) as [s| |] eqn:E; [|now left|now left]. destruct s as [x|[|[x|l'|] es]|]; try (now left). cbn [layout_log].
  destruct (str_eqb x (lit "kicad_pcb")) eqn:Q; [|now left]. apply str_eqb_eq in Q as ->. right. exists es. exact E.
Qed.
Theorem other_logs n t f : accepted n t f -> kind f <> XLayout -> text_log show t = [].
Proof.
  intros A K. destruct (log_class t) as [H|H]; [exact H|]. exfalso. apply K. apply class_inj. exact (class_one t _ _ (accepted_class n t f A) H).
Qed.
Lemma data_log_text n t x : x <> XModule -> x <> XSchematic -> data_log show n t x = text_log show t.
Proof.
  intros M S. unfold data_log. assert (EM : expected_eqb x XModule = false) by (destruct x; try reflexivity; congruence). assert (ES : expected_eqb x XSchematic = false) by (destruct x; try reflexivity; congruence).
  rewrite EM, ES. destruct (log_class t) as [H|H].
  - rewrite H. destruct (parse_module t); try reflexivity. destruct (parse_schematic (Some n) t); reflexivity.
  - destruct (module_class t) as [[e ->]|C]; [|assert (class_of XModule = class_of XLayout) as X by exact (class_one t _ _ C H); discriminate X].
    destruct (sch_headed (Some n) t) as [[e' ->]|C]; [reflexivity|]. assert (class_of XSchematic = class_of XLayout) as X by exact (class_one t CSch _ C H). discriminate X.
Qed.
Theorem read_logs fs n l x : read_layout fs n = Ok l -> x <> XModule -> x <> XSchematic -> read_log show fs n x = unread show l.
Proof.
  intros H M S. apply read_layout_iff in H as (t & T & P). unfold read_log. rewrite T, (data_log_text n t x M S). now apply text_logs.
Qed.
Theorem read_silent fs n f x : read_kicad_file fs n x = Ok f -> kind f <> XLayout -> kind f <> XAny -> read_log show fs n x = [].
Proof.
  intros H K U. unfold read_kicad_file, read_file in H. unfold read_log. destruct (fs n) as [t|] eqn:E; cbn [of_option bind] in H; [|reflexivity].
  destruct (sound n t x f H) as [A|A]; [|subst f; now destruct U].
  destruct x; try (rewrite data_log_text by discriminate; exact (other_logs n t f A K)).
  - unfold data_log. destruct (parse_module t); reflexivity.
  - unfold data_log. destruct (parse_module t); try reflexivity. cbn [expected_eqb]. destruct (parse_schematic (Some n) t); reflexivity.
Qed.

(** The programs *)
Lemma unwrap_ok {A} (r : res A) a : unwrap r = Ok a -> r = Ok a.
Proof. destruct r; cbn [unwrap]; congruence. Qed.
Lemma board_refuses fs n t : fs n = Some t -> (forall l, parse_layout t <> Ok l) -> forall l, read_layout fs n <> Ok l.
Proof. intros T N l H. apply read_layout_iff in H as (t' & T' & P). rewrite T in T'. injection T' as <-. exact (N l P). Qed.
Lemma board_program (p : files -> list str -> res ran) fs a n rest t es :
  (forall l, read_layout fs n = Ok l -> exists r, p fs (a :: n :: rest) = Ok r /\ r_log r = [(false, n)]) ->
  ((forall l, read_layout fs n <> Ok l) -> forall r, p fs (a :: n :: rest) <> Ok r) ->
  fs n = Some t -> read_sexp t = Ok (board_of es) ->
  exists l, readable es l /\ program_log show XLayout p fs (a :: n :: rest) = map (fun s => (Debug, s)) (unread show l) ++ (if is_ok (parse_layout t) then [(Info, n)] else []).
Proof.
  intros Y N T R. destruct (any_logs es) as (l & H & L). exists l. split; [exact H|]. unfold program_log. cbn [arg]. unfold read_log. rewrite T, data_log_text by discriminate.
  unfold text_log. rewrite R, L. f_equal. destruct (parse_layout t) as [k| |] eqn:P; cbn [is_ok].
  - destruct (Y k) as (r & -> & ->); [apply read_layout_iff; eauto|reflexivity].
  - assert (Q : forall r, p fs (a :: n :: rest) <> Ok r) by (apply N, (board_refuses fs n t T); congruence). destruct (p fs (a :: n :: rest)) as [r| |]; [destruct (Q r eq_refl)|reflexivity|reflexivity].
  - assert (Q : forall r, p fs (a :: n :: rest) <> Ok r) by (apply N, (board_refuses fs n t T); congruence). destruct (p fs (a :: n :: rest)) as [r| |]; [destruct (Q r eq_refl)|reflexivity|reflexivity].
Qed.
Theorem dump_logs nq fs a n rest t es : fs n = Some t -> read_sexp t = Ok (board_of es) ->
  exists l, readable es l /\ program_log show XLayout (dump_layout nq) fs (a :: n :: rest) = map (fun s => (Debug, s)) (unread show l) ++ (if is_ok (parse_layout t) then [(Info, n)] else []).
Proof.
  apply board_program.
  - intros l H. unfold dump_layout. cbn [arg bind]. rewrite H. cbn [unwrap bind]. eexists. split; [reflexivity|]. cbn [r_log]. reflexivity.
  - intros N r H. unfold dump_layout in H. cbn [arg bind] in H. apply bind_inv in H as (l & L & _). apply unwrap_ok in L. exact (N l L).
Qed.
Theorem adjust_logs nq fs a n rest t es : fs n = Some t -> read_sexp t = Ok (board_of es) ->
  exists l, readable es l /\ program_log show XLayout (adjust_program nq) fs (a :: n :: rest) = map (fun s => (Debug, s)) (unread show l) ++ (if is_ok (parse_layout t) then [(Info, n)] else []).
Proof.
  apply board_program.
  - intros l H. unfold adjust_program. cbn [arg bind]. rewrite H. cbn [unwrap bind]. eexists. split; [reflexivity|]. cbn [r_log]. reflexivity.
  - intros N r H. unfold adjust_program in H. cbn [arg bind] in H. apply bind_inv in H as (l & L & _). apply unwrap_ok in L. exact (N l L).
Qed.
Theorem klc_mod_logs fs args r : klc_kicad_mod fs args = Ok r ->
  program_log show XModule klc_kicad_mod fs args = map (fun b : bool * str => (if fst b then Warn else Info, snd b)) (r_log r).
Proof.
  intros H. pose proof H as H0. unfold klc_kicad_mod in H. apply bind_inv in H as (n & A & _). unfold program_log. rewrite A, H0.
  assert (E : read_log show fs n XModule = []).
  { unfold read_log. destruct (fs n) as [t|]; [|reflexivity]. unfold data_log. destruct (parse_module t); reflexivity. }
  now rewrite E.
Qed.
Theorem klc_sym_logs fs args r : klc_symbol_lib fs args = Ok r ->
  program_log show XSymbolLib klc_symbol_lib fs args = map (fun b : bool * str => (if fst b then Warn else Info, snd b)) (r_log r).
Proof.
  intros H. pose proof H as H0. unfold klc_symbol_lib in H. apply bind_inv in H as (n & A & H). apply bind_inv in H as (l & L & _). apply unwrap_ok in L. unfold program_log. rewrite A, H0.
  apply read_symbol_lib_iff in L as (t & T & P). unfold read_log. rewrite T, data_log_text by discriminate. rewrite (other_logs n t (KSymbolLib l)); [reflexivity|exact P|discriminate].
Qed.
Theorem silent t l : parse_layout t = Ok l -> (text_log show t = [] <-> Forall understood (ly_elements l)).
Proof.
  intros P. rewrite (text_logs t l P). unfold unread. induction (ly_elements l) as [|e es IH]; cbn [flat_map]; [split; [constructor|reflexivity]|]. split.
  - intros H. apply app_eq_nil in H as [H1 H2]. constructor; [|now apply IH]. destruct e; try exact I; cbn [kept_unread understood] in *; [|discriminate H1]. now apply map_eq_nil in H1.
  - intros F. inversion F as [|? ? U V]. subst. rewrite (proj2 IH V), app_nil_r. destruct e; try reflexivity; cbn [kept_unread understood] in *; [|destruct U]. now rewrite U.
Qed.
Theorem again nq fs n l x : quote_contract nq -> layout_ok l = true -> forallb no_quote (layout_strs l) = true -> forallb doc_ok (layout_other l) = true ->
  x <> XModule -> x <> XSchematic -> read_log show (write_layout nq fs l n) n x = unread show l.
Proof.
  intros Q O S D M C. apply read_logs; [|exact M|exact C].
  pose proof (saved_layout nq fs n XLayout l Q O S D ltac:(cbn; apply le_n)) as H. unfold read_layout. rewrite H. reflexivity.
Qed.
End log.

Lemma courtyard_logs m : exists a b c d, courtyard m = [a; b; c; d] /\ courtyard_log m = says_courtyard a b.
Proof. unfold courtyard, courtyard_log, says_courtyard. destruct (module_at m) as [x y]. do 4 eexists. split; [reflexivity|]. reflexivity. Qed.
Lemma same_core w f m : (forall t, tx_name (f t) = tx_name t) -> core (m_elements (or_same m (modify_text m w f))) = core (m_elements m).
Proof. intros H. rewrite or_same_list by reflexivity. cbn [m_elements]. apply (or_list_ok w f (m_elements m) H). Qed.
Lemma ref2_core c m m' : fix_reference2 c m = Ok m' -> core (m_elements m') = core (m_elements m).
Proof.
  unfold fix_reference2. set (m1 := match get_text m (lit "user") with Some _ => m | None => push [EFpText (new_ref2 c)] m end).
  assert (C : core (m_elements m1) = core (m_elements m)).
  { unfold m1. destruct (get_text m (lit "user")); [reflexivity|]. unfold push. cbn [m_elements]. now apply core_push. }
  unfold modify_text. destruct (upd_text (lit "user") (fix_text c (lit "%R") LFab) (m_elements m1)) as [l|] eqn:U; cbn [option_map]; [|discriminate]. intros H.
  assert (E : m_elements m' = l) by now injection H as <-. rewrite E, <- C. apply (upd_ok _ _ _ _ (fix_text_name c (lit "%R") LFab) U).
Qed.
Lemma attr_core m : core (m_elements (fix_attr m)) = core (m_elements m).
Proof. unfold fix_attr. destruct (_ && _)%bool; [|reflexivity]. unfold push. cbn [m_elements]. now apply core_push. Qed.
Theorem fix_logs c m m' : fp_fix c m = Ok m' ->
  ((4 <= length (courtyard_list m))%nat /\ lines_of m' = lines_of m /\ fix_log c m = []) \/
  ((length (courtyard_list m) < 4)%nat /\ exists l1 l2 l3 l4, lines_of m' = lines_of m ++ [l1; l2; l3; l4] /\ fix_log c m = [(Info, says_courtyard l1 l2)]).
Proof.
  intros H. pose proof (fix_lines_spec c m m' H) as L. rewrite courtyard_list_spec in *. unfold fp_fix in H. unfold fix_log.
  destruct (fix_reference2 c (fix_value c (m_name m) (fix_reference c m))) as [m3| |] eqn:R; cbn [bind] in H; [|discriminate H|discriminate H].
  assert (C : core (m_elements (fix_attr m3)) = core (m_elements m)).
  { rewrite attr_core, (ref2_core _ _ _ R). unfold fix_value. rewrite same_core by reflexivity. unfold fix_reference. now rewrite same_core by reflexivity. }
  destruct (core_same_counts m (fix_attr m3) C) as (E & _ & _). cbv zeta.
  assert (F : lines_of m' = lines_of m ++ if Nat.ltb (courtyard_lines (fix_attr m3)) 4 then courtyard (fix_attr m3) else []).
  { assert (E' : m' = fix_courtyard (fix_attr m3)) by now injection H as <-. rewrite E'. unfold fix_courtyard.
    assert (G : lines_of (fix_attr m3) = lines_of m) by exact (core_same_lines m (fix_attr m3) C).
    destruct (Nat.ltb (courtyard_lines (fix_attr m3)) 4).
    - unfold push. unfold lines_of at 1. cbn [m_elements]. rewrite flat_map_app. fold (lines_of (fix_attr m3)). rewrite G, courtyard_are_lines. reflexivity.
    - rewrite app_nil_r. exact G. }
  rewrite E in *. destruct (Nat.ltb (courtyard_lines m) 4) eqn:Q.
  - right. apply Nat.ltb_lt in Q. split; [exact Q|]. destruct (courtyard_logs (fix_attr m3)) as (a & b & c' & d & K & S). exists a, b, c', d. rewrite F, K, S. split; reflexivity.
  - left. apply Nat.ltb_ge in Q. split; [exact Q|]. rewrite F, app_nil_r. split; reflexivity.
Qed.
