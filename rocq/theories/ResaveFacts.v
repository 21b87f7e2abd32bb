(** Lemmas for P_Resave.v: what opening, saving and opening again does to boxes, reports and fixes. *)
From Coq Require Import String.
From Flocq Require Import IEEE754.BinarySingleNaN.
From Verif Require Import Base Str StrFacts Num F64 F64Order Sexp SexpFacts FpData FpSer FpDe FpWf FpFacts FpOps Bound CheckFix SymCheck FpCheck LyData LySer LyDe
  LyWf LyFacts LyOps Formatter FormatterSpec FormatterFacts DocSpec DocFacts DocText KeepSpec KeepFacts KeepEdits ExactFacts ExactLy SettleFacts SxText DocTextFacts FpNew FixFacts AnyCourt ResaveSpec.
Open Scope string_scope. Open Scope list_scope.

(** What is read the second time *)
Lemma again_module_tree s m q : de_module s = Ok m -> de_module (ser_module m) = Ok q ->
  q = tidy_module m /\ forall e, In e (m_elements m) -> ser_element (tidy_element e) = ser_element e.
Proof.
  intros H R. destruct (tidy_module_is _ _ _ H R) as [A B]. pose proof (rt_module _ A) as K. rewrite B, R in K.
  split; [now injection K|].
  intros e I. unfold ser_module, tidy_module in B; cbn [m_name m_elements] in B.
  assert (J : map ser_element (map tidy_element (m_elements m)) = map ser_element (m_elements m)).
  { assert (T : forall a b x y : sexp, forall u v, SList (x :: a :: u) = SList (y :: b :: v) -> u = v) by (intros ? ? ? ? ? ? Z; now injection Z).
    exact (T _ _ _ _ _ _ B). }
  rewrite map_map in J. clear -I J. induction (m_elements m) as [|x l IH]; [contradiction|]. cbn [map] in J.
  assert (J1 : ser_element (tidy_element x) = ser_element x) by (apply (f_equal (hd (ser_element x))) in J; exact J).
  apply (f_equal (@tl sexp)) in J. cbn [tl] in J. destruct I as [<-|I]; [exact J1|now apply IH].
Qed.
Lemma again_module nq s m n q : quote_contract nq -> parse_module s = Ok m -> parse_module (module_to_string nq m n) = Ok q ->
  q = tidy_module m /\ forall e, In e (m_elements m) -> ser_element (tidy_element e) = ser_element e.
Proof.
  intros Q H R.
  assert (N : forallb no_quote (module_strs m) = true).
  { unfold parse_module in H. apply bind_inv in H as (t & Ht & H). apply read_doc_ok in Ht. exact (cv_module _ _ Ht H). }
  assert (K : read_sexp (module_to_string nq m n) = Ok (ser_module m)).
  { unfold module_to_string. rewrite <- (app_nil_r (pretty _ _ _)). apply read_pretty; [exact Q|now apply doc_module|reflexivity]. }
  apply (bind_of _ _ _ _ K) in R. unfold parse_module in H. apply bind_inv in H as (t & Ht & H). exact (again_module_tree _ _ _ H R).
Qed.
Lemma again_layout nq s l n q : quote_contract nq -> parse_layout s = Ok l -> parse_layout (layout_to_string nq l n) = Ok q -> q = tidy_layout l.
Proof.
  intros Q H R. destruct (parse_layout_q _ _ H) as [N D].
  pose proof (parse_layout_of _ _ _ (layout_text_reads nq l n Q N D) R) as R1.
  unfold parse_layout in H. apply bind_inv in H as (t & Ht & H).
  destruct (tidy_layout_is _ _ _ H R1) as [A B]. pose proof (rt_layout _ A) as K. rewrite B, R1 in K.
  apply (f_equal (fun r => match r with Ok x => x | _ => q end)) in K. exact K.
Qed.

(** ** Boxes *)
Lemma tidy_zeq x : zeq (tidy_zero x) x.
Proof.
  unfold tidy_zero. destruct (fneb x fzero) eqn:E; [now left|]. unfold fneb in E. apply negb_false_iff in E. apply feqb_zeq in E.
  destruct E as [->|(a & b & -> & E)]; [now left|]. right. exists b, a. split; [exact E|reflexivity].
Qed.
Lemma nz90 : nonzero f90 = true. Proof. vm_compute. reflexivity. Qed.
Lemma nz270 : nonzero f270 = true. Proof. vm_compute. reflexivity. Qed.
Lemma tidy_pad_bound p : pad_bound (tidy_pad p) = pad_bound p.
Proof.
  unfold pad_bound, tidy_pad, tidy_at; cbn [pa_at pa_size at_x at_y at_rot]. pose proof (tidy_zeq (at_rot (pa_at p))) as Z.
  rewrite (zeq_sub_eq _ _ f90 nz90 Z), (zeq_add_eq _ _ f90 nz90 Z), (zeq_sub_eq _ _ f270 nz270 Z), (zeq_add_eq _ _ f270 nz270 Z). reflexivity.
Qed.
Lemma tidy_bound e : element_bound (tidy_element e) = element_bound e.
Proof. destruct e; try reflexivity. cbn [tidy_element element_bound]. apply tidy_pad_bound. Qed.

(** ** Elements that are written the same and mean the same to rules and fixes *)
Definition at_alike (a b : at_t) : Prop := at_x b = at_x a /\ at_y b = at_y a /\ zeq (at_rot b) (at_rot a).
Definition text_alike (t u : fp_text) : Prop :=
  tx_name u = tx_name t /\ tx_value u = tx_value t /\ at_alike (tx_at t) (tx_at u) /\ tx_layer u = tx_layer t /\ tx_hide u = tx_hide t
  /\ ef_justify (tx_effects u) = ef_justify (tx_effects t) /\ fo_italic (ef_font (tx_effects u)) = fo_italic (ef_font (tx_effects t))
  /\ xy_t (tx_size u) = xy_t (tx_size t) /\ ser_font (ef_font (tx_effects u)) = ser_font (ef_font (tx_effects t)).
Inductive pad_alike : pad -> pad -> Prop :=
| pad_al n t h z r a b la ne zc d e p1 p2 p3 p4 : at_alike a b -> opt_list ser_drill e = opt_list ser_drill d ->
    pad_alike (mk_pad n t h z r a la ne zc d p1 p2 p3 p4) (mk_pad n t h z r b la ne zc e p1 p2 p3 p4).
Inductive alike : element -> element -> Prop :=
| al_same e : alike e e
| al_text t u : text_alike t u -> alike (EFpText t) (EFpText u)
| al_pad p q : pad_alike p q -> alike (EPad p) (EPad q)
| al_at a b : at_alike a b -> alike (EAt a) (EAt b).
Lemma zeq_ne a b : zeq a b -> fneb a fzero = fneb b fzero /\ (fneb a fzero = true -> a = b).
Proof.
  intros [->|(s & t & -> & ->)]; [split; reflexivity|]. split; [reflexivity|]. intros H. exfalso. destruct s; vm_compute in H; discriminate H.
Qed.
Lemma at_alike_ser a b : at_alike a b -> ser_at b = ser_at a.
Proof.
  intros (X & Y & Z). unfold ser_at. rewrite X, Y. destruct (zeq_ne _ _ Z) as [E K]. rewrite <- E.
  destruct (fneb (at_rot b) fzero); [|reflexivity]. now rewrite (K eq_refl).
Qed.
Lemma at_alike_refl a : at_alike a a. Proof. split; [reflexivity|]. split; [reflexivity|now left]. Qed.
Lemma tidy_at_alike a : at_alike a (tidy_at a). Proof. split; [reflexivity|]. split; [reflexivity|apply tidy_zeq]. Qed.
Lemma text_alike_refl t : text_alike t t.
Proof. unfold text_alike. repeat apply conj; try reflexivity. now left. Qed.
Lemma text_alike_ser t u : text_alike t u -> ser_text u = ser_text t.
Proof.
  intros (N & V & A & L & H & J & _ & _ & E). unfold ser_text, ser_effects. rewrite N, V, (at_alike_ser _ _ A), L, H, E, J. reflexivity.
Qed.
Lemma pad_alike_ser p q : pad_alike p q -> ser_pad q = ser_pad p.
Proof. intros [n t h z r a b la ne zc d e p1 p2 p3 p4 A D]. unfold ser_pad; cbn [pa_name pa_t pa_shape pa_at pa_size pa_drill pa_rect_delta pa_layers pa_net pa_zone_connect pa_paste_margin pa_mask_margin pa_clearance pa_thermal_gap]. now rewrite (at_alike_ser _ _ A), D. Qed.
Lemma pad_alike_bound p q : pad_alike p q -> pad_bound q = pad_bound p.
Proof.
  intros [n t h z r a b la ne zc d e p1 p2 p3 p4 (X & Y & Z) _]. unfold pad_bound; cbn [pa_at pa_size]. rewrite X, Y.
  rewrite (zeq_sub_eq _ _ f90 nz90 Z), (zeq_add_eq _ _ f90 nz90 Z), (zeq_sub_eq _ _ f270 nz270 Z), (zeq_add_eq _ _ f270 nz270 Z). reflexivity.
Qed.
Lemma pad_alike_t p q : pad_alike p q -> pa_t q = pa_t p.
Proof. now intros []. Qed.
Lemma tidy_text_alike t : text_alike t (tidy_text t).
Proof.
  unfold text_alike, tidy_text, tx_size; cbn [tx_name tx_value tx_at tx_layer tx_effects tx_hide]. unfold tidy_effects; cbn [ef_justify ef_font].
  rewrite tidy_font_ser, tidy_font_type.
  assert (I : fo_italic (tidy_font (ef_font (tx_effects t))) = fo_italic (ef_font (tx_effects t))).
  { unfold tidy_font. destruct (fgtb _ _ || fgtb _ _)%bool; reflexivity. }
  repeat apply conj; try reflexivity; [apply tidy_zeq|exact I].
Qed.
Lemma tidy_pad_alike p : ser_pad (tidy_pad p) = ser_pad p -> pad_alike p (tidy_pad p).
Proof.
  destruct p as [n t h z r a la ne zc d p1 p2 p3 p4]. unfold ser_pad, tidy_pad; cbn [pa_name pa_t pa_shape pa_at pa_size pa_drill pa_rect_delta pa_layers pa_net pa_zone_connect pa_paste_margin pa_mask_margin pa_clearance pa_thermal_gap].
  rewrite tidy_at_ser. intros H. unfold node in H.
  assert (J : forall x y : list sexp, SList x = SList y -> x = y) by (intros x y K; now injection K). apply J in H. apply (f_equal (@tl sexp)) in H. cbn [tl] in H.
  apply app_inv_head in H. apply app_inv_tail in H. constructor; [apply tidy_at_alike|exact H].
Qed.
Lemma tidy_alike e : ser_element (tidy_element e) = ser_element e -> alike e (tidy_element e).
Proof.
  intros S. destruct e; try apply al_same.
  - cbn [tidy_element]. apply al_text, tidy_text_alike.
  - cbn [tidy_element]. apply al_pad. apply tidy_pad_alike. exact S.
  - cbn [tidy_element]. apply al_at, tidy_at_alike.
Qed.
Lemma alike_ser e f : alike e f -> ser_element f = ser_element e.
Proof.
  intros [x|t u T|p q S|a b S]; [reflexivity|cbn [ser_element]; now apply text_alike_ser|cbn [ser_element]; now apply pad_alike_ser|cbn [ser_element]; now apply at_alike_ser].
Qed.
Lemma alike_list_ser l k : Forall2 alike l k -> map ser_element k = map ser_element l.
Proof. induction 1 as [|x y l k A _ IH]; [reflexivity|]. cbn [map]. now rewrite (alike_ser _ _ A), IH. Qed.
Definition mod_alike (m n : module) : Prop := m_name n = m_name m /\ Forall2 alike (m_elements m) (m_elements n).
Lemma mod_alike_ser m n : mod_alike m n -> ser_module n = ser_module m.
Proof. intros [N F]. unfold ser_module. now rewrite N, (alike_list_ser _ _ F). Qed.
Lemma alike_refl_list l : Forall2 alike l l.
Proof. induction l; constructor; [apply al_same|assumption]. Qed.

Lemma upd_alike w f : (forall t u, text_alike t u -> text_alike (f t) (f u)) -> forall l k, Forall2 alike l k ->
  match upd_text w f l, upd_text w f k with Some a, Some b => Forall2 alike a b | None, None => True | _, _ => False end.
Proof.
  intros P. induction 1 as [|x y l k A F IH]; [exact I|].
  assert (G : forall a b, alike a b -> match option_map (cons a) (upd_text w f l), option_map (cons b) (upd_text w f k) with
    | Some a, Some b => Forall2 alike a b | None, None => True | _, _ => False end).
  { intros a b AB. destruct (upd_text w f l), (upd_text w f k); cbn [option_map]; try contradiction; [now constructor|exact I]. }
  destruct A as [e|t u T|p q U|a b U].
  - destruct e; cbn [upd_text]; try (apply G, al_same).
    destruct (str_eqb _ w); [|apply G, al_same]. constructor; [apply al_text, P, text_alike_refl|exact F].
  - cbn [upd_text]. pose proof T as (N & _). rewrite N. destruct (str_eqb (tx_name t) w); [|apply G; now apply al_text].
    constructor; [apply al_text; now apply P|exact F].
  - cbn [upd_text]. apply G. now apply al_pad.
  - cbn [upd_text]. apply G. now apply al_at.
Qed.
Lemma modify_alike w f m n : (forall t u, text_alike t u -> text_alike (f t) (f u)) -> mod_alike m n ->
  match modify_text m w f, modify_text n w f with Some a, Some b => mod_alike a b | None, None => True | _, _ => False end.
Proof.
  intros P [N F]. unfold modify_text. rewrite N. pose proof (upd_alike w f P _ _ F) as U.
  destruct (upd_text w f (m_elements m)), (upd_text w f (m_elements n)); cbn [option_map]; try contradiction; [|exact I]. split; [reflexivity|exact U].
Qed.
Lemma fix_text_alike c v lt t u : text_alike t u -> text_alike (fix_text c v lt t) (fix_text c v lt u).
Proof.
  intros (N & V & A & L & H & J & I & X & E). unfold text_alike, fix_text, tx_size in *; cbn [tx_name tx_value tx_at tx_layer tx_effects tx_hide ef_font ef_justify fo_size fo_italic xy_t] in *.
  destruct A as (A1 & A2 & A3). rewrite N, L, J, I, X. repeat apply conj; try reflexivity; assumption.
Qed.
Lemma or_same_alike w f m n : (forall t u, text_alike t u -> text_alike (f t) (f u)) -> mod_alike m n ->
  mod_alike (or_same m (modify_text m w f)) (or_same n (modify_text n w f)).
Proof.
  intros P M. pose proof (modify_alike w f m n P M) as U. destruct (modify_text m w f), (modify_text n w f); cbn [or_same]; try contradiction; assumption.
Qed.
Lemma push_alike es m n : mod_alike m n -> mod_alike (push es m) (push es n).
Proof. intros [N F]. split; [exact N|]. cbn [push m_elements]. apply Forall2_app; [exact F|apply alike_refl_list]. Qed.
Lemma find_alike w l k : Forall2 alike l k ->
  match find_text w l, find_text w k with Some t, Some u => text_alike t u | None, None => True | _, _ => False end.
Proof.
  induction 1 as [|x y l k A F IH]; [exact I|]. destruct A as [e|t u T|p q U|a b U].
  - destruct e; cbn [find_text]; try exact IH. destruct (str_eqb _ w); [apply text_alike_refl|exact IH].
  - cbn [find_text]. pose proof T as (N & _). rewrite N. destruct (str_eqb (tx_name t) w); [exact T|exact IH].
  - cbn [find_text]. exact IH.
  - cbn [find_text]. exact IH.
Qed.
(** Counts, attributes, place and box *)
Lemma alike_smd m n : mod_alike m n -> has_smd_attr n = has_smd_attr m.
Proof.
  intros [_ F]. unfold has_smd_attr. induction F as [|x y l k A _ IH]; [reflexivity|]. cbn [existsb]. rewrite IH. f_equal. now destruct A.
Qed.
Lemma alike_pads t m n : mod_alike m n -> count (fun p => pad_type_eqb (pa_t p) t) (pads n) = count (fun p => pad_type_eqb (pa_t p) t) (pads m).
Proof.
  intros [_ F]. unfold count, pads. induction F as [|x y l k A _ IH]; [reflexivity|]. cbn [flat_map].
  destruct A as [e|? ? ?|p q U|? ? ?].
  - destruct e; cbn [app]; try exact IH. cbn [filter]. destruct (pad_type_eqb _ t); cbn [length]; now rewrite IH.
  - exact IH.
  - cbn [app filter]. rewrite (pad_alike_t _ _ U). destruct (pad_type_eqb _ t); cbn [length]; now rewrite IH.
  - exact IH.
Qed.
Lemma alike_lines m n : mod_alike m n -> fp_lines n = fp_lines m.
Proof. intros [_ F]. unfold fp_lines. induction F as [|x y l k A _ IH]; [reflexivity|]. cbn [flat_map]. rewrite IH. f_equal. now destruct A. Qed.
Lemma alike_place m n : mod_alike m n -> module_at n = module_at m.
Proof.
  intros [_ F]. unfold module_at. assert (E : find_map (fun e => match e with EAt a => Some (at_x a, at_y a) | _ => None end) (m_elements n)
    = find_map (fun e => match e with EAt a => Some (at_x a, at_y a) | _ => None end) (m_elements m)); [|now rewrite E].
  induction F as [|x y l k A _ IH]; [reflexivity|]. cbn [find_map].
  destruct A as [e|? ? ?|? ? ?|a b (U & V & _)].
  - destruct e; try exact IH. reflexivity.
  - exact IH.
  - exact IH.
  - now rewrite U, V.
Qed.
Lemma alike_box m n : mod_alike m n -> module_bound n = module_bound m.
Proof.
  intros M. unfold module_bound. rewrite (alike_place _ _ M). destruct (module_at m) as [x y]. destruct M as [_ F]. do 2 f_equal.
  induction F as [|a b l k A _ IH]; [reflexivity|]. cbn [filter].
  destruct A as [e|? ? ?|p q U|? ? ?].
  - destruct (is_graphics e); [|exact IH]. cbn [filter]. destruct (is_fab e || is_pad e)%bool; [|exact IH]. cbn [map]. now rewrite IH.
  - exact IH.
  - cbn [is_graphics filter is_fab is_pad orb map element_bound]. now rewrite (pad_alike_bound _ _ U), IH.
  - exact IH.
Qed.
Lemma alike_smd_only m n : mod_alike m n -> smd_only n = smd_only m.
Proof. intros M. unfold smd_only, pth_pads, smd_pads. now rewrite !(alike_pads _ _ _ M). Qed.
Lemma alike_pth_only m n : mod_alike m n -> pth_only n = pth_only m.
Proof. intros M. unfold pth_only, pth_pads, smd_pads. now rewrite !(alike_pads _ _ _ M). Qed.
Lemma alike_crt m n : mod_alike m n -> courtyard_lines n = courtyard_lines m.
Proof. intros M. unfold courtyard_lines. now rewrite (alike_lines _ _ M). Qed.
Lemma alike_courtyard m n : mod_alike m n -> courtyard n = courtyard m.
Proof. intros M. unfold courtyard, courtyard_offset. rewrite (alike_box _ _ M), (alike_place _ _ M). destruct M as [N _]. now rewrite N. Qed.

(** ** The fix *)
Lemma ref2_alike c m n : mod_alike m n ->
  match fix_reference2 c m, fix_reference2 c n with Ok a, Ok b => mod_alike a b | Panic, Panic => True | _, _ => False end.
Proof.
  intros M. unfold fix_reference2. pose proof M as [_ F]. pose proof (find_alike (lit "user") _ _ F) as G. fold (get_text m (lit "user")) in G. fold (get_text n (lit "user")) in G.
  assert (K : mod_alike match get_text m (lit "user") with Some _ => m | None => push [EFpText (new_ref2 c)] m end
                        match get_text n (lit "user") with Some _ => n | None => push [EFpText (new_ref2 c)] n end).
  { destruct (get_text m (lit "user")), (get_text n (lit "user")); try contradiction; [exact M|now apply push_alike]. }
  pose proof (modify_alike (lit "user") (fix_text c (lit "%R") LFab) _ _ (fix_text_alike c (lit "%R") LFab) K) as U.
  destruct (modify_text _ (lit "user") (fix_text c (lit "%R") LFab)) as [a|] in U |- *;
  destruct (modify_text _ (lit "user") (fix_text c (lit "%R") LFab)) as [b|] in U |- *; try contradiction; assumption.
Qed.
Lemma fix_alike c m n a b : mod_alike m n -> fp_fix c m = Ok a -> fp_fix c n = Ok b -> mod_alike a b.
Proof.
  intros M A B. unfold fp_fix in A, B. pose proof M as [N _]. rewrite N in B.
  assert (V : mod_alike (fix_value c (m_name m) (fix_reference c m)) (fix_value c (m_name m) (fix_reference c n))).
  { unfold fix_value. apply or_same_alike; [intros; now apply fix_text_alike|]. unfold fix_reference. apply or_same_alike; [intros; now apply fix_text_alike|exact M]. }
  pose proof (ref2_alike c _ _ V) as R.
  destruct (fix_reference2 c (fix_value c (m_name m) (fix_reference c m))) as [x| |]; [|discriminate A..].
  destruct (fix_reference2 c (fix_value c (m_name m) (fix_reference c n))) as [y| |]; [|discriminate B..].
  cbn [bind] in A, B.
  assert (W : mod_alike (fix_attr x) (fix_attr y)).
  { unfold fix_attr. rewrite (alike_smd_only _ _ R), (alike_smd _ _ R). destruct (smd_only x && negb (has_smd_attr x))%bool; [now apply push_alike|exact R]. }
  assert (J : forall u v : module, Ok u = Ok v -> u = v) by (intros u v Z; now injection Z).
  apply J in A, B. subst a b. unfold fix_courtyard. rewrite (alike_crt _ _ W), (alike_courtyard _ _ W).
  destruct (Nat.ltb (courtyard_lines (fix_attr x)) 4); [now apply push_alike|exact W].
Qed.
Lemma tidy_mod_alike m : (forall e, In e (m_elements m) -> ser_element (tidy_element e) = ser_element e) -> mod_alike m (tidy_module m).
Proof.
  intros H. split; [reflexivity|]. cbn [tidy_module m_elements]. revert H. generalize (m_elements m). intros l.
  induction l as [|x l IH]; intros H; [constructor|]. cbn [map]. constructor; [apply tidy_alike, H; now left|apply IH; intros e I; apply H; now right].
Qed.

(** ** Other edits *)
Lemma zeq_add a b x : zeq a b -> zeq (fadd a x) (fadd b x).
Proof.
  intros [->|(s & t & -> & ->)]; [now left|]. destruct x as [u|u| |u m e H]; [|now left..].
  right. destruct s, t, u; cbn; eauto.
Qed.
Lemma zeq_le a b c : zeq a b -> fleb c a = fleb c b.
Proof. intros [->|(s & t & -> & ->)]; [reflexivity|]. destruct c as [?|[]| |[] ? ? ?]; reflexivity. Qed.
Lemma flip_at_alike a b : at_alike a b -> at_alike (flip_at a) (flip_at b).
Proof.
  intros (X & Y & Z). unfold at_alike, flip_at; cbn [at_x at_y at_rot]. rewrite X, Y. split; [reflexivity|]. split; [reflexivity|].
  apply zeq_sub2; [now left|exact Z].
Qed.
Lemma rotate_at_alike d a b : at_alike a b -> at_alike (rotate_at d a) (rotate_at d b).
Proof.
  intros (X & Y & Z). unfold at_alike, rotate_at; cbn [at_x at_y at_rot]. split; [exact X|]. split; [exact Y|].
  pose proof (zeq_add _ _ d Z) as R. generalize (fadd (at_rot b) d) (fadd (at_rot a) d) R. clear. intros u v R.
  rewrite (zeq_le _ _ f360 R).
  assert (K : zeq (if fleb f360 v then fsub u f360 else u) (if fleb f360 v then fsub v f360 else v)) by (destruct (fleb f360 v); [now apply zeq_sub|exact R]).
  revert K. generalize (if fleb f360 v then fsub u f360 else u) (if fleb f360 v then fsub v f360 else v). clear. intros u v R.
  rewrite (zeq_lt u v fzero fzero R (or_introl eq_refl)). destruct (fltb v fzero); [now apply zeq_add|exact R].
Qed.
Lemma adjust_at_alike x y a b : at_alike a b -> at_alike (adjust_at x y a) (adjust_at x y b).
Proof. intros (X & Y & Z). unfold at_alike, adjust_at; cbn [at_x at_y at_rot]. rewrite X, Y. split; [reflexivity|]. split; [reflexivity|exact Z]. Qed.
Lemma map_alike f : (forall e e', alike e e' -> alike (f e) (f e')) -> forall n l k, Forall2 alike l k ->
  mod_alike (mk_module n (map f l)) (mk_module n (map f k)).
Proof.
  intros H n l k F. split; [reflexivity|]. cbn [m_elements]. induction F as [|x y l k A _ IH]; [constructor|]. cbn [map]. constructor; [now apply H|exact IH].
Qed.
Lemma flip_alike e e' : alike e e' -> alike (flip_element e) (flip_element e').
Proof.
  intros [x|t u (N & V & A & L & H & J & I & X & E)|p q [n t h z r a b la ne zc d e1 p1 p2 p3 p4 A D]|a b A]; [apply al_same|cbn [flip_element]..].
  - apply al_text. unfold text_alike, flip_text, flip_effects, tx_size in *; cbn [tx_name tx_value tx_at tx_layer tx_effects tx_hide ef_justify ef_font].
    rewrite L, J. split; [exact N|]. split; [exact V|]. split; [now apply flip_at_alike|]. split; [reflexivity|]. split; [exact H|]. split; [reflexivity|].
    split; [exact I|]. split; [exact X|exact E].
  - apply al_pad. unfold flip_pad; cbn [pa_name pa_t pa_shape pa_at pa_size pa_drill pa_rect_delta pa_layers pa_net pa_zone_connect pa_paste_margin pa_mask_margin pa_clearance pa_thermal_gap].
    constructor; [now apply flip_at_alike|exact D].
  - apply al_at. now apply flip_at_alike.
Qed.
Lemma rotate_alike r0 e e' : alike e e' -> alike (rotate_element r0 e) (rotate_element r0 e').
Proof.
  intros [x|t u (N & V & A & L & H & J & I & X & E)|p q [n t h z r a b la ne zc d e1 p1 p2 p3 p4 A D]|a b A]; [apply al_same|cbn [rotate_element]..].
  - apply al_text. unfold text_alike, rotate_text, tx_size in *; cbn [tx_name tx_value tx_at tx_layer tx_effects tx_hide].
    split; [exact N|]. split; [exact V|]. split; [now apply rotate_at_alike|]. split; [exact L|]. split; [exact H|]. split; [exact J|].
    split; [exact I|]. split; [exact X|exact E].
  - apply al_pad. unfold rotate_pad; cbn [pa_name pa_t pa_shape pa_at pa_size pa_drill pa_rect_delta pa_layers pa_net pa_zone_connect pa_paste_margin pa_mask_margin pa_clearance pa_thermal_gap].
    constructor; [now apply rotate_at_alike|exact D].
  - apply al_at. now apply rotate_at_alike.
Qed.
Lemma change_alike ch m n a b : mod_alike m n -> change_one m ch = Ok a -> change_one n ch = Ok b -> mod_alike a b.
Proof.
  assert (J : forall u v : module, Ok u = Ok v -> u = v) by (intros u v Z; now injection Z).
  intros M A B. pose proof M as [N F]. destruct ch as [|d|x y|old new|old new|c|e]; cbn [change_one] in A, B; try (apply J in A, B; subst a b).
  - unfold flip_module. rewrite N. apply map_alike; [exact flip_alike|exact F].
  - unfold rotate_module. rewrite N. apply map_alike; [exact (rotate_alike d)|exact F].
  - unfold adjust_module. rewrite N. apply map_alike; [|exact F]. intros e e' [z|t u T|p q P|s t P]; [apply al_same|now apply al_text|now apply al_pad|].
    apply al_at. now apply adjust_at_alike.
  - unfold set_reference. rewrite N. apply map_alike; [|exact F]. intros e e' [z|t u T|p q P|s t P]; [apply al_same| |now apply al_pad|now apply al_at].
    pose proof T as (N0 & V & A & L & H & J0 & I & X & E). rewrite N0, V.
    destruct (str_eqb (tx_name t) (lit "reference") && str_eqb (tx_value t) old)%bool; [|now apply al_text]. apply al_text.
    unfold text_alike, tx_size in *; cbn [tx_name tx_value tx_at tx_layer tx_effects tx_hide].
    split; [reflexivity|]. split; [reflexivity|]. split; [exact A|]. split; [exact L|]. split; [exact H|]. split; [exact J0|]. split; [exact I|]. split; [exact X|exact E].
  - unfold module_rename_net. rewrite N. apply map_alike; [|exact F]. intros e e' [z|t u T|p q P|s t P]; [apply al_same|now apply al_text| |now apply al_at].
    apply al_pad. destruct P as [n0 t h z r a b la ne zc d e1 p1 p2 p3 p4 A D].
    unfold pad_rename_net; cbn [pa_name pa_t pa_shape pa_at pa_size pa_drill pa_rect_delta pa_layers pa_net pa_zone_connect pa_paste_margin pa_mask_margin pa_clearance pa_thermal_gap].
    constructor; [exact A|exact D].
  - exact (fix_alike c m n a b M A B).
  - split; [exact N|]. cbn [module_append m_elements]. apply Forall2_app; [exact F|apply alike_refl_list].
Qed.
Lemma change_total m ch : exists a, change_one m ch = Ok a.
Proof. destruct ch as [|d|x y|old new|old new|c|e]; cbn [change_one]; try (eexists; reflexivity). apply fix_total. Qed.
Lemma changes_alike l : forall m n, mod_alike m n -> exists a b, change_all m l = Ok a /\ change_all n l = Ok b /\ mod_alike a b.
Proof.
  induction l as [|ch l IH]; intros m n M; cbn [change_all]; [exists m, n; split; [reflexivity|]; split; [reflexivity|exact M]|].
  destruct (change_total m ch) as (a & A). destruct (change_total n ch) as (b & B). pose proof (change_alike ch m n a b M A B) as K.
  rewrite A, B. cbn [bind]. exact (IH a b K).
Qed.

(** ** The report *)
Lemma nonneg_zeq x : fleb fzero x = true -> fgtb x fzero = false -> zeq fzero x.
Proof.
  intros L G. destruct x as [s|s| |s mx ex Hx]; [right; now exists false, s|destruct s; discriminate|discriminate|destruct s; discriminate].
Qed.
Lemma far_zeq a b c d : zeq a b -> zeq c d -> far a c = far b d.
Proof. intros A C. unfold far. now rewrite (zeq_abs _ _ (zeq_sub2 _ _ _ _ A C)). Qed.
Lemma tidy_size t : font_counts t = true ->
  zeq (xy_x (tx_size (tidy_text t))) (xy_x (tx_size t)) /\ zeq (xy_y (tx_size (tidy_text t))) (xy_y (tx_size t)) /\ tx_thick (tidy_text t) = tx_thick t.
Proof.
  unfold font_counts. intros H. apply andb_prop in H as [X Y]. unfold tx_size, tx_thick, tidy_text, tidy_effects in *; cbn [tx_effects ef_font].
  unfold tidy_font. destruct (fgtb (xy_x (fo_size (ef_font (tx_effects t)))) fzero || fgtb (xy_y (fo_size (ef_font (tx_effects t)))) fzero)%bool eqn:E.
  - split; [now left|]. split; [now left|reflexivity].
  - apply orb_false_elim in E as [E1 E2]. cbn [fo_size xy_x xy_y fo_thickness].
    split; [now apply nonneg_zeq|]. split; [now apply nonneg_zeq|reflexivity].
Qed.
Lemma find_tidy w l : find_text w (map tidy_element l) = option_map tidy_text (find_text w l).
Proof.
  induction l as [|e l IH]; [reflexivity|]. destruct e; cbn [map tidy_element find_text]; try exact IH.
  cbn [tidy_text tx_name]. destruct (str_eqb _ w); [reflexivity|exact IH].
Qed.
Lemma find_in w l t : find_text w l = Some t -> In (EFpText t) l.
Proof.
  induction l as [|e l IH]; [discriminate|]. destruct e; cbn [find_text]; try (intros H; right; now apply IH).
  destruct (str_eqb _ w); intros H; [injection H as <-; now left|right; now apply IH].
Qed.
Lemma report_tidy c m : (forall e, In e (m_elements m) -> ser_element (tidy_element e) = ser_element e) -> (forall t, In (EFpText t) (m_elements m) -> font_counts t = true) ->
  fp_check c (tidy_module m) = fp_check c m.
Proof.
  intros S P. pose proof (tidy_mod_alike m S) as M. unfold fp_check.
  rewrite (alike_crt _ _ M), (alike_smd_only _ _ M), (alike_pth_only _ _ M), (alike_smd _ _ M).
  assert (T : forall w, get_text (tidy_module m) w = option_map tidy_text (get_text m w)) by (intros w; apply find_tidy).
  assert (Q : forall w t, get_text m w = Some t -> font_counts t = true) by (intros w t H; apply P; exact (find_in _ _ _ H)).
  assert (R : forall a : f64, zeq a a) by (now left).
  assert (W : forall (b b' : bool) (x : cf_data), b = b' -> when b x = when b' x) by (intros b b' x ->; reflexivity).
  assert (K : forall x x' y y' : list cf_data, x = x' -> y = y' -> x ++ y = x' ++ y') by (intros x x' y y' -> ->; reflexivity).
  apply K; [|apply K; [|apply K; [|reflexivity]]].
  - unfold check_reference. rewrite T. destruct (get_text m (lit "reference")) as [t|] eqn:E; [|reflexivity]. cbn [option_map].
    destruct (tidy_size t (Q _ _ E)) as (X & Y & H).
    apply K; [apply W; reflexivity|]. apply K; [apply W; reflexivity|]. apply K; [apply W; reflexivity|].
    apply K; [apply W; exact (far_zeq _ _ _ _ X Y)|]. apply K; [apply W; exact (far_zeq _ _ _ _ Y (R _))|]. apply K; [apply W; exact (far_zeq _ _ _ _ X (R _))|].
    apply W. exact (f_equal (fun z => far z (cg_font_thickness c)) H).
  - unfold check_value. rewrite T. destruct (get_text m (lit "value")) as [t|] eqn:E; [|reflexivity]. cbn [option_map].
    destruct (tidy_size t (Q _ _ E)) as (X & Y & H).
    apply K; [apply W; reflexivity|]. apply K; [apply W; reflexivity|]. apply K; [apply W; reflexivity|].
    apply K; [apply W; exact (far_zeq _ _ _ _ Y (R _))|]. apply K; [apply W; exact (far_zeq _ _ _ _ X (R _))|].
    apply W. exact (f_equal (fun z => far z (cg_font_thickness c)) H).
  - unfold check_reference2. rewrite T. destruct (get_text m (lit "user")) as [t|] eqn:E; [|reflexivity]. cbn [option_map].
    destruct (tidy_size t (Q _ _ E)) as (X & Y & H).
    apply K; [apply W; reflexivity|]. apply K; [apply W; reflexivity|].
    apply K; [apply W; exact (far_zeq _ _ _ _ X Y)|]. apply K; [apply W; exact (far_zeq _ _ _ _ Y (R _))|]. apply K; [apply W; exact (far_zeq _ _ _ _ X (R _))|].
    apply W. exact (f_equal (fun z => far z (cg_font_thickness c)) H).
Qed.

(** ** Boards *)
Lemma tidy_module_box m : module_bound (tidy_module m) = module_bound m.
Proof.
  unfold module_bound.
  assert (A : module_at (tidy_module m) = module_at m).
  { unfold module_at, tidy_module; cbn [m_elements].
    assert (E : forall l, find_map (fun e => match e with EAt a => Some (at_x a, at_y a) | _ => None end) (map tidy_element l)
      = find_map (fun e => match e with EAt a => Some (at_x a, at_y a) | _ => None end) l); [|now rewrite E].
    induction l as [|e l IH]; [reflexivity|]. destruct e; cbn [map tidy_element find_map]; try exact IH. reflexivity. }
  rewrite A. destruct (module_at m) as [x y]. do 2 f_equal. cbn [tidy_module m_elements]. generalize (m_elements m). intros l.
  induction l as [|e l IH]; [reflexivity|]. cbn [map filter].
  assert (G : is_graphics (tidy_element e) = is_graphics e) by (destruct e; reflexivity). rewrite G.
  destruct (is_graphics e); [|exact IH]. cbn [filter].
  assert (F : (is_fab (tidy_element e) || is_pad (tidy_element e))%bool = (is_fab e || is_pad e)%bool) by (destruct e; reflexivity). rewrite F.
  destruct (is_fab e || is_pad e)%bool; [|exact IH]. cbn [map]. now rewrite IH, tidy_bound.
Qed.
Lemma tidy_ly_bound e : ly_element_bound (tidy_ly_element e) = ly_element_bound e.
Proof. destruct e; try reflexivity. cbn [tidy_ly_element ly_element_bound]. apply tidy_module_box. Qed.
Lemma tidy_layout_box l : layout_bound (tidy_layout l) = layout_bound l.
Proof. unfold layout_bound, tidy_layout; cbn [ly_elements]. rewrite map_map. do 2 f_equal. apply map_ext. intros e. apply tidy_ly_bound. Qed.

(** ** Texts *)
Lemma resave_box nq s m n q : quote_contract nq -> parse_module s = Ok m -> parse_module (module_to_string nq m n) = Ok q -> module_bound q = module_bound m.
Proof. intros Q H R. destruct (again_module _ _ _ _ _ Q H R) as [-> _]. apply tidy_module_box. Qed.
Lemma resave_board_box nq s l n q : quote_contract nq -> parse_layout s = Ok l -> parse_layout (layout_to_string nq l n) = Ok q -> layout_bound q = layout_bound l.
Proof. intros Q H R. rewrite (again_layout _ _ _ _ _ Q H R). apply tidy_layout_box. Qed.
Lemma resave_report nq s m n q c : quote_contract nq -> parse_module s = Ok m -> parse_module (module_to_string nq m n) = Ok q ->
  (forall t, In (EFpText t) (m_elements m) -> font_counts t = true) -> fp_check c q = fp_check c m.
Proof. intros Q H R F. destruct (again_module _ _ _ _ _ Q H R) as [-> S]. now apply report_tidy. Qed.
Lemma resave_edits nq s m n q l : quote_contract nq -> parse_module s = Ok m -> parse_module (module_to_string nq m n) = Ok q ->
  exists f f', change_all m l = Ok f /\ change_all q l = Ok f' /\ (forall k, module_to_string nq f' k = module_to_string nq f k) /\ module_bound f' = module_bound f.
Proof.
  intros Q H R. destruct (again_module _ _ _ _ _ Q H R) as [-> S]. destruct (changes_alike l _ _ (tidy_mod_alike m S)) as (f & f' & F & F' & A).
  exists f, f'. split; [exact F|]. split; [exact F'|]. split; [intros k; unfold module_to_string; now rewrite (mod_alike_ser _ _ A)|exact (alike_box _ _ A)].
Qed.
