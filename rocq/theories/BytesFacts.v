(** The bytes of texts. *)
From Coq Require Import String Lia ZifyN ZifyBool Zify.
From Verif Require Import Base Str StrFacts Sexp SexpFacts FpData LyData DocText KicadFile KfFacts SpellSpec SpellFacts SpellKind Said FileErr Disk DiskSpec SchReadFacts SymReadFacts TornSpec TornFacts TornLines TornSch DiskFacts Bytes BytesSpec.
Open Scope string_scope. Open Scope list_scope. Open Scope N_scope.
Ltac Zify.zify_post_hook ::= Z.to_euclidean_division_equations.

Lemma in_range_iff lo hi b : in_range lo hi b = true <-> lo <= b <= hi.
Proof. unfold in_range. rewrite andb_true_iff, !N.leb_le. tauto. Qed.
Lemma later_iff b : later b = true <-> 128 <= b <= 191.
Proof. apply in_range_iff. Qed.
Lemma three_iff a b : two_of_three a b = true <-> 224 <= a <= 239 /\ 128 <= b <= 191 /\ 2048 <= (a - 224) * 4096 + (b - 128) * 64 + 63 /\ ~ (a = 237 /\ 160 <= b).
Proof. unfold two_of_three. rewrite !orb_true_iff, !andb_true_iff, !later_iff, !in_range_iff, !N.eqb_eq. lia. Qed.
Lemma four_iff a b : two_of_four a b = true <-> 240 <= a <= 244 /\ 128 <= b <= 191 /\ 65536 <= (a - 240) * 262144 + (b - 128) * 4096 + 4095 /\ ~ (a = 244 /\ 144 <= b).
Proof. unfold two_of_four. rewrite !orb_true_iff, !andb_true_iff, !later_iff, !in_range_iff, !N.eqb_eq. lia. Qed.

(** One character *)
Lemma coded_scalar c x : coded c x -> scalar c.
Proof. intros C. inversion C; subst; unfold scalar in *; lia. Qed.
Lemma coded_head c x : coded c x -> exists a r, x = a :: r /\ ~ 128 <= a <= 191 /\ Forall (fun b => 128 <= b <= 191) r.
Proof. intros C. inversion C; subst; eexists _, _; (split; [reflexivity|split; [lia|]]); repeat (apply Forall_cons; [lia|]); apply Forall_nil. Qed.
Lemma coded_bytes c : scalar c -> coded c (char_bytes c).
Proof.
  intros S. unfold char_bytes. destruct (c <? 128) eqn:E1; [apply N.ltb_lt in E1; now constructor|]. apply N.ltb_ge in E1.
  destruct (c <? 2048) eqn:E2; [apply N.ltb_lt in E2|apply N.ltb_ge in E2; destruct (c <? 65536) eqn:E3; [apply N.ltb_lt in E3|apply N.ltb_ge in E3]].
  - assert (V : c / 64 * 64 + c mod 64 = c) by lia. pose proof (cd_2 (c / 64) (c mod 64) ltac:(lia) ltac:(lia) ltac:(lia)) as K. now rewrite V in K.
  - assert (V : c / 4096 * 4096 + c / 64 mod 64 * 64 + c mod 64 = c) by lia.
    pose proof (cd_3 (c / 4096) (c / 64 mod 64) (c mod 64)) as K. rewrite V in K. apply K; try lia; exact S.
  - assert (V : c / 262144 * 262144 + c / 4096 mod 64 * 4096 + c / 64 mod 64 * 64 + c mod 64 = c) by lia.
    pose proof (cd_4 (c / 262144) (c / 4096 mod 64) (c / 64 mod 64) (c mod 64)) as K. rewrite V in K. unfold scalar in S. apply K; lia.
Qed.
Lemma coded_is c x : coded c x -> char_bytes c = x.
Proof.
  intros C. unfold char_bytes. inversion C; subst.
  - apply N.ltb_lt in H. now rewrite H.
  - rewrite (proj2 (N.ltb_ge _ _)) by lia. rewrite (proj2 (N.ltb_lt _ 2048)) by lia. repeat (apply f_equal2; [lia|]). reflexivity.
  - rewrite (proj2 (N.ltb_ge _ _)) by lia. rewrite (proj2 (N.ltb_ge _ _)) by lia. rewrite (proj2 (N.ltb_lt _ 65536)) by lia. repeat (apply f_equal2; [lia|]). reflexivity.
  - rewrite (proj2 (N.ltb_ge _ _)) by lia. rewrite (proj2 (N.ltb_ge _ _)) by lia. rewrite (proj2 (N.ltb_ge _ _)) by lia. repeat (apply f_equal2; [lia|]). reflexivity.
Qed.

(** Reading bytes *)
Lemma before_some c r s : before c r = Some s <-> exists t, s = c :: t /\ r = Some t.
Proof.
  unfold before. destruct r as [t|]; cbn [option_map]; split.
  - intros [= <-]. now exists t.
  - intros (u & -> & [= ->]). reflexivity.
  - discriminate.
  - intros (u & _ & [=]).
Qed.
Lemma read_char c x b : coded c x -> bytes_text (x ++ b) = before c (bytes_text b).
Proof.
  intros C. inversion C; subst; cbn [app bytes_text].
  - apply N.ltb_lt in H. now rewrite H.
  - rewrite (proj2 (N.ltb_ge _ _)) by lia. rewrite (proj2 (in_range_iff _ _ _)) by lia. rewrite (proj2 (later_iff _)) by lia. f_equal. lia.
  - rewrite (proj2 (N.ltb_ge _ _)) by lia. replace (in_range 194 223 (224 + a)) with false by (symmetry; apply not_true_iff_false; rewrite in_range_iff; lia).
    rewrite (proj2 (in_range_iff _ _ _)) by lia. unfold scalar in *. rewrite (proj2 (three_iff _ _)) by lia. rewrite (proj2 (later_iff _)) by lia. cbn [andb]. f_equal. lia.
  - rewrite (proj2 (N.ltb_ge _ _)) by lia. replace (in_range 194 223 (240 + a)) with false by (symmetry; apply not_true_iff_false; rewrite in_range_iff; lia).
    replace (in_range 224 239 (240 + a)) with false by (symmetry; apply not_true_iff_false; rewrite in_range_iff; lia).
    rewrite (proj2 (four_iff _ _)) by lia. rewrite !(proj2 (later_iff _)) by lia. cbn [andb]. f_equal. lia.
Qed.
Lemma read_first l s : bytes_text l = Some s -> s = [] /\ l = [] \/ exists c t x b, s = c :: t /\ l = x ++ b /\ coded c x /\ bytes_text b = Some t.
Proof.
  destruct l as [|a l1]; cbn [bytes_text]; [intros [= <-]; now left|]. intros H. right. destruct (a <? 128) eqn:E1.
  { apply N.ltb_lt in E1. apply before_some in H as (t & -> & R). exists a, t, [a], l1. repeat (apply conj; [reflexivity|]). split; [now constructor|exact R]. }
  apply N.ltb_ge in E1. destruct l1 as [|b l2]; [discriminate|]. destruct (in_range 194 223 a) eqn:E2.
  { apply in_range_iff in E2. destruct (later b) eqn:L; [|discriminate]. apply later_iff in L. apply before_some in H as (t & -> & R).
    exists ((a - 192) * 64 + (b - 128)), t, [a; b], l2. repeat (apply conj; [reflexivity|]). split; [|exact R].
    pose proof (cd_2 (a - 192) (b - 128) ltac:(lia) ltac:(lia) ltac:(lia)) as K. replace (192 + (a - 192)) with a in K by lia. replace (128 + (b - 128)) with b in K by lia. exact K. }
  destruct l2 as [|c l3]; [discriminate|]. destruct (in_range 224 239 a) eqn:E3.
  { destruct (two_of_three a b) eqn:T; cbn [andb] in H; [|discriminate]. destruct (later c) eqn:L; [|discriminate]. apply three_iff in T. apply later_iff in L.
    apply before_some in H as (t & -> & R). eexists _, t, [a; b; c], l3. repeat (apply conj; [reflexivity|]). split; [|exact R].
    pose proof (cd_3 (a - 224) (b - 128) (c - 128) ltac:(lia) ltac:(lia) ltac:(lia)) as K. unfold scalar in K. specialize (K ltac:(lia) ltac:(lia)).
    replace (((a - 224) * 64 + (b - 128)) * 64 + (c - 128)) with ((a - 224) * 4096 + (b - 128) * 64 + (c - 128)) by lia.
    replace (224 + (a - 224)) with a in K by lia. replace (128 + (b - 128)) with b in K by lia. replace (128 + (c - 128)) with c in K by lia. exact K. }
  destruct l3 as [|d l4]; [discriminate|]. destruct (two_of_four a b) eqn:T; cbn [andb] in H; [|discriminate]. destruct (later c) eqn:L; cbn [andb] in H; [|discriminate].
  destruct (later d) eqn:L'; [|discriminate]. apply four_iff in T. apply later_iff in L. apply later_iff in L'.
  apply before_some in H as (t & -> & R). eexists _, t, [a; b; c; d], l4. repeat (apply conj; [reflexivity|]). split; [|exact R].
  pose proof (cd_4 (a - 240) (b - 128) (c - 128) (d - 128) ltac:(lia) ltac:(lia) ltac:(lia) ltac:(lia) ltac:(lia)) as K.
  replace ((((a - 240) * 64 + (b - 128)) * 64 + (c - 128)) * 64 + (d - 128)) with ((a - 240) * 262144 + (b - 128) * 4096 + (c - 128) * 64 + (d - 128)) by lia.
  replace (240 + (a - 240)) with a in K by lia. replace (128 + (b - 128)) with b in K by lia. replace (128 + (c - 128)) with c in K by lia. replace (128 + (d - 128)) with d in K by lia. exact K.
Qed.
Lemma text_iff b s : bytes_text b = Some s <-> utf8 s b.
Proof.
  split.
  - revert b. induction s as [|c s IH]; intros b H; apply read_first in H as [[E ->]|(k & t & x & r & E & -> & C & R)]; try discriminate E; [constructor|].
    injection E as -> ->. constructor; [exact C|]. now apply IH.
  - induction 1 as [|c s x b C U IH]; [reflexivity|]. rewrite (read_char c x b C), IH. reflexivity.
Qed.
Lemma bytes_iff s b : utf8 s b <-> Forall scalar s /\ text_bytes s = b.
Proof.
  split.
  - induction 1 as [|c s x b C U [F IH]]; [split; [constructor|reflexivity]|]. split; [constructor; [exact (coded_scalar _ _ C)|exact F]|]. cbn [text_bytes flat_map]. rewrite (coded_is _ _ C). f_equal. exact IH.
  - intros [F <-]. induction F as [|c s C F IH]; [constructor|]. cbn [text_bytes flat_map]. constructor; [now apply coded_bytes|exact IH].
Qed.
Lemma utf8_app s t a b : utf8 s a -> utf8 t b -> utf8 (s ++ t) (a ++ b).
Proof. induction 1 as [|c s x r C U IH]; intros V; [exact V|]. cbn [app]. rewrite <- app_assoc. constructor; [exact C|now apply IH]. Qed.
Lemma utf8_fun s t b : utf8 s b -> utf8 t b -> s = t.
Proof. intros A B. apply text_iff in A. apply text_iff in B. congruence. Qed.

(** Cutting *)
Lemma no_text_later b l : 128 <= b <= 191 -> no_text (b :: l).
Proof.
  intros B s U. inversion U as [|c t x r C V E]; subst. destruct (coded_head _ _ C) as (a & y & -> & N & _). cbn [app] in *. injection H as -> _. exact (N B).
Qed.
Lemma app_cut {A} (a b p q : list A) : a ++ b = p ++ q -> (exists m, p = a ++ m /\ b = m ++ q) \/ (exists m, m <> [] /\ a = p ++ m /\ q = m ++ b).
Proof.
  revert p. induction a as [|x a IH]; intros p E; cbn [app] in E; [left; now exists p|]. destruct p as [|y p]; cbn [app] in E.
  - right. exists (x :: a). split; [discriminate|]. split; [reflexivity|]. now symmetry.
  - injection E as <- E. destruct (IH p E) as [(m & -> & ->)|(m & N & -> & ->)]; [left|right]; exists m; auto.
Qed.
(** The beginning of a character is no text. *)
Lemma read_app s p x : utf8 s p -> bytes_text (p ++ x) = option_map (app s) (bytes_text x).
Proof.
  induction 1 as [|c s y r C U IH]; [cbn [app]; destruct (bytes_text x); reflexivity|]. rewrite <- app_assoc, (read_char c y _ C), IH. now destruct (bytes_text x).
Qed.
Lemma no_text_part c x m : coded c (x ++ m) -> x <> [] -> m <> [] -> no_text x.
Proof.
  intros C X M t U. inversion U as [|d u y r D V]; subst; [now apply X|].
  pose proof (read_char c _ [] C) as K. rewrite app_nil_r, <- app_assoc, (read_char d y _ D) in K. cbn [bytes_text before option_map] in K.
  apply before_some in K as (w & E & R). injection E as -> <-. apply text_iff in R. assert (Z : r ++ m = []) by (inversion R; reflexivity). apply app_eq_nil in Z as [_ Z]. now apply M.
Qed.
Lemma no_text_after s p x : utf8 s p -> no_text x -> no_text (p ++ x).
Proof.
  intros U N t V. apply text_iff in V. rewrite (read_app s p x U) in V. destruct (bytes_text x) as [w|] eqn:E; [|discriminate V]. apply text_iff in E. exact (N w E).
Qed.
Lemma cut_iff s p q : utf8 s (p ++ q) -> (exists u w, s = u ++ w /\ utf8 u p /\ utf8 w q) \/ (no_text p /\ no_text q).
Proof.
  remember (p ++ q) as l eqn:E. intros U. revert p E. induction U as [|c s x b C U IH]; intros p E.
  - destruct p; [|discriminate E]. cbn [app] in E. subst q. left. exists [], []. repeat (apply conj; [constructor|]). constructor.
  - apply app_cut in E as [(m & -> & ->)|(m & M & -> & ->)].
    + destruct (IH m eq_refl) as [(u & w & -> & P & Q)|[P Q]]; [left|right].
      * exists (c :: u), w. split; [reflexivity|]. split; [now constructor|exact Q].
      * split; [|exact Q]. refine (no_text_after [c] x m _ P). rewrite <- (app_nil_r x). constructor; [exact C|constructor].
    + destruct p as [|a p].
      * left. exists [], (c :: s). repeat (apply conj; [constructor|]). now constructor.
      * right. split; [apply (no_text_part c (a :: p) m C); [discriminate|exact M]|]. destruct (coded_head _ _ C) as (a0 & r & E & _ & L). destruct m as [|b0 m]; [now elim M|].
        cbn [app] in E. injection E as -> <-. apply Forall_app in L as [_ L]. inversion L; subst. cbn [app]. now apply no_text_later.
Qed.
Lemma no_text_none b : no_text b <-> bytes_text b = None.
Proof.
  split.
  - intros N. destruct (bytes_text b) as [s|] eqn:E; [|reflexivity]. apply text_iff in E. now elim (N s).
  - intros E s U. apply text_iff in U. congruence.
Qed.

(** Files *)
Lemma seen_text d n s b : d n = Some b -> utf8 s b -> seen d n = Some s.
Proof. intros E U. unfold seen. rewrite E. now apply text_iff. Qed.
Lemma seen_none d n b : d n = Some b -> no_text b -> seen d n = None.
Proof. intros E U. unfold seen. rewrite E. now apply no_text_none. Qed.
Lemma seen_some d n s : seen d n = Some s -> exists b, d n = Some b /\ utf8 s b.
Proof. unfold seen. destruct (d n) as [b|]; [|discriminate]. intros H. exists b. split; [reflexivity|]. now apply text_iff. Qed.
Lemma stored d n b : store d n b n = Some b.
Proof. unfold store. now rewrite str_eqb_refl. Qed.
Lemma not_stored d n b k : k <> n -> store d n b k = d k.
Proof. intros K. unfold store. now rewrite (proj2 (str_eqb_neq k n) K). Qed.
Lemma refused d n x : (forall b, d n = Some b -> no_text b) -> read_kicad_file (seen d) n x = Err EIo.
Proof.
  intros N. unfold read_kicad_file, read_file. replace (seen d n) with (@None str); [reflexivity|]. symmetry. unfold seen. destruct (d n) as [b|]; [|reflexivity]. apply no_text_none. now apply N.
Qed.
Lemma read_seen d n s b x : d n = Some b -> utf8 s b -> read_kicad_file (seen d) n x = read_data n s x.
Proof. intros E U. unfold read_kicad_file, read_file. rewrite (seen_text _ _ _ _ E U). reflexivity. Qed.

(** Loss of the last bytes *)

Lemma same_data n t p q x : tree_text t -> t = p ++ q -> blank_text q -> read_data n p x = read_data n t x.
Proof.
  intros T E B. assert (P : beginning p t) by (now exists q). assert (P' : beginning t t) by (exists []; now rewrite app_nil_r).
  destruct (other_kinds (Some n) p (tree_start _ _ T P)) as (D1 & D2 & D3). destruct (other_kinds (Some n) t (tree_start _ _ T P')) as (F1 & F2 & F3).
  unfold read_data. rewrite D1, D2, D3, F1, F2, F3. unfold parse_module, parse_layout, parse_table. now rewrite (tree_blank _ _ _ T E B).
Qed.
Lemma known_tree fs n x f : tree_kind f -> read_kicad_file fs n x = Ok f -> exists t, fs n = Some t /\ tree_text t /\ read_data n t x = Ok f.
Proof.
  intros K R. assert (N : forall u, f <> KUnknown u) by (intros u ->; exact K). destruct (proj1 (file_known_iff fs n x f N) R) as (t & T & F & _).
  exists t. split; [exact T|]. split; [exact (file_tree n t f F K)|]. unfold read_kicad_file, read_file in R. now rewrite T in R.
Qed.
Lemma loss d n x p q f : tree_kind f -> read_kicad_file (seen (store d n (p ++ q))) n x = Ok f -> after_loss n x p q f (read_kicad_file (seen (store d n p)) n x).
Proof.
  intros K R. destruct (known_tree _ _ _ _ K R) as (t & T & TT & D). apply seen_some in T as (b & B & U). rewrite stored in B. injection B as <-.
  destruct (cut_iff t p q U) as [(u & w & -> & P & Q)|[P Q]].
  - rewrite (read_seen _ n u p x (stored d n p) P). destruct (blank_dec w) as [W|W].
    + rewrite (same_data n (u ++ w) u w x TT eq_refl W), D. exact (al_none n x p q f u w P Q W).
    + rewrite (torn_kind n (u ++ w) u x TT (ex_intro _ w (conj eq_refl W))). exact (al_more n x p q f u w P Q W).
  - rewrite refused; [now constructor|]. intros b. rewrite stored. intros [= <-]. exact P.
Qed.

(** Saves that may fail *)
Lemma store_end d a n t d' r : Forall scalar t -> try_store d a n t = (d', r) -> only_file n d d' /\ store_ends d d' n t r.
Proof.
  intros S. assert (U : utf8 t (text_bytes t)) by now apply bytes_iff. unfold try_store, only_file. destruct a as [why|k why|]; intros [= <- <-].
  - split; [reflexivity|now constructor].
  - split; [intros m M; now apply not_stored|]. apply (se_part _ _ _ _ (firstn k (text_bytes t)) (skipn k (text_bytes t))); [now rewrite firstn_skipn|apply stored].
  - split; [intros m M; now apply not_stored|]. apply (se_done _ _ _ _ _ U), stored.
Qed.
Lemma store_any d n t d' r : store_ends d d' n t r -> only_file n d d' -> exists a f, try_store d a n t = (f, r) /\ forall k, f k = d' k.
Proof.
  intros S O. destruct S as [b U F|why F|p q why U F].
  - apply bytes_iff in U as [_ U]. exists Stores. eexists. split; [reflexivity|]. intros k. unfold store. destruct (str_eqb k n) eqn:K; [apply str_eqb_eq in K; subst; now symmetry|]. symmetry. apply O. now apply str_eqb_neq.
  - exists (Refuses why). eexists. split; [reflexivity|]. intros k. destruct (str_eqb k n) eqn:K; [apply str_eqb_eq in K; now subst|]. symmetry. apply O. now apply str_eqb_neq.
  - apply bytes_iff in U as [_ U]. exists (Breaks (length p) why). eexists. split; [reflexivity|]. rewrite U. rewrite firstn_app, firstn_all, Nat.sub_diag. cbn [firstn]. rewrite app_nil_r. intros k. unfold store.
    destruct (str_eqb k n) eqn:K; [apply str_eqb_eq in K; now subst|]. symmetry. apply O. now apply str_eqb_neq.
Qed.
Lemma stored_kind d d' n x t f r : tree_kind f -> tree_text t -> read_data n t x = Ok f -> store_ends d d' n t r ->
  (read_kicad_file (seen d') n x = Ok f \/ read_kicad_file (seen d') n x = read_kicad_file (seen d) n x \/ read_kicad_file (seen d') n x = refusal n x \/ read_kicad_file (seen d') n x = Err EIo)
  /\ (r = TFine tt -> read_kicad_file (seen d') n x = Ok f).
Proof.
  intros K T D S. destruct S as [b U F|why F|p q why U F].
  - rewrite (read_seen d' n t b x F U), D. split; [now left|reflexivity].
  - split; [|intros [=]]. right. left. unfold read_kicad_file, read_file, seen. now rewrite F.
  - split; [|intros [=]]. assert (L : after_loss n x p q f (read_kicad_file (seen (store d n p)) n x)).
    { apply loss; [exact K|]. now rewrite (read_seen _ n t _ x (stored d n (p ++ q)) U). }
    replace (read_kicad_file (seen d') n x) with (read_kicad_file (seen (store d n p)) n x) by (unfold read_kicad_file, read_file, seen; now rewrite stored, F).
    inversion L; auto.
Qed.
Lemma stored_module nq d a m n d' r : Forall scalar (module_to_string nq m 0) -> parse_module (module_to_string nq m 0) = Ok m -> try_store_module nq d a m n = (d', r) ->
  opens_as read_module d d' n m /\ (r = TFine tt -> read_module (seen d') n = Ok m).
Proof.
  intros S P W. destruct (store_end _ _ _ _ _ _ S W) as [_ E].
  assert (D : read_data n (module_to_string nq m 0) XModule = Ok (KModule m)) by (unfold read_data; now rewrite P).
  destruct (stored_kind d d' n XModule _ (KModule m) r I (module_tree _ _ P) D E) as [A B]. unfold opens_as, read_module. split.
  - destruct A as [->|[->|[->| ->]]]; auto.
  - intros R. now rewrite (B R).
Qed.
Lemma stored_layout nq d a l n d' r : Forall scalar (layout_to_string nq l 0) -> parse_layout (layout_to_string nq l 0) = Ok l -> try_store_layout nq d a l n = (d', r) ->
  opens_as read_layout d d' n l /\ (r = TFine tt -> read_layout (seen d') n = Ok l).
Proof.
  intros S P W. destruct (store_end _ _ _ _ _ _ S W) as [_ E].
  assert (D : read_data n (layout_to_string nq l 0) XLayout = Ok (KLayout l)).
  { destruct (others n _ XLayout (accepted_class n _ (KLayout l) P)) as (M1 & M2 & _). destruct (M1 ltac:(discriminate)) as [e1 E1]. destruct (M2 ltac:(discriminate)) as [e2 E2]. clear M1 M2. unfold read_data. rewrite E1, E2, P. reflexivity. }
  destruct (stored_kind d d' n XLayout _ (KLayout l) r I (layout_tree _ _ P) D E) as [A B]. unfold opens_as, read_layout. split.
  - destruct A as [->|[->|[->| ->]]]; auto.
  - intros R. now rewrite (B R).
Qed.

(** Bytes of another coding, and a mark at the beginning *)
Lemma lone_byte x c y : 128 <= c -> Forall (fun b => b < 128) x -> match y with [] => True | b :: _ => b < 128 end -> no_text (x ++ c :: y).
Proof.
  intros C X Y. assert (U : utf8 x x).
  { clear -X. induction X as [|a x A X IH]; [constructor|]. apply (u_cons a x [a] x); [now constructor|exact IH]. }
  apply (no_text_after x x _ U). intros s V. inversion V as [|k t z b K T E]; subst. clear -C Y H K. inversion K; subst; cbn [app] in H; injection H as <- Z; try lia; subst y; change (128 + b0 < 128) in Y; lia.
Qed.
Lemma ascii_same b : Forall (fun c => c < 128) b -> utf8 b b.
Proof. induction 1 as [|a x A X IH]; [constructor|]. apply (u_cons a x [a] x); [now constructor|exact IH]. Qed.
Lemma marked n t x : read_data n (65279 :: t) x = refusal n x.
Proof.
  destruct (other_kinds (Some n) (65279 :: t)) as (D1 & D2 & D3); [split; discriminate|]. unfold read_data. rewrite D1, D2, D3.
  assert (O : ordinary 65279 = true) by reflexivity. unfold parse_module, parse_layout, parse_table. destruct (read_bare 65279 t O) as [E|[z E]]; rewrite E; destruct x; reflexivity.
Qed.
(** Files of lines *)
Lemma read_as d n b x f : (forall u, f <> KUnknown u) -> read_kicad_file (seen (store d n b)) n x = Ok f -> exists t, utf8 t b /\ file_is n t f.
Proof.
  intros K R. destruct (proj1 (file_known_iff _ n x f K) R) as (t & T & F & _). apply seen_some in T as (b' & B & U). rewrite stored in B. injection B as <-. now exists t.
Qed.
Lemma part_text s p q u : utf8 s (p ++ q) -> utf8 u p -> beginning u s.
Proof.
  intros U V. destruct (cut_iff s p q U) as [(v & w & -> & P & _)|[P _]]; [|now elim (P u)]. rewrite (utf8_fun u v p V P). now exists w.
Qed.
Lemma lost_library d n p q x y l l' : read_kicad_file (seen (store d n (p ++ q))) n x = Ok (KSymbolLib l) -> read_kicad_file (seen (store d n p)) n y = Ok (KSymbolLib l') -> first_of l' l.
Proof.
  intros A B. apply read_as in A as (s & S & A); [|discriminate]. apply read_as in B as (u & U & B); [|discriminate].
  apply (torn_library s u l l'); [apply library_iff; exact A|exact (part_text s p q u S U)|apply library_iff; exact B].
Qed.
Lemma lost_schematic d n p q x y c c' : read_kicad_file (seen (store d n (p ++ q))) n x = Ok (KSchematic c) -> read_kicad_file (seen (store d n p)) n y = Ok (KSchematic c') -> schematic_left c' c.
Proof.
  intros A B. apply read_as in A as (s & S & A); [|discriminate]. apply read_as in B as (u & U & B); [|discriminate].
  apply (torn_schematic (Some n) s u c c'); [apply schematic_iff; exact A|exact (part_text s p q u S U)|apply schematic_iff; exact B].
Qed.
Lemma mark_file d n b t x : d n = Some (239 :: 187 :: 191 :: b) -> utf8 t b -> read_kicad_file (seen d) n x = refusal n x.
Proof.
  intros E U. rewrite (read_seen d n (65279 :: t) _ x E); [apply marked|]. apply (u_cons 65279 t [239; 187; 191] b); [|exact U].
  apply (cd_3 15 59 63); unfold scalar; lia.
Qed.
