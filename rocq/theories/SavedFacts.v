(** Saved schematics and symbol libraries have the shape of SavedSpec, and no other text has. *)
From Coq Require Import String Lia.
From Verif Require Import Base Str Num F64 F64Text NumFacts DecSpec DecFacts ShortSpec ShortFacts GramFacts LibSpec SchData SchPrint SymData SymPrint SchReadSpec SymReadSpec SavedSpec.
Open Scope string_scope. Open Scope list_scope.

(** ** Numerals *)
Lemma digits_same l : forall m, Forall (fun a => (a < 10)%N) l -> Forall (fun a => (a < 10)%N) m -> length l = length m -> digits_val 10 l = digits_val 10 m -> l = m.
Proof.
  induction l as [|a l IH]; intros [|b m] F G L V; try discriminate; [reflexivity|]. inversion F as [|? ? A F']; subst. inversion G as [|? ? B G']; subst.
  rewrite !digits_val_cons in V. injection L as L. rewrite L in V. pose proof (digits_val_lt l F') as U. pose proof (digits_val_lt m G') as W. rewrite L in U.
  set (k := (10 ^ N.of_nat (length m))%N) in *. assert (E : a = b) by nia. subst b. f_equal. apply IH; [exact F'|exact G'|exact L|nia].
Qed.
Lemma lead_len a l : (0 < a)%N -> (10 ^ N.of_nat (length l) <= digits_val 10 (a :: l))%N.
Proof. intros A. rewrite digits_val_cons. nia. Qed.
Lemma digits_canon l m : Forall (fun a => (a < 10)%N) l -> Forall (fun a => (a < 10)%N) m -> l <> [] -> m <> [] ->
  (hd 0%N l = 0%N -> tl l = []) -> (hd 0%N m = 0%N -> tl m = []) -> digits_val 10 l = digits_val 10 m -> l = m.
Proof.
  intros F G L M A B V. apply digits_same; try assumption. destruct l as [|a l]; [contradiction|]. destruct m as [|b m]; [contradiction|]. cbn [hd tl] in *. cbn [length]. f_equal.
  pose proof (digits_val_lt _ F) as U. pose proof (digits_val_lt _ G) as W. inversion F as [|? ? FA F']; subst. inversion G as [|? ? GA G']; subst.
  destruct (N.eq_dec a 0) as [->|A0].
  - rewrite (A eq_refl) in *. destruct (N.eq_dec b 0) as [->|B0]; [now rewrite (B eq_refl)|]. pose proof (lead_len b m ltac:(lia)) as Q. rewrite <- V in Q. change (digits_val 10 [0%N]) with 0%N in Q.
    pose proof (N.pow_nonzero 10 (N.of_nat (length m)) ltac:(lia)). lia.
  - pose proof (lead_len a l ltac:(lia)) as P. destruct (N.eq_dec b 0) as [->|B0].
    + rewrite (B eq_refl) in *. rewrite V in P. change (digits_val 10 [0%N]) with 0%N in P. pose proof (N.pow_nonzero 10 (N.of_nat (length l)) ltac:(lia)). lia.
    + pose proof (lead_len b m ltac:(lia)) as Q. cbn [length] in U, W.
      assert (X : (10 ^ N.of_nat (length l) < 10 ^ N.of_nat (S (length m)))%N) by lia. assert (Y : (10 ^ N.of_nat (length m) < 10 ^ N.of_nat (S (length l)))%N) by lia.
      apply N.pow_lt_mono_r_iff in X; [|lia]. apply N.pow_lt_mono_r_iff in Y; [|lia]. clear - X Y. lia.
Qed.
Lemma unchar_digits s : Forall is_digit s -> Forall (fun a => (a < 10)%N) (map unchar s).
Proof. intros F. apply Forall_map. eapply Forall_impl; [|exact F]. intros c H. unfold is_digit, unchar in *. lia. Qed.
Lemma unchar_inj s : forall t, Forall is_digit s -> Forall is_digit t -> map unchar s = map unchar t -> s = t.
Proof.
  induction s as [|a s IH]; intros [|b t] F G E; try discriminate; [reflexivity|]. inversion F as [|? ? FA F']; subst. inversion G as [|? ? GA G']; subst.
  cbn [map] in E. injection E as E1 E2. f_equal; [unfold unchar, is_digit in *; lia|]. now apply IH.
Qed.
Lemma dec_canon s t : Forall is_digit s -> Forall is_digit t -> no_lead s -> no_lead t -> dec s = dec t -> s = t.
Proof.
  intros F G (a & s' & -> & A) (b & t' & -> & B) E. apply unchar_inj; try assumption. rewrite <- !val_dec in E by assumption. apply N2Z.inj in E.
  inversion F as [|? ? FA F']; subst. inversion G as [|? ? GA G']; subst.
  apply digits_canon; try (now apply unchar_digits); [discriminate|discriminate| | |exact E]; cbn [map hd tl]; intros Z0; [rewrite A|rewrite B]; try reflexivity; unfold unchar, is_digit in *; lia.
Qed.
Lemma show_N_lead n : no_lead (show_N n).
Proof.
  unfold show_N. destruct (N.eq_dec n 0) as [->|H].
  - exists 48%N, []. split; [reflexivity|reflexivity].
  - destruct (digits_head n ltac:(lia)) as (a & l & E & A). pose proof (to_digits_bound 10 n ltac:(lia)) as F. rewrite E in *. inversion F as [|? ? FA F']; subst.
    exists (digit_char a), (map digit_char l). split; [reflexivity|]. intros Q. apply (digit_is _ FA) in Q. lia.
Qed.
Lemma show_N_dec n : dec (show_N n) = Z.of_N n.
Proof.
  pose proof (dec_is_digit _ (show_N_digits n)) as D. rewrite <- (val_dec _ D). f_equal. unfold show_N. rewrite map_map.
  rewrite <- (to_digits_val 10 n ltac:(lia)) at 2. f_equal. pose proof (to_digits_bound 10 n ltac:(lia)) as F. induction F as [|a l A _ IH]; [reflexivity|].
  cbn [map]. rewrite IH. f_equal. unfold unchar, digit_char. destruct (N.ltb_spec a 10); lia.
Qed.
(** ** Forms that fix the text *)
Definition fixes (p : form) (s : str) : Prop := p s /\ forall t, p t -> t = s.
Lemma pin_numeral z : fixes (numeral z) (show_Z z).
Proof.
  split.
  - exists (show_N (Z.abs_N z)). split; [apply dec_is_digit, show_N_digits|]. split; [apply show_N_lead|]. split; [rewrite show_N_dec; lia|]. unfold show_Z. reflexivity.
  - intros t (ds & F & L & V & ->). unfold show_Z.
    assert (E : ds = show_N (Z.abs_N z)) by (apply dec_canon; [exact F|apply dec_is_digit, show_N_digits|exact L|apply show_N_lead|rewrite show_N_dec; lia]).
    now rewrite E.
Qed.
Lemma pin_text s : fixes (text s) s.
Proof. split; [reflexivity|]. intros t H. exact H. Qed.
Lemma pin_word k : fixes (word k) (lit k).
Proof. split; [reflexivity|]. intros t H. exact H. Qed.
Lemma pin_float x : fixes (float x) (f64_to_str x).
Proof. split; [reflexivity|]. intros t H. exact H. Qed.
Lemma pin_quotes s : fixes (in_quotes s) (quoted s).
Proof. split; [reflexivity|]. intros t H. exact H. Qed.
Lemma pin_then p q a b : fixes p a -> fixes q b -> fixes (then_ p q) (a ++ b).
Proof. intros [A A'] [B B']. split; [exists a, b; auto|]. intros t (x & y & X & Y & ->). now rewrite (A' _ X), (B' _ Y). Qed.
Lemma pin_wide n p a : fixes p a -> fixes (wide n p) (pad_right n a).
Proof. intros [A A']. split; [exists a; auto|]. intros t (x & X & ->). now rewrite (A' _ X). Qed.
Fixpoint spaced1 (v : list str) : str := match v with [] => [] | [w] => w | w :: r => w ++ 32%N :: spaced1 r end.
Lemma ob_nonnil v s : one_blank v s -> v <> [].
Proof. intros []; discriminate. Qed.
Lemma ob_is v s : one_blank v s -> s = spaced1 v.
Proof. intros H. induction H as [w|w v s H IH]; [reflexivity|]. pose proof (ob_nonnil _ _ H). destruct v as [|x v]; [contradiction|]. cbn [spaced1]. now rewrite IH. Qed.
Lemma ob_make v : v <> [] -> one_blank v (spaced1 v).
Proof.
  induction v as [|w v IH]; intros N; [contradiction|]. destruct v as [|x v]; [constructor|]. change (spaced1 (w :: x :: v)) with (w ++ 32%N :: spaced1 (x :: v)). constructor. apply IH. discriminate.
Qed.
Lemma fixes_fit l v : Forall2 fixes l v -> Forall2 (fun (p : form) w => p w) l v.
Proof. intros F. induction F as [|p w l v [P _] _ IH]; [constructor|]. constructor; assumption. Qed.
Lemma pin_row l v : Forall2 fixes l v -> l <> [] -> fixes (row l) (spaced1 v).
Proof.
  intros F N. split.
  - exists v. split; [now apply fixes_fit|]. apply ob_make. inversion F; subst; [contradiction|discriminate].
  - intros t (u & U & O). rewrite (ob_is _ _ O). f_equal. clear - F U. revert u U. induction F as [|p w l v [_ P] _ IH]; intros u U; inversion U as [|? x ? r X R]; subst; [reflexivity|].
    f_equal; [now apply P|now apply IH].
Qed.
Lemma in_lines_iff l v t : Forall2 fixes l v -> (in_lines l t <-> t = unlines v).
Proof.
  intros F. revert t. induction F as [|p w l v [P P'] _ IH]; intros t.
  - split; [intros H; inversion H; reflexivity|intros ->; constructor].
  - split.
    + intros H. inversion H as [|? ? s r S R]; subst. rewrite (P' _ S), (proj1 (IH _) R). unfold unlines. cbn [flat_map]. unfold ln at 2. now rewrite <- app_assoc.
    + intros ->. unfold unlines. cbn [flat_map]. unfold ln at 1. rewrite <- app_assoc. constructor; [exact P|]. now apply IH.
Qed.
Definition single_valued {K A} (t : list (K * A)) : Prop := forall a k k', In (k, a) t -> In (k', a) t -> k = k'.
Lemma pin_letter {A} (t : list (N * A)) a c : In (c, a) t -> single_valued t -> fixes (letter t a) [c].
Proof. intros H S. split; [exists c; auto|]. intros w (k & K & ->). now rewrite (S a _ _ K H). Qed.
Lemma pin_name {A} (t : list (string * A)) a k : In (k, a) t -> single_valued t -> fixes (name_of t a) (lit k).
Proof. intros H S. split; [exists k; auto|]. intros w (k' & K & ->). now rewrite (S a _ _ K H). Qed.
Local Ltac sv := let a := fresh in let k := fresh in let k' := fresh in let H := fresh in let H' := fresh in
  intros a k k' H H'; cbn in H, H'; repeat (destruct H as [H|H]); try contradiction; injection H as <- <-;
  repeat (destruct H' as [H'|H']); try contradiction; try (injection H' as <-; reflexivity); discriminate H'.
Lemma sv_orient : single_valued orientations. Proof. sv. Qed.
Lemma sv_just : single_valued justifications. Proof. sv. Qed.
Lemma sv_forms : single_valued label_forms. Proof. sv. Qed.
Lemma sv_sides : single_valued label_sides. Proof. sv. Qed.
Lemma sv_wires : single_valued wire_names. Proof. sv. Qed.
Lemma sv_texts : single_valued text_kinds. Proof. sv. Qed.
Lemma sv_fills : single_valued fills. Proof. sv. Qed.
Lemma sv_pos : single_valued pin_orientations. Proof. sv. Qed.
Lemma sv_types : single_valued pin_types. Proof. sv. Qed.
Lemma sv_shapes : single_valued pin_shapes. Proof. sv. Qed.
Lemma sv_yes a b : single_valued (yes_no a b). Proof. sv. Qed.
Lemma sv_on a b : single_valued (on_off a b). Proof. sv. Qed.
Lemma sv_vis : single_valued [("0000", true); ("0001", false)]. Proof. sv. Qed.
Lemma sv_ital : single_valued [("Italic", true); ("~", false)]. Proof. sv. Qed.
Local Ltac tab := cbn; tauto.
Lemma pin_orient o : fixes (letter orientations o) (show_orientation o).
Proof. destruct o; apply pin_letter; try exact sv_orient; tab. Qed.
Lemma pin_just j : fixes (letter justifications j) (show_sjustify j).
Proof. destruct j; apply pin_letter; try exact sv_just; tab. Qed.
Lemma pin_lform f : fixes (name_of label_forms f) (show_form f).
Proof. destruct f; apply pin_name; try exact sv_forms; tab. Qed.
Lemma pin_lside f : fixes (name_of label_sides f) (show_lside f).
Proof. destruct f; apply pin_name; try exact sv_sides; tab. Qed.
Lemma pin_wtype f : fixes (name_of wire_names f) (show_wire_type f).
Proof. destruct f; apply pin_name; try exact sv_wires; tab. Qed.
Lemma pin_ttype f : fixes (name_of text_kinds f) (show_text_type f).
Proof. destruct f; apply pin_name; try exact sv_texts; tab. Qed.
Lemma pin_fill f : fixes (name_of fills f) (show_fill f).
Proof. destruct f; apply pin_name; try exact sv_fills; tab. Qed.
Lemma pin_po f : fixes (name_of pin_orientations f) (show_pin_orientation f).
Proof. destruct f; apply pin_name; try exact sv_pos; tab. Qed.
Lemma pin_pt f : fixes (name_of pin_types f) (show_pin_type f).
Proof. destruct f; apply pin_name; try exact sv_types; tab. Qed.
Lemma pin_ps f : fixes (name_of pin_shapes f) (show_pin_shape f).
Proof. destruct f; try (apply pin_name; [tab|exact sv_shapes]); exact (pin_name pin_shapes PSLine "" ltac:(tab) sv_shapes). Qed.
Lemma pin_yes a b x : fixes (name_of (yes_no a b) x) (lit (if x then a else b)).
Proof. destruct x; apply pin_name; try apply sv_yes; tab. Qed.
Lemma pin_on a b x : fixes (letter (on_off a b) x) [if x then a else b].
Proof. destruct x; apply pin_letter; try apply sv_on; tab. Qed.
Lemma pin_vis x : fixes (name_of [("0000", true); ("0001", false)] x) (lit (if x then "0000" else "0001")).
Proof. destruct x; apply pin_name; try apply sv_vis; tab. Qed.
Lemma pin_ital x : fixes (name_of [("Italic", true); ("~", false)] x) (lit (if x then "Italic" else "~")).
Proof. destruct x; apply pin_name; try apply sv_ital; tab. Qed.
