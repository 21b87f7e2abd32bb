(** Proofs: the outcome of the automatic fixes (C79). *)
From Coq Require Import String Lia.
From Verif Require Import Base Str StrFacts Num F64 F64Facts F64Text FpData FpLayer FpOps FpOpsSpec FpOpsFacts FpEqFacts Bound SymData CheckFix SymCheck FpCheck
  CheckSpec CheckFacts FixFacts ReportFacts RuleSpec RuleFacts.
Open Scope string_scope. Open Scope list_scope.

(** ** The specification determines the outcome *)
Lemma ruled_fun c n t a b : text_frame t a -> as_ruled c n a -> text_frame t b -> as_ruled c n b -> a = b.
Proof.
  destruct a as [an av aa [as_ al] [[[ax ay at_] ath ai] aj] ah], b as [bn bv ba [bs bl] [[[bx by_ bt] bth bi] bj] bh].
  unfold text_frame, as_ruled. cbn [tx_name tx_value tx_at tx_layer tx_effects tx_hide la_side la_t ef_font ef_justify fo_size fo_thickness fo_italic xy_x xy_y xy_t].
  intros (A1 & A2 & A3 & A4 & A5 & A6) (A7 & A8 & A9 & A10 & A11 & A12) (B1 & B2 & B3 & B4 & B5 & B6) (B7 & B8 & B9 & B10 & B11 & B12).
  subst. reflexivity.
Qed.
Lemma first_fun l k t t' : first_text l k t -> first_text l k t' -> t = t'.
Proof. intros (A & _) (B & _). rewrite A in B. now injection B. Qed.
Lemma nth_ext_some {A} (l l' : list A) : length l = length l' ->
  (forall k a b, nth_error l k = Some a -> nth_error l' k = Some b -> a = b) -> l = l'.
Proof.
  revert l'. induction l as [|x l IH]; intros [|y l'] L H; try discriminate; [reflexivity|].
  f_equal; [exact (H 0%nat x y eq_refl eq_refl)|]. apply IH; [now injection L|]. intros k a b P Q. exact (H (S k) a b P Q).
Qed.
Lemma places_fun c m a b : places_fixed c m a -> places_fixed c m b -> a = b.
Proof.
  intros (La & A) (Lb & B). apply nth_ext_some; [now rewrite La, Lb|]. intros k x y P Q.
  assert (K : (k < length (m_elements m))%nat) by (rewrite <- La; apply nth_error_Some; congruence).
  destruct (nth_error (m_elements m) k) as [e|] eqn:E; [|apply nth_error_None in E; lia].
  destruct (A k e x E P) as [(t & t' & F & -> & T & R)|[N ->]], (B k e y E Q) as [(u & u' & F2 & -> & T2 & R2)|[N2 ->]].
  - rewrite (first_fun _ _ _ _ F2 F) in T2. now rewrite (ruled_fun c (m_name m) t t' u' T R T2 R2).
  - destruct (N2 _ F).
  - destruct (N _ F2).
  - reflexivity.
Qed.
Lemma holds_fun P (Q : list element -> Prop) a b : (forall x y, Q x -> Q y -> x = y) -> if_holds P Q a -> if_holds P Q b -> a = b.
Proof. intros H [[A X]|[A ->]] [[B Y]|[B ->]]; auto; contradiction. Qed.
Lemma margin_fun m a b : margin m a -> margin m b -> a = b.
Proof. unfold margin. cbv zeta. intros [(A & ->)|[(A & A2 & ->)|(A & A2 & ->)]] [(B & ->)|[(B & B2 & ->)|(B & B2 & ->)]]; try reflexivity; contradiction. Qed.
Lemma line_fun x1 y1 x2 y2 ly w a b : segment x1 y1 x2 y2 a -> segment x1 y1 x2 y2 b ->
  li_layer a = ly /\ li_width a = w /\ xy_t (li_start a) = XStart /\ xy_t (li_end a) = XEnd ->
  li_layer b = ly /\ li_width b = w /\ xy_t (li_start b) = XStart /\ xy_t (li_end b) = XEnd -> a = b.
Proof.
  destruct a as [[a1 a2 a3] [a4 a5 a6] a7 a8], b as [[b1 b2 b3] [b4 b5 b6] b7 b8]. unfold segment, corner.
  cbn [li_start li_end li_layer li_width xy_x xy_y xy_t]. intros ((A1 & A2) & A3 & A4) ((B1 & B2) & B3 & B4) (A5 & A6 & A7 & A8) (B5 & B6 & B7 & B8). subst. reflexivity.
Qed.
Lemma yard_fun m a b : yard m a -> yard m b -> a = b.
Proof.
  intros (o & M & A) (o' & M' & B). rewrite (margin_fun m o' o M' M) in B. cbv zeta in A, B. destruct A as [(a1 & a2 & a3 & a4 & -> & A1 & A2 & A3 & A4) FA], B as [(b1 & b2 & b3 & b4 & -> & B1 & B2 & B3 & B4) FB].
  inversion FA as [|? ? P1 FA1]; subst. inversion FA1 as [|? ? P2 FA2]; subst. inversion FA2 as [|? ? P3 FA3]; subst. inversion FA3 as [|? ? P4 FA4]; subst.
  inversion FB as [|? ? Q1 FB1]; subst. inversion FB1 as [|? ? Q2 FB2]; subst. inversion FB2 as [|? ? Q3 FB3]; subst. inversion FB3 as [|? ? Q4 FB4]; subst.
  rewrite (line_fun _ _ _ _ _ _ a1 b1 A1 B1 P1 Q1), (line_fun _ _ _ _ _ _ a2 b2 A2 B2 P2 Q2), (line_fun _ _ _ _ _ _ a3 b3 A3 B3 P3 Q3), (line_fun _ _ _ _ _ _ a4 b4 A4 B4 P4 Q4).
  reflexivity.
Qed.
Lemma fixed_fun c m x y : fixed_as c m x -> fixed_as c m y -> x = y.
Proof.
  intros (N & o & a & b & d & E & O & A & B & D) (N' & o' & a' & b' & d' & E' & O' & A' & B' & D').
  destruct x as [xn xl], y as [yn yl]. cbn [m_name m_elements] in *. subst xn yn xl yl.
  rewrite (places_fun c m o' o O' O).
  assert (Ea : a' = a) by (eapply holds_fun; [|exact A'|exact A]; intros x y -> ->; reflexivity).
  assert (Eb : b' = b) by (eapply holds_fun; [|exact B'|exact B]; intros x y -> ->; reflexivity).
  assert (Ed : d' = d).
  { eapply holds_fun; [|exact D'|exact D]. intros x y (ls & Y & ->) (ls' & Y' & ->). now rewrite (yard_fun m ls ls' Y Y'). }
  now rewrite Ea, Eb, Ed.
Qed.

(** ** The fix does what is specified *)
Lemma l15 : flit "0.15" = f64_of_dec 15 (-2). Proof. apply fsame_eq. vm_compute. reflexivity. Qed.
Lemma l1 : flit "0.1" = f64_of_dec 1 (-1). Proof. apply fsame_eq. vm_compute. reflexivity. Qed.
Lemma l25 : flit "0.25" = f64_of_dec 25 (-2). Proof. apply fsame_eq. vm_compute. reflexivity. Qed.
Lemma l2 : flit "2.0" = f64_of_Z 2. Proof. apply fsame_eq. vm_compute. reflexivity. Qed.
Lemma l05 : flit "0.05" = f64_of_dec 5 (-2). Proof. apply fsame_eq. vm_compute. reflexivity. Qed.
Lemma offset_margin m : margin m (courtyard_offset m (module_bound m)).
Proof.
  unfold margin, courtyard_offset. cbv zeta. rewrite l15, l1, l25, l2.
  generalize (fltb (bound_width (module_bound m)) (f64_of_Z 2)) (fltb (bound_height (module_bound m)) (f64_of_Z 2)) (f64_of_dec 15 (-2)) (f64_of_dec 1 (-1)) (f64_of_dec 25 (-2)).
  intros p q u v w. pose proof (starts_with_iff (lit "BGA") (m_name m)) as S.
  destruct p, q; cbn [andb]; [left; split; [split; reflexivity|reflexivity]|right..].
  all: destruct (starts_with (lit "BGA") (m_name m)); [left|right]; (split; [intros [X Y]; discriminate|]); (split; [|reflexivity]).
  all: try (apply S; reflexivity).
  all: intros X; apply S in X; discriminate.
Qed.
Lemma courtyard_yard m : yard m (courtyard m).
Proof.
  exists (courtyard_offset m (module_bound m)). split; [apply offset_margin|]. cbv zeta. unfold courtyard.
  destruct (module_at m) as [x y]. cbv zeta. cbn [fst snd]. rewrite l05. generalize (courtyard_offset m (module_bound m)) (f64_of_dec 5 (-2)). intros o w.
  set (X1 := fsub (fmin _ _) o) at 1. set (Y1 := fsub (fmin _ (fsub (by2 _) _)) o). set (X2 := fadd (fmax _ _) o) at 1. set (Y2 := fadd (fmax _ (fsub (by2 _) _)) o).
  split.
  - eexists. eexists. eexists. eexists. split; [reflexivity|]. unfold segment, corner, line_make. cbn [li_start li_end xy_x xy_y].
    split; [split; (split; reflexivity)|]. split; [split; (split; reflexivity)|]. split; [split; (split; reflexivity)|]. split; (split; reflexivity).
  - repeat apply Forall_cons; [..|apply Forall_nil]; (split; [reflexivity|]; split; [reflexivity|]; split; reflexivity).
Qed.
Lemma named_dec w e : text_named w e \/ ~ text_named w e.
Proof.
  destruct e; try (right; intros (t0 & H & _); discriminate).
  destruct (str_eqb (tx_name t) w) eqn:E; [left; exists t; split; [reflexivity|now apply str_eqb_eq]|].
  right. intros (t0 & H & W). injection H as <-. rewrite W, str_eqb_refl in E. discriminate.
Qed.
Lemma before_dec w l k : (forall j e, (j < k)%nat -> nth_error l j = Some e -> ~ text_named w e) \/
  ~ (forall j e, (j < k)%nat -> nth_error l j = Some e -> ~ text_named w e).
Proof.
  revert k. induction l as [|x l IH]; intros k.
  - left. intros [|j] e _ H; discriminate.
  - destruct k as [|k]; [left; intros; lia|]. destruct (named_dec w x) as [N|N].
    + right. intros H. exact (H 0%nat x (Nat.lt_0_succ k) eq_refl N).
    + destruct (IH k) as [Y|Y].
      * left. intros [|j] e L H; [injection H as <-; exact N|]. apply (Y j e); [lia|exact H].
      * right. intros H. apply Y. intros j e L Q. apply (H (S j) e); [lia|exact Q].
Qed.
Lemma first_dec l k : (exists t, first_text l k t) \/ forall t, ~ first_text l k t.
Proof.
  destruct (nth_error l k) as [e|] eqn:E; [|right; intros t (H & _); congruence].
  destruct e; try (right; intros t0 (H & _); congruence).
  destruct (in_dec (list_eq_dec N.eq_dec) (tx_name t) fixable) as [I|I]; [|right; intros t0 (H & J & _); rewrite E in H; injection H as <-; contradiction].
  destruct (before_dec (tx_name t) l k) as [B|B].
  - left. exists t. split; [exact E|]. split; [exact I|exact B].
  - right. intros t0 (H & _ & J). rewrite E in H. injection H as <-. contradiction.
Qed.
Lemma find_at w l k t : nth_error l k = Some (EFpText t) -> tx_name t = w ->
  (forall j e, (j < k)%nat -> nth_error l j = Some e -> ~ text_named w e) -> find_text w l = Some t.
Proof.
  intros H W B. apply find_text_spec. apply nth_error_split in H as (l1 & l2 & -> & L). exists l1, l2. split; [reflexivity|]. split; [exact W|].
  intros e I. apply In_nth_error in I as (j & J). apply (B j e).
  - rewrite <- L. apply nth_error_Some. congruence.
  - rewrite nth_error_app1; [exact J|]. apply nth_error_Some. congruence.
Qed.
Lemma frame_refl t : text_frame t t. Proof. unfold text_frame. auto 10. Qed.
Lemma ruled_R c n t : tx_name t = lit "reference" -> as_ruled c n (fR c t).
Proof. intros E. unfold as_ruled, fR. cbn [fix_text tx_name tx_value tx_layer tx_hide tx_effects la_t ef_font fo_size fo_thickness xy_x xy_y]. rewrite E. auto 10. Qed.
Lemma ruled_V c n t : tx_name t = lit "value" -> as_ruled c n (fV c n t).
Proof. intros E. unfold as_ruled, fV. cbn [fix_text tx_name tx_value tx_layer tx_hide tx_effects la_t ef_font fo_size fo_thickness xy_x xy_y]. rewrite E. auto 10. Qed.
Lemma ruled_U c n t : tx_name t = lit "user" -> as_ruled c n (fU c t).
Proof. intros E. unfold as_ruled, fU. cbn [fix_text tx_name tx_value tx_layer tx_hide tx_effects la_t ef_font fo_size fo_thickness xy_x xy_y]. rewrite E. auto 10. Qed.
(** A first text that is as it was is as the rules want it. *)
Lemma first_ruled c m m' k t : fp_fix c m = Ok m' -> first_text (m_elements m) k t -> nth_error (m_elements m') k = Some (EFpText t) ->
  as_ruled c (m_name m) t.
Proof.
  intros H (E & I & B) E'. destruct (fix_elements c m m' H) as (K & _). destruct (fix_finds c m m' H) as (_ & R & V & u & U).
  assert (F : find_text (tx_name t) (m_elements m') = Some t).
  { apply (find_at _ _ k); [exact E'|reflexivity|]. intros j e' L J (t' & -> & W).
    assert (Lk : (j < length (m_elements m))%nat) by (apply Nat.lt_trans with k; [exact L|apply nth_error_Some; congruence]).
    destruct (nth_error (m_elements m) j) as [e|] eqn:Q; [|apply nth_error_None in Q; lia].
    destruct (K j e Q) as [S|(s & s' & _ & -> & S & (N & _) & _)]; rewrite J in S; injection S as S.
    - apply (B j e L Q). exists t'. split; [now symmetry|exact W].
    - apply (B j (EFpText s) L Q). exists s. split; [reflexivity|]. rewrite <- N, <- S. exact W. }
  unfold get_text in R, V, U. cbn [fixable map In] in I. destruct I as [I|[I|[I|[]]]]; symmetry in I.
  - assert (R' : Some t = option_map (fR c) (find_text (lit "reference") (m_elements m))) by (rewrite <- R, <- I; now symmetry).
    destruct (find_text (lit "reference") (m_elements m)) as [s|]; [|discriminate]. injection R' as ->. apply ruled_R. exact I.
  - assert (R' : Some t = option_map (fV c (m_name m)) (find_text (lit "value") (m_elements m))) by (rewrite <- V, <- I; now symmetry).
    destruct (find_text (lit "value") (m_elements m)) as [s|]; [|discriminate]. injection R' as ->. apply ruled_V. exact I.
  - assert (R' : Some t = Some (fU c u)) by (rewrite <- U, <- I; now symmetry). injection R' as ->. apply ruled_U. exact I.
Qed.
Lemma fix_is c m m' : fp_fix c m = Ok m' -> fixed_as c m m'.
Proof.
  intros H. pose proof (fix_elements c m m' H) as (K & _). destruct (fix_stages c m) as (l1 & l2 & l4 & T1 & T2 & T3 & _ & _ & _ & E).
  assert (M : m' = mk_module (m_name m) (l4 ++ attr_of m ++ court_of m)) by (rewrite E in H; now injection H).
  assert (Em : m_elements m' = l4 ++ attr_of m ++ court_of m) by now rewrite M.
  destruct T1 as (L1 & _). destruct T2 as (L2 & _). destruct T3 as (L3 & _ & _ & _ & K3). rewrite app_length in L3.
  split; [now rewrite M|]. set (n := length (m_elements m)) in *.
  exists (firstn n l4), (skipn n l4), (attr_of m), (court_of m).
  split; [rewrite Em, (app_assoc (firstn n l4)), firstn_skipn; reflexivity|].
  assert (Ln : (n <= length l4)%nat) by lia.
  split.
  - split; [rewrite firstn_length; lia|]. intros k e e' Q Q'.
    assert (Lk : (k < n)%nat) by (apply nth_error_Some; congruence).
    assert (G : nth_error (m_elements m') k = Some e').
    { rewrite Em, <- (firstn_skipn n l4), <- app_assoc, nth_error_app1; [exact Q'|]. rewrite firstn_length. lia. }
    destruct (first_dec (m_elements m) k) as [(t & F)|N].
    + left. destruct (K k e Q) as [S|(s & s' & F' & _ & S & Fr & Ru)]; rewrite G in S; injection S as ->.
      * assert (e = EFpText t) as -> by (destruct F as (F & _); congruence).
        exists t, t. split; [exact F|]. split; [reflexivity|]. split; [apply frame_refl|]. exact (first_ruled c m m' k t H F G).
      * exists s, s'. split; [exact F'|]. split; [reflexivity|]. split; [exact Fr|exact Ru].
    + right. split; [exact N|]. destruct (K k e Q) as [S|(s & s' & F' & _)]; [rewrite G in S; now injection S|destruct (N s F')].
  - assert (No : find_text (lit "user") (m_elements m) = None <-> no_text m "user") by apply (no_text_spec m "user").
    split; [|split].
    + unfold if_holds. rewrite <- No. unfold ref2_of in *. destruct (find_text (lit "user") (m_elements m)) as [t|].
      * right. split; [discriminate|]. apply skipn_all2. cbn in L3. lia.
      * left. split; [reflexivity|]. cbn [length] in L3.
        assert (X : nth_error (l2 ++ [EFpText (new_ref2 c)]) n = Some (EFpText (new_ref2 c))).
        { rewrite nth_error_app2 by lia. replace (n - length l2)%nat with 0%nat by lia. reflexivity. }
        assert (Y : nth_error l4 n = Some (EFpText (label c))).
        { destruct (K3 n _ X) as [S|(t & Et & _ & S & _)]; [exact S|]. injection Et as <-. exact S. }
        apply nth_error_split in Y as (a & b & -> & La). rewrite app_length in L3. cbn [length] in L3.
        rewrite <- La, skipn_app, skipn_all, Nat.sub_diag. destruct b; [reflexivity|cbn [length] in L3; lia].
    + unfold if_holds, attr_of. rewrite <- lone_spec. destruct (smd_only m && negb (has_smd_attr m))%bool; [left; split; reflexivity|right; split; [discriminate|reflexivity]].
    + unfold if_holds, court_of. rewrite courtyard_list_spec. destruct (Nat.ltb_spec (courtyard_lines m) 4) as [Q|Q].
      * left. split; [exact Q|]. exists (courtyard m). split; [apply courtyard_yard|reflexivity].
      * right. split; [lia|reflexivity].
Qed.
Lemma fix_iff c m m' : fp_fix c m = Ok m' <-> fixed_as c m m'.
Proof.
  split; [apply fix_is|]. intros H. destruct (fix_total c m) as (x & X). rewrite X. f_equal. apply (fixed_fun c m); [now apply fix_is|exact H].
Qed.
Lemma fixed_one c m : exists m', fixed_as c m m' /\ forall x, fixed_as c m x -> x = m'.
Proof. destruct (fix_total c m) as (x & X). exists x. apply fix_is in X. split; [exact X|]. intros y Y. exact (fixed_fun c m y x Y X). Qed.
