(** Symbol libraries and schematics that were cut short. *)
From Coq Require Import String Lia.
From Verif Require Import Base Str StrFacts SexpFacts Num F64 SchData SchParse SymData SymParse LibFns LibSpec CutSpec CutFacts SchReadSpec SchReadFacts SymReadSpec SymReadFacts SpellSpec TornSpec.
Open Scope string_scope. Open Scope list_scope.

(** ** The lines of a beginning *)
(** All lines but some last ones, of which the first may be left in part *)
Inductive lines_left : list str -> list str -> Prop :=
| ll_all ls : lines_left ls ls
| ll_none ls : lines_left [] ls
| ll_part c e ls : beginning c e -> lines_left [c] (e :: ls)
| ll_more e a b : lines_left a b -> lines_left (e :: a) (e :: b).
Lemma begin_refl p : beginning p p.
Proof. exists []. symmetry. apply app_nil_r. Qed.
Lemma no_lines v : text_lines [] v -> v = [].
Proof. intros H. apply lines_iff in H. now rewrite <- H. Qed.
Lemma one_front p q : one_line (p ++ q) = true -> one_line p = true.
Proof. unfold one_line. rewrite forallb_app. intros H. apply andb_prop in H. exact (proj1 H). Qed.
Lemma left_lines t ls p ls' : text_lines t ls -> beginning p t -> text_lines p ls' -> lines_left ls' ls.
Proof.
  intros T. revert p ls'. induction T as [|l k N O C|l k s v O C T IH]; intros p ls' [q E] P.
  - symmetry in E. apply app_eq_nil in E as [-> _]. rewrite (no_lines _ P). constructor.
  - assert (OP : one_line p = true) by (rewrite E in O; exact (one_front _ _ O)).
    inversion P as [|l0 k0 N0 O0 C0|l0 k0 s0 v0 O0 C0 T0]; subst.
    + constructor.
    + apply ll_part. destruct q as [|d q].
      * rewrite app_nil_r in C. destruct C as [A|[A A2]], C0 as [B|[B B2]].
        -- rewrite A in B. apply app_inj_tail in B as [-> _]. apply begin_refl.
        -- exfalso. subst k0. exact (B2 _ A).
        -- exfalso. subst k. exact (A2 _ B).
        -- rewrite <- A, <- B. apply begin_refl.
      * assert (KP : exists r, p = k0 ++ r) by (destruct C0 as [->|[-> _]]; [now exists [13%N]|exists []; now rewrite app_nil_r]). destruct KP as [r ->].
        destruct C as [A|[A _]]; [|exists (r ++ d :: q); subst k; now rewrite app_assoc].
        destruct (exists_last (l := d :: q)) as (m & x & M); [discriminate|]. rewrite M, app_assoc in A. apply app_inj_tail in A as [A _]. exists (r ++ m). now rewrite <- A, app_assoc.
    + exfalso. unfold one_line in OP. rewrite forallb_app in OP. cbn in OP. rewrite Bool.andb_false_r in OP. discriminate OP.
  - destruct (Nat.le_gt_cases (length p) (length l)) as [L|L].
    + (* inside the first line *)
      assert (X : exists m, l = p ++ m).
      { assert (F : firstn (length p) (l ++ 10%N :: s) = p) by (rewrite E, firstn_app, firstn_all, Nat.sub_diag; cbn [firstn]; apply app_nil_r).
        rewrite firstn_app in F. replace (length p - length l)%nat with 0%nat in F by lia. cbn [firstn] in F. rewrite app_nil_r in F.
        exists (skipn (length p) l). rewrite <- F at 1. symmetry. apply firstn_skipn. }
      destruct X as [m X]. destruct p as [|x p]; [rewrite (no_lines _ P); constructor|].
      assert (OP : one_line (x :: p) = true) by (rewrite X in O; exact (one_front _ _ O)).
      assert (P' : exists k0, ls' = [k0] /\ without_cr (x :: p) k0).
      { destruct (cr_total (x :: p)) as [k0 K0]. exists k0. split; [|exact K0]. assert (Q : text_lines (x :: p) [k0]) by (constructor; [discriminate|exact OP|exact K0]).
        apply lines_iff in Q. apply lines_iff in P. congruence. }
      set (p' := x :: p) in *.
      destruct P' as (k0 & -> & C0). apply ll_part. clear P IH T E.
      assert (KP : exists r, p' = k0 ++ r) by (destruct C0 as [->|[-> _]]; [now exists [13%N]|exists []; now rewrite app_nil_r]). destruct KP as [r KP]. 
      destruct m as [|d m].
      * rewrite app_nil_r in X. subst l. destruct C as [A|[A A2]], C0 as [B|[B B2]].
        -- rewrite A in B. apply app_inj_tail in B as [-> _]. apply begin_refl.
        -- exfalso. exact (B2 _ A).
        -- exfalso. exact (A2 _ B).
        -- rewrite <- A, <- B. apply begin_refl.
      * rewrite KP in X. destruct C as [A|[A _]]; [|exists (r ++ d :: m); rewrite <- A, X; now rewrite app_assoc].
        destruct (exists_last (l := d :: m)) as (m' & y & M); [discriminate|]. rewrite A, M, app_assoc in X. apply app_inj_tail in X as [X _]. exists (r ++ m'). now rewrite X, app_assoc.
    + (* past the first line *)
      assert (X : exists p', p = l ++ 10%N :: p' /\ beginning p' s).
      { assert (F : skipn (length l) (l ++ 10%N :: s) = skipn (length l) p ++ q) by (rewrite E, skipn_app; replace (length l - length p)%nat with 0%nat by lia; reflexivity).
        assert (G : firstn (length l) (l ++ 10%N :: s) = firstn (length l) p) by (rewrite E, firstn_app; replace (length l - length p)%nat with 0%nat by lia; apply app_nil_r).
        rewrite skipn_app, skipn_all, Nat.sub_diag in F. rewrite firstn_app, firstn_all, Nat.sub_diag in G. cbn [firstn skipn app] in F, G. rewrite app_nil_r in G.
        destruct (skipn (length l) p) as [|c p'] eqn:K; [exfalso; assert (Z0 : length (skipn (length l) p) = 0%nat) by (rewrite K; reflexivity); rewrite skipn_length in Z0; lia|].
        cbn [app] in F. injection F as <- F. exists p'. split; [|now exists q]. rewrite <- (firstn_skipn (length l) p), K, <- G. reflexivity. }
      destruct X as (p' & -> & B). destruct (lines_total p') as [v' V].
      assert (Q : text_lines (l ++ 10%N :: p') (k :: v')) by now constructor. apply lines_iff in Q. apply lines_iff in P. rewrite Q in P. subst ls'. apply ll_more. exact (IH _ _ B V).
Qed.

Lemma left_app a b x : lines_left x (a ++ b) -> (exists y, x = a ++ y /\ lines_left y b) \/ (exists a' e a'' y, a = a' ++ e :: a'' /\ x = a' ++ y /\ (y = [] \/ exists c, y = [c] /\ beginning c e)).
Proof.
  revert x. induction a as [|e a IH]; intros x H; [left; now exists x|]. cbn [app] in H. inversion H; subst.
  - left. exists b. split; [reflexivity|constructor].
  - right. exists [], e, a, []. auto.
  - right. exists [], e, a, [c]. split; [reflexivity|split; [reflexivity|]]. right. now exists c.
  - match goal with L : lines_left _ (a ++ b) |- _ => apply IH in L as [(y & -> & L)|(a' & e' & a'' & y & -> & -> & K)] end.
    + left. now exists y.
    + right. exists (e :: a'), e', a'', y. auto.
Qed.

(** ** Symbol libraries *)
Lemma symbol_last l y : symbol_text l y -> exists x, l = x ++ [lit "#"].
Proof.
  intros H. destruct H. exists (a :: lit "#" :: d :: fl ++ fp ++ al ++ lit "DRAW" :: dl ++ [lit "ENDDRAW"; lit "ENDDEF"]). cbn [app]. f_equal. f_equal. f_equal.
  rewrite <- !app_assoc. cbn [app]. rewrite <- app_assoc. reflexivity.
Qed.
Lemma symbol_long l y : symbol_text l y -> (2 <= length l)%nat.
Proof. intros H. destruct H. cbn [length]. lia. Qed.
(** Another last line is refused. *)
Lemma symbol_but x y e q : symbol_text (x ++ [lit "#"]) y -> e <> lit "#" -> forall z, parse_symbol (x ++ e :: q) <> Ok z.
Proof.
  intros H NE z. remember (x ++ [lit "#"]) as l eqn:EL. destruct H as [a d v fl fp al dl y W L A0 A1 A2 A4 (k5 & A5 & I5) (k6 & A6 & I6) A7 (k8 & A8 & I8) (k9 & A9 & I9) F FP AL DD DN].
  assert (X : x = a :: lit "#" :: d :: fl ++ fp ++ al ++ lit "DRAW" :: dl ++ [lit "ENDDRAW"; lit "ENDDEF"]).
  { symmetry. apply (app_inj_tail _ _ (lit "#") (lit "#")). rewrite <- EL. cbn [app]. f_equal. f_equal. f_equal. rewrite <- !app_assoc. cbn [app]. rewrite <- app_assoc. reflexivity. }
  clear EL. subst x.
  assert (E : (a :: lit "#" :: d :: fl ++ fp ++ al ++ lit "DRAW" :: dl ++ [lit "ENDDRAW"; lit "ENDDEF"]) ++ e :: q =
    a :: lit "#" :: d :: fl ++ fp ++ al ++ lit "DRAW" :: dl ++ lit "ENDDRAW" :: lit "ENDDEF" :: e :: q).
  { cbn [app]. f_equal. f_equal. f_equal. rewrite <- !app_assoc. cbn [app]. rewrite <- app_assoc. reflexivity. }
  rewrite E. clear E. unfold parse_symbol. cbn [next tl]. rewrite (proj2 (assume_line_iff _ _ _) eq_refl). cbn [bind here next tl]. opened.
  assert (B5 : bool_from_string (lit k5) "Y" "N" = Ok (sy_pinnumber y)) by (apply yes_no_iff; [discriminate|eauto]).
  assert (B6 : bool_from_string (lit k6) "Y" "N" = Ok (sy_pinname y)) by (apply yes_no_iff; [discriminate|eauto]).
  assert (B8 : bool_from_string (lit k8) "L" "F" = Ok (sy_unit_locked y)) by (apply yes_no_iff; [discriminate|eauto]).
  assert (B9 : bool_from_string (lit k9) "P" "N" = Ok (sy_is_power y)) by (apply yes_no_iff; [discriminate|eauto]).
  run. rewrite L. cbn [Nat.eqb negb]. run. rewrite (proj2 (assume_iff _ _) eq_refl). run. rewrite B5. run. rewrite B6. run. rewrite B8. run. rewrite B9. run.
  set (tail := al ++ lit "DRAW" :: dl ++ lit "ENDDRAW" :: lit "ENDDEF" :: e :: q).
  assert (G : exists c t r, fp ++ tail = (c :: t) :: r /\ c <> 70%N /\
    (if seq (c :: t) "$FPLIST" then skip_fplist r else (c :: t) :: r) = tail).
  { destruct FP as [|m N].
    - destruct (draw_head _ _ (dl ++ lit "ENDDRAW" :: lit "ENDDEF" :: e :: q) AL) as (c & t & r & E & C & T). fold tail in E. exists c, t, r. cbn [app].
      split; [exact E|split; [exact C|]]. rewrite (proj2 (seq_no _ _) T). now rewrite E.
    - exists 36%N, (lit "FPLIST"), (m ++ lit "$ENDFPLIST" :: tail). split; [cbn [app]; now rewrite <- app_assoc|split; [discriminate|]].
      change (36%N :: lit "FPLIST") with (lit "$FPLIST"). rewrite (proj2 (seq_iff _ _) eq_refl). now apply skip_bw. }
  destruct G as (c & t & r & E & C & G). rewrite E. rewrite (fields_bw _ _ _ _ _ _ F C). cbn [bind app here next tl]. rewrite G.
  unfold tail. rewrite (aliases_bw _ _ _ AL). cbn [bind]. rewrite (proj2 (assume_line_iff _ _ _) eq_refl). cbn [bind].
  rewrite (draws_bw _ _ _ _ DD DN). cbn [bind app]. rewrite (proj2 (assume_line_iff _ _ _) eq_refl). cbn [bind].
  destruct (assume_line (e :: q) "#") as [p8| |] eqn:A; cbn [bind]; try discriminate. apply assume_line_iff in A. injection A as A _. now destruct NE.
Qed.
Lemma symbol_end x y e z y' : symbol_text (x ++ [lit "#"]) y -> symbol_text (x ++ e :: z) y' -> e = lit "#" /\ z = [] /\ y = y'.
Proof.
  intros A B. pose proof (symbol_bw _ _ [] B) as P. rewrite app_nil_r in P.
  destruct (list_eq_dec N.eq_dec e (lit "#")) as [->|NE].
  - pose proof (symbol_bw _ _ z A) as Q. rewrite <- app_assoc in Q. cbn [app] in Q. rewrite P in Q. now injection Q as -> <-.
  - destruct (symbol_but _ _ e z A NE _ P).
Qed.
Lemma symbols_inv a y b l : symbol_text a y -> hd_error a <> Some (lit "#End Library") -> symbols_text (a ++ b) l -> exists l', l = y :: l' /\ symbols_text b l'.
Proof.
  intros A H S. remember (a ++ b) as x eqn:X. destruct S as [|r|a' y' r ys A' H' S].
  - destruct a; [pose proof (symbol_long _ _ A); cbn in *; lia|discriminate X].
  - destruct a; [pose proof (symbol_long _ _ A); cbn in *; lia|]. exfalso. apply H. cbn [app] in X. exact (f_equal (@hd_error _) (eq_sym X)).
  - pose proof (symbol_bw _ _ b A) as P. pose proof (symbol_bw _ _ r A') as Q. rewrite X, P in Q. injection Q as -> ->. now exists ys.
Qed.
Lemma left_symbols ls l : symbols_text ls l -> forall ls' l', lines_left ls' ls -> symbols_text ls' l' -> first_of l' l.
Proof.
  intros H. induction H as [|r|a y r ys A NE S IH]; intros ls' l' L S'.
  - inversion L; subst; inversion S'; subst; try (now exists []); try (match goal with X : symbol_text _ _ |- _ => pose proof (symbol_long _ _ X) end; destruct l; [cbn in *; lia|discriminate]).
  - assert (l' = []) as ->; [|now exists []]. destruct S' as [|r'|a' y' r' ys' A' NE' S']; [reflexivity|reflexivity|exfalso].
    pose proof (symbol_long _ _ A') as LL. destruct a' as [|e [|e2 a']]; [cbn in LL; lia|cbn in LL; lia|]. cbn [app hd_error] in *. inversion L; subst; now apply NE'.
  - apply left_app in L as [(x & -> & L)|(a' & e & a'' & x & E & -> & K)].
    + apply (symbols_inv a y) in S'; [|exact A|exact NE]. destruct S' as (l2 & -> & S'). destruct (IH _ _ L S') as [b ->]. now exists b.
    + remember (a' ++ x) as z eqn:Z. destruct S' as [|r'|b y' r' ys' A' NE' S']; [now eexists|now eexists|].
      pose proof (symbol_long _ _ A') as LL. destruct (symbol_last _ _ A') as [b' B]. 
      assert (X : exists e' z', a = b' ++ e' :: z' /\ (e' = lit "#" -> b ++ r' = b ++ skipn (length b) (a' ++ x))).
      { assert (LB : (length b' < length a)%nat).
        { assert (length (b ++ r') = length (a' ++ x)) by now rewrite Z. rewrite B, !app_length in H. cbn [length] in H. rewrite E, app_length. cbn [length]. destruct K as [->|(c & -> & _)]; cbn [length] in H; lia. }
        assert (FB : firstn (length b') a = b').
        { assert (F : firstn (length b') (b ++ r') = b') by (rewrite B, <- app_assoc, firstn_app, firstn_all, Nat.sub_diag; apply app_nil_r).
          rewrite Z in F. assert (LA : (length b' <= length a')%nat).
          { assert (length (b ++ r') = length (a' ++ x)) by now rewrite Z. rewrite B, !app_length in H. cbn [length] in H. destruct K as [->|(c & -> & _)]; cbn [length] in H; lia. }
          rewrite firstn_app in F. replace (length b' - length a')%nat with 0%nat in F by lia. cbn [firstn] in F. rewrite app_nil_r in F.
          rewrite E, firstn_app. replace (length b' - length a')%nat with 0%nat by lia. cbn [firstn]. now rewrite app_nil_r. }
        destruct (skipn (length b') a) as [|e' z'] eqn:SK; [assert (Z0 : length (skipn (length b') a) = 0%nat) by (rewrite SK; reflexivity); rewrite skipn_length in Z0; lia|].
        exists e', z'. split; [rewrite <- FB at 1; rewrite <- SK; symmetry; apply firstn_skipn|]. intros _. rewrite <- Z, skipn_app, skipn_all, Nat.sub_diag. reflexivity. }
      destruct X as (e' & z' & X & _). rewrite B in A'. rewrite X in A. destruct (symbol_end _ _ _ _ _ A' A) as (-> & -> & ->).
      (* all of the symbol is left, and nothing more *)
      assert (R : r' = []).
      { assert (length (b ++ r') = length (a' ++ x)) by now rewrite Z. assert (length a = length b) by now rewrite X, B. rewrite !app_length in H. rewrite E, app_length in H0. cbn [length] in H0.
        assert (length x <= 1)%nat by (destruct K as [->|(c & -> & _)]; cbn; lia). destruct r'; [reflexivity|cbn [length] in H; lia]. }
      subst r'. inversion S' as [| |q1 q2 q3 q4 Q1 Q2 Q3 Q4]; subst; [now eexists|]. pose proof (symbol_long _ _ Q1). destruct q1; [cbn in *; lia|discriminate].
Qed.
Lemma left_head e1 a l1 : lines_left a (e1 :: l1) -> forall x y, a = x :: y -> y <> [] -> x = e1 /\ lines_left y l1.
Proof. intros L x y -> N. inversion L; subst; try contradiction; split; auto; constructor. Qed.
Lemma torn_library t p l l' : parse_symbol_lib t = Ok l -> beginning p t -> parse_symbol_lib p = Ok l' -> first_of l' l.
Proof.
  unfold parse_symbol_lib. intros A B C. apply library_ls in A, C. pose proof (left_lines t _ p _ (proj1 (lines_iff _ _) eq_refl) B (proj1 (lines_iff _ _) eq_refl)) as L.
  destruct A as (r & EA & SA), C as (r' & EC & SC). rewrite EA, EC in L.
  assert (K : lines_left r' r).
  { apply left_head with (x := lit "EESchema-LIBRARY Version 2.3") (y := lit "#encoding utf-8" :: lit "#" :: r') in L as [_ L]; [|reflexivity|discriminate].
    apply left_head with (x := lit "#encoding utf-8") (y := lit "#" :: r') in L as [_ L]; [|reflexivity|discriminate].
    inversion L; subst; auto; constructor. }
  exact (left_symbols _ _ SA _ _ K SC).
Qed.
