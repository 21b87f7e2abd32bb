(** Schematics that were cut short. *)
From Coq Require Import String Lia.
From Verif Require Import Base Str StrFacts SexpFacts SchData SchParse LibFns LibSpec CutSpec CutFacts SchReadSpec SchReadFacts SpellSpec TornSpec TornLines.
Open Scope string_scope. Open Scope list_scope.

Definition bare_sch (n : Z) : schematic := mk_sch None [] (mk_descr [] n 0 [] [] [] [] [] [] [] [] 1 1) [] [] [].
Lemma put_one s s' : (forall c, sec_put c s = sec_put c s') -> s = s'.
Proof.
  intros H. pose proof (H (bare_sch 0)) as A. pose proof (H (bare_sch 1)) as B.
  destruct s as [d|h|e|], s' as [d'|h'|e'|]; cbn [sec_put bare_sch with_description with_sheet with_element sc_filename sc_libraries sc_description sc_elements sc_sheets sc_eelayer app] in A, B;
    try discriminate A; try (injection A as ->; reflexivity); try reflexivity.
  - injection A as A. injection B as B. rewrite A in B. discriminate B.
  - injection A as A. injection B as B. rewrite <- A in B. discriminate B.
Qed.
Lemma section_det a s b a' s' b' : section_text a s -> section_text a' s' -> a ++ b = a' ++ b' -> a = a' /\ s = s' /\ b = b'.
Proof.
  intros A A' E. assert (K : forall c, sec_put c s = sec_put c s' /\ b = b').
  { intros c. destruct (round_bw _ _ b c A) as (q & P & Q). destruct (round_bw _ _ b' c A') as (q' & P' & Q'). rewrite E, P' in P. injection P as -> ->. split; [reflexivity|congruence]. }
  destruct (K (bare_sch 0)) as [_ ->]. apply app_inv_tail in E. split; [exact E|]. split; [|reflexivity]. apply put_one. intros c. apply K.
Qed.
Lemma sections_nil r : sections [] r -> r = [].
Proof. intros H. remember [] as x eqn:X. destruct H as [|a b s r A B]; [reflexivity|]. pose proof (section_ne _ _ A). now destruct a. Qed.
Lemma left_sections ls secs : sections ls secs -> forall ls' secs', lines_left ls' ls -> sections ls' secs' -> exists k e, secs' = k ++ e /\ first_of k secs /\ (length e <= 1)%nat.
Proof.
  intros H. induction H as [|a b s r A B IH]; intros ls' secs' L S.
  - assert (ls' = []) as -> by (inversion L; reflexivity). apply sections_nil in S. subst. exists [], []. split; [reflexivity|]. split; [now exists []|cbn; lia].
  - apply left_app in L as [(y & -> & L)|(a' & e & a'' & y & E & -> & K)].
    + remember (a ++ y) as z eqn:Z. destruct S as [|a0 b0 s0 r0 A0 B0]; [pose proof (section_ne _ _ A); now destruct a|].
      destruct (section_det _ _ _ _ _ _ A0 A Z) as (-> & -> & ->). destruct (IH _ _ L B0) as (k & e & -> & [k' ->] & N).
      exists (s :: k), e. split; [reflexivity|]. split; [now exists k'|exact N].
    + remember (a' ++ y) as z eqn:Z. destruct S as [|a0 b0 s0 r0 A0 B0]; [exists [], []; split; [reflexivity|]; split; [now exists (s :: r)|cbn; lia]|].
      destruct b0 as [|x b0].
      * apply sections_nil in B0. subst r0. exists [], [s0]. split; [reflexivity|]. split; [now exists (s :: r)|cbn; lia].
      * exfalso. assert (LL : (length a0 <= length a')%nat).
        { assert (length (a0 ++ x :: b0) = length (a' ++ y)) by now rewrite Z. rewrite !app_length in H. cbn [length] in H. destruct K as [->|(c & -> & _)]; cbn [length] in H; lia. }
        assert (F : firstn (length a0) a' = a0).
        { assert (F : firstn (length a0) (a0 ++ x :: b0) = a0) by (rewrite firstn_app, firstn_all, Nat.sub_diag; apply app_nil_r). rewrite Z, firstn_app in F.
          replace (length a0 - length a')%nat with 0%nat in F by lia. cbn [firstn] in F. now rewrite app_nil_r in F. }
        assert (G : a ++ [] = a0 ++ (skipn (length a0) a' ++ e :: a'')) by (rewrite app_nil_r, E, app_assoc; f_equal; rewrite <- F at 1; symmetry; apply firstn_skipn).
        destruct (section_det _ _ _ _ _ _ A A0 G) as (_ & _ & N). now destruct (skipn (length a0) a').
Qed.
Lemma left_top l libs libs' e e' body body' : starts_with (lit "EELAYER ") e = true -> starts_with (lit "EELAYER ") e' = true ->
  lines_left (map (fun l => lit "LIBS:" ++ l) libs' ++ e' :: l :: body') (map (fun l => lit "LIBS:" ++ l) libs ++ e :: l :: body) ->
  libs' = libs /\ e' = e /\ lines_left body' body.
Proof.
  intros E E'. assert (N : forall x, starts_with (lit "EELAYER ") (lit "LIBS:" ++ x) = true -> False) by (intros x Q; discriminate Q).
  revert libs'. induction libs as [|x libs IH]; intros [|x' libs'] L; cbn [map app] in L.
  - apply left_head with (x := e') (y := l :: body') in L as [-> L]; [|reflexivity|discriminate]. split; [reflexivity|]. split; [reflexivity|]. inversion L; subst; auto; constructor.
  - eapply left_head in L as [X L]; [|reflexivity|destruct (map (fun l => lit "LIBS:" ++ l) libs'); discriminate]. rewrite <- X in E. destruct (N _ E).
  - eapply left_head in L as [X L]; [|reflexivity|discriminate]. rewrite X in E'. destruct (N _ E').
  - eapply left_head in L as [X L]; [|reflexivity|destruct (map (fun l => lit "LIBS:" ++ l) libs'); discriminate]. apply IH in L as (-> & -> & L). apply app_inv_head in X. subst. auto.
Qed.
Lemma first_map {A B} (f : A -> list B) k l : first_of k l -> first_of (flat_map f k) (flat_map f l).
Proof. intros [b ->]. exists (flat_map f b). apply flat_map_app. Qed.
Lemma torn_schematic fn t p c c' : parse_schematic fn t = Ok c -> beginning p t -> parse_schematic fn p = Ok c' -> schematic_left c' c.
Proof.
  unfold parse_schematic. intros A B C. apply of_lines in A, C. pose proof (left_lines t _ p _ (proj1 (lines_iff _ _) eq_refl) B (proj1 (lines_iff _ _) eq_refl)) as L.
  destruct A as (libs & e & body & secs & EA & SE & SA & ->), C as (libs' & e' & body' & secs' & EC & SE' & SC & ->). rewrite EA, EC in L.
  eapply left_head in L as [_ L]; [|reflexivity|destruct (map (fun l => lit "LIBS:" ++ l) libs'); discriminate].
  destruct (left_top _ _ _ _ _ _ _ SE SE' L) as (-> & -> & K). destruct (left_sections _ _ SA _ _ K SC) as (k & x & -> & F & N).
  unfold schematic_left. cbn [sc_filename sc_libraries sc_eelayer sc_elements sc_sheets]. split; [reflexivity|]. split; [reflexivity|]. split; [reflexivity|].
  rewrite !flat_map_app. eexists _, _, _, _. split; [reflexivity|]. split; [exact (first_map _ _ _ F)|]. split; [reflexivity|]. split; [exact (first_map _ _ _ F)|].
  destruct x as [|s [|]]; cbn in N; [cbn; lia| |lia]. destruct s; cbn; lia.
Qed.
(** Cut at the end of a line *)
Lemma whole_lines x q : forall u v, text_lines (x ++ [10%N]) u -> text_lines q v -> text_lines (x ++ 10%N :: q) (u ++ v).
Proof.
  intros u v U V. remember (x ++ [10%N]) as p eqn:P. revert x P. induction U as [|l k N O C|l k s w O C T IH]; intros x P.
  - symmetry in P. apply app_eq_nil in P as [_ P]. discriminate P.
  - subst l. unfold one_line in O. rewrite forallb_app in O. cbn in O. rewrite Bool.andb_false_r in O. discriminate O.
  - cbn [app]. destruct s as [|c s].
    + apply app_inj_tail in P as [-> _]. apply no_lines in T. subst w. cbn [app]. now constructor.
    + destruct (exists_last (l := c :: s)) as (m & y & M); [discriminate|]. rewrite M in *. change (l ++ 10%N :: m ++ [y]) with (l ++ (10%N :: m) ++ [y]) in P. rewrite app_assoc in P. apply app_inj_tail in P as [<- ->].
      rewrite <- app_assoc. cbn [app]. constructor; [exact O|exact C|]. now apply IH.
Qed.
Lemma first_sections ls secs : sections ls secs -> forall x y secs', ls = x ++ y -> sections x secs' -> first_of secs' secs.
Proof.
  intros H. induction H as [|a b s r A B IH]; intros x y secs' E S.
  - symmetry in E. apply app_eq_nil in E as [-> ->]. apply sections_nil in S. subst. now exists [].
  - destruct S as [|a0 b0 s0 r0 A0 B0]; [now eexists|]. rewrite <- app_assoc in E. destruct (section_det _ _ _ _ _ _ A A0 E) as (-> & -> & ->). destruct (IH _ _ _ eq_refl B0) as [k ->]. now exists k.
Qed.
Lemma first_left (a b : list str) : lines_left a (a ++ b).
Proof. induction a; cbn [app]; [constructor|now constructor]. Qed.
Lemma whole_schematic fn x q c c' : parse_schematic fn (x ++ 10%N :: q) = Ok c -> parse_schematic fn (x ++ [10%N]) = Ok c' -> schematic_first c' c.
Proof.
  unfold parse_schematic. intros A C. apply of_lines in A, C.
  pose proof (whole_lines x q _ _ (proj1 (lines_iff _ _) eq_refl) (proj1 (lines_iff _ _) eq_refl)) as L. apply lines_iff in L.
  destruct A as (libs & e & body & secs & EA & SE & SA & ->), C as (libs' & e' & body' & secs' & EC & SE' & SC & ->). rewrite EA, EC in L.
  pose proof (first_left (lines (x ++ [10%N])) (lines q)) as F. rewrite EC in F at 2. rewrite <- L, EC in F.
  eapply left_head in F as [_ F]; [|reflexivity|destruct (map (fun l => lit "LIBS:" ++ l) libs'); discriminate].
  destruct (left_top _ _ _ _ _ _ _ SE SE' F) as (-> & -> & _). cbn [app] in L. injection L as L. rewrite <- app_assoc in L. apply app_inv_head in L. cbn [app] in L. injection L as L.
  pose proof (first_sections _ _ SA _ _ _ L SC) as K.
  unfold schematic_first. cbn [sc_filename sc_libraries sc_eelayer sc_elements sc_sheets]. split; [reflexivity|]. split; [reflexivity|]. split; [reflexivity|]. split; exact (first_map _ _ _ K).
Qed.
