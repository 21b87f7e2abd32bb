(** The two ways to cut a line into words do as specified (C11). *)
From Coq Require Import Lia.
From Verif Require Import Base Str StrFacts LibFns LibSpec LibFacts CutSpec.
Open Scope list_scope.

(** ** Quotes *)
(** What is known after a part of the line *)
Definition reached (p : str) (st : sp) : Prop :=
  exists n l w, spaced_ok l = true /\ forallb piece_ok w = true /\
    ((p = blanks n ++ spaced l ++ word_text w /\ st = mk_sp (length l) (values l) false (existsb is_quoted w) (word_value w)) \/
     exists q, unquoted q = true /\ p = blanks n ++ spaced l ++ word_text w ++ 34%N :: q /\
       st = mk_sp (length l) (values l) true (existsb is_quoted w) (word_value w ++ q)).
Lemma reached_word w : forallb piece_ok w = true -> w <> [] -> word_ok w = true.
Proof. destruct w; [contradiction|auto]. Qed.
Lemma spaced_app a b : spaced (a ++ b) = spaced a ++ spaced b.
Proof. unfold spaced. apply flat_map_app. Qed.
Lemma values_app a b : values (a ++ b) = values a ++ values b.
Proof. unfold values. apply map_app. Qed.
Lemma blanks_S n : blanks (S n) = blanks n ++ [32%N].
Proof. apply repeat_cons. Qed.
Lemma word_text_app a b : word_text (a ++ b) = word_text a ++ word_text b. Proof. unfold word_text. apply flat_map_app. Qed.
Lemma word_value_app a b : word_value (a ++ b) = word_value a ++ word_value b. Proof. unfold word_value. apply flat_map_app. Qed.
Lemma reached_step p st c : reached p st -> reached (p ++ [c]) (sp_step None st c).
Proof.
  intros (n & l & w & L & P & [[-> ->]|(q & Q & -> & ->)]); unfold sp_step.
  - destruct (N.eqb_spec c 34) as [->|C1].
    + exists n, l, w. split; [exact L|]. split; [exact P|]. right. exists []. split; [reflexivity|]. rewrite app_nil_r. split; [|reflexivity]. now rewrite <- !app_assoc.
    + destruct (N.eqb_spec c 32) as [->|C2]; cbn [negb andb].
      * destruct w as [|x w].
        -- cbn [word_value flat_map is_empty existsb negb orb word_text]. destruct l as [|y l] using rev_ind.
           ++ exists (S n), [], []. split; [reflexivity|]. split; [reflexivity|]. left. split; [|reflexivity]. cbn [spaced flat_map app word_text]. rewrite !app_nil_r. now rewrite blanks_S.
           ++ clear IHl. destruct y as [y k]. exists n, (l ++ [(y, S k)]), []. split; [unfold spaced_ok in *; now rewrite forallb_app in *|]. split; [reflexivity|]. left. split.
              ** rewrite !spaced_app. cbn [spaced flat_map word_text]. rewrite !app_nil_r. cbn [fst snd]. rewrite (blanks_S (S k)). now rewrite <- !app_assoc.
              ** rewrite !values_app, !app_length. reflexivity.
        -- rewrite (word_pushes (x :: w)) by (now apply reached_word). exists n, (l ++ [(x :: w, O)]), []. split.
           { unfold spaced_ok in *. rewrite forallb_app, L. cbn [forallb fst]. rewrite reached_word; [reflexivity|exact P|discriminate]. }
           split; [reflexivity|]. left. split.
           ++ rewrite spaced_app. cbn [spaced flat_map fst snd]. cbn [word_text flat_map]. rewrite !app_nil_r. rewrite <- !app_assoc. reflexivity.
           ++ rewrite values_app, app_length, Nat.add_1_r. reflexivity.
      * exists n, l, (w ++ [Plain [c]]). split; [exact L|]. split.
        { rewrite forallb_app, P. cbn [forallb piece_ok is_empty negb andb]. destruct (N.eqb_spec c 34); [contradiction|]. destruct (N.eqb_spec c 32); [contradiction|reflexivity]. }
        left. rewrite word_text_app, word_value_app, existsb_app. cbn [word_text word_value flat_map piece_text piece_value app existsb is_quoted orb]. rewrite !Bool.orb_false_r.
        split; [now rewrite <- !app_assoc|reflexivity].
  - destruct (N.eqb_spec c 34) as [->|C1].
    + exists n, l, (w ++ [Quoted q]). split; [exact L|]. split; [rewrite forallb_app, P; cbn [forallb piece_ok]; unfold unquoted in Q; now rewrite Q|]. left.
      rewrite word_text_app, word_value_app, existsb_app. cbn [word_text word_value flat_map piece_text piece_value app existsb is_quoted orb]. rewrite !app_nil_r, Bool.orb_true_r.
      split; [|reflexivity]. rewrite <- !app_assoc. cbn [app]. now rewrite <- ?app_assoc.
    + cbn [negb andb]. exists n, l, w. split; [exact L|]. split; [exact P|]. right. exists (q ++ [c]). split.
      { unfold unquoted in *. rewrite forallb_app, Q. cbn [forallb]. destruct (N.eqb_spec c 34); [contradiction|reflexivity]. }
      split; [rewrite <- !app_assoc; cbn [app]; now rewrite <- ?app_assoc|now rewrite <- app_assoc].
Qed.
Lemma reached_all s : reached s (fold_left (sp_step None) s (mk_sp 0 [] false false [])).
Proof.
  induction s as [|c s IH] using rev_ind; [|rewrite fold_left_app; now apply reached_step].
  exists O, [], []. split; [reflexivity|]. split; [reflexivity|]. left. split; reflexivity.
Qed.
Lemma words_total s : exists v, split_quote_aware s = Ok v.
Proof. unfold split_quote_aware, split_quote_aware_int. now eexists. Qed.
Lemma words_bw s v : split_quote_aware s = Ok v -> line_words s v.
Proof.
  unfold split_quote_aware, split_quote_aware_int. destruct (reached_all s) as (n & l & w & L & P & [[E ->]|(q & Q & E & ->)]); cbn [sp_s sp_v sp_seen]; intros [= <-].
  - destruct w as [|x w].
    + exists n, l, [], []. split; [rewrite E; cbn; now rewrite !app_nil_r|]. split; [exact L|]. split; [constructor|]. cbn. now rewrite app_nil_r.
    + rewrite (word_pushes (x :: w)) by (now apply reached_word). exists n, l, (word_text (x :: w)), [word_value (x :: w)]. split; [exact E|]. split; [exact L|]. split; [|reflexivity].
      apply lw_word. now apply reached_word.
  - exists n, l, (word_text w ++ 34%N :: q). eexists. split; [exact E|]. split; [exact L|]. split; [apply lw_open; assumption|].
    destruct w as [|x w].
    + destruct q as [|c q]; [cbn; now rewrite app_nil_r|reflexivity].
    + pose proof (word_pushes (x :: w) (reached_word _ P ltac:(discriminate))) as H. apply Bool.orb_true_iff in H.
      assert (K : negb (is_empty (word_value (x :: w) ++ q)) || existsb is_quoted (x :: w) = true).
      { destruct H as [H|H]; [|rewrite H; apply Bool.orb_true_r]. destruct (word_value (x :: w)); [discriminate H|reflexivity]. }
      now rewrite K.
Qed.
Lemma step_open i v b e : sp_step None (mk_sp i v false b e) 34%N = mk_sp i v true b e. Proof. reflexivity. Qed.
Lemma words_fw s v : line_words s v -> split_quote_aware s = Ok v.
Proof.
  intros (n & l & t & e & -> & L & T & ->). unfold split_quote_aware, split_quote_aware_int.
  rewrite fold_left_app, step_blanks by reflexivity. rewrite (split_spaced l []) by exact L. cbn [app].
  destruct T as [|w W|w q P Q].
  - cbn [fold_left sp_s sp_v sp_seen is_empty negb orb]. now rewrite app_nil_r.
  - rewrite step_word; [|reflexivity|now destruct w]. cbn [sp_s sp_v sp_seen orb app]. now rewrite word_pushes.
  - rewrite fold_left_app, step_word by (reflexivity || exact P). cbn [fold_left]. rewrite step_open.
    rewrite (step_inside None) by (reflexivity || exact Q). cbn [sp_s sp_v sp_seen orb app]. destruct w as [|x w].
    + destruct q; cbn; [now rewrite app_nil_r|reflexivity].
    + pose proof (word_pushes (x :: w) (reached_word _ P ltac:(discriminate))) as H. apply Bool.orb_true_iff in H.
      assert (K : negb (is_empty (word_value (x :: w) ++ q)) || existsb is_quoted (x :: w) = true).
      { destruct H as [H|H]; [|rewrite H; apply Bool.orb_true_r]. destruct (word_value (x :: w)); [discriminate H|reflexivity]. }
      now rewrite K.
Qed.
Lemma words_iff s v : split_quote_aware s = Ok v <-> line_words s v.
Proof. split; [apply words_bw|apply words_fw]. Qed.
(** With a count, the words up to it are the same. *)
Definition abreast (k : nat) (a b : sp) : Prop :=
  (a = b /\ sp_i a = length (sp_v a) /\ (sp_i a < k)%nat) \/ (sp_i a = k /\ length (sp_v a) = k /\ exists e, sp_v b = sp_v a ++ e).
Lemma step_grows st c : exists e, sp_v (sp_step None st c) = sp_v st ++ e.
Proof.
  destruct st as [i v ins seen s]. unfold sp_step. destruct (c =? 34)%N; [destruct ins; exists []; cbn; now rewrite app_nil_r|].
  destruct (negb ins && (c =? 32)%N); [|exists []; cbn; now rewrite app_nil_r]. destruct (negb (is_empty s) || seen); [now exists [s]|exists []; cbn; now rewrite app_nil_r].
Qed.
Lemma abreast_step k a b c : abreast k a b -> abreast k (sp_step (Some k) a c) (sp_step None b c).
Proof.
  intros [(-> & I & K)|(I & N & e & E)].
  - destruct b as [i v ins seen s]. cbn [sp_i sp_v] in *. subst i. unfold sp_step.
    destruct (Nat.eqb_spec (length v) k) as [E|_]; [lia|]. destruct (c =? 34)%N; [destruct ins; left; now cbn|].
    destruct (negb ins && (c =? 32)%N); [|left; now cbn]. destruct (negb (is_empty s) || seen); [|left; now cbn].
    destruct (Nat.eq_dec (S (length v)) k) as [<-|D].
    + right. cbn [sp_i sp_v]. rewrite app_length. cbn [length]. split; [reflexivity|]. split; [lia|]. exists []. now rewrite app_nil_r.
    + left. cbn [sp_i sp_v]. rewrite app_length. cbn [length]. split; [reflexivity|]. lia.
  - right. destruct (step_grows b c) as (d & D). destruct a as [i v ins seen s]. cbn [sp_i sp_v] in *. subst i.
    assert (G : sp_step (Some k) (mk_sp k v ins seen s) c = mk_sp k v ins seen (s ++ [c])) by (unfold sp_step; now rewrite Nat.eqb_refl).
    rewrite G. cbn [sp_i sp_v]. split; [reflexivity|]. split; [exact N|]. exists (e ++ d). now rewrite D, E, app_assoc.
Qed.
Lemma abreast_all k s : abreast k (fold_left (sp_step (Some k)) s (mk_sp 0 [] false false [])) (fold_left (sp_step None) s (mk_sp 0 [] false false [])).
Proof.
  induction s as [|c s IH] using rev_ind; [|rewrite !fold_left_app; now apply abreast_step]. cbn [fold_left]. destruct k.
  - right. cbn. split; [reflexivity|]. split; [reflexivity|]. now exists [].
  - left. cbn. split; [reflexivity|]. split; [reflexivity|lia].
Qed.
Lemma n_words k s w : line_words s w ->
  ((k <= length w)%nat /\ exists v, split_quote_aware_n k s = Ok v /\ forall i, (i < k)%nat -> nth_error v i = nth_error w i) \/
  ((length w < k)%nat /\ split_quote_aware_n k s = Err EOther).
Proof.
  intros H. apply words_fw in H. unfold split_quote_aware, split_quote_aware_n, split_quote_aware_int in *.
  destruct (abreast_all k s) as [(-> & _ & _)|(I & N & e & E)].
  - injection H as H. rewrite H. clear H. rename w into v. destruct (Nat.ltb_spec (length v) k); [right; now split|left]. split; [assumption|]. now exists v.
  - left. set (a := fold_left (sp_step (Some k)) s _) in *. set (b := fold_left (sp_step None) s _) in *.
    assert (W : exists d, w = sp_v a ++ d). { injection H as <-. destruct (negb _ || _); [eexists; rewrite E, <- app_assoc; reflexivity|now exists e]. }
    destruct W as [d ->]. rewrite app_length, N. split; [lia|]. 
    assert (V : exists d', (if negb (is_empty (sp_s a)) || sp_seen a then sp_v a ++ [sp_s a] else sp_v a) = sp_v a ++ d') by (clear H; destruct (negb (is_empty (sp_s a)) || sp_seen a); [eexists; reflexivity|exists []; now rewrite app_nil_r]).
    destruct V as [d' ->]. rewrite app_length, N. destruct (Nat.ltb_spec (k + length d') k); [lia|]. eexists. split; [reflexivity|].
    intros i L. rewrite !nth_error_app1 by lia. reflexivity.
Qed.

(** ** White space *)
Lemma split_on_cons (f : N -> bool) c s : split_on f (c :: s) = if f c then [] :: split_on f s else match split_on f s with x :: r => (c :: x) :: r | [] => [[c]] end.
Proof. reflexivity. Qed.
Lemma ws_skip a s : forallb is_ws a = true -> split_ws (a ++ s) = split_ws s.
Proof.
  induction a as [|c a IH]; cbn [forallb app]; intros H; [reflexivity|]. apply andb_prop in H as [C H]. unfold split_ws in *. cbn [split_on]. rewrite C. cbn [filter is_empty negb]. now apply IH.
Qed.
Lemma ws_word w b : w <> [] -> forallb (fun c => negb (is_ws c)) w = true -> match b with [] => True | c :: _ => is_ws c = true end -> split_ws (w ++ b) = w :: split_ws b.
Proof.
  intros N H B. assert (K : exists r, split_on is_ws b = [] :: r).
  { destruct b as [|c b]; [now eexists|]. cbn [split_on]. rewrite B. now eexists. }
  destruct K as [r K]. assert (E : split_on is_ws (w ++ b) = w :: r).
  { clear N B. induction w as [|c w IH]; [exact K|]. cbn [forallb app split_on] in *. apply andb_prop in H as [C H]. rewrite (IH H). apply Bool.negb_true_iff in C. now rewrite C. }
  unfold split_ws. rewrite E, K. cbn [filter is_empty negb]. destruct w; [contradiction|]. reflexivity.
Qed.
Lemma ws_fw s v : ws_words s v -> split_ws s = v.
Proof.
  induction 1 as [a A|a w A N W|a w c b v A N W C _ IH].
  - rewrite <- (app_nil_r a). now rewrite ws_skip.
  - rewrite ws_skip by exact A. rewrite <- (app_nil_r w) at 1. now rewrite ws_word.
  - rewrite ws_skip by exact A. rewrite ws_word by assumption. change (c :: b) with ([c] ++ b). rewrite ws_skip by (cbn; now rewrite C). now rewrite IH.
Qed.
Lemma span (f : N -> bool) s : exists a r, s = a ++ r /\ forallb f a = true /\ match r with c :: _ => f c = false | [] => True end.
Proof.
  induction s as [|c s (a & r & -> & A & R)]; [now exists [], []|]. destruct (f c) eqn:C.
  - exists (c :: a), r. split; [reflexivity|]. split; [cbn; now rewrite C|exact R].
  - exists [], (c :: a ++ r). split; [reflexivity|]. split; [reflexivity|exact C].
Qed.
Lemma ws_total s : exists v, ws_words s v.
Proof.
  remember (length s) as n eqn:L. assert (K : (length s <= n)%nat) by lia. clear L. revert s K. induction n as [|n IH]; intros s K.
  - destruct s; [|cbn in K; lia]. exists []. now apply ws_none.
  - destruct (span is_ws s) as (a & r & -> & A & R). destruct r as [|c r].
    + exists []. rewrite app_nil_r. now apply ws_none.
    + destruct (span (fun c => negb (is_ws c)) (c :: r)) as (w & b & E & W & B).
      assert (N : w <> []). { intros ->. cbn [app] in E. subst b. rewrite R in B. discriminate B. }
      rewrite E in *. destruct b as [|d b].
      * exists [w]. rewrite app_nil_r. now apply ws_last.
      * apply Bool.negb_false_iff in B. destruct (IH b) as (v & V). { rewrite !app_length in K. cbn [length] in K. destruct w; [contradiction|]. cbn [length] in K. lia. }
        exists (w :: v). now apply ws_more.
Qed.
Lemma ws_iff s v : split_ws s = v <-> ws_words s v.
Proof. split; [|apply ws_fw]. intros <-. destruct (ws_total s) as (w & H). now rewrite (ws_fw _ _ H). Qed.

(** ** Lines *)
Lemma cr_bw l k : without_cr l k -> strip_cr l = k.
Proof.
  intros [->|[-> N]].
  - induction k as [|c k IH]; [reflexivity|]. cbn [app strip_cr]. destruct (k ++ [13%N]) eqn:E; [destruct k; discriminate E|]. now rewrite IH.
  - revert N. induction k as [|c k IH]; intros N; [reflexivity|]. cbn [strip_cr]. destruct k as [|d k].
    + destruct (N.eqb_spec c 13) as [->|D]; [now contradiction (N [])|]. reflexivity.
    + rewrite IH; [reflexivity|]. intros m E. apply (N (c :: m)). now rewrite E.
Qed.
Lemma cr_total l : exists k, without_cr l k.
Proof.
  induction l as [|c l [k K]] using rev_ind; [exists []; right; split; [reflexivity|intros [|? ?]; discriminate]|].
  destruct (N.eqb_spec c 13) as [->|D]; [exists l; now left|]. exists (l ++ [c]). right. split; [reflexivity|]. intros m E. apply app_inj_tail in E as [_ E]. contradiction.
Qed.
Lemma split_line l s : one_line l = true -> split_on (fun c => (c =? 10)%N) (l ++ 10%N :: s) = l :: split_on (fun c => (c =? 10)%N) s.
Proof.
  induction l as [|c l IH]; intros H; [reflexivity|]. cbn [one_line forallb] in H. apply Bool.andb_true_iff in H as [C H]. apply Bool.negb_true_iff in C.
  cbn [app split_on]. rewrite C, (IH H). reflexivity.
Qed.
Lemma split_one l : one_line l = true -> split_on (fun c => (c =? 10)%N) l = [l].
Proof.
  induction l as [|c l IH]; intros H; [reflexivity|]. cbn [one_line forallb] in H. apply Bool.andb_true_iff in H as [C H]. apply Bool.negb_true_iff in C.
  cbn [split_on]. rewrite C, (IH H). reflexivity.
Qed.
Lemma drop_cons w l : l <> [] -> drop_last_empty (w :: l) = w :: drop_last_empty l.
Proof. destruct l; [contradiction|]. destruct w; reflexivity. Qed.
Lemma split_ne p s : split_on p s <> [].
Proof. destruct s as [|c r]; cbn [split_on]; [discriminate|]. destruct (p c); [discriminate|]. destruct (split_on p r); discriminate. Qed.
Lemma lines_fw s v : text_lines s v -> lines s = v.
Proof.
  intros H. induction H as [|l k N O C|l k s v O C H IH]; unfold lines in *.
  - reflexivity.
  - rewrite (split_one _ O). destruct l as [|c l]; [contradiction|]. cbn [drop_last_empty map]. now rewrite (cr_bw _ _ C).
  - rewrite (split_line _ _ O), drop_cons by apply split_ne. cbn [map]. now rewrite (cr_bw _ _ C), IH.
Qed.
Lemma lines_total s : exists v, text_lines s v.
Proof.
  remember (length s) as n eqn:L. assert (M : (length s <= n)%nat) by lia. clear L. revert s M. induction n as [|n IH]; intros s M.
  - destruct s; [exists []; constructor|cbn [length] in M; lia].
  - destruct (span (fun c => negb (N.eqb c 10)) s) as (l & r & -> & O & R). destruct (cr_total l) as [k K]. destruct r as [|c r].
    + rewrite app_nil_r. destruct l as [|c l]; [exists []; constructor|]. exists [k]. now apply tx_last.
    + apply Bool.negb_false_iff, N.eqb_eq in R. subst c. rewrite app_length in M. cbn [length] in M. destruct (IH r) as [v V]; [lia|]. exists (k :: v). now apply tx_more.
Qed.
Lemma lines_iff s v : lines s = v <-> text_lines s v.
Proof. split; [|apply lines_fw]. intros <-. destruct (lines_total s) as [v V]. now rewrite (lines_fw _ _ V). Qed.
Lemma words_exist s : exists v, line_words s v /\ split_quote_aware s = Ok v.
Proof. destruct (words_total s) as [v V]. exists v. split; [now apply words_bw|exact V]. Qed.
