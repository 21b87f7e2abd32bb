(** The lines of a schematic meet their demands or are complained about *)
From Coq Require Import String Lia.
From Verif Require Import Base Str StrFacts Num F64 F64Text LibFns LibSpec CutSpec CutFacts SchData SchPrint SchParse SchReadSpec SchReadFacts SymData SymReadSpec SymReadFacts
  OutSpec Said SchErr ErrErase ErrSpec ErrFacts.
Open Scope string_scope. Open Scope list_scope.

(** ** Tables *)
Definition reads_names {B} (t : list (string * B)) (before : string) (after : str) (g : str -> said B) : Prop :=
  forall w, match g w with Fine b => exists k, w = lit k /\ In (k, b) t | Says m => m = lit before ++ w ++ after /\ (forall k b, w = lit k -> ~ In (k, b) t) | _ => False end.
Definition reads_letters {B} (t : list (N * B)) (before : string) (after : str) (g : N -> said B) : Prop :=
  forall c, match g c with Fine b => In (c, b) t | Says m => m = lit before ++ [c] ++ after /\ (forall b, ~ In (c, b) t) | _ => False end.
Lemma names_table {B} t before after (p : str -> res B) (msg : str -> str) : (forall w b, p w = Ok b <-> exists k, w = lit k /\ In (k, b) t) ->
  (forall w, msg w = lit before ++ w ++ after) -> reads_names t before after (fun w => match p w with Ok b => Fine b | _ => Says (msg w) end).
Proof.
  intros H M w. destruct (p w) as [b|e|] eqn:E.
  - apply H. exact E.
  - split; [apply M|]. intros k b W I. assert (X : p w = Ok b) by (apply H; eauto). rewrite X in E. discriminate.
  - split; [apply M|]. intros k b W I. assert (X : p w = Ok b) by (apply H; eauto). rewrite X in E. discriminate.
Qed.
Lemma letters_table {B} t before after (p : N -> res B) : (forall w b, p w = Ok b <-> In (w, b) t) ->
  reads_letters t before after (fun w => match p w with Ok b => Fine b | _ => Says (lit before ++ [w] ++ after) end).
Proof.
  intros H w. destruct (p w) as [b|e|] eqn:E.
  - apply H. exact E.
  - split; [reflexivity|]. intros b I. assert (X : p w = Ok b) by (apply H; eauto). rewrite X in E. discriminate.
  - split; [reflexivity|]. intros b I. assert (X : p w = Ok b) by (apply H; eauto). rewrite X in E. discriminate.
Qed.
Lemma form_reads : reads_names [("I", FInput); ("O", FOutput); ("B", FBiDi); ("T", FTriState); ("U", FUnspecified)] "unknown labelform " [] label_form_said.
Proof. apply (names_table _ "unknown labelform " [] _ (fun w => lit "unknown labelform " ++ w) form_iff). intros w. rewrite app_nil_r. reflexivity. Qed.
Lemma side_reads : reads_names [("L", DLeft); ("R", DRight); ("T", DTop); ("B", DBottom)] "unknown labelside " [] label_side_said.
Proof. apply (names_table _ "unknown labelside " [] _ (fun w => lit "unknown labelside " ++ w) side_iff). intros w. rewrite app_nil_r. reflexivity. Qed.
Lemma orient_reads : reads_letters orientations "unknown orientation " [] orientation_said.
Proof. exact (letters_table _ "unknown orientation " [] _ orientation_iff). Qed.
Lemma justify_reads : reads_letters justifications "unexpected justify: " [] sjustify_said.
Proof. exact (letters_table _ "unexpected justify: " [] _ sjustify_iff). Qed.
Lemma bool_reads t f : reads_names (yes_no t f) "unknown boolean " (or_else (lit t) (lit f)) (fun w => bool_said w t f).
Proof.
  intros w. unfold bool_said. destruct (str_eqb w (lit t)) eqn:E.
  - apply str_eqb_eq in E. exists t. split; [exact E|left; reflexivity].
  - destruct (str_eqb w (lit f)) eqn:F.
    + apply str_eqb_eq in F. exists f. split; [exact F|right; left; reflexivity].
    + split; [reflexivity|]. intros k b -> [[= <- <-]|[[= <- <-]|[]]]; rewrite str_eqb_refl in *; discriminate.
Qed.
Lemma flag_reads t f : reads_letters [(t, true); (f, false)] "unknown boolean " (or_else [t] [f]) (fun w => flag_said w t f).
Proof.
  intros w. unfold flag_said. destruct (N.eqb_spec w t) as [->|E]; [left; reflexivity|]. destruct (N.eqb_spec w f) as [->|F]; [right; left; reflexivity|].
  split; [reflexivity|]. intros b [[= <- _]|[[= <- _]|[]]]; contradiction.
Qed.
Lemma kind_reads s : reads_names text_kinds "Unknown text type " (lit " at " ++ s) (fun k => text_kind_said k s).
Proof.
  intros w. unfold text_kind_said.
  destruct (seq w "Label") eqn:A; [apply seq_iff in A; exists "Label"; split; [exact A|cbn; auto]|].
  destruct (seq w "Notes") eqn:B; [apply seq_iff in B; exists "Notes"; split; [exact B|cbn; auto]|].
  destruct (seq w "GLabel") eqn:C; [apply seq_iff in C; exists "GLabel"; split; [exact C|cbn; auto]|].
  destruct (seq w "HLabel") eqn:D; [apply seq_iff in D; exists "HLabel"; split; [exact D|cbn; auto]|].
  split; [reflexivity|]. intros k b -> [[= <- _]|[[= <- _]|[[= <- _]|[[= <- _]|[]]]]]; [revert A|revert B|revert C|revert D]; discriminate.
Qed.

(** ** Several lines *)
Inductive run_all : list checker -> list str -> Prop :=
| ra_nil r : run_all [] r
| ra_cons c cs s r : passes c s -> run_all cs r -> run_all (c :: cs) (s :: r).
Definition runs_ok {A} (cs : list checker) (p : list str) (r : said A) : Prop := (exists m, runs cs p m /\ ends m r) \/ (run_all cs p /\ good r).
Lemma ok_end {A} p (r : said A) : good r -> runs_ok [] p r.
Proof. intros G. right. split; [constructor|exact G]. Qed.
Lemma ok_here {A} c cs p (f : str -> said A) : (forall s q, p = s :: q -> runs_ok (c :: cs) (s :: q) (f s)) -> runs_ok (c :: cs) p (try s <- here_said p; f s).
Proof. intros H. destruct p as [|s q]; [left; exists None; split; [constructor|reflexivity]|]. apply H. reflexivity. Qed.
Lemma ok_line {A} (c : checker) cs s q d (r : said A) : c s d -> agree d (runs_ok cs q) r -> runs_ok (c :: cs) (s :: q) r.
Proof.
  intros C [[m [B E]]|[F [[m [B E]]|[R G]]]].
  - left. exists m. split; [apply rn_here; exists d; auto|exact E].
  - left. exists m. split; [apply rn_later; [exists d; auto|exact B]|exact E].
  - right. split; [apply ra_cons; [exists d; auto|exact R]|exact G].
Qed.
Lemma ok_free {A} cs s q (r : said A) : runs_ok cs q r -> runs_ok (free :: cs) (s :: q) r.
Proof. intros H. apply (ok_line free cs s q []); [reflexivity|]. apply agree_nil. exact H. Qed.
Lemma fun_quotes f : fun_checker (by_quotes f).
Proof. intros s. destruct (words_total s) as [v V]. apply words_bw in V. exists (f s v). exact (quotes_one f s v V). Qed.
Lemma fun_blanks f : fun_checker (by_blanks f).
Proof. intros s. exists (f s (split_ws s)). exact (blanks_one f s). Qed.
Lemma fun_as_is f : fun_checker (as_is f).
Proof. intros s. exists (f s). split; [reflexivity|]. intros e ->. reflexivity. Qed.
Lemma fails_fun c s m k : fun_checker c -> fails c s m -> fails c s k -> m = k.
Proof. intros U (d & C & B) (e & C' & B'). destruct (U s) as (x & _ & X). rewrite (X d C) in B. rewrite (X e C') in B'. exact (blamed_fun x m B k B'). Qed.
Lemma fails_passes c s m : fun_checker c -> fails c s m -> ~ passes c s.
Proof. intros U (d & C & B) (e & C' & B'). destruct (U s) as (x & _ & X). rewrite (X d C) in B. rewrite (X e C') in B'. exact (blamed_met x m B B'). Qed.
Lemma runs_fun cs p m : runs cs p m -> Forall fun_checker cs -> forall k, runs cs p k -> m = k.
Proof.
  induction 1 as [c cs|c cs s r m Fm|c cs s r m P R IH]; intros U k K; inversion U; subst; inversion K; subst; try reflexivity.
  - eapply fails_fun; eauto.
  - destruct (fails_passes c s m); assumption.
  - destruct (fails_passes c s k); assumption.
  - apply IH; assumption.
Qed.
Lemma runs_all cs p m : runs cs p m -> Forall fun_checker cs -> ~ run_all cs p.
Proof.
  induction 1 as [c cs|c cs s r m Fm|c cs s r m P R IH]; intros U K; inversion U; subst; inversion K; subst.
  - destruct (fails_passes c s m); assumption.
  - apply IH; assumption.
Qed.
Lemma runs_iff {A} cs p (r : said A) m : Forall fun_checker cs -> runs_ok cs p r -> runs cs p m <-> ends m r.
Proof.
  intros U [[k [R E]]|[R G]]; split.
  - intros R'. rewrite (runs_fun cs p m R' U k R). exact E.
  - intros E'. rewrite (ends_fun m k r E' E). exact R.
  - intros R'. destruct (runs_all cs p m R' U R).
  - intros E. destruct (ends_good m r E G).
Qed.
Lemma sbind_assoc {A B C} (a : said A) (b : A -> said B) (f : B -> said C) : sbind (sbind a b) f = try x <- a; sbind (b x) f.
Proof. destruct a; reflexivity. Qed.

(** ** Wires, points and texts *)
Ltac word_int := apply agree_int; [lia|auto with arith; reflexivity|intros].
Lemma agree_four {A} s (K : said A -> Prop) (f : Z * Z * Z * Z -> said A) : (forall q, K (f q)) ->
  agree ((length (split_ws s) = 4%nat, Some (lit "expecting 4 elements in " ++ s)) :: ints s (split_ws s) [0; 1; 2; 3]%nat) K (try q <- four_said s; f q).
Proof.
  intros H. unfold four_said. destruct (split_ws s) as [|a [|b [|c [|d [|e r]]]]]; try (apply agree_no; [cbn; lia|reflexivity]).
  apply agree_yes; [reflexivity|]. rewrite sbind_assoc.
  apply (agree_int s [a; b; c; d] [a; b; c; d] 0); [cbn; lia|reflexivity|]. intros z1 _. rewrite sbind_assoc.
  apply (agree_int s [a; b; c; d] [a; b; c; d] 1); [cbn; lia|reflexivity|]. intros z2 _. rewrite sbind_assoc.
  apply (agree_int s [a; b; c; d] [a; b; c; d] 2); [cbn; lia|reflexivity|]. intros z3 _. rewrite sbind_assoc.
  apply (agree_int s [a; b; c; d] [a; b; c; d] 3); [cbn; lia|reflexivity|]. intros z4 _. apply agree_nil. apply H.
Qed.
Lemma four_runs {A} p (f : str -> Z * Z * Z * Z -> said A) : (forall s q, good (f s q)) -> runs_ok [four_line] p (try s <- here_said p; try q <- four_said s; f s q).
Proof.
  intros H. apply ok_here. intros s q _. eapply ok_line; [apply blanks_one|]. apply (agree_four s). intros x. apply ok_end. apply H.
Qed.
Lemma wire_runs s r : runs_ok wire_lines (s :: r) (wire_said (s :: r)).
Proof.
  unfold wire_said, wire_lines. cbn [here_said sbind next tl]. eapply ok_line; [apply blanks_one|]. cbv beta.
  destruct (split_ws s) as [|a [|b [|c [|d l]]]]; try (apply agree_no; [cbn; lia|reflexivity]).
  apply agree_yes; [reflexivity|]. apply agree_nil. cbv zeta.
  apply (four_runs r (fun _ q => let '(x, y, z, w) := q in Fine (mk_wire _ x y z w, r))). intros _ [[[x y] z] w]. eexists. reflexivity.
Qed.
Lemma point_runs s r : runs_ok point_lines (s :: r) (point_said (s :: r)).
Proof.
  unfold point_said, point_lines. cbn [here_said sbind]. eapply ok_line; [apply blanks_one|]. cbv beta.
  destruct (split_ws s) as [|a [|b [|c [|d [|e l]]]]]; try (apply agree_no; [cbn; lia|reflexivity]).
  apply agree_yes; [reflexivity|].
  apply (agree_int s [a; b; c; d] [a; b; c; d] 2); [cbn; lia|reflexivity|]. intros z2 _.
  apply (agree_int s [a; b; c; d] [a; b; c; d] 3); [cbn; lia|reflexivity|]. intros z3 _. apply agree_nil. apply ok_end. eexists. reflexivity.
Qed.
Lemma agree_thickness {A} s v ty (K : said A -> Prop) (f : option str -> str -> Z -> said A) : (8 <= length v)%nat -> at_name v 1 text_kinds ty -> (forall a b z, K (f a b z)) ->
  agree (m_thickness s v) K
    (try shape <- (if is_local ty then Fine None else try w6 <- sidx v 6; Fine (Some w6));
     try wi <- sidx v (if is_local ty then 6%nat else 7%nat);
     try wt <- sidx v (S (if is_local ty then 6%nat else 7%nat)); try z <- int_said s wt; f shape wi z).
Proof.
  intros L (k & W & I) H. unfold m_thickness. rewrite (word_at v 1 _ W).
  assert (D : forall k', at_word v 1 (lit k') -> lit k' = lit k). { intros k' W'. unfold at_word in *. congruence. }
  destruct I as [[= <- <-]|[[= <- <-]|[[= <- <-]|[[= <- <-]|[]]]]]; cbn [is_local sbind];
    match goal with |- context [str_eqb (lit ?a) (lit "Label") || _] => let t := eval vm_compute in (str_eqb (lit a) (lit "Label") || str_eqb (lit a) (lit "Notes")) in
      change (str_eqb (lit a) (lit "Label") || str_eqb (lit a) (lit "Notes")) with t; cbv iota end.
  - apply agree_yes; [left; exact W|]. apply (skip_word v v 6); [lia|reflexivity|]. intros w6 _.
    destruct (nth_error v 7) as [w|] eqn:E; [|apply nth_error_None in E; lia]. rewrite (word_at v 7 w E). unfold sidx. rewrite E. cbn [sbind]. unfold int_said.
    destruct (i64_of_str w) as [z|] eqn:Z; cbn [sbind].
    + apply agree_yes; [|apply agree_nil; apply H]. split; [intros _; exists z, w; auto|]. intros [X|X]; apply D in X; discriminate X.
    + apply agree_no; [|reflexivity]. intros [X _]. destruct X as [z [x [X Y]]]; [left; exact W|]. unfold at_word in X. congruence.
  - apply agree_yes; [right; left; exact W|]. apply (skip_word v v 6); [lia|reflexivity|]. intros w6 _.
    destruct (nth_error v 7) as [w|] eqn:E; [|apply nth_error_None in E; lia]. rewrite (word_at v 7 w E). unfold sidx. rewrite E. cbn [sbind]. unfold int_said.
    destruct (i64_of_str w) as [z|] eqn:Z; cbn [sbind].
    + apply agree_yes; [|apply agree_nil; apply H]. split; [intros _; exists z, w; auto|]. intros [X|X]; apply D in X; discriminate X.
    + apply agree_no; [|reflexivity]. intros [X _]. destruct X as [z [x [X Y]]]; [right; exact W|]. unfold at_word in X. congruence.
  - rewrite sbind_assoc. apply (skip_word v v 6); [lia|reflexivity|]. intros w6 _. cbn [sbind]. apply (skip_word v v 7); [lia|reflexivity|]. intros w7 _.
    unfold sidx. destruct (nth_error v 8) as [w|] eqn:E; cbn [sbind].
    + apply agree_yes; [right; right; apply nth_error_Some; congruence|]. rewrite (word_at v 8 w E). unfold int_said. destruct (i64_of_str w) as [z|] eqn:Z; cbn [sbind].
      * apply agree_yes; [|apply agree_nil; apply H]. split; [|intros _; exists z, w; auto]. intros [X|X]; apply D in X; discriminate X.
      * apply agree_no; [|reflexivity]. intros [_ X]. destruct X as [z [x [X Y]]]; [left; exact W|]. unfold at_word in X. congruence.
    + apply agree_no; [|reflexivity]. apply nth_error_None in E. intros [X|[X|X]]; [apply D in X; discriminate X|apply D in X; discriminate X|lia].
  - rewrite sbind_assoc. apply (skip_word v v 6); [lia|reflexivity|]. intros w6 _. cbn [sbind]. apply (skip_word v v 7); [lia|reflexivity|]. intros w7 _.
    unfold sidx. destruct (nth_error v 8) as [w|] eqn:E; cbn [sbind].
    + apply agree_yes; [right; right; apply nth_error_Some; congruence|]. rewrite (word_at v 8 w E). unfold int_said. destruct (i64_of_str w) as [z|] eqn:Z; cbn [sbind].
      * apply agree_yes; [|apply agree_nil; apply H]. split; [|intros _; exists z, w; auto]. intros [X|X]; apply D in X; discriminate X.
      * apply agree_no; [|reflexivity]. intros [_ X]. destruct X as [z [x [X Y]]]; [right; exact W|]. unfold at_word in X. congruence.
    + apply agree_no; [|reflexivity]. apply nth_error_None in E. intros [X|[X|X]]; [apply D in X; discriminate X|apply D in X; discriminate X|lia].
Qed.
Lemma text_runs s r : runs_ok text_lines_of (s :: r) (text_said (s :: r)).
Proof.
  unfold text_said, text_lines_of. cbn [here_said sbind]. eapply ok_line; [apply blanks_one|]. cbv beta. set (v := split_ws s). cbv zeta.
  destruct (Nat.ltb_spec (length v) 8) as [L|L]; [apply agree_no; [lia|reflexivity]|]. apply agree_yes; [exact L|].
  apply (agree_name text_kinds "Unknown text type " v v 1 (lit " at " ++ s) _ _ (fun k => text_kind_said k s)); [lia|reflexivity|apply kind_reads|]. intros ty T.
  cbn [ints map app].
  apply (agree_int s v v 2); [lia|reflexivity|]. intros x _. apply (agree_int s v v 3); [lia|reflexivity|]. intros y _.
  apply (agree_int s v v 4); [lia|reflexivity|]. intros o _. apply (agree_int s v v 5); [lia|reflexivity|]. intros z _.
  apply (agree_thickness s v ty _ (fun shape wi th => try text <- here_said (next (s :: r)); Fine (mk_stext ty x y o z shape (seq wi "Italic") th text, next (s :: r)))); [exact L|exact T|].
  intros a b th. cbn [next tl]. apply ok_here. intros t q _. apply ok_free. apply ok_end. eexists. reflexivity.
Qed.
(** ** The title block *)
Lemma agree_named {A} k s v (K : said A -> Prop) (f : str -> said A) : line_words s v -> (forall t, K (f t)) ->
  agree [m_count 2 s v; (at_word v 0 (lit k), Some (lit "expecting: " ++ lit k ++ lit ", actually: " ++ word v 0))] K (try t <- named_said k s; f t).
Proof.
  intros W H. unfold named_said. rewrite sbind_assoc. apply agree_count; [exact W|]. intros u L U. rewrite sbind_assoc.
  destruct (nth_error v 0) as [w|] eqn:E; [|apply nth_error_None in E; lia]. unfold sidx at 1. rewrite (U 0%nat) by lia. rewrite E. cbn [sbind].
  rewrite sbind_assoc. unfold assume_said. rewrite (word_at v 0 w E). destruct (str_eqb w (lit k)) eqn:S; cbn [sbind].
  - apply str_eqb_eq in S. apply agree_yes; [unfold at_word; congruence|]. apply agree_nil. unfold sidx. rewrite (U 1%nat) by lia.
    destruct (nth_error v 1) as [t|] eqn:E1; [|apply nth_error_None in E1; lia]. apply H.
  - apply agree_no; [|reflexivity]. intros X. unfold at_word in X. assert (w = lit k) by congruence. subst w. rewrite str_eqb_refl in S. discriminate.
Qed.
Lemma ok_named {A} k cs p (f : str -> said A) : (forall q t, p <> [] -> q = next p -> runs_ok cs q (f t)) ->
  runs_ok (named_checks k :: cs) p (try s <- here_said p; try t <- named_said k s; f t).
Proof.
  intros H. apply ok_here. intros s q ->. destruct (words_total s) as [v V]. apply words_bw in V. eapply ok_line; [exists v; split; [exact V|reflexivity]|].
  apply agree_named; [exact V|]. intros t. apply H; [discriminate|reflexivity].
Qed.
Lemma descr_runs s r : runs_ok descr_lines_of (s :: r) (descr_said (s :: r)).
Proof.
  unfold descr_said, descr_lines_of. cbn [here_said sbind]. destruct (words_total s) as [v V]. apply words_bw in V.
  eapply ok_line; [exists v; split; [exact V|reflexivity]|]. cbn [ints map].
  apply agree_count; [exact V|]. intros u L U. apply (skip_word v u 1); [lia|apply U; lia|]. intros size _.
  apply (agree_int s v u 2); [lia|apply U; lia|]. intros x _. apply (agree_int s v u 3); [lia|apply U; lia|]. intros y _. apply agree_nil. cbv zeta.
  cbn [next tl]. destruct r as [|e r]; [left; exists None; split; [constructor|reflexivity]|]. apply ok_free. cbn [tl].
  apply ok_here. intros b q ->. destruct (words_total b) as [vb VB]. apply words_bw in VB. eapply ok_line; [exists vb; split; [exact VB|reflexivity]|]. cbn [ints map].
  apply agree_count; [exact VB|]. intros ub LB UB.
  destruct (nth_error vb 0) as [w|] eqn:E; [|apply nth_error_None in E; lia]. unfold sidx at 1. rewrite (UB 0%nat) by lia. rewrite E. cbn [sbind].
  destruct (seq w "Sheet") eqn:S; cbn [negb].
  2:{ apply agree_no; [|reflexivity]. apply seq_no in S. intros X. unfold at_word in X. congruence. }
  apply seq_iff in S. apply agree_yes; [unfold at_word; congruence|].
  apply (agree_int b vb ub 1); [lia|apply UB; lia|]. intros n _. apply (agree_int b vb ub 2); [lia|apply UB; lia|]. intros c _. apply agree_nil.
  cbn [next tl]. do 8 (apply ok_named; intros ? ? _ ->).
  apply ok_here. intros z qq Z. eapply ok_line; [reflexivity|]. unfold assume_said. destruct (str_eqb z (lit "$EndDescr")) eqn:Q; cbn [sbind].
  - apply str_eqb_eq in Q. apply agree_yes; [exact Q|]. apply agree_nil. apply ok_end. eexists. reflexivity.
  - apply agree_no; [|reflexivity]. intros ->. rewrite str_eqb_refl in Q. discriminate.
Qed.
