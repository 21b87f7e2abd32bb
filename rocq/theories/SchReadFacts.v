(** The schematic reader accepts exactly the texts of [schematic_text] (C70). *)
From Coq Require Import String Lia.
From Verif Require Import Base Str StrFacts Num F64 F64Text SexpFacts LibFns LibSpec CutSpec CutFacts SchData SchPrint SchParse SchReadSpec.
Open Scope string_scope. Open Scope list_scope.

(** ** Words *)
Lemma idx_iff {A} (v : list A) i w : idx v i = Ok w <-> nth_error v i = Some w.
Proof. unfold idx. destruct (nth_error v i); split; intros H; try discriminate H; now injection H as ->. Qed.
Lemma int_ok w z : i64_from_string w = Ok z <-> i64_of_str w = Some z.
Proof. unfold i64_from_string. destruct (i64_of_str w); cbn; split; intros H; try discriminate H; now injection H as ->. Qed.
Lemma num_ok w z : f64_from_string w = Ok z <-> f64_of_str w = Some z.
Proof. unfold f64_from_string. destruct (f64_of_str w); cbn; split; intros H; try discriminate H; now injection H as ->. Qed.
Lemma eq_n {A} k s w (f : list str -> res A) : line_words s w -> (forall v, (forall i, (i < k)%nat -> nth_error v i = nth_error w i) -> f v = f w) ->
  (do v <- split_quote_aware_n k s; f v) = if Nat.leb k (length w) then f w else Err EOther.
Proof.
  intros W D. destruct (n_words k s w W) as [(L & v & -> & S)|(L & ->)].
  - apply Nat.leb_le in L. rewrite L. cbn [bind]. now apply D.
  - destruct (Nat.leb_spec k (length w)); [lia|reflexivity].
Qed.
Ltac first_k := let v := fresh "v" in let S := fresh "S" in intros v S; unfold idx; rewrite !S by lia; reflexivity.
Lemma at_len (v : list str) i w : nth_error v i = Some w -> (i < length v)%nat.
Proof. intros H. apply nth_error_Some. now rewrite H. Qed.
(** Taking a successful computation apart *)
Ltac inv1 := match goal with
  | H : bind _ _ = Ok _ |- _ => let x := fresh "x" in let E := fresh "E" in apply bind_inv in H as (x & E & H)
  | H : Ok _ = Ok _ |- _ => injection H as H; try subst
  | H : (if ?b then Err _ else _) = Ok _ |- _ => let E := fresh "E" in destruct b eqn:E; [discriminate H|]
  | H : (if ?b then _ else Err _) = Ok _ |- _ => let E := fresh "E" in destruct b eqn:E; [|discriminate H]
  | H : idx _ _ = Ok _ |- _ => apply idx_iff in H
  | H : i64_from_string _ = Ok _ |- _ => apply int_ok in H
  | H : f64_from_string _ = Ok _ |- _ => apply num_ok in H
  end.
Ltac inv := repeat inv1.
Ltac ints := unfold at_word, at_int, at_num in *; eauto.
Lemma assume_iff k s : assume_string k s = Ok tt <-> s = lit k.
Proof. unfold assume_string, seq. destruct (str_eqb_spec s (lit k)); split; intros H; try discriminate H; auto; contradiction. Qed.
Lemma named_iff k s t : word_and_qstring k s = Ok t <-> named_line k s t.
Proof.
  destruct (words_total s) as [w W]. apply words_bw in W as L. unfold word_and_qstring. rewrite (eq_n 2 s w _ L) by first_k. split.
  - intros H. inv. destruct x0. apply assume_iff in E1. subst. exists w. ints.
  - intros (v & V & A & B). apply words_fw in V. rewrite V in W. injection W as ->. pose proof (at_len _ _ _ B). destruct (Nat.leb_spec 2 (length w)); [|lia].
    unfold idx. rewrite A. cbn [bind]. rewrite (proj2 (assume_iff _ _) eq_refl). cbn [bind]. now rewrite B.
Qed.
Lemma begins_iff s w : first_word s = Some w <-> begins s w.
Proof.
  unfold first_word, begins. split.
  - destruct (split_ws s) as [|x v] eqn:E; cbn [hd_error]; intros H; [discriminate H|injection H as ->]. exists v. now apply ws_iff.
  - intros (v & V). apply ws_iff in V. now rewrite V.
Qed.
Lemma begins_fun s a b : begins s a -> begins s b -> a = b.
Proof. intros A B. apply begins_iff in A, B. congruence. Qed.
Lemma n_inv k s v : split_quote_aware_n k s = Ok v -> exists w, line_words s w /\ (k <= length w)%nat /\ forall i, (i < k)%nat -> nth_error v i = nth_error w i.
Proof.
  intros H. destruct (words_total s) as [w W]. apply words_bw in W. exists w. split; [exact W|].
  destruct (n_words k s w W) as [(L & v' & E & S)|(L & E)]; rewrite E in H; [|discriminate H]. injection H as ->. now split.
Qed.
Lemma n_ok k s w : line_words s w -> (k <= length w)%nat -> exists v, split_quote_aware_n k s = Ok v /\ forall i, (i < k)%nat -> nth_error v i = nth_error w i.
Proof. intros W L. destruct (n_words k s w W) as [(_ & v & E & S)|(L' & _)]; [now exists v|lia]. Qed.
Ltac known_words := repeat match goal with
  | H : split_quote_aware_n _ _ = Ok ?v |- _ => let w := fresh "w" in let W := fresh "W" in let L := fresh "L" in let S := fresh "S" in
      destruct (n_inv _ _ _ H) as (w & W & L & S); clear H; repeat match goal with K : nth_error v _ = Some _ |- _ => rewrite S in K by lia end; clear S
  | H : split_quote_aware _ = Ok _ |- _ => apply words_bw in H
  end.
Ltac here_inv := unfold next in *; repeat match goal with
  | H : here (tl ?p) = Ok _ |- _ => progress cbn [tl] in H
  | H : context [tl ?p] |- _ => is_var p; destruct p; cbn [tl] in *
  | H : here ?p = Ok _ |- _ => is_var p; destruct p; [discriminate H|]
  | H : here (_ :: _) = Ok _ |- _ => cbn [here] in H; injection H as H; subst
  | H : here [] = Ok _ |- _ => discriminate H
  end.
Lemma seq_iff a k : seq a k = true <-> a = lit k.
Proof. unfold seq. destruct (str_eqb_spec a (lit k)); split; intros H; try discriminate H; auto; contradiction. Qed.
Lemma seq_no a k : seq a k = false <-> a <> lit k.
Proof. unfold seq. destruct (str_eqb_spec a (lit k)); split; intros H; try discriminate H; auto; contradiction. Qed.

Lemma first_begins s w k : begins s w -> word_is s k = seq w k.
Proof. intros B. apply begins_iff in B. unfold word_is. now rewrite B. Qed.
Lemma word_is_iff s k : word_is s k = true <-> begins_with s k.
Proof.
  unfold begins_with. rewrite <- begins_iff. unfold word_is. destruct (first_word s) as [w|]; [|split; discriminate].
  rewrite seq_iff. split; intros H; [now rewrite H|now injection H].
Qed.
Lemma word_is_no s k : word_is s k = false <-> ~ begins_with s k.
Proof. rewrite <- word_is_iff. destruct (word_is s k); split; intros H; try discriminate; try congruence; now contradiction H. Qed.
Ltac lens := repeat match goal with
  | H : nth_error ?v ?i = Some _ |- _ => match goal with K : (i < length v)%nat |- _ => fail 1 | _ => pose proof (at_len v i _ H) end
  end.
Ltac opened := unfold at_int, at_num, at_name, at_char, at_word, named_line, begins_with in *; repeat match goal with
  | H : exists _, _ |- _ => destruct H
  | H : _ /\ _ |- _ => destruct H
  end.
Ltac run := repeat match goal with
  | |- context [bind (Ok _) _] => cbn [bind]
  | H : nth_error ?v ?i = Some _ |- context [nth_error ?v ?i] => rewrite H
  | |- context [idx ?v ?i] => unfold idx at 1
  | H : i64_of_str ?w = Some _ |- context [i64_from_string ?w] => rewrite (proj2 (int_ok _ _) H)
  | H : f64_of_str ?w = Some _ |- context [f64_from_string ?w] => rewrite (proj2 (num_ok _ _) H)
  | W : line_words ?s ?w |- context [split_quote_aware_n ?k ?s] =>
      let v := fresh "v" in let E := fresh "E" in let S := fresh "S" in
      destruct (n_ok k s w W ltac:(lens; lia)) as (v & E & S); rewrite E; cbn [bind]; unfold idx; rewrite !S by lia; clear E S
  | W : line_words ?s ?w |- context [split_quote_aware ?s] => rewrite (words_fw s w W)
  end.

(** ** Title block *)
Lemma descr_fw p d q : parse_description p = Ok (d, q) -> (exists s r, p = s :: r /\ begins_with s "$Descr") -> exists l r, p = l ++ r /\ descr_text l d /\ q = lit "$EndDescr" :: r.
Proof.
  intros H (s0 & r0 & -> & B). unfold parse_description in H. inv. here_inv.
  repeat match goal with H : word_and_qstring _ _ = Ok _ |- _ => apply named_iff in H end.
  repeat match goal with u : unit |- _ => destruct u end.
  match goal with H : assume_string _ _ = Ok _ |- _ => apply assume_iff in H; subst end.
  match goal with H : negb _ = false |- _ => apply Bool.negb_false_iff, seq_iff in H; subst end. known_words.
  eexists [_; _; _; _; _; _; _; _; _; _; _; _], _. split; [reflexivity|split; [|reflexivity]]. eapply descr_lines; ints.
Qed.
Lemma descr_bw l d r : descr_text l d -> parse_description (l ++ r) = Ok (d, lit "$EndDescr" :: r).
Proof.
  intros H. destruct H. cbn [app]. unfold parse_description.
  repeat match goal with H : named_line _ _ _ |- _ => apply named_iff in H end. opened.
  cbn [here next tl bind]. run. replace (seq (lit "Sheet") "Sheet") with true by reflexivity. cbn [negb]. run. cbn [here next tl bind].
  repeat match goal with H : word_and_qstring _ _ = Ok _ |- _ => rewrite H; clear H; cbn [here next tl bind] end. reflexivity.
Qed.

(** ** Components *)
Lemma bool_from_iff c t f b : t <> f -> bool_from c t f = Ok b <-> In (c, b) [(t, true); (f, false)].
Proof.
  intros D. unfold bool_from. destruct (N.eqb_spec c t) as [->|T]; [|destruct (N.eqb_spec c f) as [->|F]]; cbn [In]; split; intros H.
  - injection H as <-. now left.
  - destruct H as [H|[H|[]]]; injection H; intros; subst; try reflexivity. contradiction D; reflexivity.
  - injection H as <-. now right; left.
  - destruct H as [H|[H|[]]]; injection H; intros; subst; try reflexivity. contradiction T; reflexivity.
  - discriminate H.
  - destruct H as [H|[H|[]]]; injection H; intros; subst; contradiction.
Qed.
Ltac table := repeat match goal with
  | H : (if ?b then _ else _) = Ok _ |- _ => destruct b eqn:?
  | H : Ok _ = Ok _ |- _ => injection H as <-
  | H : Err _ = Ok _ |- _ => discriminate H
  | H : N.eqb _ _ = true |- _ => apply N.eqb_eq in H; subst
  | H : seq _ _ = true |- _ => apply seq_iff in H; subst
  end.
Lemma orientation_iff c o : orientation_new c = Ok o <-> In (c, o) orientations.
Proof.
  unfold orientation_new, orientations. split.
  - intros H. table; cbn [In]; auto.
  - intros [H|[H|[]]]; injection H as <- <-; reflexivity.
Qed.
Lemma sjustify_iff c o : sjustify_new c = Ok o <-> In (c, o) justifications.
Proof.
  unfold sjustify_new, justifications. split.
  - intros H. table; cbn [In]; tauto.
  - intros [H|[H|[H|[H|[H|[]]]]]]; injection H as <- <-; reflexivity.
Qed.
Lemma char_iff w j c : char_at w j = Ok c <-> nth_error w j = Some c.
Proof. exact (idx_iff w j c). Qed.
Lemma visible_iff w b : bool_from_string w "0000" "0001" = Ok b <-> exists k, w = lit k /\ In (k, b) [("0000", true); ("0001", false)].
Proof.
  unfold bool_from_string. split.
  - intros H. table; eexists; (split; [reflexivity|cbn [In]; auto]).
  - intros (k & -> & [H|[H|[]]]); injection H as <- <-; reflexivity.
Qed.
Lemma usual_iff i n : default_field_name i = Some n <-> exists k, In (i, k) usual_names /\ n = lit k.
Proof.
  unfold usual_names. split.
  - destruct i as [|[[?|?|]|[?|?|]|]|?]; cbn [default_field_name]; intros H; try discriminate H; injection H as <-; eexists; (split; [cbn [In]; eauto 6|reflexivity]).
  - intros (k & [H|[H|[H|[H|[]]]]] & ->); injection H as <- <-; reflexivity.
Qed.

Lemma cfield_fw v f : cfield_new v = Ok f ->
  at_int v 1 (cf_i f) /\ at_word v 2 (cf_value f) /\ at_char v 3 0 orientations (cf_orient f) /\
    at_num v 4 (cf_x f) /\ at_num v 5 (cf_y f) /\ at_int v 6 (cf_size f) /\ at_name v 7 [("0000", true); ("0001", false)] (cf_visible f) /\
    at_char v 8 0 justifications (cf_hjust f) /\ at_char v 9 0 justifications (cf_vjust f) /\
    at_char v 9 1 [(73%N, true); (78%N, false)] (cf_italic f) /\ at_char v 9 2 [(66%N, true); (78%N, false)] (cf_bold f) /\
    ((length v = 11%nat /\ at_word v 10 (cf_name f)) \/ (length v = 10%nat /\ exists k, In (cf_i f, k) usual_names /\ cf_name f = lit k)).
Proof.
  unfold cfield_new. intros H. inv.
  repeat match goal with
  | H : char_at _ _ = Ok _ |- _ => apply char_iff in H
  | H : orientation_new _ = Ok _ |- _ => apply orientation_iff in H
  | H : sjustify_new _ = Ok _ |- _ => apply sjustify_iff in H
  | H : bool_from _ _ _ = Ok _ |- _ => apply bool_from_iff in H; [|discriminate]
  | H : bool_from_string _ _ _ = Ok _ |- _ => apply visible_iff in H as (? & -> & H)
  end.
  cbn [cf_i cf_value cf_orient cf_x cf_y cf_size cf_visible cf_hjust cf_vjust cf_italic cf_bold cf_name]. unfold at_char, at_name, at_int, at_num, at_word.
  repeat (split; [solve [eauto 8]|]).
  match goal with H : (if Nat.eqb _ 11 then _ else _) = Ok _ |- _ => revert H end. match goal with H : negb _ && negb _ = false |- _ => revert H end.
  destruct (Nat.eqb_spec (length v) 11) as [L|L].
  - intros _ H. apply idx_iff in H. left. now split.
  - destruct (Nat.eqb_spec (length v) 10) as [M|M]; [|discriminate]. intros _ H. right. split; [exact M|].
    apply usual_iff. destruct (default_field_name _); cbn in H; [now injection H as ->|discriminate H].
Qed.
Lemma cfield_bw s v f : line_words s v -> field_line s f -> cfield_new v = Ok f.
Proof.
  intros W (v' & W' & H). apply words_fw in W', W. rewrite W in W'. injection W' as <-. destruct f as [i value orient x y size vis hj vj it bo name].
  cbn [cf_i cf_value cf_orient cf_x cf_y cf_size cf_visible cf_hjust cf_vjust cf_italic cf_bold cf_name] in H.
  destruct H as (A1 & A2 & A3 & A4 & A5 & A6 & A7 & A8 & A9 & A10 & A11 & A12). unfold cfield_new. opened.
  repeat match goal with
  | H : In _ orientations |- _ => apply orientation_iff in H
  | H : In _ justifications |- _ => apply sjustify_iff in H
  | H : In (_, it) _ |- _ => apply bool_from_iff in H; [|discriminate]
  | H : In (_, bo) _ |- _ => apply bool_from_iff in H; [|discriminate]
  | H : In (?k, vis) _ |- _ => assert (bool_from_string (lit k) "0000" "0001" = Ok vis) by (apply visible_iff; eauto); clear H
  | H : nth_error ?w _ = Some _, K : nth_error v 9 = Some ?w |- _ => apply char_iff in H
  | H : nth_error ?w _ = Some _, K : nth_error v 8 = Some ?w |- _ => apply char_iff in H
  | H : nth_error ?w _ = Some _, K : nth_error v 3 = Some ?w |- _ => apply char_iff in H
  end.
  repeat match goal with H : nth_error v 9 = Some ?a, K : nth_error v 9 = Some ?b |- _ => rewrite H in K; injection K as K; subst end.
  assert (N : negb (Nat.eqb (length v) 10) && negb (Nat.eqb (length v) 11) = false) by (destruct A12 as [(L & _)|(L & _)]; rewrite L; reflexivity). rewrite N. clear N.
  run.
  assert (M : (if Nat.eqb (length v) 11 then match nth_error v 10 with Some x => Ok x | None => Panic end else of_option EOther (default_field_name i)) = Ok name).
  { destruct A12 as [(L & M)|(L & M)]; rewrite L; cbn [Nat.eqb]; [now rewrite M|]. apply usual_iff in M. now rewrite M. }
  unfold idx. rewrite M. run.
  repeat (match goal with H : _ = Ok _ |- _ => rewrite H; clear H end; run). reflexivity.
Qed.
Lemma field_line_iff s v f : line_words s v -> cfield_new v = Ok f <-> field_line s f.
Proof. intros W. split; [|now apply cfield_bw]. intros H. exists v. split; [exact W|now apply cfield_fw]. Qed.

Definition comp_put (d : component) (p : comp_part) : component :=
  match p with
  | KName n r => set_l d n r | KUnit s => set_u d s | KPos x y => set_p d x y | KField f => set_fields d (co_fields d ++ [f])
  | KAr s => push_ar d s | KTurn r => set_rotation d r | KNone => d
  end.
Lemma comp_line_fw s d d' : word_is s "1" || word_is s "0" = false -> component_line s d = Ok d' -> exists k, comp_line s k /\ d' = comp_put d k.
Proof.
  intros N. apply Bool.orb_false_iff in N as [N1 N0]. unfold component_line.
  destruct (word_is s "L") eqn:E1; [|destruct (word_is s "U") eqn:E2; [|destruct (word_is s "P") eqn:E3; [|destruct (word_is s "F") eqn:E4; [|destruct (word_is s "AR") eqn:E5]]]]; intros H; inv; known_words.
  - apply word_is_iff in E1. eexists (KName _ _). split; [eapply cl_name; ints|reflexivity].
  - apply word_is_iff in E2. eexists (KUnit _). split; [now apply cl_unit|reflexivity].
  - apply word_is_iff in E3. eexists (KPos _ _). split; [eapply cl_pos; ints|reflexivity].
  - apply word_is_iff in E4. eexists (KField _). split; [apply cl_field; [exact E4|eapply field_line_iff; eassumption]|reflexivity].
  - apply word_is_iff in E5. eexists (KAr _). split; [now apply cl_ar|reflexivity].
  - exists KNone. split; [|reflexivity]. apply cl_none. intros k [<-|[<-|[<-|[<-|[<-|[<-|[<-|[]]]]]]]]; now apply word_is_no.
Qed.
Lemma comp_line_bw s d k : comp_line s k -> component_line s d = Ok (comp_put d k) /\ word_is s "1" || word_is s "0" = false.
Proof.
  intros H. destruct H; unfold component_line;
    try (match goal with B : begins_with s _ |- _ => rewrite !(first_begins _ _ _ B) end;
         repeat match goal with |- context [seq (lit ?a) ?b] => let t := eval vm_compute in (seq (lit a) b) in change (seq (lit a) b) with t end; cbv beta iota; cbn [orb]).
  - split; [|reflexivity]. opened. run. reflexivity.
  - now split.
  - split; [|reflexivity]. opened. run. reflexivity.
  - split; [|reflexivity]. destruct (words_total s) as [w W]. rewrite W. cbn [bind]. apply words_bw in W. rewrite (proj2 (field_line_iff s w f W)) by assumption. reflexivity.
  - now split.
  - rewrite (proj2 (word_is_no s "L")), (proj2 (word_is_no s "U")), (proj2 (word_is_no s "P")), (proj2 (word_is_no s "F")), (proj2 (word_is_no s "AR")),
      (proj2 (word_is_no s "1")), (proj2 (word_is_no s "0")) by (apply H; cbn [In comp_words]; tauto). now split.
Qed.
Lemma four_iff s a b c d : four s = Ok (a, b, c, d) <-> four_ints s a b c d.
Proof.
  unfold four, four_ints. split.
  - intros H. destruct (split_ws s) as [|w1 [|w2 [|w3 [|w4 [|? ?]]]]] eqn:E; try discriminate H. apply ws_iff in E. inv.
    exists [w1; w2; w3; w4]. split; [exact E|split; [reflexivity|]]. unfold at_int, at_word. cbn [nth_error]. repeat split; eauto.
  - intros (v & W & L & A). apply ws_iff in W. rewrite W. destruct v as [|w1 [|w2 [|w3 [|w4 [|? ?]]]]]; try discriminate L.
    destruct A as ((? & A & ?) & (? & B & ?) & (? & C & ?) & (? & D & ?)). injection A as ->. injection B as ->. injection C as ->. injection D as ->. run. reflexivity.
Qed.
Lemma comp_loop_fw n p d d' q : (length p <= n)%nat -> component_loop p d = Ok (d', q) ->
  exists l k r, p = l ++ q /\ q = lit "$EndComp" :: r /\ comp_parts l k /\ d' = fold_left comp_put k d.
Proof.
  revert p d. induction n as [|n IH]; intros [|s r] d L H; try discriminate H; cbn [length] in L; [lia|].
  cbn [component_loop] in H. destruct (seq s "$EndComp") eqn:E.
  { injection H as <- <-. apply seq_iff in E. subst. exists [], [], r. repeat split. constructor. }
  destruct (word_is s "1" || word_is s "0") eqn:N.
  - destruct r as [|s2 r]; [discriminate H|]. apply bind_inv in H as ([[[a b] c] e] & F & H). cbn [length] in L. apply IH in H; [|lia].
    destruct H as (l & k & t & -> & -> & P & ->). exists (s :: s2 :: l), (KTurn (mk_rotation a b c e) :: k), t. split; [reflexivity|split; [reflexivity|split; [|reflexivity]]].
    apply cp_turn; [|now apply four_iff|exact P]. apply Bool.orb_true_iff in N as [N|N]; [left|right]; now apply word_is_iff.
  - apply bind_inv in H as (d1 & F & H). apply comp_line_fw in F as (k & K & ->); [|exact N]. apply IH in H; [|lia]. destruct H as (l & ks & t & -> & -> & P & ->).
    exists (s :: l), (k :: ks), t. split; [reflexivity|split; [reflexivity|split; [|reflexivity]]]. apply cp_line; [now apply seq_no|exact K|exact P].
Qed.
Lemma seq_no_first s : begins_with s "1" \/ begins_with s "0" -> seq s "$EndComp" = false.
Proof.
  intros H. apply seq_no. intros ->. assert (B : begins (lit "$EndComp") (lit "$EndComp")) by (apply begins_iff; reflexivity).
  destruct H as [H|H]; apply (begins_fun _ _ _ B) in H; discriminate H.
Qed.
Lemma comp_loop_bw l k r d : comp_parts l k -> component_loop (l ++ lit "$EndComp" :: r) d = Ok (fold_left comp_put k d, lit "$EndComp" :: r).
Proof.
  intros H. revert d. induction H; intros d'; [reflexivity| |].
  - cbn [app component_loop fold_left]. rewrite (proj2 (seq_no _ _) H). destruct (comp_line_bw s d' x H0) as [-> ->]. cbn [bind]. apply IHcomp_parts.
  - cbn [app component_loop fold_left]. assert (N : seq s "$EndComp" = false /\ word_is s "1" || word_is s "0" = true).
    { apply seq_no_first in H as E. split; [exact E|]. apply Bool.orb_true_iff. destruct H; [left|right]; now apply word_is_iff. }
    destruct N as [-> ->]. apply four_iff in H0. rewrite H0. cbn [bind]. apply IHcomp_parts.
Qed.
Lemma comp_fold l d : fold_left comp_put l d =
  mk_comp (last_of (fun p => match p with KName n _ => Some n | _ => None end) (co_name d) l)
    (last_of (fun p => match p with KName _ r => Some r | _ => None end) (co_reference d) l)
    (last_of (fun p => match p with KUnit s => Some s | _ => None end) (co_u d) l)
    (last_of (fun p => match p with KPos x _ => Some x | _ => None end) (co_x d) l)
    (last_of (fun p => match p with KPos _ y => Some y | _ => None end) (co_y d) l)
    (co_ar d ++ flat_map (fun p => match p with KAr s => [s] | _ => [] end) l)
    (co_fields d ++ flat_map (fun p => match p with KField f => [f] | _ => [] end) l)
    (last_of (fun p => match p with KTurn r => Some r | _ => None end) (co_rotation d) l).
Proof.
  revert d. induction l as [|p l IH]; intros d.
  - cbn [fold_left last_of flat_map]. rewrite !app_nil_r. now destruct d.
  - cbn [fold_left]. rewrite IH. destruct p; cbn [comp_put last_of flat_map set_l set_u set_p push_ar set_fields set_rotation co_name co_reference co_u co_x co_y co_ar co_fields co_rotation app];
      rewrite <- ?app_assoc; reflexivity.
Qed.
Lemma comp_of_fold l : fold_left comp_put l comp_default = comp_of l.
Proof. rewrite comp_fold. reflexivity. Qed.
Lemma component_fw s r c q : parse_component (s :: r) = Ok (c, q) -> exists l k t, r = l ++ q /\ q = lit "$EndComp" :: t /\ comp_parts l k /\ c = comp_of k.
Proof.
  unfold parse_component. cbn [next tl]. intros H. apply (comp_loop_fw (length r)) in H; [|lia]. destruct H as (l & k & t & -> & -> & P & ->).
  exists l, k, t. split; [reflexivity|split; [reflexivity|split; [exact P|apply comp_of_fold]]].
Qed.
Lemma component_bw s l k t : comp_parts l k -> parse_component (s :: l ++ lit "$EndComp" :: t) = Ok (comp_of k, lit "$EndComp" :: t).
Proof. intros P. unfold parse_component. cbn [next tl]. now rewrite (comp_loop_bw l k t _ P), comp_of_fold. Qed.

(** ** Sheets *)
Lemma form_iff w f : parse_label_form w = Ok f <-> exists k, w = lit k /\ In (k, f) [("I", FInput); ("O", FOutput); ("B", FBiDi); ("T", FTriState); ("U", FUnspecified)].
Proof.
  unfold parse_label_form. split.
  - intros H. table; eexists; (split; [reflexivity|cbn [In]; tauto]).
  - intros (k & -> & [H|[H|[H|[H|[H|[]]]]]]); injection H as <- <-; reflexivity.
Qed.
Lemma side_iff w f : parse_label_side w = Ok f <-> exists k, w = lit k /\ In (k, f) [("L", DLeft); ("R", DRight); ("T", DTop); ("B", DBottom)].
Proof.
  unfold parse_label_side. split.
  - intros H. table; eexists; (split; [reflexivity|cbn [In]; tauto]).
  - intros (k & -> & [H|[H|[H|[H|[]]]]]); injection H as <- <-; reflexivity.
Qed.
Lemma label_iff s l : parse_sheet_label s = Ok l <-> label_line s l.
Proof.
  unfold parse_sheet_label. split.
  - intros H. inv. known_words. 
    repeat match goal with
    | H : parse_label_form _ = Ok _ |- _ => apply form_iff in H as (? & -> & H)
    | H : parse_label_side _ = Ok _ |- _ => apply side_iff in H as (? & -> & H)
    end.
    exists w. cbn [sl_name sl_form sl_side sl_x sl_y sl_size]. unfold at_name, at_int, at_word. split; [exact W|]. repeat (split; [solve [eauto 8]|]). eauto.
  - intros (v & W & A). destruct l as [n f sd x y z]. cbn [sl_name sl_form sl_side sl_x sl_y sl_size] in A. destruct A as (A1 & A2 & A3 & A4 & A5 & A6).
    destruct A2 as (kf & A2 & F). destruct A3 as (ks & A3 & G). opened. run.
    rewrite (proj2 (form_iff _ _) (ex_intro _ kf (conj eq_refl F))). run. rewrite (proj2 (side_iff _ _) (ex_intro _ ks (conj eq_refl G))). run. reflexivity.
Qed.
Definition sheet_put (s : sheet) (p : sheet_part) : sheet :=
  match p with
  | HBox x y dx dy => mk_sheet x y dx dy (sh_unique s) (sh_name s) (sh_name_size s) (sh_filename s) (sh_filename_size s) (sh_labels s)
  | HUnique u => mk_sheet (sh_x s) (sh_y s) (sh_dimx s) (sh_dimy s) u (sh_name s) (sh_name_size s) (sh_filename s) (sh_filename_size s) (sh_labels s)
  | HName n z => mk_sheet (sh_x s) (sh_y s) (sh_dimx s) (sh_dimy s) (sh_unique s) n z (sh_filename s) (sh_filename_size s) (sh_labels s)
  | HFile n z => mk_sheet (sh_x s) (sh_y s) (sh_dimx s) (sh_dimy s) (sh_unique s) (sh_name s) (sh_name_size s) n z (sh_labels s)
  | HLabel l => mk_sheet (sh_x s) (sh_y s) (sh_dimx s) (sh_dimy s) (sh_unique s) (sh_name s) (sh_name_size s) (sh_filename s) (sh_filename_size s) (sh_labels s ++ [l])
  | HNone => s
  end.
Lemma starts_F w : starts_with (lit "F") w = true <-> exists i, w = 70%N :: i.
Proof.
  split.
  - destruct w as [|c i]; intros H; [discriminate H|]. change (N.eqb 70 c && true = true) in H. rewrite Bool.andb_true_r in H. apply N.eqb_eq in H. subst. now exists i.
  - intros [i ->]. reflexivity.
Qed.
Lemma sheet_line_fw st s s' : sheet_line st s = Ok s' -> exists p, sheet_line_text st p /\ s' = sheet_put s p.
Proof.
  unfold sheet_line. destruct (first_word st) as [w|] eqn:B.
  2: { intros H. injection H as <-. exists HNone. split; [|reflexivity]. apply hl_none; [intros K|intros K|intros i K]; apply begins_iff in K; rewrite K in B; discriminate B. }
  apply begins_iff in B. destruct (seq w "S") eqn:E1; [|destruct (seq w "U") eqn:E2; [|destruct (starts_with (lit "F") w) eqn:E3]].
  - apply seq_iff in E1. subst. intros H. inv. known_words. eexists (HBox _ _ _ _). split; [eapply hl_box; ints|reflexivity].
  - apply seq_iff in E2. subst. intros H. inv. known_words. eexists (HUnique _). split; [eapply hl_unique; ints|reflexivity].
  - apply starts_F in E3 as [i ->]. cbn [tl]. intros H. inv. destruct (Z.eqb_spec x 0) as [->|N0]; [|destruct (Z.eqb_spec x 1) as [->|N1]]; inv; known_words.
    + eexists (HName _ _). split; [eapply hl_name; ints|reflexivity].
    + eexists (HFile _ _). split; [eapply hl_file; ints|reflexivity].
    + match goal with H : parse_sheet_label _ = Ok _ |- _ => apply label_iff in H end. eexists (HLabel _). split; [eapply hl_label; ints|reflexivity].
  - intros H. injection H as <-. exists HNone. split; [|reflexivity]. apply seq_no in E1, E2.
    apply hl_none; [intros K|intros K|intros i K]; apply (begins_fun _ _ _ B) in K; [contradiction|contradiction|].
    assert (starts_with (lit "F") w = true) by (apply starts_F; now exists i). congruence.
Qed.
Lemma sheet_line_bw st s p : sheet_line_text st p -> sheet_line st s = Ok (sheet_put s p).
Proof.
  intros H. unfold sheet_line. destruct H; try (match goal with B : begins_with _ _ |- _ => unfold begins_with in B end);
    try (match goal with B : begins _ _ |- _ => rewrite (proj2 (begins_iff _ _) B) end).
  - change (seq (lit "S") "S") with true. cbv beta iota. opened. run. reflexivity.
  - change (seq (lit "U") "S") with false. change (seq (lit "U") "U") with true. cbv beta iota. opened. run. reflexivity.
  - replace (seq (70%N :: i) "S") with false by reflexivity. replace (seq (70%N :: i) "U") with false by reflexivity.
    rewrite (proj2 (starts_F _) (ex_intro _ i eq_refl)). cbv beta iota. cbn [tl]. run. cbn [Z.eqb]. opened. run. reflexivity.
  - replace (seq (70%N :: i) "S") with false by reflexivity. replace (seq (70%N :: i) "U") with false by reflexivity.
    rewrite (proj2 (starts_F _) (ex_intro _ i eq_refl)). cbv beta iota. cbn [tl]. run. cbn [Z.eqb Pos.eqb]. opened. run. reflexivity.
  - replace (seq (70%N :: i) "S") with false by reflexivity. replace (seq (70%N :: i) "U") with false by reflexivity.
    rewrite (proj2 (starts_F _) (ex_intro _ i eq_refl)). cbv beta iota. cbn [tl]. run. apply Z.eqb_neq in H1, H2. rewrite H1, H2. apply label_iff in H3. rewrite H3. reflexivity.
  - destruct (first_word s0) as [w|] eqn:B; [|reflexivity]. apply begins_iff in B.
    replace (seq w "S") with false by (symmetry; apply seq_no; intros ->; contradiction). replace (seq w "U") with false by (symmetry; apply seq_no; intros ->; contradiction).
    destruct (starts_with (lit "F") w) eqn:E; [|reflexivity]. apply starts_F in E as [i ->]. now apply H1 in B.
Qed.
Lemma sheet_fold l d : fold_left sheet_put l d =
  let box f z := last_of (fun p => match p with HBox x y dx dy => Some (f x y dx dy) | _ => None end) z l in
  mk_sheet (box (fun x _ _ _ => x) (sh_x d)) (box (fun _ y _ _ => y) (sh_y d)) (box (fun _ _ dx _ => dx) (sh_dimx d)) (box (fun _ _ _ dy => dy) (sh_dimy d))
    (last_of (fun p => match p with HUnique u => Some u | _ => None end) (sh_unique d) l)
    (last_of (fun p => match p with HName n _ => Some n | _ => None end) (sh_name d) l)
    (last_of (fun p => match p with HName _ z => Some z | _ => None end) (sh_name_size d) l)
    (last_of (fun p => match p with HFile n _ => Some n | _ => None end) (sh_filename d) l)
    (last_of (fun p => match p with HFile _ z => Some z | _ => None end) (sh_filename_size d) l)
    (sh_labels d ++ flat_map (fun p => match p with HLabel x => [x] | _ => [] end) l).
Proof.
  revert d. induction l as [|p l IH]; intros d; cbv zeta.
  - cbn [fold_left last_of flat_map]. rewrite !app_nil_r. now destruct d.
  - cbn [fold_left]. rewrite IH. cbv zeta. destruct p; cbn [sheet_put last_of flat_map sh_x sh_y sh_dimx sh_dimy sh_unique sh_name sh_name_size sh_filename sh_filename_size sh_labels app];
      rewrite <- ?app_assoc; reflexivity.
Qed.
Lemma sheet_loop_fw p d d' q : sheet_loop p d = Ok (d', q) ->
  exists l k r, p = l ++ q /\ q = lit "$EndSheet" :: r /\ Forall2 sheet_line_text l k /\ ~ In (lit "$EndSheet") l /\ d' = fold_left sheet_put k d.
Proof.
  revert d. induction p as [|s r IH]; intros d H; [discriminate H|]. cbn [sheet_loop] in H. destruct (seq s "$EndSheet") eqn:E.
  - injection H as <- <-. apply seq_iff in E. subst. exists [], [], r. repeat split; [constructor|intros []].
  - apply bind_inv in H as (d1 & F & H). apply sheet_line_fw in F as (k & K & ->). apply IH in H as (l & ks & t & -> & -> & P & N & ->).
    exists (s :: l), (k :: ks), t. split; [reflexivity|split; [reflexivity|split; [now constructor|split; [|reflexivity]]]]. intros [M|M]; [subst; now apply seq_no in E|contradiction].
Qed.
Lemma sheet_loop_bw l k r d : Forall2 sheet_line_text l k -> ~ In (lit "$EndSheet") l -> sheet_loop (l ++ lit "$EndSheet" :: r) d = Ok (fold_left sheet_put k d, lit "$EndSheet" :: r).
Proof.
  intros H. revert d. induction H as [|s k l ks A H IH]; intros d N; [reflexivity|]. cbn [app sheet_loop fold_left].
  rewrite (proj2 (seq_no s "$EndSheet")) by (intros ->; apply N; now left). rewrite (sheet_line_bw _ _ _ A). cbn [bind]. apply IH. intros M. apply N. now right.
Qed.
Lemma sheet_fw s r c q : parse_sheet (s :: r) = Ok (c, q) ->
  exists l k t, r = l ++ q /\ q = lit "$EndSheet" :: t /\ Forall2 sheet_line_text l k /\ ~ In (lit "$EndSheet") l /\ c = sheet_of k.
Proof.
  unfold parse_sheet. cbn [next tl]. intros H. apply sheet_loop_fw in H. destruct H as (l & k & t & -> & -> & P & N & ->).
  exists l, k, t. split; [reflexivity|split; [reflexivity|split; [exact P|split; [exact N|]]]]. rewrite sheet_fold. reflexivity.
Qed.
Lemma sheet_bw s l k t : Forall2 sheet_line_text l k -> ~ In (lit "$EndSheet") l -> parse_sheet (s :: l ++ lit "$EndSheet" :: t) = Ok (sheet_of k, lit "$EndSheet" :: t).
Proof. intros P N. unfold parse_sheet. cbn [next tl]. rewrite (sheet_loop_bw l k t _ P N), sheet_fold. reflexivity. Qed.

(** ** Single elements *)
Lemma kind_fw k : wire_kind k (if seq k "Notes" then WNotes else if seq k "Bus" then WBus else WWire).
Proof.
  unfold wire_kind. destruct (seq k "Notes") eqn:A; [apply seq_iff in A; auto|]. destruct (seq k "Bus") eqn:B; [apply seq_iff in B; auto|].
  apply seq_no in A, B. auto.
Qed.
Lemma kind_bw k t : wire_kind k t -> (if seq k "Notes" then WNotes else if seq k "Bus" then WBus else WWire) = t.
Proof.
  intros [[-> ->]|[[-> ->]|(A & B & ->)]]; [reflexivity|reflexivity|]. apply seq_no in A, B. now rewrite A, B.
Qed.
Lemma begins_ws s w v : begins s w -> ws_words s v -> nth_error v 0 = Some w.
Proof. intros (v' & B) V. apply ws_iff in B, V. rewrite B in V. now subst. Qed.
Lemma wire_fw p t q : parse_wire p = Ok (t, q) -> (exists s r, p = s :: r /\ begins_with s "Wire") -> exists a c, p = a :: q /\ (exists r, q = c :: r) /\ single [a; c] (SWire t).
Proof.
  intros H (s & r & -> & B). unfold parse_wire in H. cbn [here bind next tl] in H. destruct (split_ws s) as [|w1 [|k [|w3 [|? ?]]]] eqn:E; try discriminate H.
  apply ws_iff in E. apply bind_inv in H as (c & C & H). apply bind_inv in H as ([[[x1 y1] x2] y2] & F & H). injection H as <- <-. apply four_iff in F.
  destruct r as [|c' r]; [discriminate C|injection C as ->]. exists s, c. split; [reflexivity|split; [now exists r|]].
  pose proof (begins_ws _ _ _ B E) as Z. injection Z as ->. eapply si_wire; [exact E|apply kind_fw|exact F].
Qed.
Lemma point_fw k s r t q : parse_point (s :: r) = Ok (t, q) -> begins_with s k -> q = s :: r /\
  exists v, ws_words s v /\ at_word v 0 (lit k) /\ length v = 4%nat /\ at_int v 2 (cn_x t) /\ at_int v 3 (cn_y t).
Proof.
  intros H B. unfold parse_point in H. cbn [here bind] in H. destruct (split_ws s) as [|w1 [|w2 [|w3 [|w4 [|? ?]]]]] eqn:E; try discriminate H.
  apply ws_iff in E. inv. split; [congruence|]. exists [w1; w2; w3; w4]. pose proof (begins_ws _ _ _ B E) as Z. injection Z as ->.
  split; [exact E|split; [reflexivity|split; [reflexivity|]]]. split; eexists; (split; [reflexivity|assumption]).
Qed.
Lemma point_bw s r v x y : ws_words s v -> length v = 4%nat -> at_int v 2 x -> at_int v 3 y -> parse_point (s :: r) = Ok (mk_spoint x y, s :: r).
Proof.
  intros W L (wx & X & IX) (wy & Y & IY). unfold parse_point. cbn [here bind]. apply ws_iff in W. rewrite W. destruct v as [|w1 [|w2 [|w3 [|w4 [|? ?]]]]]; try discriminate L.
  injection X as ->. injection Y as ->. run. reflexivity.
Qed.
Lemma kinds_iff k t : (if seq k "Label" then Ok TLabel else if seq k "Notes" then Ok TNote else if seq k "GLabel" then Ok TGlobal else if seq k "HLabel" then Ok THier else Err EOther) = Ok t
  <-> exists n, k = lit n /\ In (n, t) text_kinds.
Proof.
  unfold text_kinds. split.
  - intros H. table; eexists; (split; [reflexivity|cbn [In]; tauto]).
  - intros (n & -> & [H|[H|[H|[H|[]]]]]); injection H as <- <-; reflexivity.
Qed.
Lemma text_fw s r t q : parse_text (s :: r) = Ok (t, q) -> begins_with s "Text" -> exists c, q = r /\ (exists r', r = c :: r') /\ single [s; c] (SText t).
Proof.
  intros H B. unfold parse_text in H. cbn [here bind next tl] in H. remember (split_ws s) as v eqn:E. symmetry in E. apply ws_iff in E. inv1.
  apply bind_inv in H as (k & K & H). apply idx_iff in K. apply bind_inv in H as (ty & T & H). apply kinds_iff in T as (n & -> & T). inv.
  match goal with H : here ?r = Ok _ |- _ => destruct r as [|c r']; [discriminate H|cbn [here] in H; injection H as ->] end.
  eexists. split; [reflexivity|split; [eexists; reflexivity|]].
  eapply si_text; [exact E|exact (begins_ws _ _ _ B E)|exists n; split; [exact K|exact T]|ints..|].
  destruct ty; cbn [is_local] in *; inv; unfold text_style; (split; [|split; [eexists; split; [eassumption|reflexivity]|eexists; split; eassumption]]);
    first [reflexivity | eexists; split; [eassumption|reflexivity]].
Qed.
Lemma text_bw a c r t : single [a; c] (SText t) -> parse_text (a :: c :: r) = Ok (t, c :: r).
Proof.
  intros H. inversion H as [| | |a' v ty x y o z shape italic thickness text W W0 K X Y O Z S E1 E2]. subst. unfold parse_text. cbn [here bind next tl].
  apply ws_iff in W. rewrite W. destruct K as (n & K & T). opened.
  assert (L : (8 <= length v)%nat) by (unfold text_style in S; destruct ty; opened; lens; lia). destruct (Nat.ltb_spec (length v) 8); [lia|].
  run. rewrite (proj2 (kinds_iff _ _) (ex_intro _ n (conj eq_refl T))). run.
  destruct ty; unfold text_style in S; cbn [is_local]; opened; subst; run; reflexivity.
Qed.
Lemma wire_bw a c r t : single [a; c] (SWire t) -> parse_wire (a :: c :: r) = Ok (t, c :: r).
Proof.
  intros H. inversion H as [a' k b c' ty x1 y1 x2 y2 W K F| | |]. subst. unfold parse_wire. cbn [here bind next tl]. apply ws_iff in W. rewrite W. cbn [here bind].
  apply four_iff in F. rewrite F. cbn [bind]. now rewrite (kind_bw _ _ K).
Qed.

(** ** One section *)
Definition sec_put (c : schematic) (s : section) : schematic :=
  match s with SecDescr d => with_description c d | SecSheet h => with_sheet c h | SecElement e => with_element c e | SecNone => c end.
Lemma round_fw p c c' q : round p c = Ok (c', q) -> exists a s, p = a ++ next q /\ a <> [] /\ section_text a s /\ c' = sec_put c s.
Proof.
  unfold round. destruct p as [|s r]; [discriminate|]. cbn [here bind]. destruct (first_word s) as [w|] eqn:B; [|discriminate]. apply begins_iff in B.
  destruct (seq w "$Descr") eqn:E1; [|destruct (seq w "$Comp") eqn:E2; [|destruct (seq w "$Sheet") eqn:E3; [|destruct (seq w "$EndSCHEMATC") eqn:E4; [|
    destruct (seq w "Wire") eqn:E5; [|destruct (seq w "Connection") eqn:E6; [|destruct (seq w "NoConn") eqn:E7; [|destruct (seq w "Text") eqn:E8]]]]]]]; intros H.
  - apply seq_iff in E1. subst. apply bind_inv in H as ([d q'] & D & H). injection H as <- <-. apply descr_fw in D; [|eauto]. destruct D as (l & t & -> & D & ->).
    exists l, (SecDescr d). split; [reflexivity|split; [destruct D; discriminate|split; [now constructor|reflexivity]]].
  - apply seq_iff in E2. subst. apply bind_inv in H as ([d q'] & D & H). injection H as <- <-. apply component_fw in D as (l & k & t & -> & -> & P & ->).
    exists (s :: l ++ [lit "$EndComp"]), (SecElement (SComponent (comp_of k))). cbn [next snd tl]. split; [now rewrite <- app_comm_cons, <- app_assoc|split; [discriminate|split; [now constructor|reflexivity]]].
  - apply seq_iff in E3. subst. apply bind_inv in H as ([d q'] & D & H). injection H as <- <-. apply sheet_fw in D as (l & k & t & -> & -> & P & N & ->).
    exists (s :: l ++ [lit "$EndSheet"]), (SecSheet (sheet_of k)). cbn [next snd tl]. split; [now rewrite <- app_comm_cons, <- app_assoc|split; [discriminate|split; [now constructor|reflexivity]]].
  - apply seq_iff in E4. subst. injection H as <- <-. exists [s], SecNone. split; [reflexivity|split; [discriminate|split; [now constructor|reflexivity]]].
  - apply seq_iff in E5. subst. apply bind_inv in H as ([d q'] & D & H). injection H as <- <-. apply wire_fw in D; [|eauto]. destruct D as (a & x & D & [t E] & S). injection D as -> ->. cbn [snd].
    exists [a; x], (SecElement (SWire d)). cbn [snd]. rewrite E. split; [reflexivity|split; [discriminate|split; [now constructor|reflexivity]]].
  - apply seq_iff in E6. subst. apply bind_inv in H as ([d q'] & D & H). injection H as <- <-. apply (point_fw "Connection") in D as (-> & v & V1 & V2 & V3 & V4 & V5); [|exact B].
    exists [s], (SecElement (SConnection d)). cbn [snd]. split; [reflexivity|split; [discriminate|split; [|reflexivity]]]. constructor. destruct d. econstructor; eassumption.
  - apply seq_iff in E7. subst. apply bind_inv in H as ([d q'] & D & H). injection H as <- <-. apply (point_fw "NoConn") in D as (-> & v & V1 & V2 & V3 & V4 & V5); [|exact B].
    exists [s], (SecElement (SNoConnect d)). cbn [snd]. split; [reflexivity|split; [discriminate|split; [|reflexivity]]]. constructor. destruct d. econstructor; eassumption.
  - apply seq_iff in E8. subst. apply bind_inv in H as ([d q'] & D & H). injection H as <- <-. apply text_fw in D; [|exact B]. destruct D as (x & D & [t E] & S). subst.
    exists [s; x], (SecElement (SText d)). cbn [snd]. split; [reflexivity|split; [discriminate|split; [now constructor|reflexivity]]].
  - injection H as <- <-. exists [s], (SecElement (SOther s)). split; [reflexivity|split; [discriminate|split; [|reflexivity]]]. apply st_other with w; [exact B|].
    intros k [<-|[<-|[<-|[<-|[<-|[<-|[<-|[<-|[]]]]]]]]]; now apply seq_no.
Qed.
Lemma section_ne a s : section_text a s -> a <> [].
Proof. intros H. destruct H as [l d H| | | |l e H|]; try discriminate; destruct H; discriminate. Qed.
Lemma first_at s v w : ws_words s v -> at_word v 0 w -> begins s w.
Proof. intros V A. destruct v as [|x v]; [discriminate A|]. injection A as ->. now exists v. Qed.
Ltac words := repeat match goal with |- context [seq (lit ?a) ?b] => let t := eval vm_compute in (seq (lit a) b) in change (seq (lit a) b) with t end; cbv beta iota.
Ltac known B := rewrite (proj2 (begins_iff _ _) B); words.
Lemma round_bw a s b c : section_text a s -> exists q, round (a ++ b) c = Ok (sec_put c s, q) /\ next q = b.
Proof.
  intros H. unfold round. destruct H as [l d H|x l k B P|x l k B P N|x B|l e H|x w B N].
  - exists (lit "$EndDescr" :: b). split; [|reflexivity]. assert (B : exists x r, l = x :: r /\ begins_with x "$Descr") by (destruct H; eauto).
    destruct B as (x & r & E & B). rewrite <- (app_nil_r l) in E at 1. apply descr_bw with (r := b) in H. rewrite app_nil_r in E. subst. cbn [app here bind] in *. known B. now rewrite H.
  - exists (lit "$EndComp" :: b). split; [|reflexivity]. cbn [app here bind]. known B. rewrite <- app_assoc. cbn [app]. rewrite (component_bw _ _ _ _ P). reflexivity.
  - exists (lit "$EndSheet" :: b). split; [|reflexivity]. cbn [app here bind]. known B. rewrite <- app_assoc. cbn [app]. rewrite (sheet_bw _ _ _ _ P N). reflexivity.
  - exists (x :: b). split; [|reflexivity]. cbn [app here bind]. known B. reflexivity.
  - destruct H as [x k y z t x1 y1 x2 y2 W K F|x v px py W A L X Y|x v px py W A L X Y|x v t px py o z sh it th tx W A K X Y O Z S].
    + exists (z :: b). split; [|reflexivity]. cbn [app here bind]. assert (B : begins x (lit "Wire")) by (eexists; exact W). known B. erewrite wire_bw; [|eapply si_wire; eassumption]. reflexivity.
    + exists (x :: b). split; [|reflexivity]. cbn [app here bind]. pose proof (first_at _ _ _ W A) as B. known B. erewrite point_bw; try eassumption. reflexivity.
    + exists (x :: b). split; [|reflexivity]. cbn [app here bind]. pose proof (first_at _ _ _ W A) as B. known B. erewrite point_bw; try eassumption. reflexivity.
    + exists (tx :: b). split; [|reflexivity]. cbn [app here bind]. pose proof (first_at _ _ _ W A) as B. known B. erewrite text_bw; [|eapply si_text; eassumption]. reflexivity.
  - exists (x :: b). split; [|reflexivity]. cbn [app here bind]. rewrite (proj2 (begins_iff _ _) B).
    repeat match goal with |- context [seq w ?k] => rewrite (proj2 (seq_no w k)) by (apply N; cbn [In sec_words]; tauto) end. reflexivity.
Qed.

(** ** The whole text *)
Lemma main_fw n p c c' : main_loop n p c = Ok c' -> exists l, sections p l /\ c' = fold_left sec_put l c.
Proof.
  revert p c. induction n as [|n IH]; intros [|s r] c H; try discriminate H; try (injection H as <-; exists []; split; [constructor|reflexivity]).
  cbn [main_loop] in H. apply bind_inv in H as ([c1 q] & R & H). apply round_fw in R as (a & x & E & _ & S & ->). cbn [fst snd] in H. apply IH in H as (l & L & ->).
  exists (x :: l). split; [|reflexivity]. rewrite E. now constructor.
Qed.
Lemma main_bw p l n c : sections p l -> (length p <= n)%nat -> main_loop n p c = Ok (fold_left sec_put l c).
Proof.
  intros H. revert n c. induction H as [|a b s r A B IH]; intros n c L; [destruct n; reflexivity|].
  pose proof (section_ne _ _ A) as N. rewrite app_length in L. destruct n as [|n]; [destruct a; [contradiction|cbn [length] in L; lia]|].
  destruct (round_bw a s b c A) as (q & R & Q). destruct a as [|x a]; [contradiction|]. cbn [app main_loop] in *. rewrite R. cbn [bind fst snd fold_left]. rewrite Q. apply IH. cbn [length] in L. lia.
Qed.
Lemma sec_fold l c : fold_left sec_put l c =
  mk_sch (sc_filename c) (sc_libraries c) (last_of (fun s => match s with SecDescr d => Some d | _ => None end) (sc_description c) l)
    (sc_elements c ++ flat_map (fun s => match s with SecElement x => [x] | _ => [] end) l)
    (sc_sheets c ++ flat_map (fun s => match s with SecSheet x => [x] | _ => [] end) l) (sc_eelayer c).
Proof.
  revert c. induction l as [|p l IH]; intros c.
  - cbn [fold_left last_of flat_map]. rewrite !app_nil_r. now destruct c.
  - cbn [fold_left]. rewrite IH. destruct p; cbn [sec_put with_description with_sheet with_element last_of flat_map sc_filename sc_libraries sc_description sc_elements sc_sheets sc_eelayer app];
      rewrite <- ?app_assoc; reflexivity.
Qed.
Lemma starts_iff a s : starts_with a s = true <-> exists r, s = a ++ r.
Proof.
  revert s. induction a as [|x a IH]; intros s; [split; [now exists s|reflexivity]|]. destruct s as [|y s]; [split; [discriminate|intros [r H]; discriminate H]|].
  cbn [starts_with]. rewrite Bool.andb_true_iff, N.eqb_eq, IH. split.
  - intros [-> [r ->]]. now exists r.
  - intros [r H]. injection H as -> ->. split; [reflexivity|now exists r].
Qed.
Lemma libs_fw p acc libs q : libs_loop p acc = (libs, q) -> exists l, libs = acc ++ l /\ p = map (fun x => lit "LIBS:" ++ x) l ++ q.
Proof.
  revert acc. induction p as [|s r IH]; intros acc H; cbn [libs_loop] in H.
  - injection H as <- <-. exists []. now rewrite app_nil_r.
  - destruct (starts_with (lit "LIBS:") s) eqn:E; [|injection H as <- <-; exists []; now rewrite app_nil_r].
    apply IH in H as (l & -> & ->). apply starts_iff in E as [t ->]. exists (t :: l). split; [now rewrite <- app_assoc|reflexivity].
Qed.
Lemma libs_bw l acc e q : starts_with (lit "LIBS:") e = false -> libs_loop (map (fun x => lit "LIBS:" ++ x) l ++ e :: q) acc = (acc ++ l, e :: q).
Proof.
  intros E. revert acc. induction l as [|x l IH]; intros acc.
  - cbn [map app libs_loop]. now rewrite E, app_nil_r.
  - cbn [map app libs_loop]. rewrite (proj2 (starts_iff _ _) (ex_intro _ x eq_refl)). change (skipn 5 (lit "LIBS:" ++ x)) with x. rewrite IH. now rewrite <- app_assoc.
Qed.
Lemma assume_line_iff p k q : assume_line p k = Ok q <-> p = lit k :: q.
Proof.
  unfold assume_line. destruct p as [|s r]; [split; discriminate|]. destruct (seq s k) eqn:E.
  - apply seq_iff in E. subst. split; intros H; injection H as ->; reflexivity.
  - apply seq_no in E. split; intros H; [discriminate H|injection H as -> ->; contradiction].
Qed.
Lemma of_lines fn ls c : parse_lines fn ls = Ok c <-> schematic_text fn ls c.
Proof.
  unfold schematic_text, parse_lines. split.
  - intros H. apply bind_inv in H as (p & A & H). apply assume_line_iff in A. destruct (libs_loop p []) as [libs q] eqn:L. apply libs_fw in L as (l & -> & ->).
    apply bind_inv in H as (e & E & H). destruct q as [|e' q]; [discriminate E|injection E as ->]. destruct (starts_with (lit "EELAYER ") e) eqn:S; [|discriminate H]. cbn [negb next tl] in H.
    apply bind_inv in H as (body & B & H). apply assume_line_iff in B. apply main_fw in H as (secs & X & ->). exists l, e, body, secs. split; [now rewrite A, B|split; [exact S|split; [exact X|]]].
    now rewrite sec_fold.
  - intros (l & e & body & secs & -> & S & X & ->). rewrite (proj2 (assume_line_iff _ _ _) eq_refl). cbn [bind].
    assert (E : starts_with (lit "LIBS:") e = false). { apply starts_iff in S as [r ->]. reflexivity. }
    rewrite libs_bw by exact E. cbn [here bind]. rewrite S. cbn [negb next tl]. rewrite (proj2 (assume_line_iff _ _ _) eq_refl). cbn [bind].
    rewrite (main_bw _ _ _ _ X) by lia. now rewrite sec_fold.
Qed.
Theorem schematic_iff fn s c : parse_schematic fn s = Ok c <-> exists ls, text_lines s ls /\ schematic_text fn ls c.
Proof.
  unfold parse_schematic. rewrite of_lines. split; [intros H; exists (lines s); split; [now apply lines_iff|exact H]|]. intros (ls & L & H). apply lines_iff in L. now subst.
Qed.
Lemma schematic_fun fn ls c d : schematic_text fn ls c -> schematic_text fn ls d -> c = d.
Proof. intros A B. apply of_lines in A, B. rewrite A in B. now injection B. Qed.
Lemma sch_by fn ls (t : schematic -> bool) : match parse_lines fn ls with Ok c => t c | _ => false end = true -> exists c, schematic_text fn ls c /\ t c = true.
Proof. destruct (parse_lines fn ls) as [c| |] eqn:E; try discriminate. intros H. exists c. split; [now apply of_lines|exact H]. Qed.
