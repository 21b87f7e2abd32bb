(** The reader reports exactly the lines of [goes] (C92). *)
From Coq Require Import String Lia.
From Verif Require Import Base Str StrFacts Num F64 F64Text SexpFacts LibFns LibSpec CutSpec CutFacts SchData SchPrint SchParse SchReadSpec SchReadFacts SchOut OutSpec.
Open Scope string_scope. Open Scope list_scope.

(** ** Lines of components *)
Lemma comp_said s : word_is s "1" || word_is s "0" = false ->
  (comp_line_out s = [say_comp s] /\ (forall k, In k comp_words -> ~ begins_with s k)) \/
  (comp_line_out s = [] /\ exists k, In k ["L"; "U"; "P"; "F"; "AR"] /\ begins_with s k).
Proof.
  intros N. apply orb_false_elim in N as [N1 N0]. apply word_is_no in N1, N0. unfold comp_line_out.
  destruct (word_is s "L") eqn:A; [right; split; [reflexivity|]; exists "L"; split; [cbn; tauto|now apply word_is_iff]|].
  destruct (word_is s "U") eqn:B; [right; split; [reflexivity|]; exists "U"; split; [cbn; tauto|now apply word_is_iff]|].
  destruct (word_is s "P") eqn:C; [right; split; [reflexivity|]; exists "P"; split; [cbn; tauto|now apply word_is_iff]|].
  destruct (word_is s "F") eqn:D; [right; split; [reflexivity|]; exists "F"; split; [cbn; tauto|now apply word_is_iff]|].
  destruct (word_is s "AR") eqn:E; [right; split; [reflexivity|]; exists "AR"; split; [cbn; tauto|now apply word_is_iff]|].
  left. split; [reflexivity|]. apply word_is_no in A, B, C, D, E.
  intros k [<-|[<-|[<-|[<-|[<-|[<-|[<-|[]]]]]]]]; assumption.
Qed.
Lemma said_out s : (forall k, In k comp_words -> ~ begins_with s k) -> comp_line_out s = [say_comp s].
Proof.
  intros N. unfold comp_line_out.
  rewrite !(proj2 (word_is_no s _)) by (apply N; cbn [In comp_words]; tauto). reflexivity.
Qed.
Lemma quiet_out s k : In k ["L"; "U"; "P"; "F"; "AR"] -> begins_with s k -> comp_line_out s = [].
Proof.
  intros I B. apply word_is_iff in B. unfold comp_line_out.
  destruct I as [<-|[<-|[<-|[<-|[<-|[]]]]]]; rewrite B; rewrite ?Bool.orb_true_r; reflexivity.
Qed.

Lemma turn_is s : begins_with s "1" \/ begins_with s "0" -> word_is s "1" || word_is s "0" = true.
Proof. intros [H|H]; apply word_is_iff in H; rewrite H; rewrite ?Bool.orb_true_r; reflexivity. Qed.

(** Reading goes over the lines that read. *)
Lemma comp_out_pre l k : comp_parts l k -> forall n r d, comp_told l n -> exists d', component_out (l ++ r) d = n ++ component_out r d'.
Proof.
  induction 1 as [|s l x r0 E C P IH|s m l a b c e r0 T F P IH]; intros n r d H.
  - inversion H; subst. now exists d.
  - destruct (comp_line_bw s d x C) as [L W]. cbn [app component_out]. rewrite (proj2 (seq_no _ _) E), W, L.
    inversion H as [|? ? n' U H'|? ? ? j J B H'|? ? ? ? B H']; subst.
    + rewrite (said_out s U). destruct (IH n' r (comp_put d x) H') as [d' D]. exists d'. rewrite D. reflexivity.
    + rewrite (quiet_out s j J B). destruct (IH n r (comp_put d x) H') as [d' D]. exists d'. exact D.
    + rewrite (turn_is s B) in W. discriminate W.
  - cbn [app component_out]. rewrite (seq_no_first _ T), (turn_is _ T), (proj2 (four_iff _ _ _ _ _) F).
    assert (H' : comp_told l n).
    { inversion H as [|? ? n' U H'|? ? ? j J B H'|? ? ? ? B H']; subst; [| |exact H'].
      - destruct T as [T|T]; exfalso; revert T; apply U; cbn; tauto.
      - exfalso. destruct T as [T|T]; apply (begins_fun _ _ _ B) in T; destruct J as [<-|[<-|[<-|[<-|[<-|[]]]]]]; discriminate T. }
    apply IH. exact H'.
Qed.
(** ... and stops after them. *)
Lemma comp_out_fw n p d : (length p <= n)%nat -> exists l r k, p = l ++ r /\ comp_parts l k /\ comp_told l (component_out p d).
Proof.
  revert p d. induction n as [|n IH]; intros [|s r] d L; try (exists [], [], []; split; [reflexivity|split; constructor]); cbn [length] in L; [lia|].
  cbn [component_out]. destruct (seq s "$EndComp") eqn:E; [exists [], (s :: r), []; split; [reflexivity|split; constructor]|].
  destruct (word_is s "1" || word_is s "0") eqn:W.
  - assert (T : begins_with s "1" \/ begins_with s "0") by (apply Bool.orb_true_iff in W as [W|W]; [left|right]; now apply word_is_iff).
    destruct r as [|m r]; [exists [], [s], []; split; [reflexivity|split; constructor]|].
    destruct (four m) as [[[[a b] c] e]| |] eqn:F; [|exists [], (s :: m :: r), []; split; [reflexivity|split; constructor]..].
    cbn [length] in L. destruct (IH r (set_rotation d (mk_rotation a b c e)) ltac:(lia)) as (l & q & k & -> & P & Q).
    exists (s :: m :: l), q, (KTurn (mk_rotation a b c e) :: k). split; [reflexivity|split].
    + apply cp_turn; [exact T|now apply four_iff|exact P].
    + now apply ct_turn.
  - destruct (component_line s d) as [d'| |] eqn:C.
    + pose proof (comp_line_fw s d d' W C) as (x & X & _).
      destruct (IH r d' ltac:(lia)) as (l & q & k & -> & P & Q). exists (s :: l), q, (x :: k). split; [reflexivity|split].
      * apply cp_line; [now apply seq_no|exact X|exact P].
      * destruct (comp_said s W) as [[-> U]|[-> (j & J & B)]]; [now apply ct_said|now apply ct_quiet with j].
    + destruct (comp_said s W) as [[_ U]|[-> _]]; [|exists [], (s :: r), []; split; [reflexivity|split; constructor]].
      exfalso. unfold component_line in C. rewrite !(proj2 (word_is_no s _)) in C by (apply U; cbn [In comp_words]; tauto). discriminate C.
    + destruct (comp_said s W) as [[_ U]|[-> _]]; [|exists [], (s :: r), []; split; [reflexivity|split; constructor]].
      exfalso. unfold component_line in C. rewrite !(proj2 (word_is_no s _)) in C by (apply U; cbn [In comp_words]; tauto). discriminate C.
Qed.

(** ** Lines of sheets *)
Lemma sheet_said s :
  (sheet_line_out s = [say_sheet s] /\ ~ begins_with s "S" /\ ~ begins_with s "U" /\ (forall i, ~ begins s (70%N :: i))) \/
  (sheet_line_out s = [] /\ (begins_with s "S" \/ begins_with s "U" \/ exists i, begins s (70%N :: i))).
Proof.
  unfold sheet_line_out. destruct (first_word s) as [w|] eqn:E.
  - apply begins_iff in E. destruct (seq w "S") eqn:A; [right; split; [reflexivity|]; left; apply seq_iff in A; now subst|].
    destruct (seq w "U") eqn:B; [right; split; [reflexivity|]; right; left; apply seq_iff in B; now subst|].
    destruct (starts_with (lit "F") w) eqn:C; [right; split; [reflexivity|]; right; right; apply starts_F in C as [i ->]; now exists i|].
    left. apply seq_no in A, B. split; [reflexivity|split; [|split]].
    + intros H. apply A. exact (begins_fun _ _ _ E H).
    + intros H. apply B. exact (begins_fun _ _ _ E H).
    + intros i H. apply (begins_fun _ _ _ E) in H. subst. assert (T : starts_with (lit "F") (70%N :: i) = true) by (apply starts_F; now exists i). congruence.
  - left. assert (N : forall w, ~ begins s w) by (intros w H; apply begins_iff in H; congruence). split; [reflexivity|]. split; [apply N|split; [apply N|intros i; apply N]].
Qed.
Lemma sheet_told_fun s : begins_with s "S" \/ begins_with s "U" \/ (exists i, begins s (70%N :: i)) -> sheet_line_out s = [].
Proof. intros H. destruct (sheet_said s) as [(_ & A & B & C)|[E _]]; [|exact E]. destruct H as [H|[H|[i H]]]; [contradiction|contradiction|exfalso; exact (C i H)]. Qed.
Lemma sheet_told_said s : ~ begins_with s "S" -> ~ begins_with s "U" -> (forall i, ~ begins s (70%N :: i)) -> sheet_line_out s = [say_sheet s].
Proof. intros A B C. destruct (sheet_said s) as [(E & _)|[_ [H|[H|[i H]]]]]; [exact E|contradiction|contradiction|exfalso; exact (C i H)]. Qed.
Lemma sheet_out_pre l k : Forall2 sheet_line_text l k -> ~ In (lit "$EndSheet") l -> forall n r d, sheet_told l n -> exists d', sheet_out (l ++ r) d = n ++ sheet_out r d'.
Proof.
  induction 1 as [|s x l k A P IH]; intros N n r d H.
  - inversion H; subst. now exists d.
  - cbn [app sheet_out]. rewrite (proj2 (seq_no s "$EndSheet")) by (intros ->; apply N; now left). rewrite (sheet_line_bw _ _ _ A).
    assert (N' : ~ In (lit "$EndSheet") l) by (intros M; apply N; now right).
    inversion H as [|? ? n' U V W H'|? ? ? U H']; subst.
    + rewrite (sheet_told_said s U V W). destruct (IH N' n' r (sheet_put d x) H') as [d' D]. exists d'. rewrite D. reflexivity.
    + rewrite (sheet_told_fun s U). destruct (IH N' n r (sheet_put d x) H') as [d' D]. exists d'. exact D.
Qed.
Lemma sheet_unknown s d : ~ begins_with s "S" -> ~ begins_with s "U" -> (forall i, ~ begins s (70%N :: i)) -> sheet_line s d = Ok d.
Proof.
  intros A B C. unfold sheet_line. destruct (first_word s) as [w|] eqn:E; [|reflexivity]. apply begins_iff in E.
  rewrite (proj2 (seq_no w "S")) by (intros ->; contradiction). rewrite (proj2 (seq_no w "U")) by (intros ->; contradiction).
  destruct (starts_with (lit "F") w) eqn:F; [|reflexivity]. apply starts_F in F as [i ->]. exfalso. exact (C i E).
Qed.
Lemma sheet_out_fw p d : exists l r k, p = l ++ r /\ Forall2 sheet_line_text l k /\ ~ In (lit "$EndSheet") l /\ sheet_told l (sheet_out p d).
Proof.
  assert (Z : forall p, exists l r k, p = l ++ r /\ Forall2 sheet_line_text l k /\ ~ In (lit "$EndSheet") l /\ sheet_told l []).
  { intros q. exists [], q, []. split; [reflexivity|split; [constructor|split; [intros []|constructor]]]. }
  revert d. induction p as [|s r IH]; intros d; [apply Z|]. cbn [sheet_out]. destruct (seq s "$EndSheet") eqn:E; [apply Z|].
  destruct (sheet_line s d) as [d'| |] eqn:C.
  - destruct (sheet_line_fw s d d' C) as (x & X & _). destruct (IH d') as (l & q & k & -> & P & N & Q).
    exists (s :: l), q, (x :: k). split; [reflexivity|split; [now constructor|split]].
    + intros [M|M]; [subst; now apply seq_no in E|contradiction].
    + destruct (sheet_said s) as [(-> & A & B & D)|[-> H]]; [now apply ht_said|now apply ht_quiet].
  - destruct (sheet_said s) as [(_ & A & B & D)|[-> H]]; [|apply Z]. exfalso. rewrite (sheet_unknown s d A B D) in C. discriminate C.
  - destruct (sheet_said s) as [(_ & A & B & D)|[-> H]]; [|apply Z]. exfalso. rewrite (sheet_unknown s d A B D) in C. discriminate C.
Qed.

(** ** Sections *)
Lemma sec_comp h t s : section_text (h :: t) s -> begins_with h "$Comp" -> exists l k, t = l ++ [lit "$EndComp"] /\ comp_parts l k.
Proof.
  intros H B. remember (h :: t) as a eqn:E. destruct H as [l d H|x l k C P|x l k C P N|x C|l e H|x w C N].
  - destruct H. injection E as <- <-. match goal with H : begins_with _ "$Descr" |- _ => apply (begins_fun _ _ _ B) in H; discriminate H end.
  - injection E as <- <-. eauto.
  - injection E as <- <-. apply (begins_fun _ _ _ B) in C. discriminate C.
  - injection E as <- <-. apply (begins_fun _ _ _ B) in C. discriminate C.
  - destruct H as [x k y z tt x1 y1 x2 y2 W K F|x v px py W A L X Y|x v px py W A L X Y|x v tt px py o z sh it th tx W A K X Y O Z S]; injection E as <- <-.
    + assert (C : begins x (lit "Wire")) by (eexists; exact W). apply (begins_fun _ _ _ B) in C. discriminate C.
    + apply (first_at _ _ _ W) in A. apply (begins_fun _ _ _ B) in A. discriminate A.
    + apply (first_at _ _ _ W) in A. apply (begins_fun _ _ _ B) in A. discriminate A.
    + apply (first_at _ _ _ W) in A. apply (begins_fun _ _ _ B) in A. discriminate A.
  - injection E as <- <-. apply (begins_fun _ _ _ B) in C. subst. exfalso. apply (N "$Comp"); [cbn; tauto|reflexivity].
Qed.
Lemma sec_sheet h t s : section_text (h :: t) s -> begins_with h "$Sheet" -> exists l k, t = l ++ [lit "$EndSheet"] /\ Forall2 sheet_line_text l k /\ ~ In (lit "$EndSheet") l.
Proof.
  intros H B. remember (h :: t) as a eqn:E. destruct H as [l d H|x l k C P|x l k C P N|x C|l e H|x w C N].
  - destruct H. injection E as <- <-. match goal with H : begins_with _ "$Descr" |- _ => apply (begins_fun _ _ _ B) in H; discriminate H end.
  - injection E as <- <-. apply (begins_fun _ _ _ B) in C. discriminate C.
  - injection E as <- <-. eauto.
  - injection E as <- <-. apply (begins_fun _ _ _ B) in C. discriminate C.
  - destruct H as [x k y z tt x1 y1 x2 y2 W K F|x v px py W A L X Y|x v px py W A L X Y|x v tt px py o z sh it th tx W A K X Y O Z S]; injection E as <- <-.
    + assert (C : begins x (lit "Wire")) by (eexists; exact W). apply (begins_fun _ _ _ B) in C. discriminate C.
    + apply (first_at _ _ _ W) in A. apply (begins_fun _ _ _ B) in A. discriminate A.
    + apply (first_at _ _ _ W) in A. apply (begins_fun _ _ _ B) in A. discriminate A.
    + apply (first_at _ _ _ W) in A. apply (begins_fun _ _ _ B) in A. discriminate A.
  - injection E as <- <-. apply (begins_fun _ _ _ B) in C. subst. exfalso. apply (N "$Sheet"); [cbn; tauto|reflexivity].
Qed.
Lemma comp_end r d : component_out (lit "$EndComp" :: r) d = [].
Proof. reflexivity. Qed.
Lemma sheet_end r d : sheet_out (lit "$EndSheet" :: r) d = [].
Proof. reflexivity. Qed.
Lemma round_comp h r : begins_with h "$Comp" -> round_out (h :: r) = component_out r comp_default.
Proof. intros B. unfold round_out. apply begins_iff in B. rewrite B. reflexivity. Qed.
Lemma round_sheet h r : begins_with h "$Sheet" -> round_out (h :: r) = sheet_out r sheet_default.
Proof. intros B. unfold round_out. apply begins_iff in B. rewrite B. reflexivity. Qed.
Lemma round_quiet h r : ~ begins_with h "$Comp" -> ~ begins_with h "$Sheet" -> round_out (h :: r) = [].
Proof.
  intros A B. unfold round_out. destruct (first_word h) as [w|] eqn:E; [|reflexivity]. apply begins_iff in E.
  rewrite (proj2 (seq_no w "$Comp")) by (intros ->; contradiction). rewrite (proj2 (seq_no w "$Sheet")) by (intros ->; contradiction). reflexivity.
Qed.
Lemma comp_told_ex l k : comp_parts l k -> exists n, comp_told l n.
Proof.
  induction 1 as [|s l x r0 E C P [n IH]|s m l a b c e r0 T F P [n IH]]; [exists []; constructor| |exists n; now apply ct_turn].
  destruct (comp_line_bw s comp_default x C) as [_ W]. destruct (comp_said s W) as [[_ U]|[_ (j & J & B)]]; eexists; [apply ct_said; eassumption|eapply ct_quiet; eassumption].
Qed.
Lemma sheet_told_ex l : exists n, sheet_told l n.
Proof.
  induction l as [|s l [n IH]]; [exists []; constructor|].
  destruct (sheet_said s) as [(_ & A & B & C)|[_ H]]; eexists; [apply ht_said; eassumption|eapply ht_quiet; eassumption].
Qed.
Lemma begins_dec s k : begins_with s k \/ ~ begins_with s k.
Proof. destruct (word_is s k) eqn:E; [left; now apply word_is_iff|right; now apply word_is_no]. Qed.
Lemma sec_told_ex a s : section_text a s -> exists n, sec_told a n.
Proof.
  intros H. pose proof (section_ne _ _ H) as N. destruct a as [|h t]; [contradiction|].
  destruct (begins_dec h "$Comp") as [B|B]; [|destruct (begins_dec h "$Sheet") as [C|C]].
  - destruct (sec_comp _ _ _ H B) as (l & k & -> & P). destruct (comp_told_ex _ _ P) as [n Q]. exists n. now apply sct_comp.
  - destruct (sec_sheet _ _ _ H C) as (l & k & -> & P & M). destruct (sheet_told_ex l) as [n Q]. exists n. now apply sct_sheet.
  - exists []. now apply sct_other.
Qed.
Lemma round_out_sec a s n b : section_text a s -> sec_told a n -> round_out (a ++ b) = n.
Proof.
  intros H T. destruct T as [h l n B T|h l n B T|h l B C].
  - destruct (sec_comp _ _ _ H B) as (l' & k & E & P). apply app_inj_tail in E as [<- _]. cbn [app]. rewrite <- app_assoc. cbn [app].
    rewrite (round_comp _ _ B). destruct (comp_out_pre _ _ P n (lit "$EndComp" :: b) comp_default T) as [d ->]. rewrite comp_end. apply app_nil_r.
  - destruct (sec_sheet _ _ _ H B) as (l' & k & E & P & N). apply app_inj_tail in E as [<- _]. cbn [app]. rewrite <- app_assoc. cbn [app].
    rewrite (round_sheet _ _ B). destruct (sheet_out_pre _ _ P N n (lit "$EndSheet" :: b) sheet_default T) as [d ->]. rewrite sheet_end. apply app_nil_r.
  - cbn [app]. now apply round_quiet.
Qed.

(** ** The whole text *)
Lemma main_out_pre a n : secs_told a n -> forall f b c, (length (a ++ b) <= f)%nat ->
  exists f' c', (length b <= f')%nat /\ main_out f (a ++ b) c = n ++ main_out f' b c'.
Proof.
  induction 1 as [|a1 a2 s n1 n2 S T R IH]; intros f b c L; [now exists f, c|].
  pose proof (section_ne _ _ S) as N. rewrite <- app_assoc in *. rewrite app_length in L.
  destruct f as [|f]; [destruct a1; [contradiction|cbn [length] in L; lia]|].
  destruct (round_bw a1 s (a2 ++ b) c S) as (q & Q & E).
  destruct (IH f b (sec_put c s)) as (f' & c' & L' & D); [destruct a1; [contradiction|cbn [length] in L; lia]|].
  exists f', c'. split; [exact L'|]. rewrite <- app_assoc, <- D. rewrite <- (round_out_sec a1 s n1 (a2 ++ b) S T).
  destruct a1 as [|x a1]; [contradiction|]. cbn [app] in *. cbn [main_out]. rewrite Q. cbn [snd fst]. rewrite E. reflexivity.
Qed.
Lemma goes_cons a s n b m : section_text a s -> sec_told a n -> goes b m -> goes (a ++ b) (n ++ m).
Proof.
  intros S T G. destruct G as [l m G|x m h l k m' G B P Q|x m h l k m' G B P N Q].
  - apply go_whole. now apply sst_cons with s.
  - rewrite !app_assoc. apply go_comp with k; [now apply sst_cons with s|exact B|exact P|exact Q].
  - rewrite !app_assoc. apply go_sheet with k; [now apply sst_cons with s|exact B|exact P|exact N|exact Q].
Qed.
Lemma goes_here p : exists l r, p = l ++ r /\ goes l (round_out p).
Proof.
  assert (Z : forall p, exists l r, p = l ++ r /\ goes l []) by (intros q; exists [], q; split; [reflexivity|apply go_whole; constructor]).
  destruct p as [|h t]; [apply Z|]. destruct (begins_dec h "$Comp") as [B|B]; [|destruct (begins_dec h "$Sheet") as [C|C]].
  - rewrite (round_comp _ _ B). destruct (comp_out_fw (length t) t comp_default (le_n _)) as (l & r & k & E & P & Q). exists (h :: l), r. split; [now rewrite E|].
    change (goes ([] ++ h :: l) ([] ++ component_out t comp_default)). apply go_comp with k; [constructor|exact B|exact P|exact Q].
  - rewrite (round_sheet _ _ C). destruct (sheet_out_fw t sheet_default) as (l & r & k & E & P & N & Q). exists (h :: l), r. split; [now rewrite E|].
    change (goes ([] ++ h :: l) ([] ++ sheet_out t sheet_default)). apply go_sheet with k; [constructor|exact C|exact P|exact N|exact Q].
  - rewrite (round_quiet _ _ B C). apply Z.
Qed.
Lemma main_out_fw f p c : (length p <= f)%nat -> exists l r, p = l ++ r /\ goes l (main_out f p c).
Proof.
  revert p c. induction f as [|f IH]; intros [|h t] c L; try (exists [], []; split; [reflexivity|apply go_whole; constructor]); [cbn [length] in L; lia|].
  cbn [main_out]. destruct (round (h :: t) c) as [[c' q]| |] eqn:R; cbn [fst snd]; [|rewrite app_nil_r; apply goes_here..].
  apply round_fw in R as (a & s & E & N & S & _). destruct (sec_told_ex _ _ S) as [n T].
  assert (O : round_out (h :: t) = n) by (rewrite E; now apply round_out_sec with s). rewrite O.
  destruct (IH (next q) c') as (l & r & E2 & G).
  { apply (f_equal (@length str)) in E. rewrite app_length in E. destruct a; [contradiction|]. cbn [length] in E, L. lia. }
  exists (a ++ l), r. split; [rewrite E, E2 at 1; apply app_assoc|]. now apply goes_cons with s.
Qed.
Lemma main_out_goes l n r f c : goes l n -> (length (l ++ r) <= f)%nat -> exists m, main_out f (l ++ r) c = n ++ m.
Proof.
  intros G L. destruct G as [l n G|a n h l k m G B P Q|a n h l k m G B P N Q].
  - destruct (main_out_pre _ _ G f r c L) as (f' & c' & _ & ->). eauto.
  - rewrite <- app_assoc in *. cbn [app] in *. destruct (main_out_pre _ _ G f _ c L) as (f' & c' & L' & ->).
    destruct f' as [|f']; [cbn [length] in L'; lia|]. cbn [main_out]. rewrite (round_comp _ _ B).
    destruct (comp_out_pre _ _ P m r comp_default Q) as [d ->]. match goal with |- exists m0, n ++ (m ++ ?X) ++ ?Y = _ => exists (X ++ Y) end. now rewrite <- !app_assoc.
  - rewrite <- app_assoc in *. cbn [app] in *. destruct (main_out_pre _ _ G f _ c L) as (f' & c' & L' & ->).
    destruct f' as [|f']; [cbn [length] in L'; lia|]. cbn [main_out]. rewrite (round_sheet _ _ B).
    destruct (sheet_out_pre _ _ P N m r sheet_default Q) as [d ->]. match goal with |- exists m0, n ++ (m ++ ?X) ++ ?Y = _ => exists (X ++ Y) end. now rewrite <- !app_assoc.
Qed.

(** ** Before the sections *)
Lemma lines_out_headed fn libs e body : starts_with (lit "EELAYER ") e = true ->
  lines_out fn (heading libs e ++ body) = main_out (length body) body (mk_sch fn libs descr_default [] [] e).
Proof.
  intros E. unfold lines_out, heading. cbn [app]. rewrite (proj2 (assume_line_iff _ _ _) eq_refl). rewrite <- app_assoc. cbn [app].
  rewrite libs_bw; [|apply starts_iff in E as [r ->]; reflexivity]. cbn [app here next tl]. rewrite E. cbn [negb].
  rewrite (proj2 (assume_line_iff _ _ _) eq_refl). reflexivity.
Qed.
Lemma lines_out_bare fn ls : (forall body, ~ headed ls body) -> lines_out fn ls = [].
Proof.
  intros H. unfold lines_out. destruct (assume_line ls _) as [p| |] eqn:A; [|reflexivity..]. apply assume_line_iff in A. subst.
  destruct (libs_loop p []) as [libs q] eqn:L. apply libs_fw in L as (l & E & ->). cbn [app] in E. subst l. destruct q as [|e q]; [reflexivity|]. cbn [here next tl].
  destruct (starts_with (lit "EELAYER ") e) eqn:S; [|reflexivity]. cbn [negb]. destruct (assume_line q _) as [b| |] eqn:B; [|reflexivity..]. apply assume_line_iff in B. subst.
  exfalso. apply (H b). exists libs, e. split; [|exact S]. unfold heading. cbn [app]. rewrite <- app_assoc. reflexivity.
Qed.
Theorem out_greatest fn s ls body : text_lines s ls -> headed ls body ->
  (exists l r, body = l ++ r /\ goes l (schematic_out fn s)) /\
  (forall l r n, body = l ++ r -> goes l n -> exists m, schematic_out fn s = n ++ m).
Proof.
  intros T (libs & e & -> & E). unfold schematic_out. rewrite (proj2 (lines_iff s _) T), (lines_out_headed fn libs e body E). split.
  - apply main_out_fw. apply le_n.
  - intros l r n -> G. apply main_out_goes; [exact G|apply le_n].
Qed.
Theorem out_none fn s ls : text_lines s ls -> (forall body, ~ headed ls body) -> schematic_out fn s = [].
Proof. intros T H. unfold schematic_out. rewrite (proj2 (lines_iff s _) T). now apply lines_out_bare. Qed.
Lemma secs_told_ex l ss : sections l ss -> exists n, secs_told l n.
Proof. induction 1 as [|a b s r A B [n IH]]; [exists []; constructor|]. destruct (sec_told_ex _ _ A) as [m M]. exists (m ++ n). now apply sst_cons with s. Qed.
Lemma told_secs l n : secs_told l n -> exists ss, sections l ss.
Proof. induction 1 as [|a b s n m S T R [ss IH]]; [exists []; constructor|exists (s :: ss); now constructor]. Qed.
(** A text that reads: every section is gone through. *)
Theorem out_whole fn s n : ((exists c, parse_schematic fn s = Ok c) /\ schematic_out fn s = n) <->
  exists ls body, text_lines s ls /\ headed ls body /\ secs_told body n.
Proof.
  split.
  - intros [(c & C) O]. apply schematic_iff in C as (ls & T & libs & e & body & secs & -> & E & S & _).
    assert (H : lit "EESchema Schematic File Version 2" :: map (fun l => lit "LIBS:" ++ l) libs ++ e :: lit "EELAYER END" :: body = heading libs e ++ body) by (unfold heading; cbn [app]; rewrite <- app_assoc; reflexivity).
    rewrite H in T. exists (heading libs e ++ body), body. split; [exact T|split; [exists libs, e; now split|]].
    destruct (secs_told_ex _ _ S) as [m M]. replace n with m; [exact M|]. rewrite <- O. unfold schematic_out. rewrite (proj2 (lines_iff s _) T), (lines_out_headed fn libs e body E).
    rewrite <- (app_nil_r body). destruct (main_out_pre _ _ M (length (body ++ [])) [] (mk_sch fn libs descr_default [] [] e) (le_n _)) as (f' & c' & _ & ->).
    destruct f'; cbn [main_out]; now rewrite app_nil_r.
  - intros (ls & body & T & (libs & e & -> & E) & S). split.
    + destruct (told_secs _ _ S) as [ss SS]. eexists. apply schematic_iff. exists (heading libs e ++ body). split; [exact T|].
      exists libs, e, body, ss. split; [unfold heading; cbn [app]; rewrite <- app_assoc; reflexivity|]. split; [exact E|split; [exact SS|reflexivity]].
    + unfold schematic_out. rewrite (proj2 (lines_iff s _) T), (lines_out_headed fn libs e body E).
      rewrite <- (app_nil_r body). destruct (main_out_pre _ _ S (length (body ++ [])) [] (mk_sch fn libs descr_default [] [] e) (le_n _)) as (f' & c' & _ & ->).
      destruct f'; cbn [main_out]; now rewrite app_nil_r.
Qed.
