(** The readers accept whatever follows the grammar (C68); hexadecimal texts (C57). *)
From Coq Require Import String Lia.
From Flocq Require Import IEEE754.BinarySingleNaN.
From Verif Require Import Base Str StrFacts Num NumFacts F64 F64Text Sexp DecSpec DecFacts FpData FpLayer FpDe LyData LyDe NoPanic LyFacts FpLibTable GramSpec.
Open Scope string_scope. Open Scope list_scope.

(** ** Hexadecimal texts *)
Lemma char_hex c d : char_digit 16 c = Some d <-> hex_digit c (Z.of_N d).
Proof.
  unfold char_digit. split.
  - destruct ((48 <=? c) && (c <=? 57))%N eqn:A.
    { destruct (c - 48 <? 16)%N; [|discriminate]. intros [= <-]. replace (Z.of_N (c - 48)) with (Z.of_N c - 48)%Z by lia. apply hd_dec. lia. }
    destruct ((97 <=? c) && (c <=? 122))%N eqn:B.
    { destruct (N.ltb_spec (c - 87) 16); [|discriminate]. intros [= <-]. replace (Z.of_N (c - 87)) with (Z.of_N c - 87)%Z by lia. apply hd_lower. lia. }
    destruct ((65 <=? c) && (c <=? 90))%N eqn:C; [|discriminate].
    destruct (N.ltb_spec (c - 55) 16); [|discriminate]. intros [= <-]. replace (Z.of_N (c - 55)) with (Z.of_N c - 55)%Z by lia. apply hd_upper. lia.
  - intros H. inversion H as [c' R E1 E2|c' R E1 E2|c' R E1 E2]; subst c'.
    + replace ((48 <=? c) && (c <=? 57))%N with true by lia. replace (c - 48 <? 16)%N with true by lia. f_equal. lia.
    + replace ((48 <=? c) && (c <=? 57))%N with false by lia. replace ((97 <=? c) && (c <=? 122))%N with false by lia. replace ((65 <=? c) && (c <=? 90))%N with true by lia.
      replace (c - 55 <? 16)%N with true by lia. f_equal. lia.
    + replace ((48 <=? c) && (c <=? 57))%N with false by lia. replace ((97 <=? c) && (c <=? 122))%N with true by lia. replace (c - 87 <? 16)%N with true by lia. f_equal. lia.
Qed.
Lemma digits_hex s : forall a ds, digits_of_str 16 s = Some ds -> hex_from (Z.of_N a) s (Z.of_N (fold_left (fun a d => a * 16 + d)%N ds a)).
Proof.
  induction s as [|c s IH]; intros a ds H.
  - injection H as <-. constructor.
  - cbn [digits_of_str] in H. destruct (char_digit 16 c) as [d|] eqn:C; [|discriminate]. destruct (digits_of_str 16 s) as [e|]; [|discriminate]. injection H as <-.
    apply hx_cons with (Z.of_N d); [now apply char_hex|]. cbn [fold_left]. specialize (IH (a * 16 + d)%N e eq_refl).
    replace (Z.of_N (a * 16 + d)) with (16 * Z.of_N a + Z.of_N d)%Z in IH by lia. exact IH.
Qed.
Lemma hex_nonneg c d : hex_digit c d -> (0 <= d)%Z.
Proof. intros []; lia. Qed.
Lemma hex_digits s : forall a v, hex_from (Z.of_N a) s v -> exists ds, digits_of_str 16 s = Some ds /\ v = Z.of_N (fold_left (fun a d => a * 16 + d)%N ds a).
Proof.
  induction s as [|c s IH]; intros a v H; inversion H as [|? ? d ? ? D R]; subst.
  - now exists [].
  - pose proof (hex_nonneg _ _ D) as P. assert (E : d = Z.of_N (Z.to_N d)) by lia. rewrite E in D. apply char_hex in D.
    replace (16 * Z.of_N a + d)%Z with (Z.of_N (a * 16 + Z.to_N d)) in R by lia. destruct (IH _ _ R) as (ds & D1 & ->).
    exists (Z.to_N d :: ds). cbn [digits_of_str]. rewrite D, D1. now split.
Qed.
Lemma hex_iff s z : parse_int 16 s = Some z <-> hex_text s z.
Proof.
  unfold parse_int, hex_text. split.
  - assert (H : exists sg neg body, match s with c :: r => if (c =? 45)%N then (true, r) else if (c =? 43)%N then (false, r) else (false, s) | [] => (false, []) end = (neg, body)
      /\ s = sg ++ body /\ sign_text sg neg).
    { destruct s as [|y r]; [exists [], false, []; split; [reflexivity|]; split; [reflexivity|constructor]|].
      destruct (N.eqb_spec y 45) as [->|]; [exists [45%N], true, r; split; [reflexivity|]; split; [reflexivity|constructor]|].
      destruct (N.eqb_spec y 43) as [->|]; [exists [43%N], false, r; split; [reflexivity|]; split; [reflexivity|constructor]|].
      exists [], false, (y :: r). split; [reflexivity|]. split; [reflexivity|constructor]. }
    destruct H as (sg & neg & body & G & -> & S).
    match goal with |- (match ?M with pair _ _ => _ end) = _ -> _ => replace M with (neg, body) by (symmetry; exact G) end. cbv beta iota.
    destruct body as [|d body]; [discriminate|]. destruct (digits_of_str 16 (d :: body)) as [ds|] eqn:D; [|discriminate].
    apply (digits_hex _ 0%N) in D. cbv zeta. change (fold_left _ ds 0%N) with (digits_val 16 ds) in D. set (w := Z.of_N (digits_val 16 ds)) in *.
    destruct (i64_ok (if neg then (- w)%Z else w)) eqn:O; [|discriminate]. intros [= <-].
    exists sg, neg, (d :: body), w. split; [reflexivity|]. split; [exact S|]. split; [discriminate|]. split; [exact D|]. split; [|reflexivity].
    unfold fits. unfold i64_ok, i64_min, i64_max in O. destruct neg; lia.
  - intros (sg & neg & ds & v & -> & S & N & X & R & ->).
    destruct (hex_digits _ 0%N _ X) as (es & E & V). change (fold_left _ es 0%N) with (digits_val 16 es) in V.
    assert (G : match sg ++ ds with c :: r => if (c =? 45)%N then (true, r) else if (c =? 43)%N then (false, r) else (false, sg ++ ds) | [] => (false, []) end = (neg, ds)).
    { destruct S; [|reflexivity|reflexivity]. cbn [app]. destruct ds as [|d ds]; [contradiction|]. inversion X as [|? ? ? ? ? D F']; subst.
      replace (d =? 45)%N with false by (destruct D; lia). replace (d =? 43)%N with false by (destruct D; lia). reflexivity. }
    match goal with |- (match ?M with pair _ _ => _ end) = _ => replace M with (neg, ds) by (symmetry; exact G) end. cbv beta iota.
    destruct ds as [|d ds]; [contradiction|]. rewrite E. cbv zeta. rewrite <- V.
    unfold fits in R. unfold i64_ok, i64_min, i64_max.
    assert (0 <= v)%Z by (rewrite V; lia).
    replace ((- 2 ^ 63 <=? (if neg then - v else v)) && ((if neg then - v else v) <=? 2 ^ 63 - 1))%Z with true; [reflexivity|]. destruct neg; lia.
Qed.

(** ** Combinators *)
Definition ok {A} (r : res A) : Prop := exists v, r = Ok v.
Definition no {A} (r : res A) : Prop := exists e, r = Err e.
Definition accepts {A} (f : sexp -> res A) (g : gram) : Prop := forall s, follows g s -> ok (f s).
Definition refuses {A} (f : sexp -> res A) (g : gram) : Prop := forall s, follows g s -> no (f s).
Definition reads {A} (p : P A) (b : list item) : Prop := forall l, follow_all b l -> ok (p l).
(** The reader [f] refuses the first element of whatever follows [b]. *)
Definition stops {A} (f : sexp -> res A) (b : list item) : Prop :=
  forall l, follow_all b l -> match l with [] => True | x :: _ => no (f x) end.

Lemma ok_bind {A B} (r : res A) (f : A -> res B) : ok r -> (forall a, ok (f a)) -> ok (do x <- r; f x).
Proof. intros [v ->] H. apply H. Qed.
Lemma ok_rmap {A B} (f : A -> B) r : ok r -> ok (rmap f r).
Proof. intros [v ->]. now eexists. Qed.

Lemma rd_t {A B} (f : sexp -> res A) g (k : A -> P B) b : accepts f g -> (forall v, reads (k v) b) -> reads (pbind (p_t f) k) (One g :: b).
Proof. intros F K l H. inversion H; subst. destruct (F s) as [v E]; [assumption|]. unfold pbind, p_t. rewrite E. cbn [bind]. now apply K. Qed.
Lemma rd_maybe {A B} (f : sexp -> res A) g (k : option A -> P B) b : accepts f g -> (forall v, reads (k v) b) -> reads (pbind (p_maybe f) k) (One g :: b).
Proof. intros F K l H. inversion H; subst. destruct (F s) as [v E]; [assumption|]. unfold pbind, p_maybe. rewrite E. now apply K. Qed.
Lemma rd_opt {A B} (f : sexp -> res A) g (k : option A -> P B) b : accepts f g -> stops f b -> (forall v, reads (k v) b) -> reads (pbind (p_maybe f) k) (Opt g :: b).
Proof.
  intros F S K l H. unfold pbind, p_maybe. inversion H; subst.
  - destruct l as [|x r]; [now apply K|]. match goal with X : follow_all b _ |- _ => destruct (S _ X) as [e E]; rewrite E; now apply K end.
  - destruct (F s) as [v E]; [assumption|]. rewrite E. now apply K.
Qed.
Lemma rd_close {A} (a : A) : reads (p_close a) [].
Proof. intros l H. inversion H. now eexists. Qed.
(** A word that is converted *)
Lemma rd_word {A B} (q : str -> Prop) (f : str -> res A) (k : A -> P B) b : (forall s, q s -> ok (f s)) -> (forall v, reads (k v) b) ->
  reads (let* n := p_s in let* x := plift (f n) in k x) (One (Word q) :: b).
Proof.
  intros F K l H. inversion H as [|? ? s r W R| | | |]; subst. inversion W as [? n Q| | |]; subst. destruct (F n Q) as [v E].
  unfold pbind, p_s, p_t, plift. cbn [sx_string bind]. rewrite E. cbn [bind]. now apply K.
Qed.
Lemma rd_word_end {A} (q : str -> Prop) (f : str -> res A) : (forall s, q s -> ok (f s)) -> reads (let* n := p_s in plift (f n)) [One (Word q)].
Proof.
  intros F l H. inversion H as [|? ? s r W R| | | |]; subst. inversion W as [? n Q| | |]; subst. destruct (F n Q) as [v E].
  unfold pbind, p_s, p_t, plift. cbn [sx_string bind]. rewrite E. now eexists.
Qed.

Definition covers (Q : gram -> Prop) (b : list item) : Prop :=
  Forall (fun i => match i with One g | Opt g => Q g | Rep gs => Forall Q gs end) b.
Lemma covered Q b l : covers Q b -> follow_all b l -> forall s, In s l -> exists g, Q g /\ follows g s.
Proof.
  intros C F. induction F as [|g b s l W R IH|g b l R IH|g b s l W R IH|gs b l R IH|gs g b s l I W R IH]; intros x Hx; (try contradiction); inversion C as [|? ? C1 C2]; subst; cbn beta iota in C1.
  - destruct Hx as [<-|Hx]; [now exists g|now apply IH].
  - now apply IH.
  - destruct Hx as [<-|Hx]; [now exists g|now apply IH].
  - now apply IH.
  - destruct Hx as [<-|Hx]; [exists g; split; [rewrite Forall_forall in C1; now apply C1|assumption]|]. now apply IH.
Qed.
Lemma ok_mapM {A} (f : sexp -> res A) l : (forall s, In s l -> ok (f s)) -> ok (mapM f l).
Proof.
  induction l as [|x l IH]; intros H; [now exists []|]. cbn [mapM]. destruct (H x (or_introl eq_refl)) as [v ->]. cbn [bind].
  destruct IH as [w ->]; [intros s I; apply H; now right|]. now eexists.
Qed.
Lemma ok_foldM {A} (f : A -> sexp -> res A) l : (forall a s, In s l -> ok (f a s)) -> forall a, ok (foldM f a l).
Proof.
  induction l as [|x l IH]; intros H a; [now exists a|]. cbn [foldM]. destruct (H a x (or_introl eq_refl)) as [v ->]. cbn [bind].
  apply IH. intros c s I. apply H. now right.
Qed.
Lemma rd_vec {A} (f : sexp -> res A) b : covers (accepts f) b -> reads (p_vec f) b.
Proof.
  intros C l H. unfold p_vec. apply ok_bind; [|intros v; now eexists]. apply ok_mapM. intros s I. destruct (covered _ _ _ C H s I) as (g & Q & F). now apply Q.
Qed.
Lemma rd_vec_then {A B} (f : sexp -> res A) (k : list A -> P B) b : covers (accepts f) b -> (forall v, reads (k v) []) -> reads (pbind (p_vec f) k) b.
Proof.
  intros C K l H. unfold pbind. assert (E : ok (mapM f l)).
  { apply ok_mapM. intros s I. destruct (covered _ _ _ C H s I) as (g & Q & F). now apply Q. }
  destruct E as [v E]. unfold p_vec. rewrite E. cbn [bind]. apply K. constructor.
Qed.
Lemma rd_fold {A B} (f : A -> sexp -> res A) (a : A) (h : A -> B) b : covers (fun g => forall a, accepts (f a) g) b ->
  reads (fun l => do n <- foldM f a l; Ok (h n, [])) b.
Proof.
  intros C l H. apply ok_bind; [|intros v; now eexists]. apply ok_foldM. intros c s I. destruct (covered _ _ _ C H s I) as (g & Q & F). now apply Q.
Qed.

Lemma ac_form {A} k (p : P A) b : reads p b -> accepts (fun s => iter_new s (lit k) p) (Form k b).
Proof.
  intros R s H. inversion H as [|? ? n l E F| |]; subst. unfold iter_new. cbn [sx_list bind]. rewrite str_eqb_refl.
  apply ok_bind; [now apply R|]. intros v. now eexists.
Qed.
Lemma ac_bare {A} (p : P A) b : reads p b -> accepts (fun s => iter_nameless s p) (Bare b).
Proof. intros R s H. inversion H; subst. unfold iter_nameless. cbn [sx_list bind]. apply ok_bind; [now apply R|]. intros v. now eexists. Qed.
Lemma ac_slice {A} k (f : sexp -> res A) g : accepts f g -> accepts (fun s => do v <- sx_slice1 (lit k) s; f v) (fld k g).
Proof.
  intros F s H. inversion H as [|? ? n l E X| |]; subst. inversion X as [|? ? x r G N| | | |]; subst. inversion N; subst.
  unfold sx_slice1. cbn [sx_list bind]. rewrite str_eqb_refl. cbn [bind]. now apply F.
Qed.
Lemma ac_text : accepts sx_string text.
Proof. intros s H. inversion H; subst. now eexists. Qed.
Lemma ac_any_word q : accepts sx_string (Word q).
Proof. intros s H. inversion H; subst. now eexists. Qed.
Lemma ac_num : accepts sx_f (num readable).
Proof. intros s H. inversion H as [? n Q0| | |]; subst. destruct Q0 as (neg & v & Q). destruct (number_fw _ _ _ Q) as (x & E & _). unfold sx_f. cbn [sx_string bind]. rewrite E. now eexists. Qed.
Lemma ac_int : accepts sx_i (int readable).
Proof.
  intros s H. inversion H as [? n Q0| | |]; subst. destruct Q0 as (sg & neg & ds & Q). destruct Q as (-> & S & D & N & F). unfold sx_i. cbn [sx_string bind].
  assert (0 <= dec ds)%Z by (rewrite <- (val_dec ds D); lia).
  assert (E : i64_of_str (sg ++ ds) = Some (if neg then - dec ds else dec ds)%Z).
  { apply int_iff. exists sg, neg, ds. do 4 (split; [assumption || reflexivity|]). split; [reflexivity|]. unfold fits in F. destruct neg; lia. }
  rewrite E. now eexists.
Qed.
Lemma ac_lit k : accepts (from_literal k) (word [k]).
Proof. intros s H. inversion H as [? n Q0| | |]; subst. destruct Q0 as (w & [<-|[]] & ->). unfold from_literal. cbn [sx_string bind]. rewrite str_eqb_refl. now eexists. Qed.

(** ** Refusals *)
Lemma no_bind {A B} (r : res A) (f : A -> res B) : no r -> no (do x <- r; f x).
Proof. intros [e ->]. now exists e. Qed.
Lemma rf_form_other {A} k k' (p : P A) b : str_eqb (lit k') (lit k) = false -> refuses (fun s => iter_new s (lit k) p) (Form k' b).
Proof. intros E s H. inversion H; subst. unfold iter_new. cbn [sx_list bind]. rewrite E. now eexists. Qed.
Lemma rf_form_word {A} k (p : P A) q : refuses (fun s => iter_new s (lit k) p) (Word q).
Proof. intros s H. inversion H; subst. now eexists. Qed.
Lemma rf_slice_other {A} k k' (f : sexp -> res A) b : str_eqb (lit k') (lit k) = false -> refuses (fun s => do v <- sx_slice1 (lit k) s; f v) (Form k' b).
Proof.
  intros E s H. inversion H as [|? ? n l N F| |]; subst. apply no_bind. unfold sx_slice1. cbn [sx_list bind].
  destruct l as [|x [|y r]]; [now eexists| |now eexists]. rewrite E. now eexists.
Qed.
Lemma rf_slice_word {A} k (f : sexp -> res A) q : refuses (fun s => do v <- sx_slice1 (lit k) s; f v) (Word q).
Proof. intros s H. inversion H; subst. now eexists. Qed.
Lemma rf_string q b : refuses sx_string (Named q b).
Proof. intros s H. inversion H; subst. now eexists. Qed.
Lemma rf_f q b : refuses sx_f (Named q b).
Proof. intros s H. inversion H; subst. now eexists. Qed.
Lemma rf_lit_form k q b : refuses (from_literal k) (Named q b).
Proof. intros s H. inversion H; subst. now eexists. Qed.
Lemma rf_lit_other k k' : str_eqb (lit k') (lit k) = false -> refuses (from_literal k) (word [k']).
Proof. intros E s H. inversion H as [? n Q0| | |]; subst. destruct Q0 as (w & [<-|[]] & ->). unfold from_literal. cbn [sx_string bind]. rewrite E. now eexists. Qed.
Lemma rf_lit_num k : f64_of_str (lit k) = None -> refuses (from_literal k) (num readable).
Proof.
  intros E s H. inversion H as [? n Q0| | |]; subst. destruct Q0 as (neg & v & Q). unfold from_literal. cbn [sx_string bind]. destruct (str_eqb_spec n (lit k)) as [->|]; [|now eexists].
  destruct (number_fw _ _ _ Q) as (x & F & _). congruence.
Qed.
Lemma st_nil {A} (f : sexp -> res A) : stops f [].
Proof. intros l H. now inversion H. Qed.
Lemma st_one {A} (f : sexp -> res A) g b : refuses f g -> stops f (One g :: b).
Proof. intros R l H. inversion H; subst. now apply R. Qed.
Lemma st_opt {A} (f : sexp -> res A) g b : refuses f g -> stops f b -> stops f (Opt g :: b).
Proof. intros R S l H. inversion H; subst; [now apply S|now apply R]. Qed.
Lemma st_rep {A} (f : sexp -> res A) gs b : Forall (refuses f) gs -> stops f b -> stops f (Rep gs :: b).
Proof. intros R S l H. rewrite Forall_forall in R. inversion H; subst; [now apply S|]. eapply R; eassumption. Qed.

(** ** Footprints *)
Notation W := readable.
Ltac leaf := first [apply ac_num | apply ac_int | apply ac_text | apply ac_any_word | apply ac_lit].
Ltac ref := first [apply rf_form_other; reflexivity | apply rf_form_word | apply rf_slice_other; reflexivity | apply rf_slice_word | apply rf_string | apply rf_f | apply rf_lit_form
  | apply rf_lit_other; reflexivity | apply rf_lit_num; vm_compute; reflexivity].
Ltac stop := repeat first [apply st_nil | apply st_one | apply st_opt | apply st_rep | apply Forall_cons | apply Forall_nil | ref].
Ltac known := fail.
Ltac acc := first [leaf | known | apply ac_slice; acc].
Ltac rstep := first
  [ apply rd_close
  | apply rd_t; [try acc|intros ?]
  | apply rd_opt; [try acc|try solve [stop]|intros ?]
  | apply rd_maybe; [try acc|intros ?] ].
Ltac rsteps := repeat rstep.
Lemma ac_offset : accepts de_offset (Form "offset" [One (num W); One (num W)]). Proof. apply ac_form. rsteps. Qed.
Lemma ac_at : accepts de_at (g_at W). Proof. apply ac_form. rsteps. Qed.
Lemma ac_layer_name s : a_layer s -> ok (layer_from_str s).
Proof.
  unfold layer_from_str, layer_of_str. intros [H|(a & b & -> & H & I)].
  - rewrite split_on_none. { now eexists. } apply forallb_forall. intros c Hc. unfold is_dot. destruct (N.eqb_spec c 46); [subst; contradiction|reflexivity].
  - assert (E : split_on is_dot b = [b]).
    { apply split_on_none. apply forallb_forall. intros c Hc. unfold is_dot. destruct (N.eqb_spec c 46); [subst; contradiction|reflexivity]. }
    assert (F : split_on is_dot (lit a ++ 46%N :: b) = [lit a; b]).
    { cbn [In] in I. repeat destruct I as [<-|I]; try contradiction; cbn -[split_on]; repeat (cbn [split_on]; first [rewrite E|progress cbn]); reflexivity. }
    rewrite F. cbn [In] in I. repeat destruct I as [<-|I]; try contradiction; now eexists.
Qed.
Lemma ac_layer : accepts de_layer (g_layer W).
Proof. apply ac_form. apply rd_word; [apply ac_layer_name|]. intros. rsteps. Qed.
Lemma ac_justify : accepts de_justify g_justify.
Proof.
  apply ac_form. apply rd_word_end. intros s (k & I & ->). cbn [In] in I. repeat destruct I as [<-|I]; try contradiction; now eexists.
Qed.
Lemma ac_xy k : In k ["xy"; "start"; "end"; "size"; "center"; "rect_delta"] -> accepts de_xy (g_point W k).
Proof.
  intros I s H. assert (T : exists t, xy_type_of_str (lit k) = Ok t) by (cbn [In] in I; repeat destruct I as [<-|I]; try contradiction; now eexists).
  destruct T as [t T]. assert (N : exists l, s = SList (SStr (lit k) :: l)) by (inversion H; subst; now eexists). destruct N as [l ->].
  unfold de_xy. cbn [sx_list_name sx_list bind sx_string]. rewrite T. cbn [bind]. revert H. generalize (SList (SStr (lit k) :: l)) as s. apply ac_form. rsteps.
Qed.
Lemma rf_xy k b : xy_type_of_str (lit k) = Err ESexp -> refuses de_xy (Form k b).
Proof. intros E s H. inversion H; subst. unfold de_xy. cbn [sx_list_name sx_list bind sx_string]. rewrite E. now eexists. Qed.
Lemma rf_xy_word q : refuses de_xy (Word q).
Proof. intros s H. inversion H; subst. now eexists. Qed.
Ltac ref ::= first [apply rf_form_other; reflexivity | apply rf_form_word | apply rf_slice_other; reflexivity | apply rf_slice_word | apply rf_string | apply rf_f | apply rf_lit_form
  | apply rf_lit_other; reflexivity | apply rf_xy; reflexivity | apply rf_xy_word | apply rf_lit_num; vm_compute; reflexivity].
Ltac pt := apply ac_xy; cbn [In]; tauto.
Lemma ac_font : accepts de_font (g_font W).
Proof.
  apply ac_form. apply rd_opt; [pt|stop|intros ?; rsteps].
Qed.
Lemma ac_effects : accepts de_effects (g_effects W).
Proof. apply ac_form. apply rd_t; [apply ac_font|intros ?]. apply rd_opt; [apply ac_justify|stop|intros ?; rsteps]. Qed.
Lemma ac_layers : accepts de_layers (g_layers W).
Proof.
  apply ac_form. apply rd_vec. constructor; [|constructor]. constructor; [|constructor]. intros s H. inversion H as [? n Q| | |]; subst. cbn [sx_string bind]. now apply ac_layer_name.
Qed.
Lemma ac_pts : accepts de_pts (g_pts W).
Proof. apply ac_form. apply rd_vec. constructor; [|constructor]. constructor; [|constructor]. pt. Qed.
Lemma ac_xyz : accepts de_xyz (g_xyz W). Proof. apply ac_form. rsteps. Qed.
Lemma ac_fnet : accepts de_fnet (g_net W). Proof. apply ac_form. rsteps. Qed.
Lemma ac_drill : accepts de_drill (drill W).
Proof.
  apply ac_form. apply rd_opt; [leaf|stop|intros ?]. apply rd_t; [leaf|intros ?]. apply rd_opt; [leaf|stop|intros ?]. apply rd_opt; [apply ac_offset|stop|intros ?].
  destruct (default _ _). apply rd_close.
Qed.
Ltac known ::= first [apply ac_at | apply ac_layer | apply ac_layers | apply ac_effects | apply ac_drill | apply ac_pts | apply ac_xyz | apply ac_fnet | pt].
Lemma ac_text_el : accepts de_text (g_text W).
Proof. apply ac_form. rsteps. Qed.
Lemma ac_second {A} (f : sexp -> res A) k g : accepts f g -> accepts (second f) (fld k g).
Proof. intros F s H. inversion H as [|? ? n l E X| |]; subst. inversion X; subst. unfold second. cbn [sx_list bind]. now apply F. Qed.
(** A part of a pad that is no thickness *)
Definition fine_part (s : sexp) : Prop := exists x, de_part s = Ok x /\ match x with PaThickness _ => False | _ => True end.
Lemma named_inv k b s : follows (Form k b) s -> exists l, s = SList (SStr (lit k) :: l).
Proof. intros H. inversion H; subst. now eexists. Qed.
Lemma named_part {A} k b s (c : A -> part) (r : res A) : follows (Form k b) s -> ok r -> de_part s = rmap c r -> (forall v, match c v with PaThickness _ => False | _ => True end) -> fine_part s.
Proof. intros _ [v V] E N. exists (c v). rewrite E, V. split; [reflexivity|apply N]. Qed.
Lemma fine_all s g : In g [g_net W; fld "zone_connect" (int W); fld "solder_paste_margin" (num W); fld "solder_mask_margin" (num W); fld "clearance" (num W); fld "thermal_gap" (num W)] ->
  follows g s -> fine_part s.
Proof.
  cbn [In]. intros In H. repeat destruct In as [<-|In]; try contradiction.
  - eapply named_part with (c := PaNet) (r := de_fnet s); [exact H|now apply ac_fnet|destruct (named_inv _ _ _ H) as [l ->]; reflexivity|intros; exact I].
  - eapply named_part with (c := PaZoneConnect) (r := second sx_i s); [exact H|apply (ac_second sx_i _ _ ac_int _ H)|destruct (named_inv _ _ _ H) as [l ->]; reflexivity|intros; exact I].
  - eapply named_part with (c := PaPaste) (r := second sx_f s); [exact H|apply (ac_second sx_f _ _ ac_num _ H)|destruct (named_inv _ _ _ H) as [l ->]; reflexivity|intros; exact I].
  - eapply named_part with (c := PaMask) (r := second sx_f s); [exact H|apply (ac_second sx_f _ _ ac_num _ H)|destruct (named_inv _ _ _ H) as [l ->]; reflexivity|intros; exact I].
  - eapply named_part with (c := PaClearance) (r := second sx_f s); [exact H|apply (ac_second sx_f _ _ ac_num _ H)|destruct (named_inv _ _ _ H) as [l ->]; reflexivity|intros; exact I].
  - eapply named_part with (c := PaThermalGap) (r := second sx_f s); [exact H|apply (ac_second sx_f _ _ ac_num _ H)|destruct (named_inv _ _ _ H) as [l ->]; reflexivity|intros; exact I].
Qed.
Lemma parts_ok l : (forall s, In s l -> fine_part s) -> exists ps, mapM de_part l = Ok ps /\ forall p, ok (pad_parts p ps).
Proof.
  induction l as [|x l IH]; intros H.
  - exists []. split; [reflexivity|]. intros p. now exists p.
  - destruct (H x (or_introl eq_refl)) as (y & Y & N). destruct IH as (ps & M & K); [intros s I; apply H; now right|].
    exists (y :: ps). split; [cbn [mapM]; rewrite Y; cbn [bind]; rewrite M; reflexivity|]. intros p. cbn [pad_parts].
    apply ok_bind; [|apply K]. destruct p. destruct y; try contradiction; now eexists.
Qed.
Lemma ac_pad : accepts de_pad (g_pad W).
Proof.
  apply ac_form. cbn [delta loose may W app flat_map]. apply rd_t; [leaf|intros ?].
  apply rd_word. { intros s (k & I & ->). cbn [In] in I. repeat destruct I as [<-|I]; try contradiction; now eexists. } intros ?.
  apply rd_word. { intros s (k & I & ->). cbn [In] in I. repeat destruct I as [<-|I]; try contradiction; now eexists. } intros ?.
  apply rd_opt; [acc|stop|intros ?]. apply rd_opt; [acc|stop|intros ?]. cbv zeta. apply rd_opt; [acc|stop|intros ?]. apply rd_opt; [acc|stop|intros ?].
  intros l H. set (Q := fun g => forall s, follows g s -> fine_part s).
  assert (C : covers Q [Rep [g_net W; fld "zone_connect" (int W); fld "solder_paste_margin" (num W); fld "solder_mask_margin" (num W); fld "clearance" (num W); fld "thermal_gap" (num W)]]).
  { unfold Q. constructor; [|constructor]. repeat (constructor; [intros s F; eapply fine_all; [|exact F]; cbn [In]; tauto|]). constructor. }
  destruct (parts_ok l) as (ps & M & K). { intros s I. destruct (covered _ _ _ C H s I) as (g & G & F). now apply G. }
  unfold pbind, p_vec. rewrite M. cbn [bind]. unfold plift. apply ok_bind; [apply K|]. intros ?. now eexists.
Qed.
Lemma ac_model : accepts de_model (g_model W). Proof. apply ac_form. rsteps. Qed.
Lemma ac_poly : accepts de_poly (g_poly W). Proof. apply ac_form. rsteps. Qed.
Lemma ac_line : accepts de_line (g_line W). Proof. apply ac_form. rsteps. Qed.
Lemma ac_circle : accepts de_circle (g_circle W). Proof. apply ac_form. rsteps. Qed.
Lemma ac_arc : accepts de_arc (g_arc W). Proof. apply ac_form. rsteps. Qed.
Lemma ac_first {A} (p : P A) k b : reads p b -> accepts (first_after p) (Form k b).
Proof.
  intros R s H. destruct (named_inv _ _ _ H) as [l ->]. unfold first_after. cbn [sx_list_name sx_list bind sx_string]. revert H. generalize (SList (SStr (lit k) :: l)) as s. now apply ac_form.
Qed.
Lemma rd_first {A} (f : sexp -> res A) g : accepts f g -> reads (p_t f) [One g].
Proof. intros F l H. inversion H; subst. unfold p_t. apply ok_bind; [now apply F|]. intros v. now eexists. Qed.
Lemma ac_string k : accepts de_string_element (fld k text). Proof. apply ac_first, rd_first, ac_text. Qed.
Lemma ac_float k : accepts de_float_element (fld k (num W)). Proof. apply ac_first, rd_first, ac_num. Qed.
Lemma ac_stamp k : accepts de_stamp_element (fld k (hex W)).
Proof.
  apply ac_first. apply rd_word_end. intros s [z Z]. apply hex_iff in Z. rewrite Z. now eexists.
Qed.
Lemma named_el {A} k b s (c : A -> element) (f : sexp -> res A) : accepts f (Form k b) -> follows (Form k b) s ->
  (forall l, de_element (SList (SStr (lit k) :: l)) = rmap c (f (SList (SStr (lit k) :: l)))) -> ok (de_element s).
Proof. intros F H E. pose proof (F s H) as K. destruct (named_inv _ _ _ H) as [l ->]. rewrite E. now apply ok_rmap. Qed.
Ltac el lm := eapply named_el; [apply lm|eassumption|intros; reflexivity].
Lemma ac_element g : In g (g_elements W) -> accepts de_element g.
Proof.
  unfold g_elements. cbn [In]. intros I s H. repeat destruct I as [<-|I]; try contradiction.
  - inversion H as [? n Q0| | |]; subst. destruct Q0 as (w & [<-|[]] & ->). now eexists.
  - el ac_float.
  - el ac_float.
  - el ac_layer.
  - el ac_string.
  - el ac_string.
  - el ac_string.
  - el ac_string.
  - el ac_stamp.
  - el ac_stamp.
  - el ac_at.
  - el ac_text_el.
  - el ac_pad.
  - el ac_model.
  - el ac_poly.
  - el ac_line.
  - el ac_circle.
  - el ac_arc.
Qed.
Lemma ac_module : accepts de_module (g_module W).
Proof.
  apply ac_form. apply rd_t; [leaf|intros ?]. apply rd_vec_then; [|intros ? l H; now eexists].
  constructor; [|constructor]. apply Forall_forall. intros g. apply ac_element.
Qed.

(** ** Boards *)
Lemma ac_version : accepts de_version (fld "version" (int W)). Proof. apply ac_form. rsteps. Qed.
Lemma ac_page : accepts de_page (fld "page" text). Proof. apply ac_form. rsteps. Qed.
Lemma ac_net : accepts de_net (g_net W). Proof. apply ac_form. rsteps. Qed.
Lemma ac_host : accepts de_host g_host. Proof. apply ac_form. rsteps. Qed.
Lemma ac_area : accepts de_area (g_area W). Proof. apply ac_form. rsteps. Qed.
Lemma ac_general : accepts de_general (g_general W).
Proof. apply ac_form. rstep. rstep. apply rd_t; [apply ac_area|intros ?]. rsteps. Qed.
Lemma ac_kind : accepts de_ly_type g_kind.
Proof.
  intros s H. inversion H as [? n Q0| | |]; subst. destruct Q0 as (k & I & ->). cbn [In] in I. repeat destruct I as [<-|I]; try contradiction; now eexists.
Qed.
Lemma ac_board_layer : accepts de_ly_layer (g_board_layer W).
Proof.
  apply ac_bare. rstep. apply rd_word; [apply ac_layer_name|intros ?]. apply rd_t; [apply ac_kind|intros ?]. apply rd_opt; [leaf|stop|intros ?]. rsteps.
Qed.
Lemma ac_stack : accepts de_ly_layers (g_stack W).
Proof. apply ac_form, rd_vec. constructor; [|constructor]. constructor; [|constructor]. apply ac_board_layer. Qed.
Lemma ac_setting q : accepts de_setup_element (g_setting (Word q)).
Proof. apply ac_bare. rsteps. Qed.
Lemma ac_nc k : accepts (de_nc_float (lit k)) (fld k (num W)). Proof. apply ac_form. rsteps. Qed.
Lemma named_nc k s (c : f64 -> net_class) n : follows (fld k (num W)) s ->
  (forall l, nc_step n (SList (SStr (lit k) :: l)) = (do v <- de_nc_float (lit k) (SList (SStr (lit k) :: l)); Ok (c v))) -> ok (nc_step n s).
Proof. intros H E. destruct (ac_nc k s H) as [v V]. destruct (named_inv _ _ _ H) as [l ->]. rewrite E, V. now eexists. Qed.
Ltac ncf H := eapply named_nc; [exact H|intros; reflexivity].
Lemma ac_nc_step n g : In g [fld "clearance" (num W); fld "trace_width" (num W); fld "via_dia" (num W); fld "via_drill" (num W); fld "uvia_dia" (num W); fld "uvia_drill" (num W);
  fld "diff_pair_gap" (num W); fld "diff_pair_width" (num W); fld "add_net" text] -> accepts (nc_step n) g.
Proof.
  cbn [In]. intros I s H. destruct n. repeat destruct I as [<-|I]; try contradiction; try (ncf H).
  pose proof (ac_slice "add_net" sx_string text ac_text s H) as [v V]. destruct (named_inv _ _ _ H) as [l ->]. unfold nc_step. cbn [sx_list_name sx_list bind sx_string].
  cbn -[sx_slice1] in V |- *. rewrite V. now eexists.
Qed.
Lemma ac_net_class : accepts de_net_class (g_net_class W).
Proof.
  apply ac_form. rstep. rstep. apply (rd_fold nc_step _ (fun n => n)).
  constructor; [|constructor]. apply Forall_forall. intros g I a. apply ac_nc_step. exact I.
Qed.
Lemma ac_setup : accepts de_setup (g_setup W).
Proof.
  apply ac_form. apply (rd_fold setup_step _ (fun u => u)). constructor; [|constructor]. constructor; [|constructor; [|constructor]].
  - intros u s H. pose proof (ac_setting _ s H) as [v V]. inversion H as [| |? l F|]; subst. inversion F as [|? ? x r X R| | | |]; subst.
    inversion X as [? n Q| | |]; subst. unfold setup_step. cbn [sx_list_name sx_list bind sx_string]. destruct (str_eqb_spec n (lit "pcbplotparams")); [contradiction|].
    rewrite V. now eexists.
  - intros u s H. assert (A : accepts (fun v => iter_new v (lit "pcbplotparams") (p_vec de_setup_element)) (Form "pcbplotparams" [Rep [g_setting text]])).
    { apply ac_form, rd_vec. constructor; [|constructor]. constructor; [|constructor]. apply ac_setting. }
    destruct (A s H) as [v V]. destruct (named_inv _ _ _ H) as [l ->]. unfold setup_step. cbn [sx_list_name sx_list bind sx_string]. rewrite str_eqb_refl. rewrite V. now eexists.
Qed.
Lemma ac_gr_text : accepts de_gr_text (g_gr_text W). Proof. apply ac_form. rsteps. Qed.
Lemma ac_gr_line : accepts de_gr_line (g_gr_line W). Proof. apply ac_form. rsteps. Qed.
Lemma ac_gr_arc : accepts de_gr_arc (g_gr_arc W). Proof. apply ac_form. rsteps. Qed.
Lemma ac_gr_circle : accepts de_gr_circle (g_gr_circle W). Proof. apply ac_form. rsteps. Qed.
Lemma ac_segment : accepts de_segment (g_segment W). Proof. apply ac_form. rsteps. Qed.
Lemma ac_via : accepts de_via (g_via W). Proof. apply ac_form. rsteps. Qed.
Lemma ac_hatch : accepts de_hatch (g_hatch W). Proof. apply ac_form. rsteps. Qed.
Lemma ac_connect : accepts de_connect (g_connect W). Proof. apply ac_form. rsteps. Qed.
Lemma ac_rule k : accepts (fun s => do v <- sx_slice1 (lit k) s; sx_string v) (g_rule k). Proof. apply ac_slice. leaf. Qed.
Lemma ac_keepout : accepts de_keepout g_keepout. Proof. apply ac_form. rsteps. Qed.
Lemma ac_fill : accepts de_fill (g_fill W). Proof. apply ac_form. rsteps. Qed.
Ltac known ::= first [apply ac_at | apply ac_layer | apply ac_layers | apply ac_effects | apply ac_drill | apply ac_pts | apply ac_xyz | apply ac_fnet | pt
  | apply ac_gr_text | apply ac_hatch | apply ac_connect | apply ac_keepout | apply ac_fill].
Lemma ac_dimension : accepts de_dimension (g_dimension W). Proof. apply ac_form. rsteps. Qed.
Lemma zone_step_ok z x : ok (zone_step z x).
Proof.
  destruct z. unfold zone_step. pose proof (np_pts_in "polygon" x). pose proof (np_pts_in "filled_polygon" x). pose proof (np_pts_in "fill_segments" x).
  destruct (de_pts_in "polygon" x); [now eexists| |contradiction]. destruct (de_pts_in "filled_polygon" x); [now eexists| |contradiction].
  destruct (de_pts_in "fill_segments" x); [now eexists|now eexists|contradiction].
Qed.
Lemma ac_zone : accepts de_zone (g_zone W).
Proof.
  apply ac_form. rsteps. intros l H. apply ok_bind; [|intros ?; now eexists]. apply ok_foldM. intros. apply zone_step_ok.
Qed.
Lemma named_push {A} k b s (c : A -> ly_element) (f : sexp -> res A) a : accepts f (Form k b) -> follows (Form k b) s ->
  (forall l, layout_step a (SList (SStr (lit k) :: l)) = push_wrap a c (f (SList (SStr (lit k) :: l)))) -> ok (layout_step a s).
Proof. intros F H E. destruct (F s H) as [v V]. destruct (named_inv _ _ _ H) as [l ->]. rewrite E. unfold push_wrap. rewrite V. now eexists. Qed.
Ltac pu lm := eapply named_push; [apply lm|eassumption|intros; reflexivity].
Lemma ac_known a g : In g (g_known W) -> accepts (layout_step a) g.
Proof.
  unfold g_known. cbn [In]. intros I s H. destruct a. repeat destruct I as [<-|I]; try contradiction.
  - pu ac_module.
  - pu ac_net.
  - pu ac_net_class.
  - pu ac_gr_text.
  - pu ac_dimension.
  - pu ac_zone.
  - pu ac_gr_line.
  - pu ac_gr_arc.
  - pu ac_gr_circle.
  - pu ac_segment.
  - pu ac_via.
Qed.
Lemma ac_others a g : In g (others W) -> accepts (layout_step a) g.
Proof.
  intros [<-|[]] s H. inversion H as [|? ? n l N F| |]; subst. destruct a. unfold layout_step. cbn [sx_list_name sx_list bind sx_string].
  assert (D : forall k, In k board_names -> str_eqb n (lit k) = false).
  { intros k I. destruct (str_eqb_spec n (lit k)); [|reflexivity]. destruct N. now exists k. }
  rewrite !D by (cbn [In board_names]; tauto). now eexists.
Qed.
Lemma named_head {A} k b s (c : A -> layout) (f : sexp -> res A) a : accepts f (Form k b) -> follows (Form k b) s ->
  (forall l, layout_step a (SList (SStr (lit k) :: l)) = (do x <- f (SList (SStr (lit k) :: l)); Ok (c x))) -> ok (layout_step a s).
Proof. intros F H E. destruct (F s H) as [v V]. destruct (named_inv _ _ _ H) as [l ->]. rewrite E, V. now eexists. Qed.
Ltac hd lm := intros a s H; destruct a; eapply named_head; [apply lm|exact H|intros; reflexivity].
Lemma ac_layout : accepts de_layout (g_board W).
Proof.
  apply ac_form. apply (rd_fold layout_step _ (fun x => x)).
  constructor; [|constructor]. cbn [flat_map app]. constructor; [hd ac_version|]. constructor; [hd ac_host|]. constructor; [hd ac_general|]. constructor; [hd ac_page|].
  constructor; [hd ac_stack|]. constructor; [hd ac_setup|]. rewrite app_nil_r.
  apply Forall_forall. intros g I a. apply in_app_or in I as [I|I]; [now apply ac_known|now apply ac_others].
Qed.
Lemma ac_flib : accepts de_flib g_lib.
Proof. apply ac_form. do 5 rstep. intros l H. now eexists. Qed.
Lemma ac_table : accepts de_fp_lib_table g_table.
Proof. apply ac_form, rd_vec. constructor; [|constructor]. constructor; [|constructor]. apply ac_flib. Qed.
