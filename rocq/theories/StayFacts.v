(** Which footprints stay as they are (C80): every shape is the image of a writer on the
    values that are read back. *)
From Coq Require Import String Lia.
From Flocq Require Import IEEE754.BinarySingleNaN.
From Verif Require Import Base Str StrFacts Num NumFacts F64 F64Facts F64Text Sexp DecSpec DecFacts ShortSpec ShortFacts GramFacts FpData FpLayer FpSer FpDe FpWf FpFacts SavedFacts StaySpec.
Open Scope string_scope. Open Scope list_scope.

(** ** Images *)
Definition img {A} (f : A -> sexp) (ok : A -> bool) (p : shape) : Prop := forall s, p s <-> exists a, s = f a /\ ok a = true.
Definition cimg {A} (f : A -> list sexp) (ok : A -> bool) (i : part) : Prop := forall l, fills i l <-> exists a, l = f a /\ ok a = true.
Definition pimg {A} (f : A -> list sexp) (ok : A -> bool) (b : list part) : Prop := forall l, parts b l <-> exists a, l = f a /\ ok a = true.
Definition yes {A} (_ : A) : bool := true.

Lemma c_one {A} (f : A -> sexp) ok p : img f ok p -> cimg (fun a => [f a]) ok (one p).
Proof.
  intros I l. cbn [fills]. split.
  - intros (s & -> & H). apply I in H as (a & -> & H). now exists a.
  - intros (a & -> & H). exists (f a). split; [reflexivity|]. apply I. now exists a.
Qed.
Lemma c_opt {A} (f : A -> sexp) ok p : img f ok p -> cimg (opt_list f) (opt_ok ok) (opt p).
Proof.
  intros I l. cbn [fills]. split.
  - intros [->|(s & -> & H)]; [now exists None|]. apply I in H as (a & -> & H). now exists (Some a).
  - intros ([a|] & -> & H); [|now left]. right. exists (f a). split; [reflexivity|]. apply I. now exists a.
Qed.
Lemma c_many {A} (f : A -> sexp) ok p : img f ok p -> cimg (map f) (forallb ok) (many p).
Proof.
  intros I l. cbn [fills]. split.
  - intros H. induction H as [|s l H _ (r & -> & R)]; [now exists []|]. apply I in H as (a & -> & H). exists (a :: r). split; [reflexivity|]. cbn [forallb]. now rewrite H.
  - intros (r & -> & R). induction r as [|a r IH]; [constructor|]. cbn [forallb map] in *. apply andb_true_iff in R as [R1 R2].
    constructor; [apply I; now exists a|now apply IH].
Qed.
Lemma c_flag k : cimg (fun b : bool => when b [a_lit k]) yes (opt (words [k])).
Proof.
  intros l. cbn [fills]. split.
  - intros [->|(s & -> & j & [<-|[]] & ->)]; [now exists false|now exists true].
  - intros ([] & -> & _); [|now left]. right. exists (a_lit k). split; [reflexivity|]. exists k. split; [now left|reflexivity].
Qed.
Lemma p_nil : pimg (fun _ : unit => []) yes [].
Proof. intros l. cbn [parts]. split; [intros ->; now exists tt|now intros (_ & -> & _)]. Qed.
Lemma p_last {A} (f : A -> list sexp) ok i : cimg f ok i -> pimg f ok [i].
Proof.
  intros I l. cbn [parts]. split.
  - intros (x & y & -> & H & ->). apply I in H as (a & -> & H). exists a. split; [apply app_nil_r|exact H].
  - intros (a & -> & H). exists (f a), []. split; [now rewrite app_nil_r|]. split; [apply I; now exists a|reflexivity].
Qed.
Lemma p_cons {A B} (f : A -> list sexp) ok (g : B -> list sexp) ok' i b : cimg f ok i -> pimg g ok' b ->
  pimg (fun t : A * B => f (fst t) ++ g (snd t)) (fun t => ok (fst t) && ok' (snd t)) (i :: b).
Proof.
  intros I J l. cbn [parts]. split.
  - intros (x & y & -> & H & K). apply I in H as (a & -> & H). apply J in K as (c & -> & K). exists (a, c). split; [reflexivity|]. cbn [fst snd]. now rewrite H, K.
  - intros ((a & c) & -> & H). cbn [fst snd] in *. apply andb_true_iff in H as [H K]. exists (f a), (g c). split; [reflexivity|].
    split; [apply I; now exists a|apply J; now exists c].
Qed.
(** From tuples to records *)
Lemma p_map {A B} (f : A -> list sexp) ok (g : B -> list sexp) ok' b : pimg f ok b ->
  (forall a, ok a = true -> exists v, g v = f a /\ ok' v = true) -> (forall v, ok' v = true -> exists a, f a = g v /\ ok a = true) -> pimg g ok' b.
Proof.
  intros I H K l. rewrite (I l). split.
  - intros (a & -> & O). destruct (H a O) as (v & <- & V). now exists v.
  - intros (v & -> & O). destruct (K v O) as (a & <- & V). now exists a.
Qed.
Lemma i_form {A} k (g : A -> list sexp) ok b : pimg g ok b -> img (fun v => node k (g v)) ok (form k b).
Proof.
  intros I s. unfold form. split.
  - intros (l & -> & H). apply I in H as (v & -> & H). now exists v.
  - intros (v & -> & H). exists (g v). split; [reflexivity|]. apply I. now exists v.
Qed.
Lemma i_bare {A} (g : A -> list sexp) ok b : pimg g ok b -> img (fun v => SList (g v)) ok (bare b).
Proof.
  intros I s. unfold bare. split.
  - intros (l & -> & H). apply I in H as (v & -> & H). now exists v.
  - intros (v & -> & H). exists (g v). split; [reflexivity|]. apply I. now exists v.
Qed.
Lemma i_map {A B} (f : A -> sexp) ok (g : B -> sexp) ok' p : img f ok p ->
  (forall a, ok a = true -> exists v, g v = f a /\ ok' v = true) -> (forall v, ok' v = true -> exists a, f a = g v /\ ok a = true) -> img g ok' p.
Proof.
  intros I H K s. rewrite (I s). split.
  - intros (a & -> & O). destruct (H a O) as (v & <- & V). now exists v.
  - intros (v & -> & O). destruct (K v O) as (a & <- & V). now exists a.
Qed.
Lemma i_has {A} k (f : A -> sexp) ok p : img f ok p -> img (fun a => kv k (f a)) ok (has k p).
Proof. intros I. exact (i_form k _ _ _ (p_last _ _ _ (c_one _ _ _ I))). Qed.

(** ** Words *)
Lemma i_text : img SStr yes text.
Proof. intros s. split; [intros (t & ->); now exists t|intros (t & -> & _); now exists t]. Qed.
Lemma i_such p q : (forall x, p x <-> q x = true) -> img a_f q (such p).
Proof. intros R s. unfold such. split; intros (x & -> & H); exists x; (split; [reflexivity|now apply R]). Qed.
Lemma i_num : img a_f yes num.
Proof. apply i_such. intros x. split; [reflexivity|trivial]. Qed.
Lemma nonzero_iff x : nonzero x <-> fneb x fzero = true.
Proof.
  unfold nonzero, fneb, fzero, fnegzero. destruct x as [[]|[]| |[] m e H]; cbn; split; try discriminate; try (intros _; split; discriminate); try reflexivity.
  - intros [_ N]. now elim N.
  - intros [N _]. now elim N.
Qed.
Lemma i_nonzero : img a_f (fun x => fneb x fzero) (such nonzero).
Proof. apply i_such. exact nonzero_iff. Qed.
Lemma i_positive : img a_f (fun x => fgtb x fzero) (such positive).
Proof. apply i_such. reflexivity. Qed.
Lemma i_pair k p q : (forall x, p x <-> q x = true) -> img (fun t => node k [a_f (fst t); a_f (snd t)]) (fun t => q (fst t) || q (snd t)) (pair_with k p).
Proof.
  intros R s. unfold pair_with.
  pose proof (i_form k _ _ _ (p_cons _ _ _ _ _ _ (c_one _ _ _ (i_such p q R)) (p_last _ _ _ (c_one _ _ _ i_num))) s) as I.
  pose proof (i_form k _ _ _ (p_cons _ _ _ _ _ _ (c_one _ _ _ i_num) (p_last _ _ _ (c_one _ _ _ (i_such p q R)))) s) as J. split.
  - intros [H|H]; [apply I in H as ((x & y) & -> & H)|apply J in H as ((x & y) & -> & H)]; exists (x, y); (split; [reflexivity|]); cbn [fst snd] in *.
    + apply andb_true_iff in H as [-> _]. reflexivity.
    + apply andb_true_iff in H as [_ ->]. apply orb_true_r.
  - intros ((x & y) & -> & H). cbn [fst snd] in H. apply orb_true_iff in H as [H|H]; [left; apply I|right; apply J]; exists (x, y); (split; [reflexivity|]); cbn [fst snd]; now rewrite H.
Qed.
Lemma i64_range z : i64_ok z = true <-> (- 2 ^ 63 <= z < 2 ^ 63)%Z.
Proof. unfold i64_ok, i64_min, i64_max. lia. Qed.
Lemma i_int p q : (forall z, p z <-> q z = true) -> img a_i (fun z => i64_ok z && q z) (int p).
Proof.
  intros R s. unfold int. split.
  - intros (ds & z & F & L & B & P & H). exists z. split; [|apply andb_true_iff; split; [now apply i64_range|now apply R]].
    pose proof (proj2 (pin_numeral z)) as N.
    destruct H as [(G & -> & E)|(G & -> & E)]; unfold a_i; f_equal; apply N; exists ds; (split; [exact F|split; [exact L|]]); (split; [lia|]); destruct (Z.ltb_spec z 0); try lia; reflexivity.
  - intros (z & -> & H). apply andb_true_iff in H as [H P]. apply i64_range in H. apply R in P. destruct (proj1 (pin_numeral z)) as (ds & F & L & V & E).
    exists ds, z. split; [exact F|]. split; [exact L|]. split; [exact H|]. split; [exact P|]. unfold a_i. rewrite E. destruct (Z.ltb_spec z 0); [right|left]; (split; [lia|split; [reflexivity|lia]]).
Qed.
Lemma i_whole : img a_i i64_ok whole.
Proof.
  eapply i_map; [apply (i_int (fun _ => True) yes); intros z; split; [reflexivity|trivial]| |]; intros z H; exists z; (split; [reflexivity|]).
  - now apply andb_true_iff in H.
  - now rewrite H.
Qed.
(** Hexadecimal digits *)
Definition hexval (c : N) : N := if (c <=? 57)%N then (c - 48)%N else (c - 55)%N.
Definition upper_hex (c : N) : Prop := (48 <= c <= 57 \/ 65 <= c <= 70)%N.
Lemma hexval_lt c : upper_hex c -> (hexval c < 16)%N.
Proof. unfold upper_hex, hexval. destruct (N.leb_spec c 57); lia. Qed.
Lemma hexval_char c : upper_hex c -> digit_char (hexval c) = c.
Proof. unfold upper_hex, hexval, digit_char. intros H. destruct (N.leb_spec c 57); destruct (N.ltb_spec (if (c <=? 57)%N then c - 48 else c - 55) 10); destruct (N.leb_spec c 57); try lia; destruct (N.ltb_spec (c - 48) 10), (N.ltb_spec (c - 55) 10); lia. Qed.
Lemma char_hexval d : (d < 16)%N -> hexval (digit_char d) = d.
Proof. unfold hexval, digit_char. intros H. destruct (N.ltb_spec d 10); [destruct (N.leb_spec (48 + d) 57)|destruct (N.leb_spec (55 + d) 57)]; lia. Qed.
Lemma hex_from_val s : Forall upper_hex s -> forall a, hex_from a s = (a * 16 ^ Z.of_nat (length s) + Z.of_N (digits_val 16 (map hexval s)))%Z.
Proof.
  intros F. induction F as [|c s C _ IH]; intros a; [cbn; lia|]. cbn [hex_from map length]. rewrite IH, digits_val_cons, map_length.
  rewrite Nat2Z.inj_succ, Z.pow_succ_r by lia. rewrite N2Z.inj_add, N2Z.inj_mul, N2Z.inj_pow, nat_N_Z. change (Z.of_N 16) with 16%Z.
  assert (E : Z.of_N (hexval c) = (Z.of_N c - (if (c <=? 57)%N then 48 else 55))%Z) by (unfold upper_hex, hexval in *; destruct (N.leb_spec c 57); lia).
  rewrite E. ring.
Qed.
Lemma digits_val_lt16 l : Forall (fun a => (a < 16)%N) l -> (digits_val 16 l < 16 ^ N.of_nat (length l))%N.
Proof.
  induction l as [|a l IH]; intros F; [cbn; lia|]. inversion F as [|? ? A F']; subst. specialize (IH F'). rewrite digits_val_cons. cbn [length].
  rewrite Nat2N.inj_succ, N.pow_succ_r'. set (w := (16 ^ N.of_nat (length l))%N) in *. nia.
Qed.
Lemma digits_same16 l : forall m, Forall (fun a => (a < 16)%N) l -> Forall (fun a => (a < 16)%N) m -> length l = length m -> digits_val 16 l = digits_val 16 m -> l = m.
Proof.
  induction l as [|a l IH]; intros [|b m] F G L V; try discriminate; [reflexivity|]. inversion F as [|? ? A F']; subst. inversion G as [|? ? B G']; subst.
  rewrite !digits_val_cons in V. injection L as L. rewrite L in V. pose proof (digits_val_lt16 l F') as U. pose proof (digits_val_lt16 m G') as W. rewrite L in U.
  set (k := (16 ^ N.of_nat (length m))%N) in *. assert (E : a = b) by nia. subst b. f_equal. apply IH; [exact F'|exact G'|exact L|nia].
Qed.
Lemma to_digits16 n : (0 < n)%N -> exists a l, to_digits 16 n = a :: l /\ (0 < a)%N.
Proof.
  intros H. destruct (to_digits_len 16 n ltac:(lia) H) as (k & E & B & _). pose proof (to_digits_bound 16 n ltac:(lia)) as F. pose proof (to_digits_val 16 n ltac:(lia)) as V.
  destruct (to_digits 16 n) as [|a l]; [discriminate|]. exists a, l. split; [reflexivity|]. inversion F as [|? ? A F']; subst. injection E as E. rewrite digits_val_cons in B. rewrite E in B.
  pose proof (digits_val_lt16 l F') as U. rewrite E in U. destruct (N.eq_dec a 0) as [->|]; [|lia]. clear - B U. lia.
Qed.
Lemma hex_canon s n : Forall upper_hex s -> no_lead s -> digits_val 16 (map hexval s) = n -> s = show_hex n.
Proof.
  intros F (c & r & -> & L) V. unfold show_hex. assert (G : Forall (fun a => (a < 16)%N) (map hexval (c :: r))) by (apply Forall_map; eapply Forall_impl; [|exact F]; exact hexval_lt).
  assert (E : map hexval (c :: r) = to_digits 16 n).
  { apply digits_same16; [exact G|apply to_digits_bound; lia| |rewrite V; symmetry; apply to_digits_val; lia]. assert (C : upper_hex c) by (inversion F; assumption). destruct (N.eq_dec c 48) as [->|C0].
    - rewrite (L eq_refl) in *. cbn in V. subst n. reflexivity.
    - cbn [map] in V, G. assert (P : (0 < hexval c)%N) by (unfold upper_hex, hexval in *; destruct (N.leb_spec c 57); lia). rewrite digits_val_cons in V.
      assert (G' : Forall (fun a => (a < 16)%N) (map hexval r)) by (inversion G; assumption). pose proof (digits_val_lt16 _ G') as U. rewrite map_length in *. pose proof (N.pow_nonzero 16 (N.of_nat (length r)) ltac:(lia)) as Z0.
      pose proof (hexval_lt c C) as B. destruct (to_digits_len 16 n ltac:(lia) ltac:(nia)) as (k & E & B1 & B2). rewrite E. cbn [map length]. rewrite ?map_length. f_equal.
      set (w := (16 ^ N.of_nat (length r))%N) in *. assert (N1 : (w <= n)%N) by nia. assert (N2 : (n < 16 * w)%N) by nia. unfold w in N2. rewrite <- N.pow_succ_r' in N2.
      assert (X : (16 ^ N.of_nat k < 16 ^ N.succ (N.of_nat (length r)))%N) by (clear - B1 N2; lia). assert (Y : (16 ^ N.of_nat (length r) < 16 ^ N.of_nat (S k))%N) by (clear - N1 B2; unfold w in N1; lia).
      apply N.pow_lt_mono_r_iff in X; [|lia]. apply N.pow_lt_mono_r_iff in Y; [|lia]. clear - X Y. lia. }
  rewrite <- E, map_map. clear - F. induction F as [|x l X _ IH]; [reflexivity|]. cbn [map]. rewrite hexval_char by exact X. now rewrite <- IH.
Qed.
Lemma show_hex_upper n : Forall upper_hex (show_hex n).
Proof. eapply Forall_impl; [|apply show_hex_digits]. intros c H. unfold is_hex_digit, is_dec_digit in H. unfold upper_hex. lia. Qed.
Lemma show_hex_val n : digits_val 16 (map hexval (show_hex n)) = n.
Proof.
  unfold show_hex. rewrite map_map. rewrite <- (to_digits_val 16 n ltac:(lia)) at 2. f_equal. pose proof (to_digits_bound 16 n ltac:(lia)) as F. induction F as [|a l A _ IH]; [reflexivity|].
  cbn [map]. rewrite IH. f_equal. now apply char_hexval.
Qed.
Lemma show_hex_lead n : no_lead (show_hex n).
Proof.
  unfold show_hex. destruct (N.eq_dec n 0) as [->|H]; [exists 48%N, []; split; reflexivity|]. destruct (to_digits16 n ltac:(lia)) as (a & l & E & A). pose proof (to_digits_bound 16 n ltac:(lia)) as F.
  rewrite E in *. inversion F as [|? ? B _]; subst. exists (digit_char a), (map digit_char l). split; [reflexivity|]. intros Q. exfalso. unfold digit_char in Q. destruct (N.ltb_spec a 10); lia.
Qed.
Lemma i_stamp : img (fun z => SStr (show_hex64 z)) stamp_ok stamp.
Proof.
  intros s. unfold stamp, stamp_ok, i64_max. split.
  - intros (h & -> & L & F & B). rewrite (hex_from_val h F 0) in B. set (n := digits_val 16 (map hexval h)) in *. exists (Z.of_N n). split; [|lia].
    f_equal. unfold show_hex64. rewrite Z.mod_small by lia. rewrite N2Z.id. now apply hex_canon.
  - intros (z & -> & H). exists (show_hex64 z). unfold show_hex64. split; [reflexivity|]. split; [apply show_hex_lead|]. split; [apply show_hex_upper|].
    rewrite (hex_from_val _ (show_hex_upper _) 0), show_hex_val. rewrite Z.mod_small by lia. lia.
Qed.
Lemma dotless_iff n : (~ In 46%N n) <-> forallb (fun c => negb (is_dot c)) n = true.
Proof.
  rewrite forallb_forall. unfold is_dot. split.
  - intros H c C. destruct (N.eqb_spec c 46); [subst; contradiction|reflexivity].
  - intros H C. specialize (H _ C). discriminate H.
Qed.
Lemma i_layer : img ser_layer layer_ok layer_name.
Proof.
  intros s. unfold layer_name, ser_layer. split.
  - intros (n & -> & [H|(a & b & A & -> & H)]); apply dotless_iff in H.
    + exists (mk_layer SNone (ltype_of_str n)). split; [unfold show_layer; cbn [la_side la_t]; now rewrite show_ltype_of_str|now apply ltype_of_str_ok].
    + assert (E : exists sd, show_side sd = lit a ++ [46%N]).
      { cbn [sides In] in A. repeat destruct A as [<-|A]; [exists SFront|exists SBack|exists SDwgs|exists SCmts|exists SEco1|exists SEco2|exists SEdge|exists SIn1|exists SIn2|exists SBoth|contradiction]; reflexivity. }
      destruct E as (sd & E). exists (mk_layer sd (ltype_of_str b)). split; [unfold show_layer; cbn [la_side la_t]; now rewrite show_ltype_of_str, E, <- app_assoc|now apply (ltype_of_str_ok b)].
  - intros ([sd t] & -> & H). eexists. split; [reflexivity|]. unfold show_layer. cbn [la_side la_t]. assert (D : ~ In 46%N (show_ltype t)).
    { destruct t; cbn [show_ltype]; try (intros C; cbn in C; repeat destruct C as [C|C]; try discriminate C; contradiction). apply dotless_iff. unfold layer_ok in H. cbn [la_t] in H. now apply andb_true_iff in H. }
    destruct sd; cbn [show_side]; [right; exists "F"|right; exists "B"|right; exists "Dwgs"|right; exists "Cmts"|right; exists "Eco1"|right; exists "Eco2"|right; exists "Edge"|right; exists "*"|right; exists "In1"|right; exists "In2"|now left];
      exists (show_ltype t); (split; [cbn [sides In]; tauto|split; [reflexivity|exact D]]).
Qed.
