(** The symbol library reader: the loop bound suffices; a condition under which it
    does not crash (lemmas for C41).  Facts about the symbol operations. *)
From Coq Require Import String Lia.
From Verif Require Import Base Str StrFacts Num F64 F64Text LibFns SchData SchPrint SchParse SchSpec SchTotal SymData SymPrint SymParse SymSpec SymOps.
Open Scope string_scope. Open Scope list_scope.

(** ** Never out of fuel *)
Lemma nf_sfield s : nf (parse_sfield s).
Proof. unfold parse_sfield, i64_from_string, f64_from_string, orientation_new, bool_from_string, bool_from, sjustify_new. nfs. Qed.
Lemma nf_draw s : nf (draw_line s).
Proof. unfold draw_line, parse_pin, parse_rect, i64_from_string, pin_orientation_make, pin_type_make, pin_shape_make, fill_make. nfs. Qed.
Lemma nf_sfields p : forall acc, nf (sfields_loop p acc).
Proof.
  induction p as [|s p IH]; intros acc; cbn [sfields_loop]; [discriminate|]. apply nf_bind; [apply nf_char|]. intros c _.
  destruct (N.eqb c 70); [|discriminate]. apply nf_bind; [apply nf_sfield|]. intros f _. apply IH.
Qed.
Lemma nf_draws p : forall acc, nf (draw_loop p acc).
Proof.
  induction p as [|s p IH]; intros acc; cbn [draw_loop]; [discriminate|]. destruct (seq _ _); [discriminate|].
  apply nf_bind; [apply nf_draw|]. intros d _. apply IH.
Qed.
Lemma nf_assume p e : nf (assume_line p e). Proof. unfold assume_line. nfs. Qed.
Lemma nf_symbol p : nf (parse_symbol p).
Proof.
  unfold parse_symbol, parse_aliases, assume_string, f64_from_string, i64_from_string, bool_from_string. cbv zeta.
  repeat (first [apply nf_sfields|apply nf_draws|apply nf_assume|nf_step]).
Qed.

(** Positions only move forward. *)
Lemma suf_assume p e q : assume_line p e = Ok q -> exists s, p = s :: q /\ s = lit e.
Proof. destruct p as [|s p]; [discriminate|]. cbn. destruct (seq s e) eqn:E; [|discriminate]. intros [= <-]. exists s. split; [reflexivity|]. now apply str_eqb_eq. Qed.
Lemma suf_assume' p e q : assume_line p e = Ok q -> suf p q.
Proof. intros H. apply suf_assume in H as (s & -> & _). apply suf_cons, suf_refl. Qed.
Lemma suf_sfields p : forall acc fs q, sfields_loop p acc = Ok (fs, q) -> suf p q.
Proof.
  induction p as [|s p IH]; intros acc fs q H; [discriminate|]. cbn [sfields_loop] in H.
  destruct (char_at s 0) as [c| |]; cbn [bind] in H; try discriminate. destruct (N.eqb c 70).
  - destruct (parse_sfield s); cbn [bind] in H; try discriminate. apply suf_cons. eapply IH, H.
  - injection H as <- <-. apply suf_refl.
Qed.
Lemma suf_draws p : forall acc fs q, draw_loop p acc = Ok (fs, q) -> suf p q.
Proof.
  induction p as [|s p IH]; intros acc fs q H; cbn [draw_loop] in H.
  - injection H as <- <-. apply suf_refl.
  - destruct (seq s "ENDDRAW"); [injection H as <- <-; apply suf_cons, suf_refl|].
    destruct (draw_line s); cbn [bind] in H; try discriminate. apply suf_cons. eapply IH, H.
Qed.
Lemma suf_fplist p : suf p (skip_fplist p).
Proof. induction p as [|s p IH]; [apply suf_refl|]. cbn [skip_fplist]. destruct (seq _ _); apply suf_cons; [apply suf_refl|exact IH]. Qed.
Lemma suf_aliases p al q : parse_aliases p = Ok (al, q) -> suf p q.
Proof.
  unfold parse_aliases. destruct (here p); cbn [bind]; try discriminate. destruct (starts_with _ _).
  - destruct (split_quote_aware _); cbn [bind]; try discriminate. intros [= <- <-]. apply suf_next.
  - intros [= <- <-]. apply suf_refl.
Qed.
(** The reader of one symbol, cut at the end of the fields *)
Definition symbol_rest (mk : list sfield -> list str -> list draw -> symbol) (fp : list sfield * list str) : res (symbol * list str) :=
  let '(fields, p) := fp in
  do s <- here p;
  let p := if seq s "$FPLIST" then skip_fplist (next p) else p in
  do ap <- parse_aliases p;
  let '(aliases, p) := ap in
  do p <- assume_line p "DRAW";
  do dp <- draw_loop p [];
  let '(dr, p) := dp in
  do p <- assume_line p "ENDDEF";
  do p <- assume_line p "#";
  Ok (mk fields aliases dr, p).
Lemma suf_rest mk fp s q : symbol_rest mk fp = Ok (s, q) -> suf (snd fp) q.
Proof.
  destruct fp as [fs p]. unfold symbol_rest. cbn [snd]. destruct (here p) as [h| |]; cbn [bind]; try discriminate. cbv zeta.
  assert (S0 : suf p (if seq h "$FPLIST" then skip_fplist (next p) else p)).
  { destruct (seq h _); [|apply suf_refl]. eapply suf_trans; [apply suf_next|apply suf_fplist]. }
  destruct (parse_aliases _) as [[al p1]| |] eqn:E1; cbn [bind]; try discriminate. apply suf_aliases in E1.
  destruct (assume_line p1 _) as [p2| |] eqn:E2; cbn [bind]; try discriminate. apply suf_assume' in E2.
  destruct (draw_loop p2 _) as [[ds p3]| |] eqn:E3; cbn [bind]; try discriminate. apply suf_draws in E3.
  destruct (assume_line p3 _) as [p4| |] eqn:E4; cbn [bind]; try discriminate. apply suf_assume' in E4.
  destruct (assume_line p4 _) as [p5| |] eqn:E5; cbn [bind]; try discriminate. apply suf_assume' in E5.
  intros [= _ <-]. repeat (eapply suf_trans; [eassumption|]). apply suf_refl.
Qed.
Definition symbol_head (p : list str) : res ((list sfield -> list str -> list draw -> symbol) * (list sfield * list str)) :=
  do p <- assume_line (next p) "#";
  do s <- here p;
  do v <- split_quote_aware s;
  if negb (Nat.eqb (length v) 10) then Err EOther else
  do w0 <- idx v 0; do _ <- assume_string "DEF" w0;
  do name <- idx v 1; do reference <- idx v 2;
  do w4 <- idx v 4; do text_offset <- f64_from_string w4;
  do w5 <- idx v 5; do pinnumber <- bool_from_string w5 "Y" "N";
  do w6 <- idx v 6; do pinname <- bool_from_string w6 "Y" "N";
  do w7 <- idx v 7; do unit_count <- i64_from_string w7;
  do w8 <- idx v 8; do unit_locked <- bool_from_string w8 "L" "F";
  do w9 <- idx v 9; do is_power <- bool_from_string w9 "P" "N";
  do fp <- sfields_loop (next p) [];
  Ok (mk_symbol name reference text_offset pinnumber pinname unit_count unit_locked is_power, fp).
Ltac step := match goal with
  | |- bind ?e _ = bind (bind ?e _) _ => destruct e; cbn [bind]; [|reflexivity|reflexivity]
  | |- (if ?b then _ else _) = bind (if ?b then _ else _) _ => destruct b; [reflexivity|]
  end.
Lemma symbol_cut p : parse_symbol p = do mf <- symbol_head p; symbol_rest (fst mf) (snd mf).
Proof. unfold parse_symbol, symbol_head, symbol_rest. repeat step. cbn [fst snd]. destruct a17; reflexivity. Qed.
Lemma suf_symbol p s q : parse_symbol p = Ok (s, q) -> p <> [] -> suf (tl p) q /\ (length q < length p)%nat.
Proof.
  rewrite symbol_cut. intros H N. assert (S : suf (tl p) q).
  { destruct (symbol_head p) as [[mk fp]| |] eqn:E; cbn [bind fst snd] in H; try discriminate. apply suf_rest in H.
    unfold symbol_head in E. destruct (assume_line _ _) as [p1| |] eqn:E1; cbn [bind] in E; try discriminate. apply suf_assume' in E1.
    repeat match type of E with
    | bind (sfields_loop _ _) _ = _ => fail 1
    | bind ?e _ = _ => destruct e; cbn [bind] in E; try discriminate
    | (if ?b then _ else _) = _ => destruct b; [discriminate|]
    end.
    destruct (sfields_loop _ _) as [[fs r]| |] eqn:E2; cbn [bind] in E; try discriminate. injection E as <- <-. apply suf_sfields in E2.
    cbn [snd] in H. eapply suf_trans; [exact E1|]. eapply suf_trans; [apply suf_next|]. eapply suf_trans; eassumption. }
  split; [exact S|]. apply suf_len in S. destruct p; [now destruct N|]. cbn in *. lia.
Qed.
Lemma nf_symbols n : forall p acc, (length p <= n)%nat -> nf (symbols_loop n p acc).
Proof.
  induction n as [|n IH]; intros p acc L; destruct p as [|s p]; cbn [symbols_loop]; try discriminate.
  - cbn in L. lia.
  - destruct (seq _ _); [discriminate|]. apply nf_bind; [apply nf_symbol|]. intros [y q] E.
    apply suf_symbol in E as [_ E]; [|discriminate]. apply IH. cbn in *. lia.
Qed.
Lemma nf_library t : nf (parse_symbol_lib t).
Proof.
  unfold parse_symbol_lib, parse_symbol_lines. repeat (apply nf_bind; [apply nf_assume|intros ? _]). apply nf_symbols. lia.
Qed.

(** ** No crash *)
Lemma np_sfield s : sym_line_calm s = true -> hd_error s = Some 70%N -> np (parse_sfield s).
Proof.
  intros C HF. destruct s as [|c s]; [discriminate|]. injection HF as ->. unfold sym_line_calm in C. change (N.eqb 70 70) with true in C. cbv iota in C.
  unfold parse_sfield. unfold split_quote_aware in *. apply np_bind; [apply np_int|]. intros v E. rewrite E in C.
  destruct (negb (Nat.eqb (length v) 9) && negb (Nat.eqb (length v) 10)) eqn:N; [apply np_err|].
  assert (L : (9 <= length v)%nat /\ (Nat.eqb (length v) 10 = true -> (10 <= length v)%nat)).
  { apply andb_false_iff in N. rewrite !negb_false_iff, !Nat.eqb_eq in N. rewrite Nat.eqb_eq. lia. }
  destruct L as [L L10]. destruct (Nat.ltb_spec (length v) 9) as [B|B]; [lia|]. clear B. cbn [orb] in C.
  rewrite !andb_true_iff, !Nat.leb_le in C. destruct C as ((H5 & H7) & H8).
  assert (X : forall i w, idx v i = Ok w -> w = nth i v []).
  { intros k w. unfold idx. destruct (nth_error v k) eqn:M; [|discriminate]. intros [= <-]. symmetry. now apply nth_error_nth. }
  unfold i64_from_string, f64_from_string, orientation_new, bool_from_string, bool_from, sjustify_new.
  apply np_bind; [nps|]. intros w0 _. apply np_bind; [nps|]. intros i _.
  apply np_bind; [destruct (Nat.eqb (length v) 10); [apply np_idx; specialize (L10 eq_refl); lia|nps]|]. intros nm _.
  do 7 (apply np_bind; [nps|intros ? _]).
  apply np_bind; [nps|]. intros w5 E5. apply X in E5. rewrite <- E5 in H5.
  apply np_bind; [apply np_idx; lia|]. intros c5 _. do 3 (apply np_bind; [nps|intros ? _]).
  apply np_bind; [nps|]. intros w7 E7. apply X in E7. rewrite <- E7 in H7.
  apply np_bind; [apply np_idx; lia|]. intros c7 _. apply np_bind; [nps|intros ? _].
  apply np_bind; [nps|]. intros w8 E8. apply X in E8. rewrite <- E8 in H8.
  apply np_bind; [apply np_idx; lia|]. intros c8 _. apply np_bind; [nps|intros ? _].
  apply np_bind; [apply np_idx; lia|]. intros d1 _. apply np_bind; [nps|intros ? _].
  apply np_bind; [apply np_idx; lia|]. intros d2 _. nps.
Qed.
Lemma np_pin s : np (parse_pin s).
Proof.
  unfold parse_pin. apply np_bind; [apply np_int|]. intros v _.
  destruct (negb (Nat.eqb (length v) 12) && negb (Nat.eqb (length v) 13)) eqn:N; [apply np_err|].
  assert (L : (12 <= length v)%nat /\ (Nat.eqb (length v) 13 = true -> (13 <= length v)%nat)).
  { apply andb_false_iff in N. rewrite !negb_false_iff, !Nat.eqb_eq in N. rewrite Nat.eqb_eq. lia. }
  destruct L as [L L13]. unfold i64_from_string, pin_orientation_make, pin_type_make, pin_shape_make.
  do 20 (apply np_bind; [nps|intros ? _]). destruct (Nat.eqb (length v) 13); [specialize (L13 eq_refl)|]; nps.
Qed.
Lemma np_rect s : np (parse_rect s).
Proof.
  unfold parse_rect. apply np_bind; [apply np_int|]. intros v _.
  destruct (Nat.eqb (length v) 9) eqn:N; [|apply np_err]. apply Nat.eqb_eq in N. cbn [negb]. unfold i64_from_string, fill_make. nps.
Qed.
Lemma np_draws p : forall acc, np (draw_loop p acc).
Proof.
  induction p as [|s p IH]; intros acc; cbn [draw_loop]; [discriminate|]. destruct (seq _ _); [discriminate|].
  apply np_bind; [|intros d _; apply IH]. unfold draw_line. repeat (first [apply np_pin|apply np_rect|np_step]).
Qed.
Definition ends_lib (p : list str) : Prop := last p [] = lit "#End Library".
Lemma ends_suf p q : suf p q -> q <> [] -> ends_lib p -> ends_lib q.
Proof.
  intros (a & ->) N. unfold ends_lib. induction a as [|x a IH]; [auto|]. cbn [app last]. destruct (a ++ q) eqn:E; [|auto].
  apply app_eq_nil in E as [_ ->]. now destruct N.
Qed.
Lemma ends_tl s p : ends_lib (s :: p) -> s <> lit "#End Library" -> p <> [] /\ ends_lib p.
Proof. intros H N. destruct p as [|x p]; [now destruct N|]. split; [discriminate|exact H]. Qed.
(** Behind the fields: the text has not ended, and the next line is no field. *)
Lemma np_sfields p : forall acc, forallb sym_line_calm p = true -> p <> [] -> ends_lib p -> np (sfields_loop p acc).
Proof.
  induction p as [|s p IH]; intros acc C N E; [now destruct N|]. cbn [sfields_loop]. cbn [forallb] in C. apply andb_prop in C as [C1 C2].
  destruct s as [|c s]; [discriminate|]. cbn [char_at idx nth_error bind].
  destruct (N.eqb c 70) eqn:F; [|discriminate]. apply N.eqb_eq in F. subst c. apply np_bind; [now apply np_sfield|]. intros f _.
  destruct (ends_tl _ _ E) as [A B]; [discriminate|]. now apply IH.
Qed.
Lemma sfields_left p : forall acc fs q, sfields_loop p acc = Ok (fs, q) -> q <> [].
Proof.
  induction p as [|s p IH]; intros acc fs q H; [discriminate|]. cbn [sfields_loop] in H.
  destruct (char_at s 0) as [c| |]; cbn [bind] in H; try discriminate. destruct (N.eqb c 70).
  - destruct (parse_sfield s); cbn [bind] in H; try discriminate. eapply IH, H.
  - injection H as <- <-. discriminate.
Qed.
Lemma fplist_left p : existsb (fun x => str_eqb x (lit "$ENDFPLIST")) p = true -> ends_lib p -> skip_fplist p <> [].
Proof.
  induction p as [|s p IH]; intros H E; [discriminate|]. cbn [skip_fplist existsb] in *.
  unfold seq. destruct (str_eqb s (lit "$ENDFPLIST")) eqn:Q.
  - apply str_eqb_eq in Q. subst s. now apply (ends_tl _ _ E).
  - cbn [orb] in H. destruct p as [|x p]; [discriminate|]. apply IH; [assumption|exact E].
Qed.
Lemma suf_fplists p q : suf p q -> fplists_closed p = true -> fplists_closed q = true.
Proof. intros (a & ->). induction a as [|s a IH]; [auto|]. cbn. intros H. apply andb_prop in H as [_ H]. auto. Qed.
Lemma np_assume p e : np (assume_line p e). Proof. unfold assume_line. nps. Qed.
Lemma np_symbol p : p <> [] -> hd [] p <> lit "#End Library" -> forallb sym_line_calm p = true -> fplists_closed p = true -> ends_lib p ->
  np (parse_symbol p).
Proof.
  intros N Nh C F E. destruct p as [|h p]; [now destruct N|]. cbn [hd] in Nh. destruct (ends_tl _ _ E Nh) as [N1 E1].
  cbn [forallb] in C. apply andb_prop in C as [_ C1].
  unfold parse_symbol. cbn [next tl]. apply np_bind; [apply np_assume|]. intros p2 A. apply suf_assume in A as (s & Es & ->). subst p.
  destruct (ends_tl _ _ E1) as [N2 E2]; [discriminate|]. cbn [forallb] in C1. apply andb_prop in C1 as [_ C2].
  destruct p2 as [|d p3]; [now destruct N2|]. cbn [here bind]. apply np_bind; [apply np_int|]. intros v Ev.
  destruct (Nat.eqb (length v) 10) eqn:L; [|apply np_err]. apply Nat.eqb_eq in L. cbn [negb].
  assert (Nd : d <> lit "#End Library").
  { intros ->. vm_compute in Ev. injection Ev as <-. discriminate L. }
  destruct (ends_tl _ _ E2 Nd) as [N3 E3]. cbn [forallb] in C2. apply andb_prop in C2 as [_ C3].
  unfold assume_string, f64_from_string, i64_from_string, bool_from_string. do 16 (apply np_bind; [nps|intros ? _]).
  cbn [next tl]. apply np_bind; [now apply np_sfields|]. intros [fs q] Q. assert (Nq := sfields_left _ _ _ _ Q). apply suf_sfields in Q.
  assert (Eq := ends_suf _ _ Q Nq E3).
  assert (Fq : fplists_closed q = true).
  { eapply suf_fplists; [|exact F]. apply suf_cons, suf_cons, suf_cons, Q. }
  destruct q as [|s q]; [now destruct Nq|]. cbn [here bind next tl].
  apply np_bind.
  - unfold parse_aliases. apply np_bind.
    + destruct (seq s "$FPLIST") eqn:FP; [|discriminate]. cbn [fplists_closed] in Fq. unfold seq in FP. rewrite FP in Fq. cbn [negb orb] in Fq.
      apply andb_prop in Fq as [X _]. assert (s <> lit "#End Library") by (apply str_eqb_eq in FP; subst s; discriminate).
      destruct (ends_tl _ _ Eq H) as [_ E4]. pose proof (fplist_left q X E4) as Z. destruct (skip_fplist q); [now destruct Z|discriminate].
    + intros h2 _. nps.
  - intros [al p5] _. repeat (first [apply np_assume|apply np_draws|np_step]).
Qed.
Lemma np_symbols n : forall p acc, forallb sym_line_calm p = true -> fplists_closed p = true -> (p = [] \/ ends_lib p) -> np (symbols_loop n p acc).
Proof.
  induction n as [|n IH]; intros p acc C F E; (destruct p as [|s p]; cbn [symbols_loop]; [discriminate|]); destruct (seq s "#End Library") eqn:Q; try discriminate.
  destruct E as [E|E]; [discriminate|].
  assert (N : s <> lit "#End Library"). { intros ->. discriminate Q. }
  apply np_bind; [now apply np_symbol|]. intros [y q] S. apply suf_symbol in S as [S _]; [|discriminate]. cbn [tl] in S.
  destruct (ends_tl _ _ E N) as [_ E1]. assert (S2 : suf (s :: p) q) by now apply suf_cons.
  apply IH; [eapply suf_forallb; eassumption|eapply suf_fplists; eassumption|].
  destruct q as [|x q]; [now left|right]. eapply ends_suf; [exact S|discriminate|exact E1].
Qed.
Lemma np_library t : sym_calm t = true -> np (parse_symbol_lib t).
Proof.
  unfold sym_calm, parse_symbol_lib. generalize (lines t). intros l H. apply andb_prop in H as [H F]. apply andb_prop in H as [E C].
  apply str_eqb_eq in E. unfold parse_symbol_lines.
  apply np_bind; [apply np_assume|]. intros p1 A1. apply suf_assume in A1 as (s1 & -> & ->).
  apply np_bind; [apply np_assume|]. intros p2 A2. apply suf_assume in A2 as (s2 & -> & ->).
  apply np_bind; [apply np_assume|]. intros p3 A3. apply suf_assume in A3 as (s3 & -> & ->).
  assert (S : suf (lit "EESchema-LIBRARY Version 2.3" :: lit "#encoding utf-8" :: lit "#" :: p3) p3) by apply suf_cons, suf_cons, suf_cons, suf_refl.
  apply np_symbols; [eapply suf_forallb; eassumption|eapply suf_fplists; eassumption|].
  destruct p3 as [|x p3]; [now left|right]. eapply ends_suf; [exact S|discriminate|exact E].
Qed.

(** ** Operations *)
Lemma find_spec f l : match lib_find f l with
  | Some s => exists a b, l = a ++ s :: b /\ f s = true /\ forallb (fun x => negb (f x)) a = true
  | None => forallb (fun x => negb (f x)) l = true
  end.
Proof.
  induction l as [|s l IH]; [reflexivity|]. cbn [lib_find]. destruct (f s) eqn:E.
  - exists [], l. auto.
  - destruct (lib_find f l) as [x|].
    + destruct IH as (a & b & -> & H1 & H2). exists (s :: a), b. cbn [forallb]. rewrite E. auto.
    + cbn [forallb]. now rewrite E.
Qed.
Lemma pins_picks s : picks (fun d p => d = DPin p) (fun d => forall p, d <> DPin p) (sy_draw s) (pins s).
Proof.
  unfold pins. induction (sy_draw s) as [|d l IH]; [constructor|]. destruct d; cbn [flat_map app]; constructor; auto; discriminate.
Qed.
Lemma set_name_spec name s s' : set_name name s = Ok s' -> renamed name s s'.
Proof.
  unfold set_name. destruct (sy_name s) as [|c n] eqn:En; [discriminate|]. cbn [char_at idx nth_error bind].
  destruct (sy_fields s) as [|f0 [|f1 fs]] eqn:Ef; try discriminate. intros [= <-]. unfold renamed. rewrite En, Ef.
  destruct s. cbn in *. split.
  { destruct (N.eqb_spec c 126) as [->|Nc]; [right; split; reflexivity|left]. split; [reflexivity|]. congruence. }
  split; [exists f1, (sf_set_value name f1); split; [reflexivity|]; split; [reflexivity|]; destruct f1; cbn; now repeat split|].
  split; [reflexivity|]. split; [|now repeat split].
  intros k Hk. destruct k as [|[|k]]; [reflexivity|now destruct Hk|reflexivity].
Qed.
Lemma list_by_nth {A} (l m : list A) : length l = length m -> (forall k, nth_error l k = nth_error m k) -> l = m.
Proof.
  revert m. induction l as [|a l IH]; intros [|b m] L H; try discriminate; [reflexivity|]. f_equal; [pose proof (H 0%nat) as E; now injection E|].
  apply IH; [now injection L|]. intros k. exact (H (S k)).
Qed.
Lemma set_name_iff name s s' : set_name name s = Ok s' <-> sy_name s <> [] /\ renamed name s s'.
Proof.
  split.
  - intros E. split; [|now apply set_name_spec]. intros N. unfold set_name in E. rewrite N in E. discriminate.
  - intros [N (Hn & (f & g & F & G & V & X) & L & K & R)]. unfold set_name. destruct (sy_name s) as [|c n] eqn:En; [contradiction|]. cbn [char_at idx nth_error bind].
    destruct (sy_fields s) as [|f0 [|f1 fs]] eqn:Ef; try discriminate F. cbn [nth_error] in F. injection F as F. subst f1.
    assert (Fs : sy_fields s' = f0 :: g :: fs).
    { apply list_by_nth; [exact L|]. intros k. destruct (Nat.eq_dec k 1) as [->|Hk]; [exact G|]. rewrite (K k Hk). destruct k as [|[|k]]; [reflexivity|now destruct Hk|reflexivity]. }
    assert (Eg : g = sf_set_value name f).
    { destruct g, f. cbn in *. destruct X as (-> & -> & -> & -> & -> & -> & -> & -> & -> & -> & ->). now rewrite V. }
    assert (Nm : (if N.eqb c 126 then lit "~" ++ name else name) = sy_name s').
    { cbn [hd_error] in Hn. destruct (N.eqb_spec c 126) as [->|Nc]; destruct Hn as [[-> Hn]|[-> Hn]]; try reflexivity; [now contradiction Hn|]. injection Hn as Hn. contradiction. }
    rewrite Nm, <- Eg. f_equal. destruct s, s'. unfold sy_set. cbn in *. destruct R as (-> & -> & -> & -> & -> & -> & -> & -> & ->). now rewrite Fs.
Qed.
Lemma set_name_panic name s : set_name name s = Panic <-> sy_name s = [] \/ (length (sy_fields s) < 2)%nat.
Proof.
  unfold set_name. destruct (sy_name s) as [|c n]; cbn [char_at idx nth_error bind].
  - split; [now left|reflexivity].
  - destruct (sy_fields s) as [|f0 [|f1 fs]]; cbn [length].
    + split; [intros _; right; lia|reflexivity].
    + split; [intros _; right; lia|reflexivity].
    + split; [discriminate|]. intros [H|H]; [discriminate H|lia].
Qed.
Lemma set_name_no_err name s e : set_name name s <> Err e.
Proof. unfold set_name. destruct (sy_name s) as [|c n]; cbn [char_at idx nth_error bind]; [discriminate|]. destruct (sy_fields s) as [|f0 [|f1 fs]]; discriminate. Qed.
Lemma set_name_total name s : sy_name s <> [] -> (2 <= length (sy_fields s))%nat -> exists s', set_name name s = Ok s'.
Proof.
  intros H L. unfold set_name. destruct (sy_name s) as [|c n]; [now destruct H|]. cbn [char_at idx nth_error bind].
  destruct (sy_fields s) as [|f0 [|f1 fs]]; cbn in L; try lia. eexists. reflexivity.
Qed.

Lemma basic_spec s : sym_is_basic s = true <-> In (sy_name s) [lit "L"; lit "R"; lit "C"; lit "D"].
Proof.
  unfold sym_is_basic, SchParse.seq. rewrite !Bool.orb_true_iff, !str_eqb_eq. cbn [In]. split.
  - intros [[[->| ->]| ->]| ->]; auto.
  - intros [<-|[<-|[<-|[<-|[]]]]]; auto.
Qed.
