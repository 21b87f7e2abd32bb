(** Saving a symbol library twice settles it (lemmas for C63). *)
From Coq Require Import String Lia.
From Verif Require Import Base Str StrFacts Num NumFacts F64 F64Text F64Facts LibFns LibSpec LibFacts SchData SchPrint SchParse SchWf SchLine SchFacts SchEnds SchReread
  SymData SymPrint SymParse SymWf SymFacts SymReread SettleSch.
Open Scope string_scope. Open Scope list_scope.

(** ** What is known of every library that was read *)
Definition sfield_pre (f : sfield) : bool :=
  i64_ok (sf_i f) && i64_ok (sf_dim f) && quotable (sf_value f) && quotable (sf_name f).
Definition draw_pre (d : draw) : bool :=
  match d with
  | DPin p => quotable (pn_name p) && quotable (pn_number p)
  | DRect _ => true
  | DOther s => no_nl s && negb (starts_with (lit "X ") s) && negb (starts_with (lit "S ") s) && negb (str_eqb s (lit "ENDDRAW"))
  end.
Definition symbol_pre (s : symbol) : bool :=
  quotable (sy_name s) && quotable (sy_reference s) && forallb sfield_pre (sy_fields s) && forallb quotable (sy_aliases s)
  && forallb draw_pre (sy_draw s).

Lemma sfield_pre_read s f : no_nl s = true -> parse_sfield s = Ok f -> sfield_pre f = true.
Proof.
  intros Hs H. unfold parse_sfield in H. binv. pose proof (words_quotable _ _ Hs Heqr) as Q.
  destruct (negb _ && negb _); [discriminate|]. binv. injection H as <-. unfold sfield_pre.
  cbn [sf_i sf_value sf_dim sf_name] in *.
  repeat match goal with H : i64_from_string _ = Ok ?z |- _ => apply i64_from_ok in H; try rewrite H end.
  rewrite (idx_quotable _ _ _ Q Heqr3). cbn [andb].
  destruct (Nat.eqb (length v) 10).
  - exact (idx_quotable _ _ _ Q Heqr2).
  - unfold of_option in Heqr2. destruct (default_field_name v1) eqn:E; [|discriminate]. injection Heqr2 as ->.
    now rewrite (default_name_quotable _ _ E).
Qed.
Lemma sfields_pre_read p : forall acc fs q, nls p -> forallb sfield_pre acc = true -> sfields_loop p acc = Ok (fs, q) ->
  nls q /\ forallb sfield_pre fs = true.
Proof.
  induction p as [|s p IH]; intros acc fs q Hn Ha H; [discriminate|]. cbn [sfields_loop] in H. binv.
  destruct (N.eqb v 70).
  - binv. inversion Hn; subst. apply IH in H; [exact H|assumption|]. rewrite forallb_app, Ha. cbn [forallb].
    rewrite (sfield_pre_read s v0) by assumption. reflexivity.
  - injection H as <- <-. now split.
Qed.
Lemma draw_pre_read s d : no_nl s = true -> seq s "ENDDRAW" = false -> draw_line s = Ok d -> draw_pre d = true.
Proof.
  intros Hs He H. unfold draw_line in H. destruct (starts_with (lit "X ") s) eqn:EX.
  - binv. injection H as <-. cbn [draw_pre]. unfold parse_pin in Heqr. binv. pose proof (words_quotable _ _ Hs Heqr0) as Q.
    destruct (negb _ && negb _); [discriminate|]. binv.
    assert (E : pn_name v = v1 /\ pn_number v = v2) by (destruct (Nat.eqb (length v0) 13); binv; injection Heqr as <-; split; reflexivity).
    destruct E as [-> ->]. now rewrite (idx_quotable _ _ _ Q Heqr1), (idx_quotable _ _ _ Q Heqr2).
  - destruct (starts_with (lit "S ") s) eqn:ES.
    + binv. injection H as <-. reflexivity.
    + injection H as <-. cbn [draw_pre]. unfold seq in He. now rewrite Hs, EX, ES, He.
Qed.
Lemma draws_pre_read p : forall acc ds q, nls p -> forallb draw_pre acc = true -> draw_loop p acc = Ok (ds, q) ->
  nls q /\ forallb draw_pre ds = true.
Proof.
  induction p as [|s p IH]; intros acc fs q Hn Ha H; cbn [draw_loop] in H.
  - injection H as <- <-. split; [constructor|assumption].
  - inversion Hn; subst. destruct (seq s "ENDDRAW") eqn:E; [injection H as <- <-; now split|].
    binv. apply IH in H; [exact H|assumption|]. rewrite forallb_app, Ha. cbn [forallb]. rewrite (draw_pre_read s v) by assumption. reflexivity.
Qed.
Lemma symbol_pre_read p s q : nls p -> parse_symbol p = Ok (s, q) -> nls q /\ symbol_pre s = true.
Proof.
  intros Hn H. unfold parse_symbol in H. binv.
  pose proof (nls_assume _ _ _ (nls_tl _ Hn) Heqr) as N0. pose proof (words_quotable _ _ (nls_here _ _ N0 Heqr0) Heqr1) as Q.
  destruct (negb _); [discriminate|]. binv. destruct v18 as [fs p1]. apply sfields_pre_read in Heqr18 as (N1 & B); [|now apply nls_tl|reflexivity].
  destruct (here p1) as [hs| |] eqn:EH; cbn [bind] in H; [|discriminate H|discriminate H].
  assert (N2 : nls (if seq hs "$FPLIST" then skip_fplist (next p1) else p1))
    by (destruct (seq hs _); [apply nls_fplist, nls_tl|]; assumption).
  destruct (parse_aliases _) as [[al p2]| |] eqn:EA; cbn [bind] in H; [|discriminate H|discriminate H].
  apply aliases_read in EA as (N3 & F); [|assumption].
  destruct (assume_line p2 _) as [p2'| |] eqn:EB; cbn [bind] in H; [|discriminate H|discriminate H]. pose proof (nls_assume _ _ _ N3 EB) as N4.
  destruct (draw_loop _ _) as [[ds p3]| |] eqn:ED; cbn [bind] in H; [|discriminate H|discriminate H].
  apply draws_pre_read in ED as (N5 & D); [|assumption|reflexivity].
  destruct (assume_line p3 _) as [p4| |] eqn:EE; cbn [bind] in H; [|discriminate H|discriminate H]. pose proof (nls_assume _ _ _ N5 EE) as N6.
  destruct (assume_line p4 _) as [p5| |] eqn:EF; cbn [bind] in H; [|discriminate H|discriminate H]. pose proof (nls_assume _ _ _ N6 EF) as N7.
  injection H as <- <-. split; [assumption|]. unfold symbol_pre. cbn [sy_name sy_reference sy_fields sy_aliases sy_draw].
  rewrite (idx_quotable _ _ _ Q Heqr4), (idx_quotable _ _ _ Q Heqr5), B, D. cbn [andb]. rewrite andb_true_r.
  rewrite forallb_forall. rewrite Forall_forall in F. exact F.
Qed.
Lemma symbols_pre_read n : forall p acc l, nls p -> forallb symbol_pre acc = true -> symbols_loop n p acc = Ok l -> forallb symbol_pre l = true.
Proof.
  induction n as [|n IH]; intros p acc l Hn Ha H.
  - destruct p as [|s p]; cbn [symbols_loop] in H; [|destruct (seq _ _); [|discriminate]]; now injection H as <-.
  - destruct p as [|s p]; cbn [symbols_loop] in H; [now injection H as <-|].
    destruct (seq _ _); [now injection H as <-|].
    binv. destruct v as [y q]. apply symbol_pre_read in Heqr as (N & S); [|assumption].
    apply IH in H; [exact H|assumption|]. rewrite forallb_app, Ha. cbn [forallb]. now rewrite S.
Qed.
Lemma library_pre t l : parse_symbol_lib t = Ok l -> forallb symbol_pre l = true.
Proof.
  intros H. unfold parse_symbol_lib, parse_symbol_lines in H. binv.
  pose proof (nls_assume _ _ _ (lines_nl t) Heqr) as N1. pose proof (nls_assume _ _ _ N1 Heqr0) as N2. pose proof (nls_assume _ _ _ N2 Heqr1) as N3.
  exact (symbols_pre_read _ _ [] l N3 eq_refl H).
Qed.

(** ** Fields *)
Definition norm_sfield (f : sfield) : sfield :=
  mk_sfield (sf_i f) (sf_value f) (sf_x f) (sf_y f) (sf_dim f) (sf_orient f) (sf_visible f) (sf_hjust f) (sf_vjust f) (sf_italic f) (sf_bold f)
    (if (3 <? sf_i f)%Z then sf_name f else field_name (sf_i f)).
Lemma norm_sprint f : print_sfield (norm_sfield f) = print_sfield f.
Proof. unfold print_sfield, norm_sfield. cbn [sf_i sf_value sf_orient sf_x sf_y sf_dim sf_visible sf_hjust sf_vjust sf_italic sf_bold sf_name]. destruct (3 <? sf_i f)%Z; reflexivity. Qed.
Lemma sfield_flags f g : sfield_pre f = true -> parse_sfield (print_sfield f) = Ok g -> (0 <=? sf_i f)%Z = true /\ sf_bold f = false.
Proof.
  intros Hp H. unfold sfield_pre in Hp. bsplit. unfold parse_sfield in H. rewrite sfield_split in H by assumption. cbn [bind] in H.
  destruct f as [i va x y sz o vi hj vj it bo nm]. unfold field_flags in H.
  cbn [sf_i sf_value sf_orient sf_x sf_y sf_dim sf_visible sf_hjust sf_vjust sf_italic sf_bold sf_name] in *.
  destruct (orientation_rt o) as (co & Eo & Ro). destruct (sjustify_rt hj) as (ch & Eh & Rh). destruct (sjustify_rt vj) as (cv & Ev & Rv).
  rewrite Eo, Eh, Ev in H. destruct (3 <? i)%Z eqn:E3; cbn [app length Nat.eqb negb andb idx nth_error bind of_option tl] in H.
  - rewrite i64_show in H by assumption. cbn [bind] in H. rewrite !f64_show in H. cbn [bind] in H. rewrite i64_show in H by assumption.
    cbn [bind char_at idx nth_error of_option] in H. rewrite Ro in H. cbn [bind] in H.
    split; [apply Z.ltb_lt in E3; apply Z.leb_le; clear - E3; lia|].
    destruct bo; [|reflexivity]. destruct vi, it; cbn in H; rewrite Rh in H; cbn [bind] in H; rewrite Rv in H; cbn in H; discriminate.
  - rewrite i64_show in H by assumption. cbn [bind] in H.
    destruct (default_field_name i) as [n|] eqn:En; [|discriminate]. cbn [of_option bind idx nth_error char_at] in H.
    rewrite !f64_show in H. cbn [bind] in H. rewrite i64_show in H by assumption. cbn [bind char_at idx nth_error of_option] in H. rewrite Ro in H. cbn [bind] in H.
    split; [destruct i; [reflexivity|reflexivity|discriminate]|].
    destruct bo; [|reflexivity]. destruct vi, it; cbn in H; rewrite Rh in H; cbn [bind] in H; rewrite Rv in H; cbn in H; discriminate.
Qed.
Lemma norm_sok f g : sfield_pre f = true -> parse_sfield (print_sfield f) = Ok g -> sfield_ok (norm_sfield f) = true.
Proof.
  intros Hp H. destruct (sfield_flags f g Hp H) as [H0 Hb]. clear H.
  unfold sfield_pre, sfield_ok, norm_sfield in *. cbn [sf_i sf_value sf_dim sf_name sf_bold] in *. bsplit. rewrite H0, Hb.
  repeat match goal with H : ?x = true |- context [?x] => rewrite H end.
  destruct (3 <? sf_i f)%Z; cbn [andb orb negb]; [now rewrite !andb_true_r|]. now rewrite field_name_q, str_eqb_refl.
Qed.
Lemma again_sfields fs : forall acc r x, forallb sfield_pre fs = true ->
  match r with s :: _ => exists c t, s = c :: t /\ N.eqb c 70 = false | [] => False end ->
  sfields_loop (map print_sfield fs ++ r) acc = Ok x -> forallb sfield_ok (map norm_sfield fs) = true /\ x = (acc ++ map norm_sfield fs, r).
Proof.
  induction fs as [|f fs IH]; intros acc r x H Hr Hx; cbn [map app] in *.
  - destruct r as [|s r]; [destruct Hr|]. destruct Hr as (c & t & -> & E). cbn [sfields_loop char_at idx nth_error of_option bind] in Hx.
    rewrite E in Hx. injection Hx as <-. now rewrite app_nil_r.
  - cbn [forallb] in H. apply andb_prop in H as [H1 H2]. cbn [sfields_loop] in Hx.
    replace (char_at (print_sfield f) 0) with (Ok 70%N) in Hx by reflexivity. cbn [bind] in Hx.
    change (N.eqb 70 70) with true in Hx. cbv iota in Hx.
    destruct (parse_sfield (print_sfield f)) as [g| |] eqn:E; try discriminate. cbn [bind] in Hx.
    pose proof (norm_sok f g H1 E) as O. pose proof (rt_sfield _ O) as RT. rewrite norm_sprint, E in RT. injection RT as ->.
    destruct (IH _ _ _ H2 Hr Hx) as [A ->]. cbn [forallb]. rewrite O, A. split; [reflexivity|]. now rewrite <- app_assoc.
Qed.

(** ** Drawings *)
Lemma no34_lit b t f : no34 (lit t) = true -> no34 (lit f) = true -> no34 (lit (if b : bool then t else f)) = true.
Proof. now destruct b. Qed.
Ltac n34 := repeat match goal with
  | |- no34 (_ ++ _) = true => apply no34_app
  | |- no34 (lit (if _ then _ else _)) = true => apply no34_lit; reflexivity
  | |- no34 (lit _) = true => reflexivity
  | |- no34 bl = true => reflexivity
  | |- no34 (show_Z _) = true => apply no34_num
  | H : quotable ?s = true |- no34 ?s = true => now apply no34_q
  end.
Lemma no34_f x : no34 (f64_to_str x) = true.
Proof. pose proof (word_f x) as H. unfold word_str in H. apply andb_prop in H as [_ H]. unfold no34. rewrite forallb_forall in *.
  intros c Hc. specialize (H c Hc). apply negb_true_iff, orb_false_elim in H as [H _]. now rewrite H. Qed.
Lemma nl_def s : symbol_pre s = true -> no_nl (def_line s) = true.
Proof.
  intros H. unfold symbol_pre in H. bsplit. unfold def_line. SettleSch.nls; match goal with |- context [if ?b then _ else _] => destruct b end; reflexivity.
Qed.
Lemma nl_sfield f : sfield_pre f = true -> no_nl (print_sfield f) = true.
Proof.
  intros H. unfold sfield_pre in H. bsplit. unfold print_sfield. SettleSch.nls.
  all: repeat match goal with |- context [if ?b then _ else _] => destruct b end; SettleSch.nls.
  all: try (destruct (sf_orient f); reflexivity); try (destruct (sf_hjust f); reflexivity); try (destruct (sf_vjust f); reflexivity).
Qed.
Lemma nl_alias l : forallb quotable l = true -> no_nl (alias_line l) = true.
Proof.
  intros H. unfold alias_line. apply nl_app; [reflexivity|]. induction l as [|a l IH]; [reflexivity|]. cbn [forallb flat_map] in *.
  apply andb_prop in H as [H1 H2]. apply nl_app; [|auto]. apply nl_app; [reflexivity|now apply quotable_nl].
Qed.
Lemma nl_draw d : draw_pre d = true -> no_nl (print_draw d) = true.
Proof.
  destruct d as [p|r|s]; cbn [draw_pre print_draw]; intros H; bsplit; [| |assumption].
  - unfold print_pin. SettleSch.nls.
    all: try (destruct (pn_orient p); reflexivity); try (destruct (pn_type p); reflexivity).
    destruct (pn_visible p), (pn_shape p); reflexivity.
  - unfold print_rect. SettleSch.nls. destruct (rc_fill r); reflexivity.
Qed.
Lemma again_draw d d' : draw_pre d = true -> no13 (print_draw d) = true -> draw_line (print_draw d) = Ok d' ->
  draw_ok d' = true /\ seq (print_draw d) "ENDDRAW" = false.
Proof.
  intros Hp H13 H. pose proof (nl_draw d Hp) as NL. pose proof (lc_of _ NL H13) as LC.
  destruct d as [p|r|s]; cbn [draw_pre print_draw] in *; unfold draw_line in H.
  - split; [|reflexivity]. change (starts_with (lit "X ") (print_pin p)) with true in H. cbv iota in H. binv. injection H as <-. cbn [draw_ok].
    apply (pin_read (print_pin p)); [assumption..|]. cbn [draw_clean].
    assert (Q : no34 (print_pin p) = true).
    { bsplit. unfold print_pin. n34; [destruct (pn_orient p)|destruct (pn_type p)|destruct (pn_visible p), (pn_shape p)]; reflexivity. }
    clear - Heqr Q LC. unfold parse_pin in Heqr. binv. pose proof (split_all_plain lc _ _ Q LC Heqr0) as F.
    assert (W : forall k w, idx v0 k = Ok w -> word_str w = true).
    { intros k w E. unfold idx in E. destruct (nth_error v0 k) eqn:En; [|discriminate]. injection E as ->. apply nth_error_In in En.
      rewrite Forall_forall in F. now apply F. }
    destruct (negb _ && negb _); [discriminate|]. binv.
    assert (E : pn_name v = v1 /\ pn_number v = v2) by (destruct (Nat.eqb (length v0) 13); binv; injection Heqr as <-; split; reflexivity).
    destruct E as [-> ->]. now rewrite (W 1%nat v1), (W 2%nat v2).
  - split; [|reflexivity]. change (starts_with (lit "X ") (print_rect r)) with false in H. change (starts_with (lit "S ") (print_rect r)) with true in H. cbv iota in H.
    destruct (parse_rect (print_rect r)) as [r2| |] eqn:ER; try discriminate. cbn [bind] in H. injection H as <-. exact (rect_read _ _ ER).
  - bsplit. repeat match goal with H : negb _ = true |- _ => apply negb_true_iff in H end. unfold seq. split; [|assumption].
    repeat match goal with E : starts_with _ s = false |- _ => rewrite E in H end.
    injection H as <-. cbn [draw_ok]. rewrite (lc_line s LC).
    repeat match goal with E : _ = false |- _ => rewrite E; clear E end. reflexivity.
Qed.
Lemma again_draws ds : forall acc r x, forallb draw_pre ds = true -> forallb no13 (map print_draw ds) = true ->
  draw_loop (map print_draw ds ++ lit "ENDDRAW" :: r) acc = Ok x -> exists ds', forallb draw_ok ds' = true /\ x = (acc ++ ds', r).
Proof.
  induction ds as [|d ds IH]; intros acc r x H H13 Hx; cbn [map app draw_loop] in *.
  - change (seq (lit "ENDDRAW") "ENDDRAW") with true in Hx. cbv iota in Hx. exists []. rewrite app_nil_r. split; [reflexivity|now injection Hx as <-].
  - cbn [forallb] in H, H13. apply andb_prop in H as [H1 H2]. apply andb_prop in H13 as [T1 T2].
    destruct (seq (print_draw d) "ENDDRAW") eqn:S.
    + exfalso. destruct d as [p|rr|s]; try discriminate. cbn [draw_pre print_draw] in *. bsplit. unfold seq in S.
      match goal with Q : negb (str_eqb s _) = true |- _ => rewrite S in Q; discriminate end.
    + destruct (draw_line (print_draw d)) as [d'| |] eqn:E; try discriminate. cbn [bind] in Hx.
      destruct (again_draw d d' H1 T1 E) as [O _]. destruct (IH _ _ _ H2 T2 Hx) as (ds' & O' & ->). exists (d' :: ds').
      cbn [forallb]. rewrite O, O'. split; [reflexivity|]. now rewrite <- app_assoc.
Qed.

(** ** Symbols *)
Lemma word_mid w : word_str w = true /\ Forall lc w -> mid_word w = true.
Proof. intros [A B]. unfold mid_word. rewrite A. now apply line_no_nl, lc_line. Qed.
Lemma again_aliases l v : forallb quotable l = true -> no13 (alias_line l) = true -> split_quote_aware (alias_line l) = Ok v ->
  forallb mid_word (tl v) = true /\ line_ok (last (tl v) []) = true.
Proof.
  intros H H13 Hv. pose proof (lc_of _ (nl_alias l H) H13) as LC.
  assert (Q : no34 (alias_line l) = true).
  { unfold alias_line. apply no34_app; [reflexivity|]. clear - H. induction l as [|a l IH]; [reflexivity|]. cbn [forallb flat_map] in *.
    apply andb_prop in H as [H1 H2]. apply no34_app; [|auto]. apply no34_app; [reflexivity|now apply no34_q]. }
  pose proof (split_all_plain lc _ _ Q LC Hv) as F. assert (G : Forall (fun w => word_str w = true /\ Forall lc w) (tl v)) by (destruct F; [constructor|assumption]).
  split.
  - rewrite forallb_forall. rewrite Forall_forall in G. intros w Hw. apply word_mid. auto.
  - clear - G. induction G as [|w t Hw G IH]; [reflexivity|]. destruct t; [now apply lc_line|exact IH].
Qed.
Lemma again_symbol s h r x : symbol_pre s = true -> (2 <= length (sy_fields s))%nat -> forallb no13 (tail_lines s) = true ->
  parse_symbol (h :: tail_lines s ++ r) = Ok x -> exists s', symbol_ok s' = true /\ x = (s', r).
Proof.
  intros Hp HL H13 H. pose proof (nl_def s Hp) as NLD. unfold symbol_pre in Hp. bsplit.
  unfold tail_lines in H13. rewrite !forallb_app in H13. cbn [forallb] in H13. bsplit.
  unfold parse_symbol, tail_lines in H. cbn [next tl app assume_line] in H.
  change (seq (lit "#") "#") with true in H. cbv iota in H. cbn [bind here] in H.
  assert (LC : Forall lc (def_line s)) by (apply lc_of; assumption).
  assert (Q : no34 (def_line s) = true) by (unfold def_line; n34; apply no34_f).
  destruct (split_quote_aware (def_line s)) as [v| |] eqn:Ev; try discriminate. cbn [bind] in H.
  pose proof (split_all_plain lc _ _ Q LC Ev) as F.
  assert (W : forall k w, idx v k = Ok w -> mid_word w = true).
  { intros k w E. unfold idx in E. destruct (nth_error v k) eqn:En; [|discriminate]. injection E as ->. apply nth_error_In in En.
    rewrite Forall_forall in F. now apply word_mid, F. }
  destruct (negb (Nat.eqb (length v) 10)); [discriminate|].
  destruct (idx v 0) as [w0| |]; try discriminate. cbn [bind] in H. destruct (assume_string _ w0) as [[]| |]; try discriminate. cbn [bind] in H.
  destruct (idx v 1) as [nm| |] eqn:E1; try discriminate. cbn [bind] in H. destruct (idx v 2) as [rf| |] eqn:E2; try discriminate. cbn [bind] in H.
  destruct (idx v 4) as [w4| |]; try discriminate. cbn [bind] in H. destruct (f64_from_string w4) as [off| |]; try discriminate. cbn [bind] in H.
  destruct (idx v 5) as [w5| |]; try discriminate. cbn [bind] in H. destruct (bool_from_string w5 _ _) as [b5| |]; try discriminate. cbn [bind] in H.
  destruct (idx v 6) as [w6| |]; try discriminate. cbn [bind] in H. destruct (bool_from_string w6 _ _) as [b6| |]; try discriminate. cbn [bind] in H.
  destruct (idx v 7) as [w7| |]; try discriminate. cbn [bind] in H. destruct (i64_from_string w7) as [uc| |] eqn:Eu; try discriminate. cbn [bind] in H.
  destruct (idx v 8) as [w8| |]; try discriminate. cbn [bind] in H. destruct (bool_from_string w8 _ _) as [b8| |]; try discriminate. cbn [bind] in H.
  destruct (idx v 9) as [w9| |]; try discriminate. cbn [bind] in H. destruct (bool_from_string w9 _ _) as [b9| |]; try discriminate. cbn [bind] in H.
  rewrite <- !app_assoc in H. cbn [next tl] in H.
  match type of H with (do fp <- sfields_loop (map print_sfield (sy_fields s) ++ ?R) []; _) = _ => set (rest := R) in H end.
  destruct (sfields_loop (map print_sfield (sy_fields s) ++ rest) []) as [y| |] eqn:Es; try discriminate. cbn [bind] in H.
  apply again_sfields in Es as [Fok ->];
    [|assumption|unfold rest; destruct (sy_aliases s); cbn [is_empty app]; eexists _, _; (split; [reflexivity|reflexivity])].
  cbn [app] in H. unfold rest in H. clear rest.
  assert (Fin : forall al p, forallb mid_word al = true -> line_ok (last al []) = true ->
     (do p <- assume_line (lit "DRAW" :: map print_draw (sy_draw s) ++ [lit "ENDDRAW"; lit "ENDDEF"; lit "#"] ++ p) "DRAW";
      do dp <- draw_loop p [];
      let '(dr, p) := dp in
      do p <- assume_line p "ENDDEF";
      do p <- assume_line p "#";
      Ok (mk_symbol nm rf off b5 b6 uc b8 b9 (map norm_sfield (sy_fields s)) al dr, p)) = Ok x ->
     exists s', symbol_ok s' = true /\ x = (s', p)).
  { intros al p A1 A2 K. cbn [assume_line] in K. change (seq (lit "DRAW") "DRAW") with true in K. cbv iota in K. cbn [bind app] in K.
    destruct (draw_loop _ []) as [z| |] eqn:Ed in K; try discriminate. apply again_draws in Ed as (ds' & Dok & ->); [|assumption..].
    cbn [bind app assume_line] in K. change (seq (lit "ENDDEF") "ENDDEF") with true in K. change (seq (lit "#") "#") with true in K. cbv iota in K. cbn [bind assume_line] in K.
    eexists. split; [|now injection K as <-]. unfold symbol_ok. cbn [sy_name sy_reference sy_unit_count sy_fields sy_aliases sy_draw].
    rewrite (W 1%nat nm E1), (W 2%nat rf E2), (i64_from_ok _ _ Eu), Fok, A1, A2, Dok, map_length.
    apply Nat.leb_le in HL. now rewrite HL. }
  destruct (sy_aliases s) as [|a l] eqn:EA; cbn [is_empty app here bind] in H.
  - change (seq (lit "DRAW") "$FPLIST") with false in H. cbv iota in H. unfold parse_aliases in H. cbn [here bind] in H.
    change (starts_with (lit "ALIAS") (lit "DRAW")) with false in H. cbv iota in H. cbn [bind] in H. rewrite <- app_assoc in H. apply (Fin [] r eq_refl eq_refl). exact H.
  - replace (seq (alias_line (a :: l)) "$FPLIST") with false in H by reflexivity. unfold parse_aliases in H. cbn [here bind] in H.
    replace (starts_with (lit "ALIAS") (alias_line (a :: l))) with true in H by reflexivity.
    destruct (split_quote_aware (alias_line (a :: l))) as [al| |] eqn:El; try discriminate. cbn [bind next tl] in H.
    cbn [is_empty forallb] in *. bsplit.
    destruct (again_aliases (a :: l) al) as [A1 A2]; [cbn [forallb]; bandsplit; assumption|assumption|assumption|].
    rewrite <- app_assoc in H. apply (Fin (tl al) r A1 A2). exact H.
Qed.

(** ** Libraries *)
Lemma print_symbol_shape s ls : print_symbol s = Ok ls -> exists f, idx (sy_fields s) 1 = Ok f /\ ls = (lit "# " ++ sf_value f) :: tail_lines s.
Proof. unfold print_symbol. destruct (idx (sy_fields s) 1) as [f| |]; try discriminate. cbn [bind]. intros [= <-]. exists f. split; reflexivity. Qed.
Lemma nl_tail s : symbol_pre s = true -> forallb no_nl (tail_lines s) = true.
Proof.
  intros H. pose proof (nl_def s H) as D. unfold symbol_pre in H. bsplit. unfold tail_lines. rewrite !forallb_app. cbn [forallb]. rewrite D. cbn [andb].
  bandsplit; try reflexivity.
  - rewrite forallb_forall in *. intros x Hx. apply in_map_iff in Hx as (f & <- & Hf). apply nl_sfield. auto.
  - destruct (is_empty (sy_aliases s)); [reflexivity|]. cbn [forallb]. now rewrite nl_alias.
  - rewrite forallb_forall in *. intros x Hx. apply in_map_iff in Hx as (f & <- & Hf). apply nl_draw. auto.
Qed.
Lemma again_symbols l : forall ls n acc x, mapM print_symbol l = Ok ls -> forallb symbol_pre l = true -> forallb (forallb no13) ls = true ->
  symbols_loop n (concat ls ++ [lit "#End Library"]) acc = Ok x -> exists l', forallb symbol_ok l' = true /\ x = acc ++ l'.
Proof.
  induction l as [|s l IH]; intros ls n acc x HM Hp H13 H; cbn [mapM] in HM.
  - injection HM as <-. cbn [concat app] in H. exists []. split; [reflexivity|]. rewrite app_nil_r. destruct n; cbn in H; now injection H as <-.
  - destruct (print_symbol s) as [a| |] eqn:Ea; try discriminate. cbn [bind] in HM. destruct (mapM print_symbol l) as [ls'| |] eqn:El; try discriminate.
    injection HM as <-. apply print_symbol_shape in Ea as (f & Ef & ->). cbn [forallb] in Hp, H13. apply andb_prop in Hp as [P1 P2].
    apply andb_prop in H13 as [T1 T2]. apply andb_prop in T1 as [_ T1].
    cbn [concat app] in H. destruct n as [|n]; cbn [symbols_loop] in H.
    + change (seq (lit "# " ++ sf_value f) "#End Library") with false in H. discriminate.
    + change (seq (lit "# " ++ sf_value f) "#End Library") with false in H. cbv iota in H.
      rewrite <- app_assoc in H.
      destruct (parse_symbol _) as [y| |] eqn:E in H; try discriminate. cbn [bind] in H.
      apply again_symbol in E as (s' & O & ->); [|assumption| |assumption].
      * destruct (IH ls' n (acc ++ [s']) x eq_refl P2 T2 H) as (l' & O' & ->). exists (s' :: l'). cbn [forallb]. rewrite O, O'. split; [reflexivity|now rewrite <- app_assoc].
      * unfold idx in Ef. destruct (sy_fields s) as [|? [|? ?]]; try discriminate. cbn [length]. clear. lia.
Qed.
Lemma nl_symbols l : forall ls, mapM print_symbol l = Ok ls -> forallb symbol_pre l = true -> forallb no_nl (concat ls) = true.
Proof.
  induction l as [|s l IH]; intros ls HM Hp; cbn [mapM] in HM; [injection HM as <-; reflexivity|].
  destruct (print_symbol s) as [a| |] eqn:Ea; try discriminate. cbn [bind] in HM. destruct (mapM print_symbol l) as [ls'| |] eqn:El; try discriminate.
  injection HM as <-. apply print_symbol_shape in Ea as (f & Ef & ->). cbn [forallb] in Hp. apply andb_prop in Hp as [P1 P2].
  cbn [concat]. rewrite forallb_app, (IH ls' eq_refl P2), andb_true_r. cbn [forallb]. rewrite nl_tail by assumption. rewrite andb_true_r.
  apply nl_app; [reflexivity|]. unfold symbol_pre in P1. bsplit. unfold idx in Ef. destruct (nth_error (sy_fields s) 1) eqn:En; [|discriminate].
  injection Ef as ->. apply nth_error_In in En. match goal with Q : forallb sfield_pre _ = true |- _ => rewrite forallb_forall in Q; specialize (Q f En); unfold sfield_pre in Q end.
  bsplit. now apply quotable_nl.
Qed.
Lemma settle_library t l t2 l2 : parse_symbol_lib t = Ok l -> print_symbol_lib l = Ok t2 -> ~ In 13%N t2 -> parse_symbol_lib t2 = Ok l2 ->
  exists t3, print_symbol_lib l2 = Ok t3 /\ parse_symbol_lib t3 = Ok l2.
Proof.
  intros H HP H13 H2. apply library_pre in H. apply rt_library. unfold symbol_lib_ok.
  unfold print_symbol_lib in HP. destruct (mapM print_symbol l) as [ls| |] eqn:EM; try discriminate. cbn [bind] in HP. injection HP as <-.
  assert (T : forallb no13 ([lit "EESchema-LIBRARY Version 2.3"; lit "#encoding utf-8"; lit "#"] ++ concat ls ++ [lit "#End Library"]) = true).
  { apply no13_lines. unfold no13. rewrite forallb_forall. intros c Hc. apply negb_true_iff, N.eqb_neq. intros ->. now apply H13. }
  set (L := [lit "EESchema-LIBRARY Version 2.3"; lit "#encoding utf-8"; lit "#"] ++ concat ls ++ [lit "#End Library"]) in *.
  assert (G : lines (unlines L) = L).
  { rewrite unlines_concat. apply lines_concat.
    assert (NL : forallb no_nl L = true) by (unfold L; rewrite !forallb_app, (nl_symbols l ls EM H); reflexivity).
    rewrite forallb_forall in *. intros x Hx. apply line13; auto. }
  assert (H3 : parse_symbol_lines L = Ok l2) by (rewrite <- G; exact H2). clear H2 G. unfold L in H3.
  unfold parse_symbol_lines in H3. cbn [app assume_line] in H3.
  change (seq (lit "EESchema-LIBRARY Version 2.3") "EESchema-LIBRARY Version 2.3") with true in H3. cbv iota in H3. cbn [bind assume_line] in H3.
  change (seq (lit "#encoding utf-8") "#encoding utf-8") with true in H3. cbv iota in H3. cbn [bind assume_line] in H3.
  change (seq (lit "#") "#") with true in H3. cbv iota in H3. cbn [bind] in H3.
  apply (again_symbols l ls) in H3; [|assumption|assumption|].
  - destruct H3 as (l' & O & ->). exact O.
  - unfold L in T. rewrite !forallb_app in T. apply andb_prop in T as [_ T]. apply andb_prop in T as [T _]. clear - T.
    induction ls as [|a ls IH]; [reflexivity|]. cbn [concat forallb] in *. rewrite forallb_app in T. apply andb_prop in T as [T1 T2]. rewrite T1. auto.
Qed.
