(** Exactly which symbol libraries survive being written and read back (lemmas for C82). *)
From Coq Require Import String Lia.
From Verif Require Import Base Str StrFacts Num NumFacts F64 F64Text F64Facts LibFns LibSpec LibFacts SchData SchPrint SchParse SchWf SchLine SchFacts SchEnds SchReread
  SettleSch SettleText SymData SymPrint SymParse SymWf SymFacts SymReread SettleSym SchExact SavedSpec SavedFacts SavedDocs.
Open Scope string_scope. Open Scope list_scope.

Lemma no34_strip s : no34 s = true -> no34 (strip_cr s) = true.
Proof. unfold no34. rewrite !forallb_forall. intros H c Hc. apply H. now apply strip_cr_incl. Qed.
Lemma plain_words s v k w : no34 s = true -> split_quote_aware s = Ok v -> idx v k = Ok w -> word_str w = true.
Proof.
  intros Q Hv E. pose proof (split_all_plain _ _ _ Q (all_true s) Hv) as F. unfold idx in E. destruct (nth_error v k) eqn:En; [|discriminate].
  injection E as ->. apply nth_error_In in En. rewrite Forall_forall in F. now apply F.
Qed.
Lemma sfield_line f : sfield_pre f = true -> line_ok (print_sfield f) = true.
Proof.
  intros H. unfold sfield_pre in H. bsplit. unfold print_sfield. ends.
  all: repeat match goal with |- context [if ?b then _ else _] => destruct b end; ends.
  all: try (destruct (sf_orient f); reflexivity); try (destruct (sf_hjust f); reflexivity); try (destruct (sf_vjust f); reflexivity).
  all: try reflexivity.
Qed.
Lemma def_line_ok s : symbol_pre s = true -> line_ok (def_line s) = true.
Proof.
  intros H. unfold symbol_pre in H. bsplit. assert (no_nl (sy_name s) = true) by now apply quotable_nl. assert (no_nl (sy_reference s) = true) by now apply quotable_nl.
  unfold def_line. apply line_app'; [reflexivity|]. apply line_app; [assumption|discriminate|]. apply line_app'; [reflexivity|].
  apply line_app; [assumption|discriminate|]. ends; match goal with |- context [if ?b then _ else _] => destruct b end; reflexivity.
Qed.

(** ** Drawings *)
Lemma draw_exact d d' : draw_pre d = true -> seq (strip_cr (print_draw d)) "ENDDRAW" = false -> draw_line (strip_cr (print_draw d)) = Ok d' ->
  d' = d -> draw_ok d = true.
Proof.
  intros Hp He H ->. apply (draw_read (strip_cr (print_draw d))); [apply strip_nl, nl_draw; assumption|assumption..|].
  destruct d as [p|r|s]; [|reflexivity|]; cbn [print_draw draw_clean draw_pre] in *.
  - assert (Q : no34 (strip_cr (print_pin p)) = true).
    { apply no34_strip. bsplit. unfold print_pin. n34; [destruct (pn_orient p)|destruct (pn_type p)|destruct (pn_visible p), (pn_shape p)]; reflexivity. }
    unfold draw_line in H. destruct (starts_with (lit "X ") _); [|destruct (starts_with (lit "S ") _); [destruct (parse_rect _); cbn [bind] in H; discriminate H|discriminate H]].
    destruct (parse_pin _) as [p'| |] eqn:E; try discriminate. cbn [bind] in H. injection H as ->.
    clear - E Q. unfold parse_pin in E. binv. pose proof (fun k w => plain_words _ _ k w Q Heqr) as W.
    destruct (negb _ && negb _); [discriminate|]. binv.
    assert (G : pn_name p = v0 /\ pn_number p = v1) by (destruct (Nat.eqb (length v) 13); binv; injection E as <-; split; reflexivity).
    destruct G as [-> ->]. now rewrite (W 1%nat v0), (W 2%nat v1).
  - unfold draw_line in H. destruct (starts_with (lit "X ") (strip_cr s)); [destruct (parse_pin _); cbn [bind] in H; discriminate H|]. destruct (starts_with (lit "S ") (strip_cr s)); [destruct (parse_rect _); cbn [bind] in H; discriminate H|].
    injection H as H. now apply strip_same.
Qed.
Lemma draws_exact ds : forall acc r x, forallb draw_pre ds = true -> draw_loop (map strip_cr (map print_draw ds) ++ lit "ENDDRAW" :: r) acc = Ok x ->
  exists ds' r', x = (acc ++ ds', r') /\ (ds' = ds -> forallb draw_ok ds = true /\ r' = r).
Proof.
  induction ds as [|d ds IH]; intros acc r x H Hx; cbn [map app draw_loop] in *.
  - change (seq (lit "ENDDRAW") "ENDDRAW") with true in Hx. cbv iota in Hx. exists [], r. rewrite app_nil_r. split; [now injection Hx as <-|]. now intros _.
  - cbn [forallb] in H. apply andb_prop in H as [H1 H2].
    destruct (seq (strip_cr (print_draw d)) "ENDDRAW") eqn:S.
    + injection Hx as <-. eexists [], _. rewrite app_nil_r. split; [reflexivity|discriminate].
    + destruct (draw_line (strip_cr (print_draw d))) as [d'| |] eqn:E; try discriminate. cbn [bind] in Hx.
      destruct (IH _ _ _ H2 Hx) as (ds' & r' & -> & O). exists (d' :: ds'), r'. split; [now rewrite <- app_assoc|].
      intros K. injection K as K1 K2. destruct (O K2) as [O1 O2]. split; [|assumption]. cbn [forallb]. rewrite O1, andb_true_r. exact (draw_exact d d' H1 S E K1).
Qed.

(** ** Aliases *)
Lemma trail_blank s : no34 s = true -> split_quote_aware (s ++ [32%N]) = split_quote_aware s.
Proof.
  intros Hs. unfold split_quote_aware, split_quote_aware_int. rewrite fold_left_app.
  assert (I0 : pl_inv (fun _ => True) None (mk_sp 0 [] false false [])).
  { unfold pl_inv. cbn [sp_i sp_v sp_s sp_inside sp_seen length]. repeat split; constructor. }
  pose proof (pl_fold _ None s _ Hs (all_true s) I0) as J. set (st := fold_left (sp_step None) s _) in *.
  destruct J as (J1 & J2 & J3 & J4 & J5 & _). destruct st as [i v ins seen w]. cbn [sp_i sp_v sp_s sp_inside sp_seen] in *. subst ins seen.
  cbn [fold_left sp_step N.eqb Pos.eqb negb andb sp_s sp_seen sp_v]. destruct w as [|c w]; reflexivity.
Qed.
Lemma alias_app l a : alias_line (l ++ [a]) = alias_line l ++ bl ++ a.
Proof. unfold alias_line. rewrite flat_map_app. cbn [flat_map]. now rewrite app_nil_r, app_assoc. Qed.
Lemma alias_no34 l : forallb quotable l = true -> no34 (alias_line l) = true.
Proof.
  intros H. unfold alias_line. apply no34_app; [reflexivity|]. induction l as [|a l IH]; [reflexivity|]. cbn [forallb flat_map] in *.
  apply andb_prop in H as [H1 H2]. apply no34_app; [|auto]. apply no34_app; [reflexivity|now apply no34_q].
Qed.
Lemma mid_of w : word_str w = true -> quotable w = true -> mid_word w = true.
Proof. intros A B. unfold mid_word. rewrite A. now apply quotable_nl. Qed.
Lemma mids l : forallb word_str l = true -> forallb quotable l = true -> forallb mid_word l = true.
Proof. rewrite !forallb_forall. intros A B w Hw. apply mid_of; auto. Qed.
Lemma alias_exact l v : l <> [] -> forallb quotable l = true -> split_quote_aware (strip_cr (alias_line l)) = Ok v -> tl v = l ->
  forallb mid_word l = true /\ line_ok (last l []) = true.
Proof.
  intros Hl H Hv Ht. pose proof (no34_strip _ (alias_no34 l H)) as Q.
  assert (W : forallb word_str l = true).
  { pose proof (split_all_plain _ _ _ Q (all_true _) Hv) as F. rewrite forallb_forall. intros w Hw. rewrite Forall_forall in F. apply F. rewrite <- Ht in Hw. destruct v; [destruct Hw|now right]. }
  split; [now apply mids|]. destruct l as [|a l _] using rev_ind; [contradiction|]. clear Hl. rewrite last_last.
  rewrite forallb_app in W, H. apply andb_prop in W as [W1 W2]. apply andb_prop in H as [H1 H2]. cbn [forallb] in W2, H2. rewrite andb_true_r in W2, H2.
  apply SchReread.line_ok_split; [now apply quotable_nl|]. destruct (strip_cases a) as [[_ E]|E]; [exact E|]. exfalso.
  rewrite alias_app in Hv. rewrite app_assoc, strip_after in Hv by (unfold no_cr, bl; now rewrite last_last). rewrite <- app_assoc in Hv.
  destruct (strip_cr a) as [|c b] eqn:Es.
  - rewrite app_nil_r in Hv. unfold bl in Hv. rewrite trail_blank in Hv by now apply alias_no34. rewrite alias_split in Hv by now apply mids.
    injection Hv as <-. cbn [tl] in Ht. apply (f_equal (@length str)) in Ht. rewrite app_length in Ht. cbn [length] in Ht. lia.
  - rewrite <- Es in *. rewrite <- alias_app, alias_split in Hv.
    + injection Hv as <-. cbn [tl] in Ht. apply app_inj_tail in Ht as [_ Ht]. now apply (shorter a).
    + rewrite forallb_app. cbn [forallb]. rewrite mids by assumption. rewrite mid_of; [reflexivity|apply word_strip; [assumption|now rewrite Es]|now apply strip_q].
Qed.

(** ** Symbols *)
Lemma norm_sfields fs : map norm_sfield fs = fs -> forall P, forallb P (map norm_sfield fs) = true -> forallb P fs = true.
Proof. intros E P. now rewrite E. Qed.
Lemma symbol_exact s h r x : symbol_pre s = true -> (2 <= length (sy_fields s))%nat ->
  parse_symbol (h :: map strip_cr (tail_lines s) ++ r) = Ok x -> exists s' r', x = (s', r') /\ (s' = s -> symbol_ok s = true /\ r' = r).
Proof.
  intros Hp HL H. pose proof (def_line_ok s Hp) as LD. unfold symbol_pre in Hp. bsplit.
  assert (LF : forallb line_ok (map print_sfield (sy_fields s)) = true) by (eapply (forallb_map_line _ sfield_pre); [exact sfield_line|assumption]).
  unfold parse_symbol, tail_lines in H. rewrite !map_app in H. rewrite (strip_all (map print_sfield _) LF) in H. cbn [map] in H. rewrite (strip_line _ LD) in H.
  change (strip_cr (lit "#")) with (lit "#") in H. change (strip_cr (lit "DRAW")) with (lit "DRAW") in H.
  change (strip_cr (lit "ENDDRAW")) with (lit "ENDDRAW") in H. change (strip_cr (lit "ENDDEF")) with (lit "ENDDEF") in H.
  cbn [next tl app assume_line] in H.
  change (seq (lit "#") "#") with true in H. cbv iota in H. cbn [bind here] in H.
  assert (Q : no34 (def_line s) = true) by (unfold def_line; n34; apply no34_f).
  destruct (split_quote_aware (def_line s)) as [v| |] eqn:Ev; try discriminate. cbn [bind] in H.
  pose proof (fun k w => plain_words _ _ k w Q Ev) as W.
  destruct (negb (Nat.eqb (length v) 10)); [discriminate|].
  destruct (idx v 0) as [w0| |]; try discriminate. cbn [bind] in H. destruct (assume_string _ w0) as [[]| |]; try discriminate. cbn [bind] in H.
  destruct (idx v 1) as [nm| |] eqn:E1; try discriminate. cbn [bind] in H. destruct (idx v 2) as [rf| |] eqn:E2; try discriminate. cbn [bind] in H.
  destruct (idx v 4) as [w4| |]; try discriminate. cbn [bind] in H. destruct (f64_from_string w4) as [off| |]; try discriminate. cbn [bind] in H.
  destruct (idx v 5) as [w5| |]; try discriminate. cbn [bind] in H. destruct (bool_from_string w5 _ _) as [b5| |]; try discriminate. cbn [bind] in H.
  destruct (idx v 6) as [w6| |]; try discriminate. cbn [bind] in H. destruct (bool_from_string w6 _ _) as [b6| |]; try discriminate. cbn [bind] in H.
  destruct (idx v 7) as [w7| |]; try discriminate. cbn [bind] in H. destruct (i64_from_string w7) as [uc| |] eqn:Eu; try discriminate. cbn [bind] in H.
  destruct (idx v 8) as [w8| |]; try discriminate. cbn [bind] in H. destruct (bool_from_string w8 _ _) as [b8| |]; try discriminate. cbn [bind] in H.
  destruct (idx v 9) as [w9| |]; try discriminate. cbn [bind] in H. destruct (bool_from_string w9 _ _) as [b9| |]; try discriminate. cbn [bind] in H.
  rewrite <- !app_assoc in H. cbn [next tl] in H.
  match type of H with (do fp <- sfields_loop (map print_sfield (sy_fields s) ++ ?R) []; _) = _ => set (rest := R) in H end.
  destruct (sfields_loop (map print_sfield (sy_fields s) ++ rest) []) as [y| |] eqn:Es; try discriminate. cbn [bind] in H.
  assert (ST : forall a l, strip_cr (alias_line (a :: l)) = lit "ALIAS" ++ strip_cr (flat_map (fun a => bl ++ a) (a :: l))) by (intros; unfold alias_line; now apply strip_after).
  apply again_sfields in Es as [Fok ->];
    [|assumption|unfold rest; destruct (sy_aliases s) as [|a0 l0]; cbn [is_empty app map]; [|rewrite ST]; eexists _, _; (split; [reflexivity|reflexivity])].
  cbn [app] in H. unfold rest in H. clear rest.
  assert (Fin : forall al p, (al = sy_aliases s -> forallb mid_word al = true /\ line_ok (last al []) = true) ->
     (do p <- assume_line (lit "DRAW" :: map strip_cr (map print_draw (sy_draw s)) ++ [lit "ENDDRAW"; lit "ENDDEF"; lit "#"] ++ p) "DRAW";
      do dp <- draw_loop p [];
      let '(dr, p) := dp in
      do p <- assume_line p "ENDDEF";
      do p <- assume_line p "#";
      Ok (mk_symbol nm rf off b5 b6 uc b8 b9 (map norm_sfield (sy_fields s)) al dr, p)) = Ok x ->
     exists s' r', x = (s', r') /\ (s' = s -> symbol_ok s = true /\ r' = p)).
  { intros al p A K. cbn [assume_line] in K. change (seq (lit "DRAW") "DRAW") with true in K. cbv iota in K. cbn [bind app] in K.
    destruct (draw_loop _ []) as [z| |] eqn:Ed in K; try discriminate. apply draws_exact in Ed as (ds' & r' & -> & D); [|assumption].
    cbn [bind app] in K. destruct (assume_line r' "ENDDEF") as [q1| |] eqn:K1; try discriminate. cbn [bind] in K.
    destruct (assume_line q1 "#") as [q2| |] eqn:K2; try discriminate. cbn [bind] in K.
    eexists _, _. split; [injection K as <-; reflexivity|]. intros E.
    assert (G1 := f_equal sy_name E). assert (G2 := f_equal sy_reference E). assert (G3 := f_equal sy_unit_count E). assert (G4 := f_equal sy_fields E).
    assert (G5 := f_equal sy_aliases E). assert (G6 := f_equal sy_draw E).
    cbn [sy_name sy_reference sy_unit_count sy_fields sy_aliases sy_draw] in G1, G2, G3, G4, G5, G6. clear E K. destruct (D G6) as [D1 D2]. destruct (A G5) as [A1 A2].
    split.
    - assert (M1 : mid_word nm = true) by (apply mid_of; [exact (W 1%nat nm E1)|rewrite G1; assumption]).
      assert (M2 : mid_word rf = true) by (apply mid_of; [exact (W 2%nat rf E2)|rewrite G2; assumption]).
      unfold symbol_ok. rewrite <- G1, <- G2, <- G3, <- G5, D1, A1, A2, (norm_sfields _ G4 _ Fok), (i64_from_ok _ _ Eu).
      rewrite M1, M2. apply Nat.leb_le in HL. now rewrite HL.
    - rewrite D2 in K1. cbn [assume_line] in K1. change (seq (lit "ENDDEF") "ENDDEF") with true in K1. injection K1 as <-.
      cbn [assume_line] in K2. change (seq (lit "#") "#") with true in K2. now injection K2 as <-. }
  destruct (sy_aliases s) as [|a l] eqn:EA; cbn [is_empty app map here bind] in H.
  - change (seq (lit "DRAW") "$FPLIST") with false in H. cbv iota in H. unfold parse_aliases in H. cbn [here bind] in H.
    change (starts_with (lit "ALIAS") (lit "DRAW")) with false in H. cbv iota in H. cbn [bind] in H. rewrite <- ?app_assoc in H.
    apply (Fin [] r); [|exact H]. intros _. split; reflexivity.
  - assert (X1 : seq (strip_cr (alias_line (a :: l))) "$FPLIST" = false) by (rewrite ST; reflexivity).
    assert (X2 : starts_with (lit "ALIAS") (strip_cr (alias_line (a :: l))) = true) by (rewrite ST; reflexivity).
    rewrite X1 in H. unfold parse_aliases in H. cbn [here bind] in H. rewrite X2 in H.
    destruct (split_quote_aware (strip_cr (alias_line (a :: l)))) as [al| |] eqn:El; try discriminate. cbn [bind next tl] in H.
    rewrite <- ?app_assoc in H. apply (Fin (tl al) r); [|exact H]. intros ET. rewrite ET. apply (alias_exact _ al); [discriminate|assumption..].
Qed.

(** ** Libraries *)
Lemma symbols_prefix n : forall p acc x, symbols_loop n p acc = Ok x -> exists new, x = acc ++ new.
Proof.
  induction n as [|n IH]; intros p acc x H; (destruct p as [|s p]; cbn [symbols_loop] in H; [injection H as <-; exists []; now rewrite app_nil_r|]);
    (destruct (seq s "#End Library"); [injection H as <-; exists []; now rewrite app_nil_r|]); [discriminate|].
  destruct (parse_symbol _) as [[y q]| |]; try discriminate. cbn [bind] in H. apply IH in H as (new & ->). exists (y :: new). now rewrite <- app_assoc.
Qed.
Lemma symbols_exact l : forall ls n acc x, mapM print_symbol l = Ok ls -> forallb symbol_pre l = true ->
  symbols_loop n (map strip_cr (concat ls) ++ [lit "#End Library"]) acc = Ok x -> x = acc ++ l -> forallb symbol_ok l = true.
Proof.
  induction l as [|s l IH]; intros ls n acc x HM Hp H Hx; cbn [mapM] in HM; [reflexivity|].
  destruct (print_symbol s) as [a| |] eqn:Ea; try discriminate. cbn [bind] in HM. destruct (mapM print_symbol l) as [ls'| |] eqn:El; try discriminate.
  injection HM as <-. apply print_symbol_shape in Ea as (f & Ef & ->). cbn [forallb] in Hp. apply andb_prop in Hp as [P1 P2].
  cbn [concat app map] in H. destruct (strip_value (sf_value f)) as (v' & E1 & E2). rewrite E1 in H.
  assert (S : seq (lit "#" ++ v') "#End Library" = false).
  { unfold seq. apply str_eqb_neq. intros K. apply E2. now injection K. }
  destruct n as [|n]; cbn [symbols_loop] in H; rewrite S in H; [discriminate|].
  rewrite map_app, <- app_assoc in H. destruct (parse_symbol _) as [[y q]| |] eqn:E in H; try discriminate. cbn [bind] in H.
  apply symbol_exact in E as (s' & r' & E & O); [|assumption|].
  - injection E as -> ->. destruct (symbols_prefix _ _ _ _ H) as (new & En). rewrite Hx in En. rewrite <- app_assoc in En. cbn [app] in En.
    apply app_inv_head in En. injection En as En _. destruct (O (eq_sym En)) as [O1 ->]. cbn [forallb]. rewrite O1. cbn [andb].
    apply (IH ls' n (acc ++ [s']) x eq_refl P2 H). rewrite Hx, <- En, <- app_assoc. reflexivity.
  - unfold idx in Ef. destruct (sy_fields s) as [|? [|? ?]]; try discriminate. cbn [length]. clear. lia.
Qed.
Theorem survive_library l : (exists t, print_symbol_lib l = Ok t /\ parse_symbol_lib t = Ok l) <-> symbol_lib_ok l = true.
Proof.
  split; [|apply rt_library]. intros (t & HP & H2). pose proof (library_pre _ _ H2) as Hp. unfold symbol_lib_ok.
  unfold print_symbol_lib in HP. destruct (mapM print_symbol l) as [ls| |] eqn:EM; try discriminate. cbn [bind] in HP.
  set (L := [lit "EESchema-LIBRARY Version 2.3"; lit "#encoding utf-8"; lit "#"] ++ concat ls ++ [lit "#End Library"]) in HP.
  assert (NL : forallb no_nl L = true) by (unfold L; rewrite !forallb_app, (nl_symbols l ls EM Hp); reflexivity).
  assert (Et : lines t = map strip_cr L) by (injection HP as <-; exact (SymFacts.lines_strip L NL)). clear HP.
  unfold parse_symbol_lib in H2. rewrite Et in H2. unfold L in H2.
  rewrite !map_app in H2. cbn [map] in H2. unfold parse_symbol_lines in H2. cbn [app assume_line] in H2.
  change (strip_cr (lit "EESchema-LIBRARY Version 2.3")) with (lit "EESchema-LIBRARY Version 2.3") in H2. change (strip_cr (lit "#encoding utf-8")) with (lit "#encoding utf-8") in H2.
  change (strip_cr (lit "#")) with (lit "#") in H2. change (strip_cr (lit "#End Library")) with (lit "#End Library") in H2.
  change (seq (lit "EESchema-LIBRARY Version 2.3") "EESchema-LIBRARY Version 2.3") with true in H2. cbv iota in H2. cbn [bind assume_line] in H2.
  change (seq (lit "#encoding utf-8") "#encoding utf-8") with true in H2. cbv iota in H2. cbn [bind assume_line] in H2.
  change (seq (lit "#") "#") with true in H2. cbv iota in H2. cbn [bind] in H2.
  exact (symbols_exact l ls _ _ _ EM Hp H2 eq_refl).
Qed.

(** ** Texts that stay as they are *)
Lemma unlines_len ls : (length ls <= length (unlines ls))%nat.
Proof.
  induction ls as [|l ls IH]; [apply le_n|]. replace (length (unlines (l :: ls))) with (S (length l + length (unlines ls))).
  - cbn [length]. revert IH. generalize (length (unlines ls)). intros n IH. lia.
  - unfold unlines. cbn [flat_map]. unfold ln. rewrite !app_length. cbn [length]. rewrite (Nat.add_comm (length l) 1). reflexivity.
Qed.
Lemma labels_len l : forall i, length (print_labels i l) = length l.
Proof. induction l as [|x l IH]; intros i; [reflexivity|]. cbn [print_labels length]. now rewrite IH. Qed.
Lemma sheets_len ss s : In s ss -> (length (sh_labels s) <= length (flat_map print_sheet ss))%nat.
Proof.
  induction ss as [|x ss IH]; intros H; [destruct H|]. cbn [flat_map]. rewrite app_length. destruct H as [->|H].
  - unfold print_sheet. rewrite !app_length, labels_len. lia.
  - specialize (IH H). lia.
Qed.
Lemma small_few s : (Z.of_nat (length (print_schematic s)) < 2 ^ 31)%Z -> forallb few_labels (sc_sheets s) = true.
Proof.
  intros H. rewrite forallb_forall. intros x Hx. unfold few_labels. apply Z.leb_le. pose proof (sheets_len _ _ Hx) as H1.
  pose proof (unlines_len (sch_lines s)) as H2. unfold print_schematic in H.
  assert (H3 : (length (sch_lines s) >= 3 + length (flat_map print_sheet (sc_sheets s)))%nat).
  { unfold sch_lines. rewrite !app_length. cbn [length]. clear. lia. }
  revert H. generalize (length (unlines (sch_lines s))) H2. intros n H2' H. clear - H H1 H2' H3. lia.
Qed.
Theorem survive_small s : (Z.of_nat (length (print_schematic s)) < 2 ^ 31)%Z ->
  parse_schematic (sc_filename s) (print_schematic s) = Ok s <-> sch_ok s = true.
Proof. intros H. apply survive_schematic, small_few, H. Qed.
Lemma stay_schematic fn t : (Z.of_nat (length t) < 2 ^ 31)%Z ->
  ((exists s, parse_schematic fn t = Ok s /\ print_schematic s = t) <-> exists s, sch_ok s = true /\ sc_filename s = fn /\ print_schematic s = t).
Proof.
  intros HL. split.
  - intros (s & H & E). exists s. destruct (parse_pre _ _ _ H) as [_ F]. split; [|now split]. apply survive_small; rewrite E; [exact HL|now rewrite F].
  - intros (s & O & F & E). exists s. split; [|exact E]. rewrite <- E, <- F. now apply rt_schematic.
Qed.
Lemma stay_library t : (exists l, parse_symbol_lib t = Ok l /\ print_symbol_lib l = Ok t) <-> exists l, symbol_lib_ok l = true /\ print_symbol_lib l = Ok t.
Proof.
  split.
  - intros (l & H & E). exists l. split; [|exact E]. apply survive_library. now exists t.
  - intros (l & O & E). exists l. split; [|exact E]. destruct (rt_library l O) as (t' & E' & H). rewrite E in E'. now injection E' as ->.
Qed.
Lemma word_clean s : end_word s = true -> word_str s = true /\ no_cr s = true.
Proof. unfold end_word, line_ok, no_cr. intros H. bsplit. now split. Qed.
Lemma line_clean s : line_ok s = true -> no_cr s = true.
Proof. unfold line_ok, no_cr. intros H. now apply andb_prop in H as [_ H]. Qed.
Lemma ok_clean s : sch_ok s = true -> sch_clean s = true.
Proof.
  intros H. unfold sch_ok in H. bsplit. unfold sch_clean. repeat match goal with |- _ && _ = true => apply andb_true_intro; split end.
  - rewrite forallb_forall in *. intros v Hv. apply line_clean; auto.
  - now apply line_clean.
  - unfold descr_ok in *. bsplit. assumption.
  - rewrite forallb_forall in *. intros e He.
    match goal with Q : forall x, In x (sc_elements s) -> _ |- _ => specialize (Q e He); rename Q into O end.
    destruct e as [c|w|c|c|t|x]; cbn [selement_ok selement_clean] in *; try reflexivity.
    + unfold component_ok in O. bsplit. unfold component_clean. match goal with Q : end_word _ = true |- _ => apply word_clean in Q as [-> ->] end.
      rewrite (line_clean (co_u c)) by assumption. match goal with Q : word_str _ = true |- _ => rewrite Q end. cbn [andb].
      apply andb_true_intro; split.
      * rewrite forallb_forall in *. intros a Ha. match goal with Q : forall x, In x (co_ar c) -> _ |- _ => specialize (Q a Ha) end. bsplit. now apply line_clean.
      * rewrite forallb_forall in *. intros f Hf. match goal with Q : forall x, In x (co_fields c) -> _ |- _ => specialize (Q f Hf); unfold cfield_ok in Q end. bsplit.
        unfold cfield_clean. repeat match goal with Q : _ = true |- _ => rewrite Q end. reflexivity.
    + unfold stext_ok in O. bsplit. now apply line_clean.
    + unfold other_ok in O. bsplit. now apply line_clean.
  - rewrite forallb_forall in *. intros e He.
    match goal with Q : forall x, In x (sc_sheets s) -> _ |- _ => specialize (Q e He); rename Q into O end.
    unfold sheet_ok in O. bsplit. unfold sheet_clean. match goal with Q : end_word _ = true |- _ => apply word_clean in Q as [-> ->] end. assumption.
Qed.
Theorem survive_read fn t s : parse_schematic fn t = Ok s -> (Z.of_nat (length (print_schematic s)) < 2 ^ 31)%Z ->
  parse_schematic fn (print_schematic s) = Ok s <-> sch_clean s = true.
Proof.
  intros H HL. destruct (parse_pre _ _ _ H) as [Hp <-]. rewrite survive_small by assumption. split; [apply ok_clean|now apply sch_finish].
Qed.

Theorem same_schematic_text fn t : (Z.of_nat (length t) < 2 ^ 31)%Z ->
  ((exists s, parse_schematic fn t = Ok s /\ print_schematic s = t) <-> exists s, sch_ok s = true /\ sc_filename s = fn /\ saved_schematic s t).
Proof.
  intros H. rewrite stay_schematic by exact H. split; intros (s & O & F & E); exists s; (split; [exact O|split; [exact F|now apply saved_schematic_iff]]).
Qed.
Theorem same_library_text t : (exists l, parse_symbol_lib t = Ok l /\ print_symbol_lib l = Ok t) <-> exists l, symbol_lib_ok l = true /\ saved_library l t.
Proof. rewrite stay_library. split; intros (l & O & E); exists l; (split; [exact O|now apply saved_library_iff]). Qed.
