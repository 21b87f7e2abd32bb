(** Round trip of symbol libraries (lemmas for C10). *)
From Coq Require Import String Lia.
From Verif Require Import Base Str StrFacts Num NumFacts F64 F64Text F64Facts LibFns LibSpec LibFacts SchData SchPrint SchParse SchWf SchLine SchFacts SchEnds SymData SymPrint SymParse SymWf.
Open Scope string_scope. Open Scope list_scope.

Lemma mid_word_word s : mid_word s = true -> word_str s = true.
Proof. unfold mid_word. intros H. now bsplit. Qed.
Lemma mid_word_nl s : mid_word s = true -> no_nl s = true.
Proof. unfold mid_word. intros H. now bsplit. Qed.
Lemma word_app a b : word_str a = true -> forallb (fun c => negb (N.eqb c 34 || N.eqb c 32)) b = true -> word_str (a ++ b) = true.
Proof.
  unfold word_str. intros H Hb. bsplit. rewrite forallb_app. destruct a; [discriminate|]. cbn [app is_empty negb andb].
  rewrite Hb, andb_true_r. assumption.
Qed.

(** Words joined by single blanks *)
Lemma split_blank_eq l s : s = one_blank l -> forallb piece_ok l = true -> split_quote_aware s = Ok (map piece_value l).
Proof. intros -> H. now apply split_one_blank. Qed.

Ltac bandsplit := repeat match goal with |- _ && _ = true => apply andb_true_intro; split end.
Ltac words l := 
  transitivity (Ok (map piece_value l)); [apply split_blank_eq; [|cbn [forallb]; rewrite ?andb_true_r; bandsplit]|reflexivity].
Ltac joined := unfold bl, quoted; cbn [one_blank piece_text lit list_ascii_of_string map app]; repeat (progress (rewrite <- ?app_assoc; cbn [app])); reflexivity.

(** ** Fields *)
Definition field_flags (f : sfield) : str :=
  show_sjustify (sf_vjust f) ++ lit (if sf_italic f then "I" else "N") ++ lit (if sf_bold f then "I" else "N").
Lemma sfield_split f : quotable (sf_value f) = true -> quotable (sf_name f) = true ->
  split_quote_aware (print_sfield f)
  = Ok ([70%N :: show_Z (sf_i f); sf_value f; f64_to_str (sf_x f); f64_to_str (sf_y f); show_Z (sf_dim f);
         show_orientation (sf_orient f); lit (if sf_visible f then "V" else "I"); show_sjustify (sf_hjust f); field_flags f]
        ++ (if (3 <? sf_i f)%Z then [sf_name f] else [])).
Proof.
  intros Hq Hn. unfold print_sfield.
  set (l := [Plain (70%N :: show_Z (sf_i f)); Quoted (sf_value f); Plain (f64_to_str (sf_x f)); Plain (f64_to_str (sf_y f));
    Plain (show_Z (sf_dim f)); Plain (show_orientation (sf_orient f)); Plain (lit (if sf_visible f then "V" else "I"));
    Plain (show_sjustify (sf_hjust f)); Plain (field_flags f)]).
  assert (L : forallb piece_ok l = true).
  { unfold l. cbn [forallb]. rewrite andb_true_r. bandsplit.
    - apply word_piece, fword_word.
    - now apply quote_piece.
    - apply word_piece, word_f.
    - apply word_piece, word_f.
    - apply word_piece, word_num.
    - destruct (sf_orient f); reflexivity.
    - destruct (sf_visible f); reflexivity.
    - destruct (sf_hjust f); reflexivity.
    - unfold field_flags. destruct (sf_vjust f), (sf_italic f), (sf_bold f); reflexivity. }
  destruct (3 <? sf_i f)%Z.
  - transitivity (Ok (map piece_value (l ++ [Quoted (sf_name f)]))); [|reflexivity].
    apply split_blank_eq.
    + unfold l, field_flags. joined.
    + rewrite forallb_app, L. cbn [forallb andb]. rewrite andb_true_r. now apply quote_piece.
  - transitivity (Ok (map piece_value l)); [|reflexivity].
    apply split_blank_eq; [|assumption]. unfold l, field_flags. rewrite app_nil_r. joined.
Qed.
Lemma rt_sfield f : sfield_ok f = true -> parse_sfield (print_sfield f) = Ok f.
Proof.
  intros H. unfold sfield_ok in H. bsplit. unfold parse_sfield. rewrite sfield_split by assumption. cbn [bind].
  destruct f as [i va x y sz o vi hj vj it bo nm].
  unfold field_flags.
  cbn [sf_i sf_value sf_orient sf_x sf_y sf_dim sf_visible sf_hjust sf_vjust sf_italic sf_bold sf_name] in *.
  destruct bo; [discriminate|].
  destruct (orientation_rt o) as (co & Eo & Ro). destruct (sjustify_rt hj) as (ch & Eh & Rh). destruct (sjustify_rt vj) as (cv & Ev & Rv).
  rewrite Eo, Eh, Ev. destruct (3 <? i)%Z eqn:E3; cbn [app length Nat.eqb negb andb idx nth_error bind of_option tl].
  - rewrite i64_show by assumption. cbn [bind]. rewrite !f64_show. cbn [bind]. rewrite i64_show by assumption. cbn [bind char_at idx nth_error of_option].
    rewrite Ro. cbn [bind].
    destruct vi, it; cbn; rewrite Rh; cbn [bind]; rewrite Rv; reflexivity.
  - rewrite i64_show by assumption. cbn [bind].
    match goal with H : _ || _ = true |- _ => cbn [orb] in H end.
    rewrite (default_name i nm) by (assumption || now apply Z.leb_le). cbn [of_option bind idx nth_error char_at].
    rewrite !f64_show. cbn [bind]. rewrite i64_show by assumption. cbn [bind char_at idx nth_error of_option]. rewrite Ro. cbn [bind].
    destruct vi, it; cbn; rewrite Rh; cbn [bind]; rewrite Rv; reflexivity.
Qed.
Lemma rt_sfields fs : forall r acc, forallb sfield_ok fs = true ->
  match r with s :: _ => exists c t, s = c :: t /\ N.eqb c 70 = false | [] => False end ->
  sfields_loop (map print_sfield fs ++ r) acc = Ok (acc ++ fs, r).
Proof.
  induction fs as [|f fs IH]; intros r acc H Hr; cbn [map app].
  - destruct r as [|s r]; [destruct Hr|]. destruct Hr as (c & t & -> & E). cbn [sfields_loop char_at idx nth_error of_option bind].
    rewrite E, app_nil_r. reflexivity.
  - cbn [forallb] in H. apply andb_prop in H as [H1 H2]. cbn [sfields_loop].
    replace (char_at (print_sfield f) 0) with (Ok 70%N) by reflexivity. cbn [bind].
    change (N.eqb 70 70) with true. cbv iota. rewrite rt_sfield by assumption. cbn [bind].
    rewrite IH by assumption. now rewrite <- app_assoc.
Qed.

(** ** Pins and rectangles *)
Lemma fill_rt f : fill_make (show_fill f) = Ok f. Proof. destruct f; reflexivity. Qed.
Lemma rt_rect r : rect_ok r = true -> parse_rect (print_rect r) = Ok r.
Proof.
  intros H. unfold rect_ok in H. cbn [forallb] in H. bsplit. unfold parse_rect.
  replace (split_quote_aware (print_rect r)) with (Ok [lit "S"; show_Z (rc_x1 r); show_Z (rc_y1 r); show_Z (rc_x2 r); show_Z (rc_y2 r);
    show_Z (rc_unit r); show_Z (rc_convert r); show_Z (rc_thickness r); show_fill (rc_fill r)]).
  - cbn [bind length Nat.eqb negb idx nth_error of_option]. rewrite !i64_show by assumption. cbn [bind]. rewrite fill_rt. cbn [bind].
    destruct r; reflexivity.
  - symmetry. words [Plain (lit "S"); Plain (show_Z (rc_x1 r)); Plain (show_Z (rc_y1 r)); Plain (show_Z (rc_x2 r)); Plain (show_Z (rc_y2 r));
      Plain (show_Z (rc_unit r)); Plain (show_Z (rc_convert r)); Plain (show_Z (rc_thickness r)); Plain (show_fill (rc_fill r))].
    2-10: try apply word_piece, word_num. 2: reflexivity. 2: destruct (rc_fill r); reflexivity.
    unfold print_rect. joined.
Qed.
Lemma pin_orientation_rt o : pin_orientation_make (show_pin_orientation o) = Ok o. Proof. destruct o; reflexivity. Qed.
Lemma pin_type_rt o : pin_type_make (show_pin_type o) = Ok o. Proof. destruct o; reflexivity. Qed.
Definition pin_mark (p : pin) : option str :=
  if pn_visible p then match pn_shape p with PSLine => None | s => Some (show_pin_shape s) end
  else Some (lit "N" ++ show_pin_shape (pn_shape p)).
Lemma pin_split p : pin_ok p = true ->
  split_quote_aware (print_pin p)
  = Ok ([lit "X"; pn_name p; pn_number p; show_Z (pn_x p); show_Z (pn_y p); show_Z (pn_len p); show_pin_orientation (pn_orient p);
         show_Z (pn_num_size p); show_Z (pn_name_size p); show_Z (pn_unit p); show_Z (pn_convert p); show_pin_type (pn_type p)]
        ++ match pin_mark p with Some m => [m] | None => [] end).
Proof.
  intros H. unfold pin_ok in H. cbn [forallb] in H. bsplit.
  set (l := [Plain (lit "X"); Plain (pn_name p); Plain (pn_number p); Plain (show_Z (pn_x p)); Plain (show_Z (pn_y p));
    Plain (show_Z (pn_len p)); Plain (show_pin_orientation (pn_orient p)); Plain (show_Z (pn_num_size p)); Plain (show_Z (pn_name_size p));
    Plain (show_Z (pn_unit p)); Plain (show_Z (pn_convert p)); Plain (show_pin_type (pn_type p))]).
  assert (L : forallb piece_ok l = true).
  { unfold l. cbn [forallb]. rewrite andb_true_r. bandsplit; try apply word_piece, word_num;
      try (apply word_piece, mid_word_word; assumption); try reflexivity; [destruct (pn_orient p)|destruct (pn_type p)]; reflexivity. }
  transitivity (Ok (map piece_value (l ++ match pin_mark p with Some m => [Plain m] | None => [] end))).
  - apply split_blank_eq.
    + unfold print_pin, pin_mark. destruct (pn_visible p); destruct (pn_shape p); cbn [show_pin_shape]; unfold l; rewrite ?app_nil_r; joined.
    + rewrite forallb_app, L. unfold pin_mark. destruct (pn_visible p); destruct (pn_shape p); reflexivity.
  - rewrite map_app. unfold l. cbn [map piece_value]. destruct (pin_mark p); reflexivity.
Qed.
Lemma rt_pin p : pin_ok p = true -> parse_pin (print_pin p) = Ok p.
Proof.
  intros H. unfold parse_pin. rewrite pin_split by assumption. unfold pin_ok in H. cbn [forallb] in H. bsplit.
  unfold pin_mark. destruct p as [n u x y le o ns ms un co ty vi sh].
  cbn [pn_name pn_number pn_x pn_y pn_len pn_orient pn_num_size pn_name_size pn_unit pn_convert pn_type pn_visible pn_shape] in *.
  destruct vi, sh; cbn [bind app length Nat.eqb negb andb idx nth_error of_option];
    rewrite !i64_show by assumption; cbn [bind]; rewrite pin_orientation_rt; cbn [bind]; rewrite pin_type_rt; reflexivity.
Qed.
Lemma rt_draw d : draw_ok d = true -> draw_line (print_draw d) = Ok d /\ seq (print_draw d) "ENDDRAW" = false.
Proof.
  destruct d as [p|r|s]; cbn [draw_ok print_draw]; intros H; unfold draw_line.
  - change (starts_with (lit "X ") (print_pin p)) with true. cbv iota. rewrite rt_pin by assumption. split; reflexivity.
  - change (starts_with (lit "X ") (print_rect r)) with false. change (starts_with (lit "S ") (print_rect r)) with true. cbv iota.
    rewrite rt_rect by assumption. split; reflexivity.
  - bsplit. repeat match goal with H : negb _ = true |- _ => apply negb_true_iff in H end. unfold seq.
    split; [|assumption].
    repeat match goal with H : starts_with _ _ = false |- _ => rewrite H; clear H end. reflexivity.
Qed.
Lemma rt_draws ds : forall acc r, forallb draw_ok ds = true ->
  draw_loop (map print_draw ds ++ lit "ENDDRAW" :: r) acc = Ok (acc ++ ds, r).
Proof.
  induction ds as [|d ds IH]; intros acc r H; cbn [map app draw_loop].
  - change (seq (lit "ENDDRAW") "ENDDRAW") with true. cbv iota. now rewrite app_nil_r.
  - cbn [forallb] in H. apply andb_prop in H as [H1 H2]. destruct (rt_draw d H1) as [E1 E2]. rewrite E2, E1. cbn [bind].
    rewrite IH by assumption. now rewrite <- app_assoc.
Qed.

(** ** Aliases *)
Definition alias_line (l : list str) : str := lit "ALIAS" ++ flat_map (fun a => bl ++ a) l.
Lemma alias_blank l a : piece_text a ++ flat_map (fun a => bl ++ a) l = one_blank (a :: map Plain l).
Proof.
  revert a. induction l as [|x l IH]; intros a; cbn [flat_map map]; [now rewrite app_nil_r|].
  change (one_blank (a :: Plain x :: map Plain l)) with (piece_text a ++ 32%N :: one_blank (Plain x :: map Plain l)).
  rewrite <- IH. unfold bl. cbn [app piece_text]. reflexivity.
Qed.
Lemma alias_split l : forallb mid_word l = true -> split_quote_aware (alias_line l) = Ok (lit "ALIAS" :: l).
Proof.
  intros H. transitivity (Ok (map piece_value (Plain (lit "ALIAS") :: map Plain l))).
  - apply split_blank_eq; [apply (alias_blank l (Plain (lit "ALIAS")))|]. cbn [forallb]. apply andb_true_intro. split; [reflexivity|].
    rewrite forallb_forall in *. intros x Hx. apply in_map_iff in Hx as (a & <- & Ha). apply word_piece, mid_word_word. auto.
  - cbn [map piece_value]. rewrite map_map. cbn [piece_value]. now rewrite map_id.
Qed.

(** ** Symbols *)
Definition def_line (s : symbol) : str :=
  lit "DEF " ++ sy_name s ++ bl ++ sy_reference s ++ lit " 0 " ++ f64_to_str (sy_text_offset s) ++ bl
   ++ lit (if sy_pinnumber s then "Y" else "N") ++ bl ++ lit (if sy_pinname s then "Y" else "N") ++ bl
   ++ show_Z (sy_unit_count s) ++ bl ++ lit (if sy_unit_locked s then "L" else "F") ++ bl
   ++ lit (if sy_is_power s then "P" else "N").
Lemma def_split s : mid_word (sy_name s) = true -> mid_word (sy_reference s) = true ->
  split_quote_aware (def_line s) = Ok [lit "DEF"; sy_name s; sy_reference s; lit "0"; f64_to_str (sy_text_offset s);
    lit (if sy_pinnumber s then "Y" else "N"); lit (if sy_pinname s then "Y" else "N"); show_Z (sy_unit_count s);
    lit (if sy_unit_locked s then "L" else "F"); lit (if sy_is_power s then "P" else "N")].
Proof.
  intros H1 H2. words [Plain (lit "DEF"); Plain (sy_name s); Plain (sy_reference s); Plain (lit "0"); Plain (f64_to_str (sy_text_offset s));
    Plain (lit (if sy_pinnumber s then "Y" else "N")); Plain (lit (if sy_pinname s then "Y" else "N")); Plain (show_Z (sy_unit_count s));
    Plain (lit (if sy_unit_locked s then "L" else "F")); Plain (lit (if sy_is_power s then "P" else "N"))].
  2-11: try (apply word_piece, word_num); try (apply word_piece, word_f); try (apply word_piece, mid_word_word; assumption); try reflexivity;
    match goal with |- context [if ?b then _ else _] => destruct b end; reflexivity.
  unfold def_line. joined.
Qed.
Definition tail_lines (s : symbol) : list str :=
  [lit "#"; def_line s] ++ map print_sfield (sy_fields s)
  ++ (if is_empty (sy_aliases s) then [] else [alias_line (sy_aliases s)])
  ++ [lit "DRAW"] ++ map print_draw (sy_draw s) ++ [lit "ENDDRAW"; lit "ENDDEF"; lit "#"].
Lemma bool_str (b : bool) t f : str_eqb (lit f) (lit t) = false -> bool_from_string (lit (if b then t else f)) t f = Ok b.
Proof.
  intros H. unfold bool_from_string, seq. destruct b; [now rewrite str_eqb_refl|]. now rewrite H, str_eqb_refl.
Qed.
Lemma rt_symbol s h r : symbol_ok s = true -> parse_symbol (h :: tail_lines s ++ r) = Ok (s, r).
Proof.
  intros H. unfold symbol_ok in H. bsplit. unfold parse_symbol, tail_lines. cbn [next tl app assume_line].
  change (seq (lit "#") "#") with true. cbv iota. cbn [bind here]. rewrite def_split by assumption. cbn [bind length Nat.eqb negb idx nth_error of_option].
  unfold assume_string. change (seq (lit "DEF") "DEF") with true. cbn [bind]. rewrite f64_show. cbn [bind].
  rewrite !bool_str by reflexivity. cbn [bind]. rewrite i64_show by assumption. cbn [bind next tl].
  rewrite <- !app_assoc. rewrite rt_sfields; [|assumption|].
  - cbn [bind app]. 
    destruct (sy_aliases s) as [|a l] eqn:EA; cbn [is_empty app here bind].
    + change (seq (lit "DRAW") "$FPLIST") with false. cbv iota. unfold parse_aliases. cbn [here bind].
      change (starts_with (lit "ALIAS") (lit "DRAW")) with false. cbv iota. cbn [bind assume_line].
      change (seq (lit "DRAW") "DRAW") with true. cbv iota. cbn [bind]. rewrite <- ?app_assoc. cbn [app]. rewrite rt_draws by assumption. cbn [bind app assume_line].
      change (seq (lit "ENDDEF") "ENDDEF") with true. change (seq (lit "#") "#") with true. cbv iota. cbn [bind].
      rewrite <- EA. destruct s; reflexivity.
    + replace (seq (alias_line (a :: l)) "$FPLIST") with false by reflexivity. unfold parse_aliases. cbn [here bind].
      replace (starts_with (lit "ALIAS") (alias_line (a :: l))) with true by reflexivity.
      rewrite alias_split by assumption. cbn [bind tl next assume_line].
      change (seq (lit "DRAW") "DRAW") with true. cbv iota. cbn [bind]. rewrite <- ?app_assoc. cbn [app]. rewrite rt_draws by assumption. cbn [bind app assume_line].
      change (seq (lit "ENDDEF") "ENDDEF") with true. change (seq (lit "#") "#") with true. cbv iota. cbn [bind].
      rewrite <- EA. destruct s; reflexivity.
  - destruct (sy_aliases s); cbn [is_empty app]; eexists _, _; (split; [reflexivity|reflexivity]).
Qed.
Lemma print_symbol_ok s : symbol_ok s = true ->
  exists f, idx (sy_fields s) 1 = Ok f /\ In f (sy_fields s) /\ print_symbol s = Ok ((lit "# " ++ sf_value f) :: tail_lines s).
Proof.
  intros H. unfold symbol_ok in H. bsplit. unfold print_symbol.
  destruct (sy_fields s) as [|f0 [|f1 fs]] eqn:E; try discriminate.
  exists f1. cbn [idx nth_error of_option bind]. split; [reflexivity|]. split; [right; now left|]. unfold tail_lines. rewrite E. reflexivity.
Qed.

(** ** Line ends *)
Lemma lines_strip ls : forallb no_nl ls = true -> lines (unlines ls) = map strip_cr ls.
Proof.
  intros H. rewrite unlines_concat. unfold lines. rewrite split_on_lines, drop_last_empty_app; [reflexivity|assumption].
Qed.
Lemma ends_sfield f : sfield_ok f = true -> line_ok (print_sfield f) = true.
Proof.
  intros H. unfold sfield_ok in H. bsplit. unfold print_sfield. ends.
  all: repeat match goal with |- context [if ?b then _ else _] => destruct b end; ends.
  all: try (destruct (sf_orient f); reflexivity); try (destruct (sf_hjust f); reflexivity); try (destruct (sf_vjust f); reflexivity).
  all: try reflexivity.
Qed.
Lemma ends_draw d : draw_ok d = true -> line_ok (print_draw d) = true.
Proof.
  destruct d as [p|r|s]; cbn [draw_ok print_draw]; intros H.
  - unfold pin_ok in H. bsplit. unfold print_pin.
    assert (no_nl (pn_name p) = true) by now apply mid_word_nl. assert (no_nl (pn_number p) = true) by now apply mid_word_nl.
    apply line_app'; [reflexivity|]. apply line_app; [assumption|discriminate|]. apply line_app'; [reflexivity|].
    apply line_app; [assumption|discriminate|]. ends.
    all: try (destruct (pn_orient p); reflexivity); try (destruct (pn_type p); reflexivity).
    destruct (pn_visible p), (pn_shape p); reflexivity.
  - unfold print_rect. ends. destruct (rc_fill r); reflexivity.
  - bsplit. assumption.
Qed.
Lemma ends_alias l : forallb mid_word l = true -> line_ok (last l []) = true -> line_ok (alias_line l) = true.
Proof.
  intros H HL. unfold alias_line. apply line_app'; [reflexivity|]. revert HL. induction l as [|a l IH]; intros HL; [reflexivity|].
  cbn [forallb] in H. apply andb_prop in H as [H1 H2]. cbn [flat_map]. rewrite <- app_assoc. apply line_app'; [reflexivity|].
  destruct l as [|b l].
  - cbn [flat_map]. rewrite app_nil_r. exact HL.
  - apply line_app; [now apply mid_word_nl|discriminate|]. apply IH; assumption.
Qed.
Lemma ends_def s : mid_word (sy_name s) = true -> mid_word (sy_reference s) = true -> line_ok (def_line s) = true.
Proof.
  intros H1 H2. apply mid_word_nl in H1. apply mid_word_nl in H2. unfold def_line.
  apply line_app'; [reflexivity|]. apply line_app; [assumption|discriminate|]. apply line_app'; [reflexivity|].
  apply line_app; [assumption|discriminate|]. ends; match goal with |- context [if ?b then _ else _] => destruct b end; reflexivity.
Qed.
Lemma forallb_map_line {A} (f : A -> str) p l : (forall x, p x = true -> line_ok (f x) = true) -> forallb p l = true ->
  forallb line_ok (map f l) = true.
Proof.
  intros H Hl. rewrite forallb_forall in *. intros x Hx. apply in_map_iff in Hx as (y & <- & Hy). auto.
Qed.
Lemma ends_tail s : symbol_ok s = true -> forallb line_ok (tail_lines s) = true.
Proof.
  intros H. unfold symbol_ok in H. bsplit. unfold tail_lines. rewrite !forallb_app. bandsplit.
  - cbn [forallb]. rewrite ends_def by assumption. reflexivity.
  - now apply (forallb_map_line _ sfield_ok), H3; try exact ends_sfield.
  - destruct (is_empty (sy_aliases s)); [reflexivity|]. cbn [forallb]. now rewrite ends_alias by assumption.
  - reflexivity.
  - eapply (forallb_map_line _ draw_ok); [exact ends_draw|assumption].
  - reflexivity.
Qed.

(** ** Libraries *)
Lemma strip_lines ls : forallb line_ok ls = true -> map strip_cr ls = ls.
Proof.
  intros H. rewrite <- (map_id ls) at 2. apply map_ext_in. intros l Hl.
  rewrite forallb_forall in H. specialize (H _ Hl). unfold line_ok in H.
  apply andb_true_iff in H as [_ H]. apply strip_cr_id. now apply negb_true_iff in H.
Qed.
Lemma strip_value v : exists v', strip_cr (lit "# " ++ v) = lit "#" ++ v' /\ v' <> lit "End Library".
Proof.
  change (lit "# " ++ v) with (35%N :: 32%N :: v). cbn [strip_cr]. destruct v as [|c v].
  - exists [32%N]. split; [reflexivity|discriminate].
  - exists (32%N :: strip_cr (c :: v)). split; [reflexivity|discriminate].
Qed.
(** The lines read for one symbol: the title line can be any but the last line of
    a file *)
Definition block (ht : str * symbol) : list str := fst ht :: tail_lines (snd ht).
Lemma rt_symbols l : forall n acc, forallb (fun ht => symbol_ok (snd ht) && negb (seq (fst ht) "#End Library")) l = true ->
  (length l <= n)%nat ->
  symbols_loop n (flat_map block l ++ [lit "#End Library"]) acc = Ok (acc ++ map snd l).
Proof.
  induction l as [|[h s] l IH]; intros n acc H Hn; cbn [flat_map app map].
  - rewrite app_nil_r. destruct n; reflexivity.
  - cbn [forallb fst snd] in H. bsplit. match goal with H : negb _ = true |- _ => apply negb_true_iff in H end.
    cbn [length] in Hn. destruct n as [|n]; [lia|]. cbn [block fst snd app symbols_loop].
    rewrite H1. rewrite <- app_assoc. rewrite rt_symbol by assumption. cbn [bind]. rewrite IH; [|assumption|lia].
    now rewrite <- app_assoc.
Qed.
Lemma print_symbols_ok l : forallb symbol_ok l = true ->
  exists hs, mapM print_symbol l = Ok (map block hs) /\ map snd hs = l
    /\ Forall (fun ht => exists v, fst ht = lit "# " ++ v /\ no_nl v = true) hs.
Proof.
  induction l as [|s l IH]; intros H.
  - exists []. repeat split. constructor.
  - cbn [forallb] in H. apply andb_prop in H as [H1 H2]. destruct (IH H2) as (hs & E & M & F).
    destruct (print_symbol_ok s H1) as (f & _ & Hf & Ep). exists ((lit "# " ++ sf_value f, s) :: hs).
    cbn [mapM]. rewrite Ep. cbn [bind]. rewrite E. cbn [bind map snd]. split; [reflexivity|]. split; [now rewrite M|].
    constructor; [|assumption]. cbn [fst]. exists (sf_value f). split; [reflexivity|].
    unfold symbol_ok in H1. bsplit. match goal with H : forallb sfield_ok _ = true |- _ => rewrite forallb_forall in H; specialize (H f Hf) end.
    match goal with H : sfield_ok f = true |- _ => unfold sfield_ok in H end. bsplit. now apply quotable_nl.
Qed.
Lemma concat_flat {A B} (f : A -> list B) l : concat (map f l) = flat_map f l.
Proof. now rewrite flat_map_concat_map. Qed.
Lemma forallb_flat {A B} (p : B -> bool) (f : A -> list B) l : forallb p (flat_map f l) = forallb (fun x => forallb p (f x)) l.
Proof. induction l as [|x l IH]; [reflexivity|]. cbn [flat_map forallb]. now rewrite forallb_app, IH. Qed.
Lemma map_flat {A B C} (g : B -> C) (f : A -> list B) l : map g (flat_map f l) = flat_map (fun x => map g (f x)) l.
Proof. induction l as [|x l IH]; [reflexivity|]. cbn [flat_map]. now rewrite map_app, IH. Qed.

Lemma rt_library l : symbol_lib_ok l = true -> exists t, print_symbol_lib l = Ok t /\ parse_symbol_lib t = Ok l.
Proof.
  intros H. unfold symbol_lib_ok in H. destruct (print_symbols_ok l H) as (hs & E & M & F).
  unfold print_symbol_lib. rewrite E. cbn [bind]. rewrite concat_flat. eexists. split; [reflexivity|].
  assert (T : forall ht, In ht hs -> symbol_ok (snd ht) = true).
  { intros ht Hh. rewrite forallb_forall in H. apply H. rewrite <- M. now apply in_map. }
  unfold parse_symbol_lib. rewrite lines_strip.
  - set (hs' := map (fun ht => (strip_cr (fst ht), snd ht)) hs).
    assert (E2 : map strip_cr (flat_map block hs) = flat_map block hs').
    { unfold hs'. rewrite map_flat, flat_map_concat_map, (flat_map_concat_map block), map_map. f_equal. apply map_ext_in.
      intros ht Hh. unfold block. cbn [map fst snd]. rewrite strip_lines; [reflexivity|]. apply ends_tail. auto. }
    rewrite !map_app, E2. unfold parse_symbol_lines. cbn [map app assume_line].
    change (seq (strip_cr (lit "EESchema-LIBRARY Version 2.3")) "EESchema-LIBRARY Version 2.3") with true. cbv iota. cbn [bind assume_line].
    change (seq (strip_cr (lit "#encoding utf-8")) "#encoding utf-8") with true. cbv iota. cbn [bind assume_line].
    change (seq (strip_cr (lit "#")) "#") with true. cbv iota. cbn [bind].
    change (strip_cr (lit "#End Library")) with (lit "#End Library"). rewrite rt_symbols.
    + unfold hs'. rewrite map_map. change (Ok (map snd hs) = Ok l). now rewrite M.
    + unfold hs'. rewrite forallb_forall. intros x Hx. apply in_map_iff in Hx as ([h s] & <- & Hh). cbn [fst snd]. pose proof (T (h, s) Hh) as Ts. cbn [snd] in Ts. rewrite Ts.
      cbn [andb]. rewrite Forall_forall in F. destruct (F (h, s) Hh) as (v & Ev & _). cbn [fst] in Ev. subst h.
      destruct (strip_value v) as (v' & -> & N). apply negb_true_iff. unfold seq.
      destruct (str_eqb (lit "#" ++ v') (lit "#End Library")) eqn:Q; [|reflexivity]. apply str_eqb_eq in Q. injection Q as Q. now destruct N.
    + rewrite app_length. clear. generalize hs' as k. intros k. induction k as [|x k IH]; cbn [flat_map app length]; [lia|].
      rewrite app_length. destruct x as [h s]. change (length (block (h, s))) with (S (length (tail_lines s))). cbn [length] in *. lia.
  - rewrite !forallb_app, forallb_flat. bandsplit; try reflexivity. rewrite forallb_forall. intros [h s] Hh. unfold block. cbn [forallb fst snd].
    rewrite Forall_forall in F. destruct (F _ Hh) as (v & Ev & Nv). cbn [fst] in Ev. subst h.
    rewrite nl_app by (assumption || reflexivity). cbn [andb].
    pose proof (ends_tail _ (T _ Hh)) as L. cbn [snd] in L. rewrite forallb_forall in *. intros x Hx. apply line_no_nl. auto.
Qed.
