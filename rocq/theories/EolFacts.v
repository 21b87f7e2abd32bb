(** Facts about texts that differ in how their lines end (C102). *)
From Coq Require Import List NArith Lia Bool Arith String.
From Verif Require Import Base Str StrFacts Sexp Formatter DocText CutSpec CutFacts FpData LyData FpLibTable SchData SchParse SchErr SchOut SymData SymParse SymErr LibFns KicadFile Said FileErr SchOps WalkErr EolSpec.
Import ListNotations.
Open Scope string_scope. Open Scope list_scope.

Lemma ends_sym t u : same_but_ends t u -> same_but_ends u t.
Proof. induction 1; [constructor|constructor; assumption|constructor; assumption]. Qed.

(** ** Trees *)
Fixpoint quiet (q : bool) (t : str) : bool :=
  match t with
  | [] => true
  | c :: r => if N.eqb c 34 then quiet (negb q) r else if N.eqb c 10 then negb q && quiet q r else quiet q r
  end.
Lemma quotes_cons c t : quotes (c :: t) = ((if N.eqb 34 c then 1 else 0) + quotes t)%nat.
Proof. unfold quotes. cbn [filter]. destruct (N.eqb 34 c); reflexivity. Qed.
Lemma even_succ n : Nat.even (1 + n) = negb (Nat.even n).
Proof. change (1 + n)%nat with (Datatypes.S n). rewrite Nat.even_succ. rewrite <- Nat.negb_even. reflexivity. Qed.
Lemma quiet_of : forall t (q : bool), (forall a b, t = a ++ 10%N :: b -> Nat.even (quotes a) = negb q) -> quiet q t = true.
Proof.
  induction t as [|c t IH]; intros q H; [reflexivity|]. cbn [quiet].
  destruct (N.eqb c 34) eqn:E.
  - apply N.eqb_eq in E. subst c. apply IH. intros a b K.
    specialize (H (34%N :: a) b). cbn [app] in H. rewrite K in H. specialize (H eq_refl).
    rewrite quotes_cons in H. change (N.eqb 34 34) with true in H. rewrite even_succ in H.
    destruct (Nat.even (quotes a)), q; cbn in *; congruence.
  - assert (I : quiet q t = true).
    { apply IH. intros a b K. specialize (H (c :: a) b). cbn [app] in H. rewrite K in H. specialize (H eq_refl).
      rewrite quotes_cons in H. rewrite N.eqb_sym, E in H. exact H. }
    destruct (N.eqb c 10) eqn:F; [|exact I]. apply N.eqb_eq in F. subst c.
    specialize (H [] t eq_refl). cbn in H. rewrite <- H, I. reflexivity.
Qed.
Lemma quiet_start t : ends_unquoted t -> quiet false t = true.
Proof. intros H. apply quiet_of. intros a b K. exact (H a b K). Qed.

Definition quoting (st : lst) : bool := match st with LQuote _ => true | _ => false end.
Lemma map_nil {A} (o : option (list A)) : option_map (app []) o = o.
Proof. destruct o; reflexivity. Qed.
Lemma lex_end e t st : line_end e -> quoting st = false ->
  lex st (e ++ t) = option_map (app match st with LBare a => [At (rev a)] | _ => [] end) (lex LNone t).
Proof.
  intros E Q. destruct E as [-> | ->]; destruct st as [|a|a]; try discriminate Q; try reflexivity; cbn; now rewrite map_nil.
Qed.
Lemma lex_ends t u : same_but_ends t u -> forall st, quiet (quoting st) t = true -> lex st t = lex st u.
Proof.
  induction 1 as [|c t u N10 N13 H IH|e f t u E F H IH]; intros st Q; [reflexivity| |].
  - cbn [quiet] in Q. apply N.eqb_neq in N10. rewrite N10 in Q.
    destruct (N.eqb c 34) eqn:E34.
    + destruct st as [|a|a]; cbn [quoting negb] in Q; cbn [lex]; rewrite E34.
      * apply N.eqb_eq in E34. subst c. cbn. now rewrite (IH (LQuote []) Q).
      * apply N.eqb_eq in E34. subst c. cbn. now rewrite (IH (LQuote []) Q).
      * now rewrite (IH LNone Q).
    + destruct st as [|a|a]; cbn [quoting] in Q; cbn [lex]; rewrite E34;
        repeat match goal with |- context [if ?b then _ else _] => destruct b end;
        rewrite ?(IH LNone Q), ?(fun x => IH (LBare x) Q), ?(fun x => IH (LQuote x) Q); reflexivity.
  - assert (K : quoting st = false /\ quiet false t = true).
    { destruct E as [-> | ->]; cbn in Q; destruct (quoting st); cbn in Q; try discriminate Q; split; auto. }
    destruct K as [K1 K2]. rewrite !lex_end by assumption. now rewrite (IH LNone K2).
Qed.
Theorem read_ends t u : same_but_ends t u -> ends_unquoted t -> read_sexp t = read_sexp u.
Proof. intros H Q. unfold read_sexp. now rewrite (lex_ends t u H LNone (quiet_start t Q)). Qed.

(** ** Lines *)
Definition clean (l : str) : Prop := forall c, In c l -> c <> 10%N /\ c <> 13%N.
Lemma ends_cut t u : same_but_ends t u ->
  (t = u /\ clean t) \/
  exists l e f t1 u1, clean l /\ line_end e /\ line_end f /\ t = l ++ e ++ t1 /\ u = l ++ f ++ u1 /\ same_but_ends t1 u1.
Proof.
  induction 1 as [|c t u N10 N13 H IH|e f t u E F H IH].
  - left. split; [reflexivity|]. intros c [].
  - destruct IH as [[-> C]|(l & e & f & t1 & u1 & C & E & F & -> & -> & K)].
    + left. split; [reflexivity|]. intros d [<-|I]; [now split|auto].
    + right. exists (c :: l), e, f, t1, u1. split; [intros d [<-|I]; [now split|auto]|]. auto.
  - right. exists [], e, f, t, u. split; [intros c []|]. auto.
Qed.
Lemma clean_one l : clean l -> one_line l = true.
Proof. intros H. apply forallb_forall. intros c I. destruct (H c I) as [K _]. apply N.eqb_neq in K. now rewrite K. Qed.
Lemma clean_cr l : clean l -> without_cr l l.
Proof. intros H. right. split; [reflexivity|]. intros m ->. destruct (H 13%N) as [_ K]; [apply in_or_app; right; now left|now apply K]. Qed.
Lemma end_lines l e t v : clean l -> line_end e -> text_lines t v -> text_lines (l ++ e ++ t) (l :: v).
Proof.
  intros C [-> | ->] H.
  - cbn [app]. apply tx_more; [now apply clean_one|now apply clean_cr|exact H].
  - change (l ++ [13%N; 10%N] ++ t) with (l ++ [13%N] ++ 10%N :: t). rewrite app_assoc. apply tx_more; [|left; reflexivity|exact H].
    unfold one_line. rewrite forallb_app. apply clean_one in C. unfold one_line in C. now rewrite C.
Qed.
Lemma lines_ends t u : same_but_ends t u -> lines t = lines u.
Proof.
  remember (length t) as n eqn:L. revert t u L. induction n as [n IH] using lt_wf_ind. intros t u L H.
  destruct (ends_cut t u H) as [[-> _]|(l & e & f & t1 & u1 & C & E & F & -> & -> & K)]; [reflexivity|].
  assert (D : lines t1 = lines u1).
  { refine (IH (length t1) _ t1 u1 eq_refl K). subst n. rewrite !app_length. destruct E as [-> | ->]; cbn; lia. }
  assert (A : text_lines t1 (lines t1)) by now apply lines_iff.
  assert (B : text_lines u1 (lines t1)) by (rewrite D; now apply lines_iff).
  assert (X : lines (l ++ e ++ t1) = l :: lines t1) by (apply lines_iff; now apply end_lines).
  assert (Y : lines (l ++ f ++ u1) = l :: lines t1) by (apply lines_iff; now apply end_lines).
  now rewrite X, Y.
Qed.

(** ** Projects *)
Lemma starts_ends p t u : same_but_ends t u -> (forall c, In c p -> c <> 10%N /\ c <> 13%N) -> starts_with p t = starts_with p u.
Proof.
  intros H. revert p. induction H as [|c t u N10 N13 H IH|e f t u E F H IH]; intros p P; [reflexivity| |].
  - destruct p as [|d p]; [reflexivity|]. cbn [starts_with]. rewrite (IH p); [reflexivity|]. intros x I. apply P. now right.
  - destruct p as [|d p]; [reflexivity|]. destruct (P d) as [K1 K2]; [now left|]. apply N.eqb_neq in K1, K2.
    destruct E as [-> | ->], F as [-> | ->]; cbn [app starts_with]; rewrite ?K1, ?K2; reflexivity.
Qed.

(** ** Files *)
Lemma project_prefix c : In c (lit "update=") -> c <> 10%N /\ c <> 13%N.
Proof. cbn. intros H. repeat (destruct H as [<-|H]; [split; discriminate|]). destruct H. Qed.
Lemma schematic_ends fn t u : same_but_ends t u ->
  parse_schematic fn t = parse_schematic fn u /\ schematic_said fn t = schematic_said fn u /\ schematic_out fn t = schematic_out fn u.
Proof. intros H. unfold parse_schematic, schematic_said, schematic_out. rewrite (lines_ends t u H). auto. Qed.
Lemma library_ends t u : same_but_ends t u -> parse_symbol_lib t = parse_symbol_lib u /\ library_said t = library_said u.
Proof. intros H. unfold parse_symbol_lib, library_said. rewrite (lines_ends t u H). auto. Qed.
Lemma trees_ends t u : same_but_ends t u -> ends_unquoted t ->
  parse_module t = parse_module u /\ parse_layout t = parse_layout u /\ parse_table t = parse_table u.
Proof. intros H Q. unfold parse_module, parse_layout, parse_table. rewrite (read_ends t u H Q). auto. Qed.

Definition rmap {A B} (f : A -> B) (r : res A) : res B := match r with Ok a => Ok (f a) | Err e => Err e | Panic => Panic end.
Definition tmap {A B} (f : A -> B) (r : told A) : told B := match r with TFine a => TFine (f a) | TSays m => TSays m | TElse e => TElse e | TStops => TStops end.
Lemma attempt_map {A} (r : res A) mk stop rest rest' u :
  (forall a, but_project u (mk a) = mk a) -> rest' = rmap (but_project u) rest ->
  attempt r mk stop rest' = rmap (but_project u) (attempt r mk stop rest).
Proof. intros M ->. destruct r as [a|e|]; cbn; [now rewrite M|now destruct stop|reflexivity]. Qed.
Lemma attempt_tmap {A} (r : told A) mk stop rest rest' u :
  (forall a, but_project u (mk a) = mk a) -> rest' = tmap (but_project u) rest ->
  attempt_told r mk stop rest' = tmap (but_project u) (attempt_told r mk stop rest).
Proof. intros M ->. destruct r as [a|m|e|]; cbn; [now rewrite M|now destruct stop|now destruct stop|reflexivity]. Qed.
Lemma data_ends n t u x : same_but_ends t u -> ends_unquoted t ->
  read_data n u x = rmap (but_project u) (read_data n t x) /\ data_told n u x = tmap (but_project u) (data_told n t x).
Proof.
  intros H Q. destruct (trees_ends t u H Q) as (M & L & F). destruct (schematic_ends (Some n) t u H) as (S1 & S2 & _).
  destruct (library_ends t u H) as (Y1 & Y2). pose proof (starts_ends (lit "update=") t u H project_prefix) as P.
  unfold read_data, data_told. rewrite <- M, <- L, <- F, <- S1, <- S2, <- Y1, <- Y2. split.
  - apply attempt_map; [reflexivity|]. apply attempt_map; [reflexivity|]. apply attempt_map; [reflexivity|]. apply attempt_map; [reflexivity|].
    unfold parse_project. rewrite <- P. destruct (starts_with (lit "update=") t); cbn [negb attempt]; [reflexivity|].
    destruct (expected_eqb x XProject); [reflexivity|]. apply attempt_map; reflexivity.
  - apply attempt_tmap; [reflexivity|]. apply attempt_tmap; [reflexivity|]. apply attempt_tmap; [reflexivity|]. apply attempt_tmap; [reflexivity|].
    unfold project_told. rewrite <- P. destruct (starts_with (lit "update=") t); cbn [negb attempt_told]; [reflexivity|].
    destruct (expected_eqb x XProject); [reflexivity|]. apply attempt_tmap; reflexivity.
Qed.

Lemma rmap_bind {A} u (r : res kicad_file) (k : kicad_file -> res A) :
  (forall f, k (but_project u f) = k f) -> bind (rmap (but_project u) r) k = bind r k.
Proof. intros H. destruct r as [f|e|]; cbn; auto. Qed.
Lemma tmap_bind {A} u (r : told kicad_file) (k : kicad_file -> told A) :
  (forall f, k (but_project u f) = k f) -> tbind (tmap (but_project u) r) k = tbind r k.
Proof. intros H. destruct r as [f|m|e|]; cbn; auto. Qed.
Lemma file_bind {A} fs gs n x (k : kicad_file -> res A) : same_disk fs gs -> (forall u f, k (but_project u f) = k f) ->
  bind (read_kicad_file fs n x) k = bind (read_kicad_file gs n x) k.
Proof.
  intros D K. unfold read_kicad_file, read_file. destruct (D n) as [[-> ->]|(t & u & -> & -> & H & Q)]; [reflexivity|].
  cbn [of_option bind]. destruct (data_ends n t u x H Q) as [-> _]. symmetry. now apply rmap_bind.
Qed.
Lemma told_bind {A} fs gs n x (k : kicad_file -> told A) : same_disk fs gs -> (forall u f, k (but_project u f) = k f) ->
  tbind (file_told fs n x) k = tbind (file_told gs n x) k.
Proof.
  intros D K. unfold file_told. destruct (D n) as [[-> ->]|(t & u & -> & -> & H & Q)]; [reflexivity|].
  destruct (data_ends n t u x H Q) as [_ ->]. symmetry. now apply tmap_bind.
Qed.
Theorem readers_ends fs gs n : same_disk fs gs ->
  read_module fs n = read_module gs n /\ read_schematic fs n = read_schematic gs n /\ read_layout fs n = read_layout gs n /\
  read_symbol_lib fs n = read_symbol_lib gs n /\ read_fp_lib_table fs n = read_fp_lib_table gs n.
Proof. intros D. repeat apply conj; (apply file_bind; [exact D|]; now intros u []). Qed.
Theorem told_ends fs gs n : same_disk fs gs ->
  module_told fs n = module_told gs n /\ schematic_told fs n = schematic_told gs n /\ layout_told fs n = layout_told gs n /\
  symbol_lib_told fs n = symbol_lib_told gs n /\ table_told fs n = table_told gs n.
Proof. intros D. repeat apply conj; (apply told_bind; [exact D|]; now intros u []). Qed.

(** ** Sheets *)
Section walk.
Context (fs gs : fsys) (D : same_sheets fs gs).
Lemma name_ends s h : filename_for_sheet fs s h = filename_for_sheet gs s h.
Proof. unfold filename_for_sheet. destruct D as [J _]. destruct (sc_filename s) as [p|]; cbn; [now rewrite J|reflexivity]. Qed.
Lemma sheet_ends s h : parse_file_for_sheet fs s h = parse_file_for_sheet gs s h.
Proof.
  unfold parse_file_for_sheet. rewrite name_ends. destruct (filename_for_sheet gs s h) as [p|e|]; cbn; [|reflexivity|reflexivity].
  unfold parse_file. destruct D as [_ R]. destruct (R p) as [-> |(t & u & -> & -> & H)]; [reflexivity|]. cbn. apply (schematic_ends (Some p) t u H).
Qed.
Lemma told_sheet_ends s h : sheet_told fs s h = sheet_told gs s h.
Proof.
  unfold sheet_told, filename_told. destruct D as [J R]. destruct (sc_filename s) as [p|]; cbn; [|reflexivity].
  rewrite J. destruct (fs_join gs p (sh_filename h)) as [q|]; cbn; [|reflexivity].
  unfold path_told. destruct (R q) as [-> |(t & u & -> & -> & H)]; [reflexivity|]. cbn.
  destruct (schematic_ends (Some q) t u H) as (_ & -> & _). reflexivity.
Qed.
Theorem all_ends n : forall s, all_components fs n s = all_components gs n s.
Proof.
  induction n as [|n IH]; intros s; [reflexivity|]. cbn [all_components].
  generalize (components s).
  generalize (sc_sheets s) as l. induction l as [|h l IL]; intros v; [reflexivity|].
  rewrite sheet_ends. destruct (parse_file_for_sheet gs s h) as [s2|e|]; cbn; [|reflexivity|reflexivity].
  rewrite IH. destruct (all_components gs n s2) as [v2|e|]; cbn; [apply IL|reflexivity|reflexivity].
Qed.
Theorem component_ends n r : forall s, component_by_reference fs n r s = component_by_reference gs n r s.
Proof.
  induction n as [|n IH]; intros s; [reflexivity|]. cbn [component_by_reference].
  destruct (find_comp r (sc_elements s)) as [c|]; [reflexivity|].
  generalize (sc_sheets s) as l. induction l as [|h l IL]; [reflexivity|].
  rewrite sheet_ends. destruct (parse_file_for_sheet gs s h) as [s2|e|]; cbn; [|reflexivity|reflexivity].
  rewrite IH. destruct (component_by_reference gs n r s2) as [c|e|]; cbn; rewrite ?IL; reflexivity.
Qed.
Theorem all_told_ends n : forall s, all_told fs n s = all_told gs n s.
Proof.
  induction n as [|n IH]; intros s; [reflexivity|]. cbn [all_told].
  generalize (components s).
  generalize (sc_sheets s) as l. induction l as [|h l IL]; intros v; [reflexivity|].
  rewrite told_sheet_ends. destruct (sheet_told gs s h) as [s2|m|e|]; cbn; [|reflexivity|reflexivity|reflexivity].
  rewrite IH. destruct (all_told gs n s2) as [v2|m|e|]; cbn; [apply IL|reflexivity|reflexivity|reflexivity].
Qed.
Theorem component_told_ends n r : forall s, component_told fs n r s = component_told gs n r s.
Proof.
  induction n as [|n IH]; intros s; [reflexivity|]. cbn [component_told].
  destruct (find_comp r (sc_elements s)) as [c|]; [reflexivity|].
  generalize (sc_sheets s) as l. induction l as [|h l IL]; [reflexivity|].
  rewrite told_sheet_ends. destruct (sheet_told gs s h) as [s2|m|e|]; cbn [tbind]; [|reflexivity|reflexivity|reflexivity].
  rewrite IH. destruct (component_told gs n r s2) as [c|m|e|]; [reflexivity|exact IL| |reflexivity]. destruct e; first [reflexivity|exact IL].
Qed.
End walk.
