(** Lemmas for C60: operations keep what can be saved. *)
From Coq Require Import String Reals Lra Lia.
From Flocq Require Import IEEE754.BinarySingleNaN Core Plus_error.
From Verif Require Import Base Str StrFacts Num F64 F64Text F64Facts Sexp FpData FpWf FpOps LyData LyWf LyDe LyOps FormatterSpec Formatter DocSpec DocText DocTextFacts KeepSpec.
Open Scope string_scope. Open Scope list_scope.

Lemma negzero_iff x : is_negzero x = true <-> x = fnegzero.
Proof. apply fsame_eq. Qed.
(** A sum is -0.0 only if both terms are. *)
Lemma add_negzero a b : is_negzero (fadd a b) = true -> is_negzero a = true.
Proof.
  rewrite !negzero_iff. intros H.
  assert (F : is_finite a = true /\ is_finite b = true).
  { destruct a as [sa|sa| |sa ma ea Ha], b as [sb|sb| |sb mb eb Hb]; split; try reflexivity; try discriminate H;
      destruct sa, sb; discriminate H. }
  destruct F as [Fa Fb]. pose proof (Bplus_correct 53 1024 _ _ mode_NE a b Fa Fb) as C.
  fold (fadd a b) in C. rewrite H in C. destruct (Rlt_bool _ _) eqn:E.
  - destruct C as (C & _ & S). cbn [B2R fnegzero] in C.
    assert (Z : (B2R a + B2R b = 0)%R).
    { destruct (Req_dec (B2R a + B2R b) 0) as [Z|Z]; [exact Z|exfalso]. symmetry in C. revert C.
      assert (P : Prec_gt_0 53) by reflexivity. change (SpecFloat.fexp 53 1024) with (FLT_exp (3 - 1024 - 53) 53).
      apply round_plus_neq_0; [apply FLT_exp_valid; exact P|apply exp_not_FTZ_FLT || (apply monotone_exp_not_FTZ; [apply FLT_exp_valid; exact P|apply FLT_exp_monotone])|apply valid_rnd_round_mode| | |exact Z]; apply (generic_format_B2R 53 1024). }
    rewrite Z, Rcompare_Eq in S by reflexivity. cbn [Bsign fnegzero] in S. symmetry in S. apply andb_prop in S as [Sa Sb].
    destruct a as [sa|sa| |sa ma ea Ha]; try discriminate Fa; cbn [Bsign] in Sa; subst sa; [reflexivity|].
    exfalso. assert (A : (B2R (B754_finite true ma ea Ha) < 0)%R) by (apply F2R_lt_0; reflexivity).
    assert (B : (B2R b <= 0)%R).
    { destruct b as [sb|sb| |sb mb eb Hb]; try discriminate Fb; cbn [Bsign] in Sb; subst sb; [apply Rle_refl|]. apply Rlt_le, F2R_lt_0; reflexivity. }
    lra.
  - destruct C as (C & _). cbn in C. discriminate C.
Qed.
Lemma sub_negzero a b : is_negzero (fsub a b) = true -> is_negzero a = true.
Proof.
  destruct a as [sa|sa| |sa ma ea Ha], b as [sb|sb| |sb mb eb Hb]; intros H;
    try (destruct sa, sb; first [discriminate H|reflexivity]); try (destruct sa; discriminate H); try discriminate H.
  apply (add_negzero (B754_finite sa ma ea Ha) (fneg (B754_finite sb mb eb Hb))). exact H.
Qed.
Lemma neg_of (f : f64 -> bool) a b : (f b = true -> f a = true) -> negb (f a) = true -> negb (f b) = true.
Proof. destruct (f a), (f b); intros H K; try reflexivity; try discriminate K. discriminate (H eq_refl). Qed.
Lemma flip_at_ok a : at_ok (flip_at a) = true.
Proof.
  unfold at_ok, flip_at; cbn [at_rot]. apply (neg_of is_negzero f360); [apply sub_negzero|vm_compute; reflexivity].
Qed.
Lemma rotate_at_ok d a : at_ok a = true -> at_ok (rotate_at d a) = true.
Proof.
  unfold at_ok, rotate_at; cbn [at_rot]. intros H.
  apply (neg_of is_negzero _ _ (add_negzero (at_rot a) d)) in H. set (r := fadd (at_rot a) d) in *.
  assert (K : negb (is_negzero (if fleb f360 r then fsub r f360 else r)) = true).
  { destruct (fleb f360 r); [|exact H]. exact (neg_of is_negzero _ _ (sub_negzero r f360) H). }
  set (q := if fleb f360 r then fsub r f360 else r) in *.
  destruct (fltb q fzero); [|exact K]. exact (neg_of is_negzero _ _ (add_negzero q f360) K).
Qed.
Lemma flip_layer_ok l : layer_ok (flip_layer l) = layer_ok l. Proof. reflexivity. Qed.
Lemma flip_layers_ok l : forallb layer_ok (flip_layers l) = forallb layer_ok l.
Proof. induction l as [|a l IH]; [reflexivity|]. change (layer_ok a && forallb layer_ok (flip_layers l) = layer_ok a && forallb layer_ok l). now rewrite IH. Qed.
Lemma flip_layers_strs l : flat_map layer_strs (flip_layers l) = flat_map layer_strs l.
Proof. induction l as [|a l IH]; [reflexivity|]. change (layer_strs a ++ flat_map layer_strs (flip_layers l) = layer_strs a ++ flat_map layer_strs l). now rewrite IH. Qed.

Lemma saves_iff m : module_saves m = true <->
  no_quote (m_name m) = true /\ forall e, In e (m_elements m) -> element_ok e = true /\ forallb no_quote (element_strs e) = true.
Proof.
  unfold module_saves, module_ok, module_strs. rewrite andb_true_iff. cbn [forallb]. rewrite andb_true_iff, !forallb_forall. split.
  - intros (A & B & C). split; [exact B|]. intros e I. split; [now apply A|]. rewrite forallb_forall. intros s Hs. apply C, in_flat_map. eauto.
  - intros (B & A). split; [intros e I; now apply A|]. split; [exact B|]. intros s Hs. apply in_flat_map in Hs as (e & I & Hs).
    destruct (A e I) as [_ Q]. rewrite forallb_forall in Q. now apply Q.
Qed.
Lemma saves_map f m : (forall e, element_ok e = true -> forallb no_quote (element_strs e) = true -> element_ok (f e) = true /\ forallb no_quote (element_strs (f e)) = true) ->
  module_saves m = true -> module_saves (mk_module (m_name m) (map f (m_elements m))) = true.
Proof.
  intros H S. apply saves_iff in S as [N S]. apply saves_iff. split; [exact N|]. cbn [m_elements].
  intros e I. apply in_map_iff in I as (e' & <- & I). destruct (S e' I). now apply H.
Qed.
Lemma keep_flip m : module_saves m = true -> module_saves (flip_module m) = true.
Proof.
  apply saves_map. intros e K Q.
  destruct e as [?|la|?|?|?|t|p|p|l|c|a|?|?|?|a|?|?|]; cbn [flip_element]; try (split; assumption).
  - cbn [element_ok] in *. unfold text_ok in *. apply andb_prop in K as [K K3]. apply andb_prop in K as [K1 K2]. split; [|exact Q].
    unfold flip_text; cbn [tx_at tx_layer tx_effects]. rewrite flip_at_ok. cbn [andb]. rewrite flip_layer_ok, K2. exact K3.
  - cbn [element_ok] in *. unfold pad_ok in *. unfold flip_pad; cbn [pa_size pa_rect_delta pa_at pa_layers pa_net pa_zone_connect pa_drill].
    rewrite !andb_true_iff in *. destruct K as ((((((K1 & K2) & K3) & K4) & K5) & K6) & K7). rewrite flip_at_ok, flip_layers_ok.
    split; [auto 8|]. cbn [element_strs pa_name pa_layers pa_net pa_drill]. rewrite flip_layers_strs. exact Q.
  - split; [apply flip_at_ok|reflexivity].
Qed.
Lemma keep_rotate d m : module_saves m = true -> module_saves (rotate_module d m) = true.
Proof.
  apply saves_map. intros e K Q.
  destruct e as [?|la|?|?|?|t|p|p|l|c|a|?|?|?|a|?|?|]; cbn [rotate_element]; try (split; assumption).
  - cbn [element_ok] in *. unfold text_ok in *. apply andb_prop in K as [K K3]. apply andb_prop in K as [K1 K2]. split; [|exact Q].
    unfold rotate_text; cbn [tx_at tx_layer tx_effects]. rewrite rotate_at_ok by exact K1. rewrite K2. exact K3.
  - cbn [element_ok] in *. unfold pad_ok in *. unfold rotate_pad; cbn [pa_size pa_rect_delta pa_at pa_layers pa_net pa_zone_connect pa_drill].
    rewrite !andb_true_iff in *. destruct K as ((((((K1 & K2) & K3) & K4) & K5) & K6) & K7). rewrite rotate_at_ok by exact K3.
    split; [auto 8|exact Q].
  - split; [now apply rotate_at_ok|reflexivity].
Qed.
Lemma keep_adjust x y m : module_saves m = true -> module_saves (adjust_module x y m) = true.
Proof.
  apply saves_map. intros e K Q. destruct e; split; assumption.
Qed.
Lemma keep_reference old new m : no_quote new = true -> module_saves m = true -> module_saves (set_reference old new m) = true.
Proof.
  intros N. apply saves_map. intros e K Q. destruct e as [?|la|?|?|?|t|p|p|l|c|a|?|?|?|a|?|?|]; try (split; assumption).
  destruct (_ && _); split; try assumption. cbn [element_strs forallb tx_name tx_value tx_layer] in *.
  rewrite !andb_true_iff in *. tauto.
Qed.
Lemma keep_rename old new m : no_quote new = true -> module_saves m = true -> module_saves (module_rename_net old new m) = true.
Proof.
  intros N. apply saves_map. intros e K Q. destruct e as [?|la|?|?|?|t|p|p|l|c|a|?|?|?|a|?|?|]; try (split; assumption).
  unfold pad_rename_net. destruct p as [pn pt psh psz prd pat pl [n|] pz pd pm pmm pc pg]; cbn [pa_name pa_t pa_shape pa_size pa_rect_delta pa_at pa_layers pa_net pa_zone_connect pa_drill pa_paste_margin pa_mask_margin pa_clearance pa_thermal_gap];
    [|split; assumption].
  destruct (str_eqb (fn_name n) old); [|split; assumption]. split; [exact K|].
  cbn [element_strs pa_name pa_layers pa_net pa_drill fn_name forallb] in *. rewrite andb_true_iff, !forallb_app, !andb_true_iff in *.
  cbn [forallb]. rewrite N. tauto.
Qed.
Lemma keep_text which f m m' : (forall t, text_ok t = true -> forallb no_quote (element_strs (EFpText t)) = true ->
    text_ok (f t) = true /\ forallb no_quote (element_strs (EFpText (f t))) = true) ->
  modify_text m which f = Some m' -> module_saves m = true -> module_saves m' = true.
Proof.
  intros H E S. apply saves_iff in S as [N S]. unfold modify_text in E. destruct (upd_text which f (m_elements m)) as [l'|] eqn:U; [|discriminate E].
  injection E as <-. apply saves_iff. split; [exact N|]. cbn [m_elements]. clear N. revert l' U S. generalize (m_elements m) as l. clear m.
  induction l as [|e l IH]; intros l' U S; [discriminate U|].
  assert (Se : element_ok e = true /\ forallb no_quote (element_strs e) = true) by (apply S; now left).
  assert (Sl : forall e0, In e0 l -> element_ok e0 = true /\ forallb no_quote (element_strs e0) = true) by (intros; apply S; now right).
  assert (D : forall k, option_map (cons e) (upd_text which f l) = Some k -> forall x, In x k -> element_ok x = true /\ forallb no_quote (element_strs x) = true).
  { intros k K x I. destruct (upd_text which f l) as [r|] eqn:R; [|discriminate K]. injection K as <-. destruct I as [<-|I]; [exact Se|]. now apply (IH r). }
  destruct e; try exact (D _ U). cbn [upd_text] in U. destruct (str_eqb (tx_name t) which); [|exact (D _ U)]. injection U as <-.
  intros x [<-|I]; [|now apply Sl]. destruct Se as [S1 S2]. now apply H.
Qed.

(** Layouts *)
Definition lok (e : ly_element) : Prop :=
  ly_element_ok e = true /\ forallb no_quote (ly_element_strs e) = true /\ forallb doc_ok (ly_element_other e) = true.
Definition head_saves (l : layout) : bool := layout_saves (with_elements l []).
Lemma lsaves_iff l : layout_saves l = true <-> head_saves l = true /\ forall e, In e (ly_elements l) -> lok e.
Proof.
  unfold head_saves, layout_saves, layout_ok, layout_strs, layout_other. cbn [ly_version ly_general ly_setup ly_layers ly_host ly_page ly_elements with_elements].
  cbn [forallb flat_map]. rewrite !forallb_app, !andb_true_iff. cbn [forallb]. split.
  - intros ((((((A1 & A2) & A3) & A4) & A5) & (B1 & B2 & B3 & B4 & B5 & B6 & B7)) & C). split; [tauto|].
    rewrite forallb_forall in A5, B7, C. intros e I. unfold lok. split; [now apply A5|].
    rewrite !forallb_forall. split; intros s Hs; [apply B7|apply C]; apply in_flat_map; eauto.
  - intros (((((((A1 & A2) & A3) & A4) & _) & (B1 & B2 & B3 & B4 & B5 & B6 & _)) & _) & H). repeat (split; try assumption).
    + apply forallb_forall. intros e I. now apply H.
    + apply forallb_forall. intros s Hs. apply in_flat_map in Hs as (e & I & Hs). destruct (H e I) as (_ & Q & _). rewrite forallb_forall in Q. now apply Q.
    + apply forallb_forall. intros s Hs. apply in_flat_map in Hs as (e & I & Hs). destruct (H e I) as (_ & _ & Q). rewrite forallb_forall in Q. now apply Q.
Qed.
Lemma lok_module m : lok (YModule m) <-> module_saves m = true.
Proof. unfold lok, module_saves. cbn [ly_element_ok ly_element_strs ly_element_other forallb]. rewrite andb_true_iff. tauto. Qed.
Lemma lkeep_adjust x y l : layout_saves l = true -> layout_saves (adjust_layout x y l) = true.
Proof.
  rewrite !lsaves_iff. intros [H K]. split; [exact H|]. cbn [adjust_layout ly_elements with_elements].
  intros e I. apply in_map_iff in I as (e' & <- & I). specialize (K e' I). clear I H.
  destruct e'; try exact K. cbn [adjust_ly_element]. apply lok_module in K. now apply lok_module, keep_adjust.
Qed.
Lemma each_keeps {A} (f : A -> A * option ekind) (ok : A -> Prop) l l' k : (forall x, ok x -> ok (fst (f x))) ->
  for_each f l = (l', k) -> (forall x, In x l -> ok x) -> forall x, In x l' -> ok x.
Proof.
  intros F. revert l' k. induction l as [|a l IH]; intros l' k E H; cbn [for_each] in E; [injection E as <- <-; exact H|].
  pose proof (F a (H a (or_introl eq_refl))) as Fa. destruct (f a) as [a' [e|]].
  - injection E as <- <-. intros x [<-|I]; [exact Fa|]. apply H. now right.
  - destruct (for_each f l) as [r q]. injection E as <- <-. intros x [<-|I]; [exact Fa|]. eapply IH; eauto. intros y J. apply H. now right.
Qed.
Lemma lkeep_names u l l' k : (forall s, no_quote s = true -> no_quote (fst (u s)) = true) ->
  update_net_names u l = (l', k) -> layout_saves l = true -> layout_saves l' = true.
Proof.
  intros U E S. unfold update_net_names in E. destruct (for_each _ (ly_elements l)) as [es q] eqn:F. injection E as <- _.
  apply lsaves_iff in S as [H S]. apply lsaves_iff. split; [exact H|]. cbn [ly_elements with_elements].
  eapply each_keeps; [|exact F|exact S]. clear - U. intros e K. unfold update_element_nets.
  destruct e as [m|n|n|t|gl|ga|gc|d|s|v|z|s]; try exact K.
  - destruct (for_each (update_pad_net u) (m_elements m)) as [es q] eqn:F. cbn [fst]. apply lok_module, saves_iff in K as [N K].
    apply lok_module, saves_iff. split; [exact N|]. cbn [m_elements]. eapply (each_keeps _ (fun e => element_ok e = true /\ forallb no_quote (element_strs e) = true)); [|exact F|exact K].
    clear - U. intros e K. unfold update_pad_net. destruct e as [?|la|?|?|?|t|p|p|l|c|a|?|?|?|a|?|?|]; try exact K.
    destruct p as [pn pt psh psz prd pat pl [n|] pz pd pm pmm pc pg]; cbn [pa_net]; [|exact K].
    destruct (u (fn_name n)) as [s0 k0] eqn:Eu. cbn [fst]. destruct K as [K Q]. split; [exact K|]. specialize (U (fn_name n)). rewrite Eu in U. cbn [fst] in U.
    cbn [with_net element_strs pa_name pa_layers pa_net pa_drill fn_name forallb] in *. rewrite andb_true_iff, !forallb_app, !andb_true_iff in *. cbn [forallb] in *.
    rewrite andb_true_r in *. tauto.
  - destruct (u (ne_name n)) as [s k] eqn:Eu. destruct K as (K & Q & _). split; [exact K|]. split; [|reflexivity].
    specialize (U (ne_name n)). rewrite Eu in U. cbn [fst ly_element_strs ne_name forallb] in *. rewrite andb_true_r in *. auto.
  - destruct (for_each u (LyData.nc_nets n)) as [ns k] eqn:F. destruct K as (_ & Q & _). split; [reflexivity|]. split; [|reflexivity].
    cbn [fst ly_element_strs with_nc_nets nc_name nc_desc LyData.nc_nets forallb] in *. rewrite !andb_true_iff in *. destruct Q as (Q1 & Q2 & Q3).
    split; [exact Q1|]. split; [exact Q2|]. apply forallb_forall. eapply (each_keeps u (fun s => no_quote s = true)); [exact U|exact F|]. now apply forallb_forall.
  - destruct (u (zo_net_name z)) as [s k] eqn:Eu. destruct K as (K & Q & D). split; [exact K|]. split; [|exact D].
    specialize (U (zo_net_name z)). rewrite Eu in U. cbn [fst ly_element_strs] in *. unfold zone_strs in *. cbn [with_zone_name zo_net_name zo_tstamp zo_hatch zo_layer zo_connect zo_fill app forallb] in *.
    rewrite !andb_true_iff in *. destruct Q as [Q1 Q2]. auto.
Qed.
Lemma lkeep_rename old new l l' : no_quote new = true -> change_net_name old new l = Ok l' -> layout_saves l = true -> layout_saves l' = true.
Proof.
  intros N E. unfold change_net_name in E. destruct (update_net_names _ l) as [r [k|]] eqn:U; [discriminate E|]. injection E as <-.
  eapply lkeep_names; [|exact U]. intros s Q. cbn [fst]. unfold rename. destruct (str_eqb s old); assumption.
Qed.
Lemma lkeep_module l r f l' k : (forall m, module_saves m = true -> module_saves (f m) = true) -> modify_module l r f = (l', k) ->
  layout_saves l = true -> layout_saves l' = true.
Proof.
  intros H E S. apply lsaves_iff in S as [Hd S]. unfold modify_module in E. destruct (modify_first r f (ly_elements l)) as [es q] eqn:F.
  injection E as <- _. apply lsaves_iff. split; [exact Hd|]. cbn [ly_elements with_elements]. clear Hd. revert es q F S. generalize (ly_elements l).
  induction l0 as [|e t IH]; intros es q F S; [injection F as <- <-; exact S|].
  assert (Se : lok e) by (apply S; now left). assert (St : forall x, In x t -> lok x) by (intros; apply S; now right).
  destruct (modify_first r f t) as [t' k'] eqn:Ft. specialize (IH t' k' eq_refl St).
  assert (D : forall x, In x (e :: t') -> lok x) by (intros x [<-|I]; auto).
  destruct e; cbn [modify_first] in F; rewrite ?Ft in F; try (injection F as <- <-; exact D).
  destruct (is_reference_with_name m r); [|injection F as <- <-; exact D]. injection F as <- <-.
  intros x [<-|I]; [|auto]. apply lok_module. apply H. now apply lok_module.
Qed.
Lemma lkeep_add l es : layout_saves l = true -> (forall e, In e es -> lok e) -> layout_saves (with_elements l (ly_elements l ++ es)) = true.
Proof.
  intros S H. apply lsaves_iff in S as [Hd S]. apply lsaves_iff. split; [exact Hd|]. cbn [ly_elements with_elements].
  intros e I. apply in_app_iff in I as [I|I]; auto.
Qed.
Lemma lkeep_net num name l : i64_ok num = true -> no_quote name = true -> layout_saves l = true -> layout_saves (add_net num name l) = true.
Proof.
  intros N Q S. apply lkeep_add; [exact S|]. intros e [<-|[]]. split; [exact N|]. split; [|reflexivity]. cbn [ly_element_strs ne_name forallb]. now rewrite Q.
Qed.
Lemma lkeep_class n l : forallb no_quote (nc_name n :: nc_desc n :: LyData.nc_nets n) = true -> layout_saves l = true -> layout_saves (add_netclass n l) = true.
Proof. intros Q S. apply lkeep_add; [exact S|]. intros e [<-|[]]. split; [reflexivity|]. split; [exact Q|reflexivity]. Qed.
Lemma lkeep_setup n v l : n <> lit "pcbplotparams" -> no_quote n = true -> no_quote v = true -> layout_saves l = true ->
  layout_saves (with_setup l (setup_update n v (ly_setup l))) = true.
Proof.
  intros D Qn Qv. unfold layout_saves, layout_ok, layout_strs, layout_other. cbn [with_setup ly_version ly_general ly_setup ly_layers ly_host ly_page ly_elements].
  cbn [forallb]. rewrite !forallb_app, !andb_true_iff. unfold setup_ok, setup_update. cbn [su_elements su_plot].
  intros ((((((A1 & A2) & A3) & A4) & A5) & (B1 & B2 & B3 & B4 & B5 & B6 & B7)) & C).
  assert (X : forallb setup_name_ok (update_first n v (su_elements (ly_setup l))) = true /\ forallb no_quote (flat_map setup_strs (update_first n v (su_elements (ly_setup l)))) = true).
  { clear - D Qn Qv A3 B5. unfold setup_ok in A3. induction (su_elements (ly_setup l)) as [|e r IH]; cbn [update_first].
    - cbn [forallb flat_map setup_strs se_name se_value1 se_value2 opt_strs app]. rewrite Qn, Qv. split; [|reflexivity].
      unfold setup_name_ok; cbn [se_name]. rewrite andb_true_r. apply negb_true_iff. destruct (str_eqb n (lit "pcbplotparams")) eqn:E; [|reflexivity].
      apply str_eqb_eq in E. destruct (D E).
    - cbn [forallb] in A3. apply andb_prop in A3 as [A A']. cbn [flat_map] in B5. rewrite forallb_app in B5. apply andb_prop in B5 as [B B'].
      destruct (str_eqb (se_name e) n).
      + cbn [forallb flat_map]. rewrite forallb_app, B', A'. unfold setup_name_ok in *. cbn [se_name]. rewrite A. split; [reflexivity|].
        unfold setup_strs in *. cbn [se_name se_value1 se_value2 forallb] in *. rewrite !andb_true_iff in *. tauto.
      + destruct (IH A' B') as [I1 I2]. cbn [forallb flat_map]. rewrite forallb_app, I1, I2, A, B. split; reflexivity. }
  destruct X as [X1 X2]. tauto.
Qed.

Lemma saves_read nq m n : quote_contract nq -> module_saves m = true -> parse_module (module_to_string nq m n) = Ok m.
Proof. intros Q S. apply andb_prop in S as [A B]. now apply rt_module_text. Qed.
Lemma lsaves_read nq l n : quote_contract nq -> layout_saves l = true -> parse_layout (layout_to_string nq l n) = Ok l.
Proof. intros Q S. apply andb_prop in S as [S C]. apply andb_prop in S as [A B]. now apply rt_layout_text. Qed.
