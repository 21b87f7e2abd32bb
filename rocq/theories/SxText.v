(** Texts read from a file hold no quote character: what a reader of an
    S-expression document yields can be written as text again (lemmas for C56). *)
From Coq Require Import String.
From Verif Require Import Base Str StrFacts Num F64 F64Text Sexp SexpFacts FpData FpLayer FpDe FpWf FpFacts LyData LyDe LyWf LyFacts LyReread FpLibTable
  Formatter FormatterSpec DocText DocSpec DocTextFacts LibFacts.
Open Scope string_scope. Open Scope list_scope.

Definition noq (s : str) : Prop := no_quote s = true.
Definition noqs (l : list str) : Prop := forallb no_quote l = true.
Definition docs (l : list sexp) : Prop := forallb doc_ok l = true.
(** A conversion / a reader whose results satisfy [R] when its input holds no quote. *)
Definition cv {A} (R : A -> Prop) (f : sexp -> res A) : Prop := forall x a, doc_ok x = true -> f x = Ok a -> R a.
Definition yl {A} (R : A -> Prop) (p : P A) : Prop := forall l a r, docs l -> p l = Ok (a, r) -> R a /\ docs r.
Definition opt {A} (R : A -> Prop) (o : option A) : Prop := match o with Some a => R a | None => True end.
Definition any {A} (a : A) : Prop := True.

Lemma cv_any {A} (f : sexp -> res A) : cv any f. Proof. intros x a _ _. exact I. Qed.
Lemma docs_cons x l : docs (x :: l) -> doc_ok x = true /\ docs l.
Proof. unfold docs; cbn [forallb]. intros H. now apply andb_true_iff in H. Qed.
Lemma docs_in l x : docs l -> In x l -> doc_ok x = true.
Proof. intros H I. unfold docs in H. rewrite forallb_forall in H. auto. Qed.
Lemma doc_list l : doc_ok (SList l) = true -> docs l. Proof. intros H; exact H. Qed.

Lemma yl_bind {A B} (Q : A -> Prop) (R : B -> Prop) p f : yl Q p -> (forall a, Q a -> yl R (f a)) -> yl R (pbind p f).
Proof. intros Hp Hf l b r D H. apply pbind_inv in H as (a & r' & H1 & H2). destruct (Hp _ _ _ D H1). eapply Hf; eassumption. Qed.
Lemma yl_t {A} (Q : A -> Prop) f : cv Q f -> yl Q (p_t f).
Proof. intros C l a r D H. apply p_t_inv in H as (x & -> & H). apply docs_cons in D as [D1 D2]. split; [eapply C; eassumption|exact D2]. Qed.
Lemma yl_maybe {A} (Q : A -> Prop) f : cv Q f -> yl (opt Q) (p_maybe f).
Proof.
  intros C l o r D H. apply p_maybe_inv in H. destruct o as [a|].
  - destruct H as (x & -> & H). apply docs_cons in D as [D1 D2]. split; [eapply C; eassumption|exact D2].
  - subst r. split; [exact I|exact D].
Qed.
Lemma yl_lift {A} (Q : A -> Prop) r : (forall a, r = Ok a -> Q a) -> yl Q (plift r).
Proof. intros C l a r' D H. apply plift_inv in H as [H ->]. split; [now apply C|exact D]. Qed.
Lemma yl_close {A} (R : A -> Prop) a : R a -> yl R (p_close a).
Proof. intros C l b r D H. apply p_close_inv in H as (-> & -> & ->). split; [exact C|reflexivity]. Qed.
Lemma yl_ret {A} (R : A -> Prop) a : R a -> yl R (pret a).
Proof. intros C l b r D [= <- <-]. split; assumption. Qed.
Lemma mapM_Forall' {A B} (f : A -> res B) (R : B -> Prop) l v : mapM f l = Ok v -> (forall x y, In x l -> f x = Ok y -> R y) -> Forall R v.
Proof. intros H C. eapply mapM_Forall; [exact H|]. exact C. Qed.
Lemma yl_vec {A} (Q : A -> Prop) f : cv Q f -> yl (Forall Q) (p_vec f).
Proof.
  intros C l v r D H. apply p_vec_inv in H as [H ->]. split; [|reflexivity].
  eapply mapM_Forall'; [exact H|]. intros x y I E. eapply C; [eapply docs_in; eassumption|exact E].
Qed.
Lemma cv_iter {A} (R : A -> Prop) n p : yl R p -> cv R (fun s => iter_new s n p).
Proof.
  intros Y x a D H. apply iter_new_inv in H as (l & r & -> & H). apply doc_list, docs_cons in D as [_ D].
  eapply Y; eassumption.
Qed.
Lemma cv_nameless {A} (R : A -> Prop) p : yl R p -> cv R (fun s => iter_nameless s p).
Proof. intros Y x a D H. apply iter_nameless_inv in H as (l & r & -> & H). apply doc_list in D. eapply Y; eassumption. Qed.
Lemma cv_in {A} (Q : A -> Prop) n f : cv Q f -> cv Q (fun s => do v <- sx_slice1 n s; f v).
Proof.
  intros C x a D H. apply bind_inv in H as (v & Hv & H). eapply C; [|exact H].
  destruct x as [|[|[w| |] [|y [|]]]|]; cbn in Hv; try discriminate.
  destruct (str_eqb w n); [|discriminate]. injection Hv as <-. apply doc_list, docs_cons in D as [_ D]. now apply docs_cons in D as [D _].
Qed.
Lemma cv_string : cv noq sx_string.
Proof. intros [s| |] a D H; cbn in H; try discriminate. injection H as <-. exact D. Qed.
Lemma cv_lit n : cv noq (from_literal n).
Proof. intros x a D H. unfold from_literal in H. apply bind_inv in H as (s & Hs & H). destruct (str_eqb _ _); [|discriminate]. injection H as <-. eapply cv_string; eassumption. Qed.

Create HintDb yl.
#[export] Hint Resolve cv_string cv_lit : yl.
Ltac prim :=
  match goal with
  | |- yl _ p_s => eapply yl_t, cv_string
  | |- yl _ p_maybe_s => eapply yl_maybe, cv_string
  | |- yl _ p_tstamp => eapply yl_maybe, cv_in, cv_string
  | |- yl _ (p_maybe_lit _) => eapply yl_maybe, cv_lit
  | |- yl _ (p_s_in _) => eapply yl_t, cv_in, cv_string
  | |- yl _ (p_in_list _ _) => eapply yl_t, cv_in; first [solve [eauto with yl nocore]|apply cv_any]
  | |- yl _ (p_maybe_in _ _) => eapply yl_maybe, cv_in; first [solve [eauto with yl nocore]|apply cv_any]
  | |- yl _ (p_maybe _) => eapply yl_maybe; first [solve [eauto with yl nocore]|apply cv_any]
  | |- yl _ p_maybe_f => eapply yl_maybe, cv_any
  | |- yl _ (p_vec _) => eapply yl_vec; first [solve [eauto with yl nocore]|apply cv_any]
  | |- yl _ _ => eapply yl_t; first [solve [eauto with yl nocore]|apply cv_any]
  end.
Ltac rew :=
  cbn [forallb app flat_map andb];
  repeat match goal with
  | H : noq ?s |- context [no_quote ?s] => unfold noq in H; rewrite H
  | H : noqs ?l |- context [forallb no_quote ?l] => unfold noqs in H; rewrite H
  | H : forallb no_quote ?l = true |- context [forallb no_quote ?l] => rewrite H
  | H : no_quote ?s = true |- context [no_quote ?s] => rewrite H
  end.
Ltac yy :=
  cbv beta zeta;
  match goal with
  | |- yl _ (pbind (plift _) _) => idtac
  | |- yl _ (pbind _ _) => eapply yl_bind; [prim|let v := fresh "v" in let H := fresh "Hq" in intros v H; yy]
  | |- yl _ (p_close _) => apply yl_close
  | |- yl _ (pret _) => apply yl_ret
  | |- _ => idtac
  end.

Definition lay (l : layer) : Prop := noqs (layer_strs l).
Lemma noq_split p s w : noq s -> In w (split_on p s) -> noq w.
Proof.
  unfold noq. revert w. induction s as [|c s IH]; intros w H; cbn [split_on].
  - intros [<-|[]]. reflexivity.
  - unfold no_quote in H; cbn [forallb] in H. apply andb_true_iff in H as [H1 H2].
    destruct (p c).
    + intros [<-|I]; [reflexivity|]. now apply IH.
    + destruct (split_on p s) as [|v vs] eqn:E.
      * intros [<-|[]]. unfold no_quote; cbn [forallb]. now rewrite H1.
      * intros [<-|I]; [|apply IH; [exact H2|now right]].
        unfold no_quote; cbn [forallb]. rewrite H1. cbn [andb]. apply IH; [exact H2|now left].
Qed.
Lemma ltype_strs s : noq s -> match ltype_of_str s with LOther w => noq w | _ => True end.
Proof.
  intros H. unfold ltype_of_str.
  repeat match goal with |- context [if ?b then _ else _] => destruct b; [exact I|] end. exact H.
Qed.
Lemma layer_noq s l : noq s -> layer_of_str s = Some l -> lay l.
Proof.
  intros H E. unfold layer_of_str in E.
  assert (T : forall w sd, noq w -> lay (mk_layer sd (ltype_of_str w))).
  { intros w sd Hw. pose proof (ltype_strs w Hw) as T. unfold lay, noqs, layer_strs; cbn [la_t].
    destruct (ltype_of_str w); try reflexivity. cbn [forallb]. unfold noq in T. now rewrite T. }
  pose proof (noq_split is_dot s) as N.
  destruct (split_on is_dot s) as [|a [|b [|c k]]]; [discriminate| | |].
  - injection E as <-. apply T, N; [exact H|now left].
  - destruct (side_of_str a); [|discriminate]. injection E as <-. apply T, N; [exact H|right; now left].
  - injection E as <-. apply T, N; [exact H|now left].
Qed.
Lemma layer_from_noq s l : noq s -> layer_from_str s = Ok l -> lay l.
Proof. intros H E. unfold layer_from_str in E. destruct (layer_of_str s) eqn:F; cbn in E; [|discriminate]. injection E as <-. eapply layer_noq; eassumption. Qed.
Lemma cv_layer : cv lay de_layer.
Proof.
  apply cv_iter. yy. eapply yl_bind; [apply yl_lift; intros a; apply layer_from_noq; eassumption|].
  intros; now apply yl_close.
Qed.
#[export] Hint Resolve cv_layer : yl.
Lemma lays_flat l : Forall lay l -> noqs (flat_map layer_strs l).
Proof. induction 1; [reflexivity|]. unfold noqs in *; cbn [flat_map]. rewrite forallb_app. unfold lay, noqs in *. now rewrite H, IHForall. Qed.
Lemma cv_layers : cv (Forall lay) de_layers.
Proof.
  apply cv_iter. apply yl_vec. intros x a D H. apply bind_inv in H as (s & Hs & H).
  eapply layer_from_noq; [eapply cv_string; eassumption|exact H].
Qed.
Lemma cv_fnet : cv (fun n => noq (fn_name n)) de_fnet.
Proof. apply cv_iter. yy. assumption. Qed.
Lemma cv_drill : cv (fun d => noqs (opt_strs (dr_shape d))) de_drill.
Proof.
  apply cv_iter. yy. destruct (default (fzero, fzero) v2). apply yl_close. cbn [dr_shape].
  unfold noqs. destruct v; cbn [opt_strs opt] in *; rew; reflexivity.
Qed.
#[export] Hint Resolve cv_layers cv_fnet cv_drill : yl.
Lemma opt_lay o : opt lay o -> lay (default layer_default o).
Proof. destruct o; [intros H; exact H|reflexivity]. Qed.
Lemma opt_noq o : opt noq o -> noqs (opt_strs o).
Proof. destruct o; cbn; [unfold noqs; cbn [opt_strs forallb]; intros H; unfold noq in H; now rewrite H|reflexivity]. Qed.
Ltac lays :=
  unfold noqs in *; repeat match goal with
  | H : opt lay ?o |- context [layer_strs (default layer_default ?o)] => apply opt_lay in H; unfold lay, noqs in H
  | H : opt noq ?o |- context [opt_strs ?o] => apply opt_noq in H; unfold noqs in H
  | H : lay _ |- _ => unfold lay, noqs in H
  | H : Forall lay _ |- _ => apply lays_flat in H; unfold noqs in H
  end; cbn [forallb]; rewrite ?forallb_app; cbn [forallb]; rew; try reflexivity.
Lemma cv_text : cv (fun t => noqs (tx_name t :: tx_value t :: layer_strs (tx_layer t))) de_text.
Proof. apply cv_iter. yy. cbn [tx_name tx_value tx_layer]. lays. Qed.
Definition part_q (x : part) : Prop := match x with PaNet n => noq (fn_name n) | _ => True end.
Lemma rmap_ok {A B} (f : A -> B) r b : rmap f r = Ok b -> exists a, r = Ok a /\ b = f a.
Proof. unfold rmap. destruct r; cbn; [intros [= <-]; eauto|discriminate|discriminate]. Qed.
Lemma cv_part : cv part_q de_part.
Proof.
  intros x a D H. unfold de_part in H. apply bind_inv in H as (n & _ & H).
  repeat match type of H with (if ?b then _ else _) = _ => destruct b end; try discriminate;
    apply rmap_ok in H as (v & Hv & ->); cbn [part_q]; try exact I.
  eapply cv_fnet; eassumption.
Qed.
#[export] Hint Resolve cv_text cv_part : yl.
Lemma pad_parts_q l : Forall part_q l -> forall p q, pad_parts p l = Ok q -> noqs (element_strs (EPad p)) -> noqs (element_strs (EPad q)).
Proof.
  induction 1 as [|x l Hx _ IH]; intros p q; cbn [pad_parts].
  - intros [= <-] H; exact H.
  - intros H N. apply bind_inv in H as (p' & Hp & H). eapply IH; [exact H|]. clear IH H.
    destruct p as [n t sh sz rd a la net zc dr pm mm cl tg]. unfold pad_part in Hp.
    destruct x; try discriminate; injection Hp as <-; try exact N.
    unfold noqs in *; cbn [element_strs pa_name pa_layers pa_net pa_drill forallb] in *.
    rewrite !forallb_app in *. cbn [part_q] in Hx. unfold noq in Hx. cbn [forallb]. rewrite Hx.
    repeat match goal with H : _ && _ = true |- _ => apply andb_true_iff in H as [? ?] end.
    repeat match goal with H : ?b = true |- _ => rewrite H; clear H end. reflexivity.
Qed.
Lemma cv_pad : cv (fun p => noqs (element_strs (EPad p))) de_pad.
Proof.
  apply cv_iter. eapply yl_bind; [prim|intros name Hn]. eapply yl_bind; [prim|intros ts _].
  eapply yl_bind; [apply yl_lift with (Q := any); intros; exact I|intros t _]. eapply yl_bind; [prim|intros ss _].
  eapply yl_bind; [apply yl_lift with (Q := any); intros; exact I|intros sh _]. yy.
  apply yl_lift. intros a H. eapply pad_parts_q; [eassumption|exact H|].
  cbn [element_strs pa_name pa_layers pa_net pa_drill].
  assert (L : noqs (flat_map layer_strs (default [] v2))) by (destruct v2; [now apply lays_flat|reflexivity]).
  assert (S : noqs (match v1 with Some d => opt_strs (dr_shape d) | None => [] end)) by (destruct v1; [assumption|reflexivity]).
  unfold noqs, noq in *. cbn [forallb]. rewrite !forallb_app, Hn. cbn [forallb andb].
  apply andb_true_intro; split; [exact L|exact S].
Qed.
Lemma cv_poly : cv (fun p => lay (po_layer p)) de_poly. Proof. apply cv_iter. yy. cbn. now apply opt_lay. Qed.
Lemma cv_line : cv (fun p => lay (li_layer p)) de_line. Proof. apply cv_iter. yy. cbn. now apply opt_lay. Qed.
Lemma cv_circle : cv (fun p => lay (ci_layer p)) de_circle. Proof. apply cv_iter. yy. cbn. now apply opt_lay. Qed.
Lemma cv_arc : cv (fun p => lay (ar_layer p)) de_arc. Proof. apply cv_iter. yy. cbn. now apply opt_lay. Qed.
Lemma cv_model : cv (fun p => noq (mo_name p)) de_model. Proof. apply cv_iter. yy. assumption. Qed.
Lemma cv_string_element : cv noq de_string_element.
Proof.
  intros x a D H. unfold de_string_element, first_after in H. apply bind_inv in H as (n & _ & H). revert x a D H.
  apply (cv_iter noq n p_s), yl_t, cv_string.
Qed.
Lemma noqs1 s : noq s -> noqs [s]. Proof. unfold noqs, noq; cbn [forallb]. intros ->. reflexivity. Qed.
Lemma cv_element : cv (fun e => noqs (element_strs e)) de_element.
Proof.
  intros [w|l|] a D H; cbn [de_element] in H; [|apply bind_inv in H as (n & _ & H)|discriminate].
  - destruct (str_eqb _ _); [|discriminate]. injection H as <-. reflexivity.
  - repeat match type of H with (if ?b then _ else _) = _ => destruct b end; try discriminate;
      apply rmap_ok in H as (v & Hv & ->); cbn [element_strs]; try reflexivity;
      try (apply noqs1; eapply cv_string_element; eassumption).
    + eapply cv_layer; eassumption.
    + eapply cv_text; eassumption.
    + eapply (cv_pad _ _ D Hv).
    + eapply (cv_poly _ _ D Hv).
    + eapply (cv_line _ _ D Hv).
    + eapply (cv_circle _ _ D Hv).
    + eapply (cv_arc _ _ D Hv).
    + apply noqs1. eapply (cv_model _ _ D Hv).
Qed.
Lemma noqs_flat {A} (f : A -> list str) l : Forall (fun x => noqs (f x)) l -> noqs (flat_map f l).
Proof. induction 1; [reflexivity|]. unfold noqs in *; cbn [flat_map]. now rewrite forallb_app, H, IHForall. Qed.
#[export] Hint Resolve cv_element : yl.
Lemma cv_module : cv (fun m => noqs (module_strs m)) de_module.
Proof.
  apply cv_iter. yy. unfold module_strs; cbn [m_name m_elements]. apply noqs_flat in Hq0. lays.
Qed.
#[export] Hint Resolve cv_module : yl.

(** Layouts *)
Lemma cv_page : cv noq de_page. Proof. apply cv_iter. yy. assumption. Qed.
Lemma cv_net : cv (fun n => noq (ne_name n)) de_net. Proof. apply cv_iter. yy. assumption. Qed.
Lemma cv_host : cv (fun h => noqs [ho_tool h; ho_build h]) de_host. Proof. apply cv_iter. yy. cbn. lays. Qed.
Lemma cv_ly_layer : cv (fun x => lay (ll_layer x)) de_ly_layer.
Proof.
  apply cv_nameless. eapply yl_bind; [prim|intros n _]. eapply yl_bind; [prim|intros w Hw].
  eapply yl_bind; [apply yl_lift; intros a; apply layer_from_noq; exact Hw|intros l Hl]. yy. exact Hl.
Qed.
#[export] Hint Resolve cv_ly_layer : yl.
Lemma cv_ly_layers : cv (fun l => noqs (flat_map (fun x => layer_strs (ll_layer x)) l)) de_ly_layers.
Proof.
  intros x l D H. apply noqs_flat. revert x l D H. apply (cv_iter (Forall (fun x => lay (ll_layer x)))). prim.
Qed.
Lemma cv_setup_element : cv (fun e => noqs (setup_strs e)) de_setup_element.
Proof. apply cv_nameless. yy. unfold setup_strs; cbn [se_name se_value1 se_value2]. lays. Qed.
#[export] Hint Resolve cv_setup_element : yl.
Definition nc_q (n : net_class) : Prop := noqs (nc_name n :: nc_desc n :: LyData.nc_nets n).
Lemma nc_step_q n x m : doc_ok x = true -> nc_q n -> nc_step n x = Ok m -> nc_q m.
Proof.
  intros D N H. destruct n as [nm de cl tw vd vr ud ur gap wid nets]. unfold nc_step in H.
  apply bind_inv in H as (k & _ & H).
  repeat match type of H with (if ?b then _ else _) = _ => destruct b end; try discriminate;
    apply bind_inv in H as (v & Hv & H); injection H as <-; try exact N.
  apply (cv_in _ _ _ cv_string) in Hv; [|exact D].
  unfold nc_q, noqs in *; cbn [nc_name nc_desc LyData.nc_nets forallb] in *. rewrite forallb_app. cbn [forallb].
  unfold noq in Hv. rewrite Hv. apply andb_true_iff in N as [-> N]. apply andb_true_iff in N as [-> ->]. reflexivity.
Qed.
Lemma foldM_docs {A} (f : A -> sexp -> res A) (Q : A -> Prop) a l b :
  docs l -> (forall a x a', doc_ok x = true -> Q a -> f a x = Ok a' -> Q a') -> Q a -> foldM f a l = Ok b -> Q b.
Proof.
  intros D C Ha H. revert Ha H. apply foldM_inv. intros a1 x a2 I. apply C. eapply docs_in; eassumption.
Qed.
Lemma cv_net_class : cv nc_q de_net_class.
Proof.
  apply cv_iter. eapply yl_bind; [prim|intros n Hn]. eapply yl_bind; [prim|intros d Hd].
  intros l a r D H. apply bind_inv in H as (m & H & E). injection E as <- <-. split; [|reflexivity].
  eapply foldM_docs; [exact D|intros; eapply nc_step_q; eassumption| |exact H].
  unfold nc_q, noqs, nc_start; cbn [nc_name nc_desc LyData.nc_nets forallb]. unfold noq in *. now rewrite Hn, Hd.
Qed.
Definition setup_q (u : setup) : Prop := noqs (flat_map setup_strs (su_elements u)) /\ noqs (flat_map setup_strs (su_plot u)).
Lemma noqs_app a b : noqs a -> noqs b -> noqs (a ++ b).
Proof. unfold noqs. rewrite forallb_app. now intros -> ->. Qed.
Lemma setup_step_q u x v : doc_ok x = true -> setup_q u -> setup_step u x = Ok v -> setup_q v.
Proof.
  intros D [N1 N2] H. unfold setup_step in H. apply bind_inv in H as (k & _ & H).
  destruct (str_eqb _ _).
  - apply bind_inv in H as (ps & Hp & H). injection H as <-. split; cbn [su_elements su_plot]; [exact N1|].
    rewrite flat_map_app. apply noqs_app; [exact N2|]. apply noqs_flat. revert x ps D Hp.
    apply (cv_iter (Forall (fun e => noqs (setup_strs e)))). prim.
  - apply bind_inv in H as (e & He & H). injection H as <-. split; cbn [su_elements su_plot]; [|exact N2].
    rewrite flat_map_app. apply noqs_app; [exact N1|]. cbn [flat_map]. rewrite app_nil_r. eapply cv_setup_element; eassumption.
Qed.
Lemma cv_setup : cv setup_q de_setup.
Proof.
  apply cv_iter. intros l a r D H. apply bind_inv in H as (m & H & E). injection E as <- <-. split; [|reflexivity].
  eapply foldM_docs; [exact D|intros; eapply setup_step_q; eassumption| |exact H]. split; reflexivity.
Qed.
Lemma cv_gr_text : cv (fun t => noqs (gr_text_strs t)) de_gr_text.
Proof. apply cv_iter. yy. unfold gr_text_strs; cbn [gt_value gt_layer gt_tstamp]. lays. Qed.
#[export] Hint Resolve cv_gr_text : yl.
Lemma cv_gr_line : cv (fun l => noqs (layer_strs (gl_layer l) ++ opt_strs (gl_tstamp l))) de_gr_line.
Proof. apply cv_iter. yy. cbn [gl_layer gl_tstamp]. lays. Qed.
Lemma cv_gr_arc : cv (fun l => noqs (layer_strs (ga_layer l) ++ opt_strs (ga_tstamp l))) de_gr_arc.
Proof. apply cv_iter. yy. cbn [ga_layer ga_tstamp]. lays. Qed.
Lemma cv_gr_circle : cv (fun l => noqs (layer_strs (gc_layer l) ++ opt_strs (gc_tstamp l))) de_gr_circle.
Proof. apply cv_iter. yy. cbn [gc_layer gc_tstamp]. lays. Qed.
Lemma cv_dimension : cv (fun d => noqs (ly_element_strs (YDimension d))) de_dimension.
Proof. apply cv_iter. yy. cbn [ly_element_strs di_name di_layer di_tstamp di_text]. lays. Qed.
Lemma cv_segment : cv (fun s => noqs (ly_element_strs (YSegment s))) de_segment.
Proof. apply cv_iter. yy. cbn [ly_element_strs sg_layer sg_tstamp sg_status]. lays. Qed.
Lemma cv_via : cv (fun s => noqs (ly_element_strs (YVia s))) de_via.
Proof. apply cv_iter. yy. cbn [ly_element_strs vi_layers]. lays. Qed.
Lemma cv_hatch : cv (fun h => noq (ha_style h)) de_hatch. Proof. apply cv_iter. yy. assumption. Qed.
Lemma cv_connect : cv (fun h => noqs (opt_strs (cp_connection h))) de_connect.
Proof. apply cv_iter. yy. cbn [cp_connection]. lays. Qed.
Lemma cv_fill : cv (fun h => noqs (opt_strs (fi_smoothing h))) de_fill.
Proof. apply cv_iter. yy. cbn [fi_smoothing]. lays. Qed.
#[export] Hint Resolve cv_hatch cv_connect cv_fill : yl.
Lemma zone_step_q z x v : doc_ok x = true -> docs (zr_other z) -> zone_step z x = Ok v -> docs (zr_other v).
Proof.
  intros D N. destruct z as [ps fs sg ot]. unfold zone_step.
  destruct (de_pts_in "polygon" x); [intros [= <-]; exact N| |discriminate].
  destruct (de_pts_in "filled_polygon" x); [intros [= <-]; exact N| |discriminate].
  destruct (de_pts_in "fill_segments" x); [intros [= <-]; exact N| |discriminate].
  intros [= <-]. cbn [zr_other] in *. unfold docs in *. rewrite forallb_app, N. cbn [forallb]. now rewrite D.
Qed.
Lemma cv_zone : cv (fun z => noqs (zone_strs z) /\ docs (zo_other z)) de_zone.
Proof.
  apply cv_iter. yy. intros l a r D H. apply bind_inv in H as (z & H & E). injection E as <- <-. split; [|reflexivity].
  split.
  - unfold zone_strs; cbn [zo_net_name zo_tstamp zo_hatch zo_layer zo_connect zo_fill]. lays.
  - cbn [zo_other]. eapply (foldM_docs _ (fun z => docs (zr_other z))); [exact D|intros; eapply zone_step_q; eassumption| |exact H]. reflexivity.
Qed.
Definition layout_q (l : layout) : Prop := noqs (layout_strs l) /\ docs (layout_other l).
Definition header_q (l : layout) : Prop :=
  noqs [ho_tool (ly_host l); ho_build (ly_host l)] /\ noq (ly_page l) /\ noqs (flat_map (fun x => layer_strs (ll_layer x)) (ly_layers l))
  /\ setup_q (ly_setup l).
Definition elements_q (es : list ly_element) : Prop := noqs (flat_map ly_element_strs es) /\ docs (flat_map ly_element_other es).
Lemma layout_q_split l : header_q l -> elements_q (ly_elements l) -> layout_q l.
Proof.
  intros (H1 & H2 & H3 & H4 & H5) (H6 & H7). split; [|exact H7]. unfold layout_strs, noqs, noq in *.
  cbn [forallb] in *. rewrite !forallb_app, H2, H3, H4, H5, H6. rewrite andb_true_r in H1. apply andb_true_iff in H1 as [-> ->]. reflexivity.
Qed.
Lemma push_q es e : elements_q es -> noqs (ly_element_strs e) -> docs (ly_element_other e) -> elements_q (es ++ [e]).
Proof.
  intros [H1 H2] N D. unfold elements_q, noqs, docs in *. rewrite !flat_map_app, !forallb_app, H1, H2. cbn [flat_map].
  rewrite !app_nil_r. now rewrite N, D.
Qed.
Lemma layout_step_q l x m : doc_ok x = true -> header_q l /\ elements_q (ly_elements l) -> layout_step l x = Ok m ->
  header_q m /\ elements_q (ly_elements m).
Proof.
  intros D [Hh He] H. pose proof Hh as (H1 & H2 & H3 & H4). destruct l as [v h g p su la es].
  unfold header_q in Hh. cbn [ly_host ly_page ly_layers ly_setup ly_elements] in *. unfold layout_step in H. apply bind_inv in H as (k & _ & H).
  repeat match type of H with (if ?b then _ else _) = _ => destruct b end;
    unfold push_wrap, push_element in H;
    try (apply bind_inv in H as (a & Ha & H)); injection H as <-; unfold header_q; cbn [ly_host ly_page ly_layers ly_setup ly_elements];
    (split; [try exact Hh|first [exact He|apply push_q; [exact He| |]]]); try reflexivity.
  - split; [eapply cv_host; eassumption|]. split; [exact H2|]. split; [exact H3|exact H4].
  - split; [exact H1|]. split; [eapply cv_page; eassumption|]. split; [exact H3|exact H4].
  - split; [exact H1|]. split; [exact H2|]. split; [eapply cv_ly_layers; eassumption|exact H4].
  - exact (cv_module _ _ D Ha).
  - apply noqs1. exact (cv_net _ _ D Ha).
  - exact (cv_net_class _ _ D Ha).
  - exact (cv_gr_text _ _ D Ha).
  - exact (cv_gr_line _ _ D Ha).
  - exact (cv_gr_arc _ _ D Ha).
  - exact (cv_gr_circle _ _ D Ha).
  - exact (cv_dimension _ _ D Ha).
  - exact (proj1 (cv_zone _ _ D Ha)).
  - exact (proj2 (cv_zone _ _ D Ha)).
  - exact (cv_segment _ _ D Ha).
  - exact (cv_via _ _ D Ha).
  - split; [exact H1|]. split; [exact H2|]. split; [exact H3|]. eapply cv_setup; eassumption.
  - cbn [ly_element_other]. unfold docs; cbn [forallb]. now rewrite D.
Qed.
Lemma cv_layout : cv layout_q de_layout.
Proof.
  apply cv_iter. intros l a r D H. apply bind_inv in H as (m & H & E). injection E as <- <-. split; [|reflexivity].
  assert (Q : header_q m /\ elements_q (ly_elements m)).
  { eapply (foldM_docs _ (fun l => header_q l /\ elements_q (ly_elements l))); [exact D|intros; eapply layout_step_q; eassumption| |exact H].
    split; [|split; reflexivity]. split; [reflexivity|]. split; [reflexivity|]. split; [reflexivity|]. split; reflexivity. }
  destruct Q. now apply layout_q_split.
Qed.
Lemma cv_flib : cv (fun l => noqs (flib_strs l)) de_flib.
Proof. apply cv_iter. yy. unfold flib_strs; cbn [fb_name fb_type fb_uri fb_options fb_descr]. lays. Qed.
#[export] Hint Resolve cv_flib : yl.
Lemma cv_table : cv (fun t => noqs (flat_map flib_strs t)) de_fp_lib_table.
Proof.
  intros x t D H. apply noqs_flat. revert x t D H. apply (cv_iter (Forall (fun l => noqs (flib_strs l)))). prim.
Qed.

(** The reader yields no quotes. *)
Definition tok_q (t : tok) : Prop := match t with At s => noq s | _ => True end.
Lemma noq_rev s : noq s -> noq (rev s).
Proof. unfold noq, no_quote. rewrite !forallb_forall. intros H x I. apply H. now apply in_rev. Qed.
Definition st_q (st : lst) : Prop := match st with LBare a | LQuote a => noq a | LNone => True end.
Lemma lex_q s : forall st ts, st_q st -> lex st s = Some ts -> Forall tok_q ts.
Proof.
  induction s as [|c s IH]; intros st ts Hs; cbn [lex].
  - destruct st; [|intros [= <-]; repeat constructor; now apply noq_rev|discriminate]. intros [= <-]. constructor.
  - assert (K : forall pre o, Forall tok_q pre -> (forall ts, o = Some ts -> Forall tok_q ts) ->
        option_map (app pre) o = Some ts -> Forall tok_q ts).
    { intros pre o Hp Ho H. destruct o as [u|]; cbn in H; [|discriminate]. injection H as <-. apply Forall_app; auto. }
    destruct st as [|a|a]; cbv zeta; cbn [st_q] in Hs.
    + destruct (is_ws c); [apply K; [constructor|intros u; now apply IH]|].
      destruct (N.eqb c 40); [apply K; [repeat constructor|intros u; now apply IH]|].
      destruct (N.eqb c 41); [apply K; [repeat constructor|intros u; now apply IH]|].
      destruct (N.eqb c 34) eqn:E; [apply K; [constructor|intros u; now apply IH]|].
      apply IH. cbn [st_q]. unfold noq, no_quote; cbn [forallb]. now rewrite E.
    + assert (Ha : tok_q (At (rev a))) by now apply noq_rev.
      destruct (is_ws c); [apply K; [repeat constructor; exact Ha|intros u; now apply IH]|].
      destruct (N.eqb c 40); [apply K; [repeat constructor; exact Ha|intros u; now apply IH]|].
      destruct (N.eqb c 41); [apply K; [repeat constructor; exact Ha|intros u; now apply IH]|].
      destruct (N.eqb c 34) eqn:E; [apply K; [repeat constructor; exact Ha|intros u; now apply IH]|].
      apply IH. cbn [st_q]. unfold noq, no_quote in *; cbn [forallb]. now rewrite E.
    + destruct (N.eqb c 34) eqn:E.
      * destruct (lex LNone s) as [u|] eqn:F; cbn; [|discriminate]. intros [= <-].
        constructor; [now apply noq_rev|]. eapply IH; [|exact F]. exact I.
      * apply IH. cbn [st_q]. unfold noq, no_quote in *; cbn [forallb]. now rewrite E.
Qed.
Lemma docs_rev l : docs l -> docs (rev l).
Proof. unfold docs. rewrite !forallb_forall. intros H x I. apply H. now apply in_rev. Qed.
Lemma build_q ts : forall stk v r, Forall tok_q ts -> Forall docs stk -> build stk ts = Some (v, r) -> doc_ok v = true.
Proof.
  induction ts as [|[| |w] ts IH]; intros stk v r T S; cbn [build]; [discriminate| | |]; inversion_clear T as [|? ? T1 T2].
  - apply IH; [exact T2|]. constructor; [reflexivity|exact S].
  - destruct S as [|l k Sl Sk]; [discriminate|]. destruct Sk as [|l2 k Sl2 Sk].
    + intros [= <- _]. now apply docs_rev.
    + apply IH; [exact T2|]. constructor; [|exact Sk]. unfold docs in *; cbn [forallb]. rewrite Sl2, andb_true_r. now apply docs_rev.
  - destruct S as [|l k Sl Sk].
    + intros [= <- _]. exact T1.
    + apply IH; [exact T2|]. constructor; [|exact Sk]. unfold docs in *; cbn [forallb]. rewrite Sl, andb_true_r. exact T1.
Qed.
Lemma read_doc_ok s t : read_sexp s = Ok t -> doc_ok t = true.
Proof.
  unfold read_sexp. destruct (lex LNone s) as [ts|] eqn:E; [|discriminate].
  destruct (build [] ts) as [[v [|]]|] eqn:F; try discriminate. intros [= <-].
  eapply build_q; [|constructor|exact F]. eapply lex_q; [|exact E]. exact I.
Qed.

Lemma text_module nq s m n : quote_contract nq -> parse_module s = Ok m -> module_clean m = true ->
  parse_module (module_to_string nq m n) = Ok m.
Proof.
  intros Q H C. unfold parse_module in H. apply bind_inv in H as (t & Ht & H). apply read_doc_ok in Ht.
  apply rt_module_text; [exact Q|eapply de_module_ok; eassumption|exact (cv_module _ _ Ht H)].
Qed.
Lemma text_layout nq s l n : quote_contract nq -> parse_layout s = Ok l -> layout_clean l = true ->
  parse_layout (layout_to_string nq l n) = Ok l.
Proof.
  intros Q H C. unfold parse_layout in H. apply bind_inv in H as (t & Ht & H). apply read_doc_ok in Ht.
  destruct (cv_layout _ _ Ht H) as [N D].
  apply rt_layout_text; [exact Q|eapply de_layout_ok; eassumption|exact N|exact D].
Qed.
Lemma text_table nq s l n : quote_contract nq -> parse_table s = Ok l -> parse_table (table_to_string nq l n) = Ok l.
Proof.
  intros Q H. unfold parse_table in H. apply bind_inv in H as (t & Ht & H). apply read_doc_ok in Ht.
  apply rt_table_text; [exact Q|exact (cv_table _ _ Ht H)].
Qed.
