(** The readers give every document that follows the grammar its meaning (C69). *)
From Coq Require Import String Lia.
From Flocq Require Import IEEE754.BinarySingleNaN.
From Verif Require Import Base Str StrFacts Num NumFacts F64 F64Text Sexp DecSpec DecFacts FpData FpLayer FpDe LyData LyDe NoPanic LyFacts FpLibTable GramSpec GramRead MeanSpec.
Open Scope string_scope. Open Scope list_scope.

Definition means {A} (f : sexp -> res A) (g : gram) (v : sexp -> A) : Prop := forall s, follows g s -> f s = Ok (v s).

(** ** One step of a reader *)
Lemma eq_t {A B} (f : sexp -> res A) (k : A -> P B) x r a : f x = Ok a -> pbind (p_t f) k (x :: r) = k a r.
Proof. intros E. unfold pbind, p_t. now rewrite E. Qed.
Lemma eq_yes {A B} (f : sexp -> res A) (k : option A -> P B) x r a : f x = Ok a -> pbind (p_maybe f) k (x :: r) = k (Some a) r.
Proof. intros E. unfold pbind, p_maybe. now rewrite E. Qed.
Lemma eq_no {A B} (f : sexp -> res A) (k : option A -> P B) x r : no (f x) -> pbind (p_maybe f) k (x :: r) = k None (x :: r).
Proof. intros [e E]. unfold pbind, p_maybe. now rewrite E. Qed.
Lemma eq_nil {A B} (f : sexp -> res A) (k : option A -> P B) : pbind (p_maybe f) k [] = k None [].
Proof. reflexivity. Qed.
Lemma eq_word {A B} (f : str -> res A) (k : A -> P B) t r a : f t = Ok a -> (let* n := p_s in let* x := plift (f n) in k x) (SStr t :: r) = k a r.
Proof. intros E. unfold pbind, p_s, p_t, plift. cbn [sx_string bind]. now rewrite E. Qed.
Lemma eq_form {A} k (p : P A) l v r : p l = Ok (v, r) -> iter_new (SList (SStr (lit k) :: l)) (lit k) p = Ok v.
Proof. intros E. unfold iter_new. cbn [sx_list bind]. rewrite str_eqb_refl, E. reflexivity. Qed.
Lemma eq_bare {A} (p : P A) l v r : p l = Ok (v, r) -> iter_nameless (SList l) p = Ok v.
Proof. intros E. unfold iter_nameless. cbn [sx_list bind]. now rewrite E. Qed.
Lemma eq_slice {A} k (f : sexp -> res A) v a : f v = Ok a -> (do x <- sx_slice1 (lit k) (SList [SStr (lit k); v]); f x) = Ok a.
Proof. intros E. unfold sx_slice1. cbn [sx_list bind]. rewrite str_eqb_refl. exact E. Qed.
Lemma eq_mapM {A} (f : sexp -> res A) (v : sexp -> A) l : (forall s, In s l -> f s = Ok (v s)) -> mapM f l = Ok (map v l).
Proof.
  induction l as [|x l IH]; intros H; [reflexivity|]. cbn [mapM map]. rewrite (H x (or_introl eq_refl)). cbn [bind]. rewrite IH; [reflexivity|]. intros s I. apply H. now right.
Qed.
Lemma means_vec {A} (f : sexp -> res A) v gs l : Forall (fun g => means f g v) gs -> follow_all [Rep gs] l -> p_vec f l = Ok (map v l, []).
Proof.
  intros C H. unfold p_vec. rewrite (eq_mapM f v); [reflexivity|]. intros s I.
  destruct (covered (fun g => means f g v) [Rep gs] l) with (s := s) as (g & Q & F); [constructor; [exact C|constructor]|exact H|exact I|]. now apply Q.
Qed.

(** ** Shapes *)
Lemma fld_inv k g s : follows (fld k g) s -> exists v, s = SList [SStr (lit k); v] /\ follows g v.
Proof. intros H. inversion H as [|? ? n l E F| |]; subst. inversion F as [|? ? x r G N| | | |]; subst. inversion N; subst. now exists x. Qed.
Lemma word_inv q s : follows (Word q) s -> exists t, s = SStr t /\ q t.
Proof. intros H. inversion H; subst. now eexists. Qed.
Lemma form_inv k b s : follows (Form k b) s -> exists l, s = SList (SStr (lit k) :: l) /\ follow_all b l.
Proof. intros H. inversion H; subst. now eexists. Qed.
Lemma lit_inv k s : follows (word [k]) s -> s = SStr (lit k).
Proof. intros H. destruct (word_inv _ _ H) as (t & -> & w & [<-|[]] & ->). reflexivity. Qed.
Lemma bare_inv b s : follows (Bare b) s -> exists l, s = SList l /\ follow_all b l.
Proof. intros H. inversion H; subst. now eexists. Qed.
Lemma nil_inv l : follow_all [] l -> l = [].
Proof. intros H. now inversion H. Qed.
Lemma one_inv g b l : follow_all (One g :: b) l -> exists x r, l = x :: r /\ follows g x /\ follow_all b r.
Proof. intros H. inversion H; subst. eexists _, _. eauto. Qed.
Lemma opt_inv g b l : follow_all (Opt g :: b) l -> follow_all b l \/ exists x r, l = x :: r /\ follows g x /\ follow_all b r.
Proof. intros H. inversion H; subst; [now left|right]. eexists _, _. eauto. Qed.

(** ** Values *)
Notation W := readable.
Lemma mn_num : means sx_f (num W) number.
Proof. intros s H. destruct (ac_num s H) as [v V]. rewrite V. f_equal. destruct (word_inv _ _ H) as (t & -> & _). unfold sx_f in V. cbn [sx_string bind] in V. unfold number, txt. destruct (f64_of_str t); [now injection V|discriminate V]. Qed.
Lemma mn_int : means sx_i (int W) integer.
Proof. intros s H. destruct (ac_int s H) as [v V]. rewrite V. f_equal. destruct (word_inv _ _ H) as (t & -> & _). unfold sx_i in V. cbn [sx_string bind] in V. unfold integer, txt. destruct (i64_of_str t); [now injection V|discriminate V]. Qed.
Lemma mn_text q : means sx_string (Word q) txt.
Proof. intros s H. destruct (word_inv _ _ H) as (t & -> & _). reflexivity. Qed.
Lemma sl_text q s : follows (Word q) s -> sx_string s = Ok (txt s).
Proof. apply mn_text. Qed.
Lemma mn_slice {A} k (f : sexp -> res A) g v : means f g v -> means (fun s => do x <- sx_slice1 (lit k) s; f x) (fld k g) (value v).
Proof. intros M s H. destruct (fld_inv _ _ _ H) as (x & -> & F). apply eq_slice. now apply M. Qed.
Lemma sl_slice {A} k (f : sexp -> res A) g v s : follows (fld k g) s -> (forall x, follows g x -> f x = Ok (v x)) -> (do x <- sx_slice1 (lit k) s; f x) = Ok (value v s).
Proof. intros H M. now apply (mn_slice k f g v M). Qed.
Lemma mn_layer_text t : a_layer t -> layer_from_str t = Ok (layer_of (SStr t)).
Proof. intros H. destruct (ac_layer_name t H) as [v V]. rewrite V. unfold layer_from_str in V. unfold layer_of, txt. destruct (layer_of_str t); [now injection V as ->|discriminate V]. Qed.
Lemma mn_lit k : means (from_literal k) (word [k]) txt.
Proof. intros s H. destruct (word_inv _ _ H) as (t & -> & w & [<-|[]] & ->). unfold from_literal. cbn [sx_string bind]. now rewrite str_eqb_refl. Qed.

(** Take a list that follows a sequence apart. *)
Ltac parts :=
  repeat match goal with
  | H : follow_all [] _ |- _ => apply nil_inv in H; subst
  | H : follow_all (One _ :: _) _ |- _ => let x := fresh "x" in let r := fresh "r" in let F := fresh "F" in destruct (one_inv _ _ _ H) as (x & r & -> & F & ?); clear H
  | H : follow_all (Opt _ :: _) _ |- _ => let x := fresh "x" in let r := fresh "r" in let F := fresh "F" in destruct (opt_inv _ _ _ H) as [?|(x & r & -> & F & ?)]; clear H
  end.
Ltac known := fail.
Ltac val := first [apply mn_num; eassumption | apply mn_int; eassumption | apply mn_lit; eassumption | eapply sl_text; eassumption | known].
Ltac deep := first [val | eapply sl_slice; [eassumption|intros ? ?; val] ].
Ltac refd := match goal with H : follows ?g ?x |- no ?t =>
  match t with context [x] => revert x H; match goal with |- forall y, follows g y -> no (@?f y) => change (refuses f g) end; GramRead.ref end end.
Ltac estep := first
  [ etransitivity; [apply eq_t; deep|cbv beta]
  | etransitivity; [apply eq_yes; deep|cbv beta]
  | etransitivity; [apply eq_no; refd|cbv beta]
  | etransitivity; [apply eq_nil|cbv beta] ].
Ltac names :=
  repeat match goal with
  | F : follows (fld ?k ?g) ?x |- _ => let v := fresh "v" in destruct (fld_inv _ _ _ F) as (v & -> & ?); clear F
  | F : follows (word [_]) ?x |- _ => rewrite (lit_inv _ _ F) in *; clear F
  | F : follows (Form _ _) ?x |- _ => let l := fresh "l" in destruct (form_inv _ _ _ F) as (l & -> & _); clear F
  | F : follows (Word _) ?x |- _ => let t := fresh "t" in destruct (word_inv _ _ F) as (t & -> & _); clear F
  end.
Ltac fin := cbv beta delta [text g_at g_point g_xyz g_layer g_layers g_stamp g_pts g_font g_justify g_effects g_width g_net] in *; names; reflexivity.

Ltac go := let s := fresh "s" in let H := fresh "H" in let l := fresh "l" in let F := fresh "F" in
  intros s H; destruct (form_inv _ _ _ H) as (l & -> & F); clear H; change (may W) with Opt in F; apply eq_form with []; parts; repeat estep; fin.
Lemma mn_at : means de_at (g_at W) at_of. Proof. go. Qed.
Lemma mn_xyz : means de_xyz (g_xyz W) xyz_of. Proof. go. Qed.
Lemma mn_point k t : xy_type_of_str (lit k) = Ok t -> means de_xy (g_point W k) (point_of t).
Proof.
  intros T s H. destruct (form_inv _ _ _ H) as (l & -> & F); clear H. unfold de_xy. cbn [sx_list_name sx_list bind sx_string]. rewrite T. cbn [bind].
  apply eq_form with []. parts. repeat estep. fin.
Qed.
Lemma mn_fnet : means de_fnet (g_net W) net_of. Proof. go. Qed.
Lemma mn_layer : means de_layer (g_layer W) (value layer_of).
Proof.
  intros s H. destruct (fld_inv _ _ _ H) as (x & -> & F). destruct (word_inv _ _ F) as (t & -> & A). apply eq_form with []. unfold pbind, p_s, p_t, plift. cbn [sx_string bind].
  rewrite (mn_layer_text t A). reflexivity.
Qed.
Lemma mn_layers : means de_layers (g_layers W) layers_of.
Proof.
  intros s H. destruct (form_inv _ _ _ H) as (l & -> & F). apply eq_form with []. apply means_vec with (2 := F). constructor; [|constructor].
  intros x X. destruct (word_inv _ _ X) as (t & -> & A). cbn [sx_string bind]. now apply mn_layer_text.
Qed.
Lemma mn_pts : means de_pts (g_pts W) points_of.
Proof.
  intros s H. destruct (form_inv _ _ _ H) as (l & -> & F). apply eq_form with []. apply means_vec with (2 := F). constructor; [|constructor]. now apply mn_point.
Qed.
Lemma mn_justify : means de_justify g_justify (value justify_of).
Proof.
  intros s H. destruct (fld_inv _ _ _ H) as (x & -> & F). destruct (word_inv _ _ F) as (t & -> & k & I & ->). apply eq_form with [].
  cbn [In] in I. repeat destruct I as [<-|I]; try contradiction; reflexivity.
Qed.
Ltac pt := first [apply (mn_point "xy" XXy eq_refl); eassumption | apply (mn_point "start" XStart eq_refl); eassumption | apply (mn_point "end" XEnd eq_refl); eassumption
  | apply (mn_point "size" XSize eq_refl); eassumption | apply (mn_point "center" XCenter eq_refl); eassumption ].
Ltac known ::= first [pt | apply mn_at; eassumption | apply mn_xyz; eassumption | apply mn_layer; eassumption | apply mn_layers; eassumption | apply mn_pts; eassumption
  | apply mn_justify; eassumption | apply mn_fnet; eassumption].
Lemma mn_font : means de_font (g_font W) font_of. Proof. go. Qed.
Lemma mn_effects : means de_effects (g_effects W) effects_of.
Proof.
  intros s H. destruct (form_inv _ _ _ H) as (l & -> & F); clear H. apply eq_form with []. parts.
  - etransitivity; [apply eq_t; apply mn_font; eassumption|cbv beta]. estep. fin.
  - etransitivity; [apply eq_t; apply mn_font; eassumption|cbv beta]. estep. fin.
Qed.
Lemma mn_offset : means de_offset (Form "offset" [One (num W); One (num W)]) (fun o => (number (arg 0 (kids o)), number (arg 1 (kids o)))).
Proof. go. Qed.
Ltac known ::= first [pt | apply mn_at; eassumption | apply mn_xyz; eassumption | apply mn_layer; eassumption | apply mn_layers; eassumption | apply mn_pts; eassumption
  | apply mn_justify; eassumption | apply mn_fnet; eassumption | apply mn_effects; eassumption | apply mn_offset; eassumption].
Lemma not_oval s : follows (num W) s -> exists t, s = SStr t /\ str_eqb t (lit "oval") = false.
Proof.
  intros H. destruct (word_inv _ _ H) as (t & -> & neg & v & N). exists t. split; [reflexivity|]. destruct (str_eqb_spec t (lit "oval")) as [->|]; [|reflexivity].
  destruct (number_fw _ _ _ N) as (x & E & _). discriminate E.
Qed.
Lemma mn_text_el : means de_text (g_text W) text_of. Proof. go. Qed.
Lemma mn_model : means de_model (g_model W) model_of. Proof. go. Qed.
Lemma mn_poly : means de_poly (g_poly W) poly_of. Proof. go. Qed.
Lemma mn_line : means de_line (g_line W) line_of. Proof. go. Qed.
Lemma mn_circle : means de_circle (g_circle W) circle_of. Proof. go. Qed.
Lemma mn_arc : means de_arc (g_arc W) arc_of. Proof. go. Qed.
Lemma mn_drill : means de_drill (GramSpec.drill W) drill_of.
Proof.
  intros s H. destruct (form_inv _ _ _ H) as (l & -> & F); clear H. apply eq_form with [].
  change (Word a_number) with (num W) in F. parts; repeat estep.
  all: repeat match goal with F : follows (num W) ?x |- _ => let t := fresh "t" in let E := fresh "E" in destruct (not_oval _ F) as (t & -> & E); clear F end.
  all: names; unfold drill_of, has; cbn [kids filter existsb is_word].
  all: repeat match goal with E : str_eqb ?t (lit "oval") = false |- _ => rewrite E; clear E end; reflexivity.
Qed.
Definition upd (p : pad) (l : list sexp) : pad :=
  mk_pad (pa_name p) (pa_t p) (pa_shape p) (pa_size p) (pa_rect_delta p) (pa_at p) (pa_layers p)
    (last_field "net" (fun x => Some (net_of x)) (pa_net p) l) (last_field "zone_connect" (valued integer) (pa_zone_connect p) l) (pa_drill p)
    (last_field "solder_paste_margin" (valued number) (pa_paste_margin p) l) (last_field "solder_mask_margin" (valued number) (pa_mask_margin p) l)
    (last_field "clearance" (valued number) (pa_clearance p) l) (last_field "thermal_gap" (valued number) (pa_thermal_gap p) l).
Lemma last_app {A} k (f : sexp -> A) d a b : last_field k f d (a ++ b) = last_field k f (last_field k f d a) b.
Proof. apply fold_left_app. Qed.
(** One part of a pad *)
Lemma part_step x : (exists g, In g [g_net W; fld "zone_connect" (int W); fld "solder_paste_margin" (num W); fld "solder_mask_margin" (num W); fld "clearance" (num W); fld "thermal_gap" (num W)]
  /\ follows g x) -> exists y, de_part x = Ok y /\ forall p, pad_part p y = Ok (upd p [x]).
Proof.
  intros (g & I & H). cbn [In] in I. repeat destruct I as [<-|I]; try contradiction.
  - exists (PaNet (net_of x)). pose proof (mn_fnet x H) as E. destruct (form_inv _ _ _ H) as (l & -> & _). split; [|intros []; reflexivity].
    unfold de_part. cbn [sx_list_name sx_list bind sx_string]. change (rmap PaNet (de_fnet (SList (SStr (lit "net") :: l))) = Ok (PaNet (net_of (SList (SStr (lit "net") :: l))))). now rewrite E.
  - destruct (fld_inv _ _ _ H) as (v & -> & F). exists (PaZoneConnect (integer v)). split; [|intros []; reflexivity].
    change (rmap PaZoneConnect (sx_i v) = Ok (PaZoneConnect (integer v))). now rewrite (mn_int v F).
  - destruct (fld_inv _ _ _ H) as (v & -> & F). exists (PaPaste (number v)). split; [|intros []; reflexivity].
    change (rmap PaPaste (sx_f v) = Ok (PaPaste (number v))). now rewrite (mn_num v F).
  - destruct (fld_inv _ _ _ H) as (v & -> & F). exists (PaMask (number v)). split; [|intros []; reflexivity].
    change (rmap PaMask (sx_f v) = Ok (PaMask (number v))). now rewrite (mn_num v F).
  - destruct (fld_inv _ _ _ H) as (v & -> & F). exists (PaClearance (number v)). split; [|intros []; reflexivity].
    change (rmap PaClearance (sx_f v) = Ok (PaClearance (number v))). now rewrite (mn_num v F).
  - destruct (fld_inv _ _ _ H) as (v & -> & F). exists (PaThermalGap (number v)). split; [|intros []; reflexivity].
    change (rmap PaThermalGap (sx_f v) = Ok (PaThermalGap (number v))). now rewrite (mn_num v F).
Qed.
Lemma parts_all l : (forall x, In x l -> exists g, In g [g_net W; fld "zone_connect" (int W); fld "solder_paste_margin" (num W); fld "solder_mask_margin" (num W); fld "clearance" (num W); fld "thermal_gap" (num W)]
  /\ follows g x) -> exists ps, mapM de_part l = Ok ps /\ forall p, pad_parts p ps = Ok (upd p l).
Proof.
  induction l as [|x l IH]; intros H.
  - exists []. split; [reflexivity|]. intros []; reflexivity.
  - destruct (part_step x (H x (or_introl eq_refl))) as (y & Y & U). destruct IH as (ps & M & K); [intros z Z; apply H; now right|].
    exists (y :: ps). split; [cbn [mapM]; rewrite Y; cbn [bind]; rewrite M; reflexivity|]. intros p. cbn [pad_parts]. rewrite U. cbn [bind]. rewrite K. reflexivity.
Qed.
Lemma rep_in gs l x : follow_all [Rep gs] l -> In x l -> exists g, In g gs /\ follows g x.
Proof. intros H I. apply (covered (fun g => In g gs) [Rep gs] l); [constructor; [now apply Forall_forall|constructor]|exact H|exact I]. Qed.
Lemma rest_inv gs b : forall l, follow_all (b ++ [Rep gs]) l -> exists p r, l = p ++ r /\ follow_all b p /\ follow_all [Rep gs] r.
Proof.
  intros l H. remember (b ++ [Rep gs]) as c eqn:E. revert b E.
  induction H as [|g c s l W R IH|g c l R IH|g c s l W R IH|hs c l R IH|hs g c s l I W R IH]; intros b E.
  - destruct b; discriminate E.
  - destruct b as [|i b]; [discriminate E|]. injection E as <- E. destruct (IH b E) as (p & r & -> & P & Q). exists (s :: p), r. split; [reflexivity|]. split; [now apply fa_one|exact Q].
  - destruct b as [|i b]; [discriminate E|]. injection E as <- E. destruct (IH b E) as (p & r & -> & P & Q). exists p, r. split; [reflexivity|]. split; [now apply fa_skip|exact Q].
  - destruct b as [|i b]; [discriminate E|]. injection E as <- E. destruct (IH b E) as (p & r & -> & P & Q). exists (s :: p), r. split; [reflexivity|]. split; [now apply fa_opt|exact Q].
  - destruct b as [|i b].
    + injection E as -> ->. exists [], l. split; [reflexivity|]. split; [apply fa_nil|now apply fa_end].
    + injection E as <- E. destruct (IH b E) as (p & r & -> & P & Q). exists p, r. split; [reflexivity|]. split; [now apply fa_end|exact Q].
  - destruct b as [|i b].
    + injection E as -> ->. exists [], (s :: l). split; [reflexivity|]. split; [apply fa_nil|]. now apply fa_rep with g.
    + pose proof E as E'. injection E' as <- E'. destruct (IH (Rep hs :: b) E) as (p & r & -> & P & Q). exists (s :: p), r. split; [reflexivity|]. split; [now apply fa_rep with g|exact Q].
Qed.
Lemma field_none {A} k (f : sexp -> A) d p r : find (called k) r = None -> field k f d (p ++ r) = field k f d p.
Proof.
  intros N. unfold field. induction p as [|x p IH]; cbn [app find]; [now rewrite N|]. destruct (called k x); [reflexivity|exact IH].
Qed.
Lemma find_rep k gs r : Forall (fun g => forall x, follows g x -> called k x = false) gs -> follow_all [Rep gs] r -> find (called k) r = None.
Proof.
  intros C H. assert (A : forall x, In x r -> called k x = false).
  { intros x I. destruct (rep_in _ _ _ H I) as (g & G & F). rewrite Forall_forall in C. now apply (C g). }
  clear H. induction r as [|x r IH]; [reflexivity|]. cbn [find]. rewrite (A x (or_introl eq_refl)). apply IH. intros y Y. apply A. now right.
Qed.
Lemma called_form k k' b x : str_eqb (lit k') (lit k) = false -> follows (Form k' b) x -> called k x = false.
Proof. intros E H. destruct (form_inv _ _ _ H) as (l & -> & _). exact E. Qed.
Lemma eq_rest {A B} (f : sexp -> res A) (k : option A -> P B) r : (match r with [] => True | x :: _ => no (f x) end) -> pbind (p_maybe f) k r = k None r.
Proof. destruct r; [reflexivity|]. apply eq_no. Qed.
Definition pad_tail : list gram := [g_net W; fld "zone_connect" (int W); fld "solder_paste_margin" (num W); fld "solder_mask_margin" (num W); fld "clearance" (num W); fld "thermal_gap" (num W)].
Ltac alls := repeat (apply Forall_cons; [intros ? ?; eapply called_form; [|eassumption]; reflexivity|]); apply Forall_nil.
Ltac known ::= first [pt | apply mn_at; eassumption | apply mn_xyz; eassumption | apply mn_layer; eassumption | apply mn_layers; eassumption | apply mn_pts; eassumption
  | apply mn_justify; eassumption | apply mn_fnet; eassumption | apply mn_effects; eassumption | apply mn_offset; eassumption | apply mn_drill; eassumption].
Lemma pad_split a b c p r : follow_all [Rep pad_tail] r ->
  pad_of (SList (SStr (lit "pad") :: (a :: b :: c :: p) ++ r)) = upd (pad_of (SList (SStr (lit "pad") :: a :: b :: c :: p))) r.
Proof.
  intros R. assert (N : forall k, In k ["at"; "size"; "drill"; "layers"] -> find (called k) r = None).
  { intros k I. cbn [In] in I. repeat destruct I as [<-|I]; try contradiction; (eapply find_rep; [|exact R]); unfold pad_tail; alls. }
  unfold pad_of. cbn [kids]. rewrite !field_none by (apply N; cbn [In]; tauto). rewrite !last_app. reflexivity.
Qed.
Lemma mn_pad : means de_pad (g_pad W) pad_of.
Proof.
  intros s H. destruct (form_inv _ _ _ H) as (l & -> & F); clear H. apply eq_form with [].
  change (follow_all ([One text; One (word ["smd"; "thru_hole"; "np_thru_hole"]); One (word ["rect"; "circle"; "oval"; "trapezoid"]);
    Opt (g_at W); Opt (g_point W "size"); Opt (GramSpec.drill W); Opt (g_layers W)] ++ [Rep pad_tail]) l) in F.
  apply rest_inv in F as (p & r & -> & F & R).
  assert (S1 : match r with [] => True | x :: _ => no (de_at x) end) by (revert r R; change (stops de_at [Rep pad_tail]); unfold pad_tail; GramRead.stop).
  assert (S2 : match r with [] => True | x :: _ => no (de_xy x) end) by (revert r R S1; intros r R _; revert r R; change (stops de_xy [Rep pad_tail]); unfold pad_tail; GramRead.stop).
  assert (S3 : match r with [] => True | x :: _ => no (de_drill x) end) by (clear S1 S2; revert r R; change (stops de_drill [Rep pad_tail]); unfold pad_tail; GramRead.stop).
  assert (S4 : match r with [] => True | x :: _ => no (de_layers x) end) by (clear S1 S2 S3; revert r R; change (stops de_layers [Rep pad_tail]); unfold pad_tail; GramRead.stop).
  destruct (parts_all r) as (ps & M & K); [intros x I; apply (rep_in _ _ _ R I)|].
  destruct (one_inv _ _ _ F) as (n & p1 & -> & F1 & G1). destruct (one_inv _ _ _ G1) as (tp & p2 & -> & F2 & G2). destruct (one_inv _ _ _ G2) as (sh & p3 & -> & F3 & G3). clear F G1 G2.
  rewrite pad_split by exact R.
  destruct (word_inv _ _ F1) as (t1 & -> & _). destruct (word_inv _ _ F2) as (t2 & -> & k2 & I2 & ->). destruct (word_inv _ _ F3) as (t3 & -> & k3 & I3 & ->). clear F1 F2 F3.
  cbn [app]. etransitivity; [apply eq_t; reflexivity|cbv beta].
  assert (T2 : pad_type_of_str (lit k2) = Ok (choose [("smd", Smd); ("thru_hole", Pth)] NpPth (lit k2))) by (cbn [In] in I2; repeat destruct I2 as [<-|I2]; try contradiction; reflexivity).
  assert (T3 : pad_shape_of_str (lit k3) = Ok (choose [("rect", Rect); ("circle", Circle); ("oval", Oval)] Trapezoid (lit k3))) by (cbn [In] in I3; repeat destruct I3 as [<-|I3]; try contradiction; reflexivity).
  etransitivity; [apply eq_word; exact T2|cbv beta]. etransitivity; [apply eq_word; exact T3|cbv beta].
  parts; cbn [app]; repeat first [estep | etransitivity; [apply eq_rest; assumption|cbv beta]].
  all: unfold pbind, p_vec; rewrite M; cbn [bind]; unfold plift; rewrite K; cbn [bind].
  all: repeat match goal with F : follows (GramSpec.drill W) ?x |- _ => let l := fresh "l" in destruct (form_inv _ _ _ F) as (l & -> & _); clear F end.
  all: cbv beta delta [g_at g_point g_layers] in *; names; reflexivity.
Qed.

(** ** Elements of footprints *)
Lemma mn_first {A} (p : P A) k b (v : sexp -> A) : (forall l, follow_all b l -> exists r, p l = Ok (v (SList (SStr (lit k) :: l)), r) /\ r = []) -> means (first_after p) (Form k b) v.
Proof.
  intros R s H. destruct (form_inv _ _ _ H) as (l & -> & F). destruct (R l F) as (r & E & ->). unfold first_after. cbn [sx_list_name sx_list bind sx_string].
  now apply eq_form with [].
Qed.
Lemma mn_string k : means de_string_element (fld k text) (value txt).
Proof.
  apply mn_first. intros l F. parts. exists []. split; [|reflexivity]. destruct (word_inv _ _ F0) as (t & -> & _). reflexivity.
Qed.
Lemma mn_float k : means de_float_element (fld k (num W)) (value number).
Proof. apply mn_first. intros l F. parts. exists []. split; [|reflexivity]. unfold p_f, p_t. rewrite (mn_num _ F0). reflexivity. Qed.
Lemma mn_stamp k : means de_stamp_element (fld k (hex W)) (value hexa_value).
Proof.
  apply mn_first. intros l F. parts. exists []. split; [|reflexivity]. destruct (word_inv _ _ F0) as (t & -> & z & Z). apply hex_iff in Z.
  unfold pbind, p_s, p_t, plift. cbn [sx_string bind]. unfold value, hexa_value, txt. cbn [arg nth kids]. rewrite Z. reflexivity.
Qed.
Lemma eq_el {A} k b s (c : A -> element) (f : sexp -> res A) v : means f (Form k b) v -> follows (Form k b) s ->
  (forall l, de_element (SList (SStr (lit k) :: l)) = rmap c (f (SList (SStr (lit k) :: l)))) -> (forall l, element_of (SList (SStr (lit k) :: l)) = c (v (SList (SStr (lit k) :: l)))) ->
  de_element s = Ok (element_of s).
Proof. intros F H E V. pose proof (F s H) as K. destruct (form_inv _ _ _ H) as (l & -> & _). rewrite E, K, V. reflexivity. Qed.
Ltac el lm := eapply eq_el; [apply lm|eassumption|intros; reflexivity|intros; reflexivity].
Lemma mn_element g : In g (g_elements W) -> means de_element g element_of.
Proof.
  unfold g_elements. cbn [In]. intros I s H. repeat destruct I as [<-|I]; try contradiction.
  - rewrite (lit_inv _ _ H). reflexivity.
  - el mn_float.
  - el mn_float.
  - el mn_layer.
  - el mn_string.
  - el mn_string.
  - el mn_string.
  - el mn_string.
  - el mn_stamp.
  - el mn_stamp.
  - el mn_at.
  - el mn_text_el.
  - el mn_pad.
  - el mn_model.
  - el mn_poly.
  - el mn_line.
  - el mn_circle.
  - el mn_arc.
Qed.
Lemma mn_module : means de_module (g_module W) module_of.
Proof.
  intros s H. destruct (form_inv _ _ _ H) as (l & -> & F); clear H. apply eq_form with [].
  destruct (one_inv _ _ _ F) as (n & r & -> & N & R). etransitivity; [apply eq_t; eapply sl_text; exact N|cbv beta].
  unfold pbind. rewrite (means_vec de_element element_of _ _) with (2 := R); [reflexivity|]. apply Forall_forall. intros g. apply mn_element.
Qed.

(** ** Boards *)
Lemma mn_version : means de_version (fld "version" (int W)) (value integer). Proof. go. Qed.
Lemma mn_page : means de_page (fld "page" text) (value txt). Proof. go. Qed.
Lemma mn_net : means de_net (g_net W) board_net_of. Proof. go. Qed.
Lemma mn_host : means de_host g_host host_of. Proof. go. Qed.
Lemma mn_area : means de_area (g_area W) area_of. Proof. go. Qed.
Ltac known ::= first [pt | apply mn_at; eassumption | apply mn_xyz; eassumption | apply mn_layer; eassumption | apply mn_layers; eassumption | apply mn_pts; eassumption
  | apply mn_justify; eassumption | apply mn_fnet; eassumption | apply mn_effects; eassumption | apply mn_offset; eassumption | apply mn_drill; eassumption | apply mn_area; eassumption].
Ltac fin ::= cbv beta delta [text g_at g_point g_xyz g_layer g_layers g_stamp g_pts g_font g_justify g_effects g_width g_net g_area] in *; names; reflexivity.
Lemma mn_general : means de_general (g_general W) general_of. Proof. go. Qed.
Lemma mn_kind : means de_ly_type g_kind (fun s => choose [("signal", TSignal); ("power", TPower); ("mixed", TMixed); ("jumper", TJumper)] TUser (txt s)).
Proof.
  intros s H. destruct (word_inv _ _ H) as (t & -> & k & I & ->). cbn [In] in I. repeat destruct I as [<-|I]; try contradiction; reflexivity.
Qed.
Lemma mn_board_layer : means de_ly_layer (g_board_layer W) board_layer_of.
Proof.
  intros s H. destruct (bare_inv _ _ H) as (l & -> & F); clear H. apply eq_bare with [].
  destruct (one_inv _ _ _ F) as (n & r & -> & N & F1). clear F. destruct (one_inv _ _ _ F1) as (y & q & -> & Y & F2). clear F1. destruct (one_inv _ _ _ F2) as (k & z & -> & K & F3). clear F2.
  destruct (word_inv _ _ Y) as (t & -> & T).
  etransitivity; [apply eq_t; apply mn_int; exact N|cbv beta]. etransitivity; [apply eq_word; apply mn_layer_text; exact T|cbv beta].
  etransitivity; [apply eq_t; apply mn_kind; exact K|cbv beta]. parts.
  - estep. reflexivity.
  - estep. reflexivity.
Qed.
Lemma mn_stack : means de_ly_layers (g_stack W) (fun s => map board_layer_of (kids s)).
Proof.
  intros s H. destruct (form_inv _ _ _ H) as (l & -> & F); clear H. apply eq_form with []. apply means_vec with (gs := [g_board_layer W]); [|exact F].
  constructor; [apply mn_board_layer|constructor].
Qed.
Lemma mn_setting q : means de_setup_element (g_setting (Word q)) setting_of.
Proof.
  intros s H. destruct (bare_inv _ _ H) as (l & -> & F); clear H. apply eq_bare with []. parts; repeat estep; reflexivity.
Qed.
Lemma foldM_means {A} (f : A -> sexp -> res A) (v : A -> sexp -> A) gs l : (forall g, In g gs -> forall a s, follows g s -> f a s = Ok (v a s)) -> follow_all [Rep gs] l ->
  forall a, foldM f a l = Ok (fold_left v l a).
Proof.
  intros M H. assert (E : forall s, In s l -> forall a, f a s = Ok (v a s)). { intros s I a. destruct (rep_in _ _ _ H I) as (g & G & F). now apply M with g. }
  clear H. induction l as [|x l IH]; intros a; [reflexivity|]. cbn [foldM fold_left]. rewrite (E x (or_introl eq_refl)). cbn [bind]. apply IH. intros s I. apply E. now right.
Qed.
Definition setup_upd (u : setup) (x : sexp) : setup :=
  if called "pcbplotparams" x then mk_setup (su_elements u) (su_plot u ++ map setting_of (kids x)) else mk_setup (su_elements u ++ [setting_of x]) (su_plot u).
Lemma setup_fold l : forall u, fold_left setup_upd l u =
  mk_setup (su_elements u ++ map setting_of (filter (fun x => negb (called "pcbplotparams" x)) l)) (su_plot u ++ flat_map (fun x => map setting_of (kids x)) (filter (called "pcbplotparams") l)).
Proof.
  induction l as [|x l IH]; intros [a b]; cbn [fold_left].
  - cbn [filter map flat_map su_elements su_plot]. now rewrite !app_nil_r.
  - rewrite IH. cbn [filter]. unfold setup_upd. destruct (called "pcbplotparams" x); cbn [negb map flat_map su_elements su_plot]; now rewrite <- app_assoc.
Qed.
Lemma mn_setup : means de_setup (g_setup W) setup_of.
Proof.
  intros s H. destruct (form_inv _ _ _ H) as (l & -> & F); clear H. apply eq_form with [].
  rewrite (foldM_means setup_step setup_upd _ l) with (2 := F); [cbn [bind]; rewrite setup_fold; reflexivity|].
  cbn [flat_map loose W app In]. intros g [<-|[<-|[]]] u s H.
  - pose proof (mn_setting _ s H) as V. destruct (bare_inv _ _ H) as (q & -> & G). destruct (one_inv _ _ _ G) as (x & r & -> & X & _). destruct (word_inv _ _ X) as (n & -> & N).
    unfold setup_step, setup_upd. cbn [sx_list_name sx_list bind sx_string called]. destruct (str_eqb_spec n (lit "pcbplotparams")); [contradiction|]. rewrite V. reflexivity.
  - destruct (form_inv _ _ _ H) as (q & -> & G). unfold setup_step, setup_upd. cbn [sx_list_name sx_list bind sx_string called]. rewrite str_eqb_refl.
    rewrite (eq_form "pcbplotparams" (p_vec de_setup_element) q (map setting_of q) []); [reflexivity|]. apply means_vec with (gs := [g_setting text]); [|exact G].
    constructor; [apply mn_setting|constructor].
Qed.
Definition up {A} (x : sexp) (k : string) (f : sexp -> A) (d : A) : A := if called k x then f x else d.
Definition class_upd (n : net_class) (x : sexp) : net_class :=
  mk_nc (nc_name n) (nc_desc n) (up x "clearance" (value number) (nc_clearance n)) (up x "trace_width" (value number) (nc_trace_width n)) (up x "via_dia" (value number) (nc_via_dia n))
    (up x "via_drill" (value number) (nc_via_drill n)) (up x "uvia_dia" (value number) (nc_uvia_dia n)) (up x "uvia_drill" (value number) (nc_uvia_drill n))
    (up x "diff_pair_gap" (valued number) (nc_dp_gap n)) (up x "diff_pair_width" (valued number) (nc_dp_width n)) (LyData.nc_nets n ++ (if called "add_net" x then [value txt x] else [])).
Lemma class_fold l : forall n, fold_left class_upd l n =
  mk_nc (nc_name n) (nc_desc n) (last_field "clearance" (value number) (nc_clearance n) l) (last_field "trace_width" (value number) (nc_trace_width n) l) (last_field "via_dia" (value number) (nc_via_dia n) l)
    (last_field "via_drill" (value number) (nc_via_drill n) l) (last_field "uvia_dia" (value number) (nc_uvia_dia n) l) (last_field "uvia_drill" (value number) (nc_uvia_drill n) l)
    (last_field "diff_pair_gap" (valued number) (nc_dp_gap n) l) (last_field "diff_pair_width" (valued number) (nc_dp_width n) l) (LyData.nc_nets n ++ map (value txt) (filter (called "add_net") l)).
Proof.
  induction l as [|x l IH]; intros n; cbn [fold_left].
  - cbn [filter map]. rewrite app_nil_r. destruct n. reflexivity.
  - rewrite IH. unfold class_upd at 1. cbn [nc_name nc_desc nc_clearance nc_trace_width nc_via_dia nc_via_drill nc_uvia_dia nc_uvia_drill nc_dp_gap nc_dp_width LyData.nc_nets].
    unfold class_upd. cbn [nc_name nc_desc nc_clearance nc_trace_width nc_via_dia nc_via_drill nc_uvia_dia nc_uvia_drill nc_dp_gap nc_dp_width LyData.nc_nets].
    cbn [filter]. rewrite <- app_assoc. unfold up, last_field. cbn [fold_left]. destruct (called "add_net" x); reflexivity.
Qed.
Lemma eq_ncf k v : follows (fld k (num W)) v -> de_nc_float (lit k) v = Ok (value number v).
Proof. revert v. go. Qed.
Lemma class_step g : In g [fld "clearance" (num W); fld "trace_width" (num W); fld "via_dia" (num W); fld "via_drill" (num W); fld "uvia_dia" (num W); fld "uvia_drill" (num W);
  fld "diff_pair_gap" (num W); fld "diff_pair_width" (num W); fld "add_net" text] -> forall n s, follows g s -> nc_step n s = Ok (class_upd n s).
Proof.
  cbn [In]. intros I n s H. repeat destruct I as [<-|I]; try contradiction.
  1-8: pose proof (eq_ncf _ _ H) as V; destruct (form_inv _ _ _ H) as (l & -> & _); destruct n as [nm de cl tw vd vr ud ur gap wid nets];
    unfold nc_step; cbn [sx_list_name sx_list bind sx_string]; 
    repeat match goal with |- context [str_eqb (lit ?a) (lit ?b)] => let E := fresh in first [assert (E : str_eqb (lit a) (lit b) = true) by reflexivity | assert (E : str_eqb (lit a) (lit b) = false) by reflexivity]; rewrite E; clear E end;
    cbv iota; rewrite V; cbn [bind]; unfold class_upd; cbn [nc_name nc_desc nc_clearance nc_trace_width nc_via_dia nc_via_drill nc_uvia_dia nc_uvia_drill nc_dp_gap nc_dp_width LyData.nc_nets];
    unfold up; rewrite <- (app_nil_r nets) at 1; reflexivity.
  destruct (fld_inv _ _ _ H) as (v & -> & F). destruct (word_inv _ _ F) as (t & -> & _). destruct n as [nm de cl tw vd vr ud ur gap wid nets]. reflexivity.
Qed.
Lemma mn_net_class : means de_net_class (g_net_class W) class_of.
Proof.
  intros s H. destruct (form_inv _ _ _ H) as (l & -> & F); clear H. apply eq_form with [].
  destruct (one_inv _ _ _ F) as (n & r & -> & N & F1). clear F. destruct (one_inv _ _ _ F1) as (d & q & -> & D & F2). clear F1.
  destruct (word_inv _ _ N) as (tn & -> & _). destruct (word_inv _ _ D) as (td & -> & _).
  etransitivity; [apply eq_t; reflexivity|cbv beta]. etransitivity; [apply eq_t; reflexivity|cbv beta].
  rewrite (foldM_means nc_step class_upd _ q) with (2 := F2); [|exact class_step].
  cbn [bind]. rewrite class_fold. reflexivity.
Qed.
Lemma mn_gr_text : means de_gr_text (g_gr_text W) board_text_of. Proof. go. Qed.
Lemma mn_gr_line : means de_gr_line (g_gr_line W) board_line_of. Proof. go. Qed.
Lemma mn_gr_arc : means de_gr_arc (g_gr_arc W) board_arc_of. Proof. go. Qed.
Lemma mn_gr_circle : means de_gr_circle (g_gr_circle W) board_circle_of. Proof. go. Qed.
Lemma mn_segment : means de_segment (g_segment W) segment_of. Proof. go. Qed.
Lemma mn_via : means de_via (g_via W) via_of. Proof. go. Qed.
Lemma mn_hatch : means de_hatch (g_hatch W) hatch_of. Proof. go. Qed.
Lemma mn_connect : means de_connect (g_connect W) connect_of. Proof. go. Qed.
Lemma mn_keepout : means de_keepout g_keepout keepout_of.
Proof.
  intros s H. destruct (form_inv _ _ _ H) as (l & -> & F); clear H. apply eq_form with []. unfold g_rule in F. parts. repeat estep.
  repeat match goal with F : follows (fld _ _) ?x |- _ => let v := fresh "v" in let G := fresh in destruct (fld_inv _ _ _ F) as (v & -> & G); clear F;
    destruct (word_inv _ _ G) as (? & -> & ? & [<-|[<-|[]]] & ->); clear G end; reflexivity.
Qed.
Lemma mn_fill : means de_fill (g_fill W) fill_of. Proof. go. Qed.
Ltac known ::= first [pt | apply mn_at; eassumption | apply mn_xyz; eassumption | apply mn_layer; eassumption | apply mn_layers; eassumption | apply mn_pts; eassumption
  | apply mn_justify; eassumption | apply mn_fnet; eassumption | apply mn_effects; eassumption | apply mn_gr_text; eassumption
  | apply mn_hatch; eassumption | apply mn_connect; eassumption | apply mn_keepout; eassumption | apply mn_fill; eassumption].
Lemma mn_dimension : means de_dimension (g_dimension W) dimension_of.
Proof.
  intros s H. destruct (form_inv _ _ _ H) as (l & -> & F); clear H. apply eq_form with []. parts; repeat estep; cbv beta delta [g_gr_text] in *; fin.
Qed.

