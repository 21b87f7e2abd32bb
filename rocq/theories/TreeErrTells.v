(** What is said about footprints and boards, exactly (C106). *)
From Coq Require Import String.
From Verif Require Import Base Str StrFacts Num F64 F64Text Sexp NoPanic SxTotal FpData FpLayer FpDe LyData LyDe GramSpec GramRead MeanSpec MeanFacts WideSpec WideSound WideMean WideBoard WideCrash.
From Verif Require Import TreeErr TreeErrSpec TreeErrAgree TreeErrFacts.
Open Scope string_scope. Open Scope list_scope.

Lemma side_none a : side_of_str a = None <-> ~ known sides a.
Proof.
  split.
  - intros N (k & I & ->). unfold sides in I. apply in_map_iff in I as ([j d] & E & I). cbn [fst] in E. subst j. assert (S : side_of_str (lit k) = Some d) by (apply side_iff; now exists k).
    rewrite S in N. discriminate N.
  - intros N. destruct (side_of_str a) as [d|] eqn:E; [|reflexivity]. apply side_iff in E as (k & -> & I). destruct N. exists k. split; [|reflexivity].
    apply in_map_iff. now exists (k, d).
Qed.
Lemma layer_fine w : (exists a, layer_told w = TFine a) <-> exists l, layer_text w l.
Proof.
  etransitivity; [apply agree_fine, ag_layer_name|]. unfold layer_from_str. split; intros [l H].
  - destruct (layer_of_str w) as [u|] eqn:E; [|discriminate H]. exists u. now apply layer_iff.
  - apply layer_iff in H. rewrite H. now exists l.
Qed.
Lemma layer_bad w m : layer_told w = TSays m <-> side_says (SStr w) m.
Proof.
  unfold layer_told, side_says. destruct (split_dots w) as (a & r & E & D & H). rewrite E. split.
  - destruct r as [|b [|c r]]; try discriminate. destruct H as [-> B]. destruct (side_of_str a) eqn:S; [discriminate|]. intros [= <-].
    exists a, b. split; [reflexivity|]. split; [exact D|]. split; [exact B|]. split; [now apply side_none|reflexivity].
  - intros (x & y & [= ->] & X & Y & N & ->). rewrite split_dot, split_plain in E by assumption. injection E as <- <-. apply side_none in N. now rewrite N.
Qed.
Lemma side_word s m : side_says s m -> exists w, s = SStr w.
Proof. intros (a & b & -> & _). now eexists. Qed.
Lemma layer_exact s m : t_layer s = TSays m <-> layer_says s m.
Proof.
  apply say_new. apply say_word; [exact layer_fine|exact layer_bad|exact side_word|]. intros v. apply say_nil, silent_of.
Qed.
Lemma layer_tells : tells t_layer (g_layer V) layer_says.
Proof. exact (tells_of _ _ _ _ _ ag_layer sn_layer wm_layer layer_exact). Qed.
Lemma name_tells : tells (fun x => ask n <- tlift (sx_string x); layer_told n) (layer_name V) side_says.
Proof. apply tells_word; [exact layer_fine|exact layer_bad|exact side_word]. Qed.
Lemma one_takes {A} (t : sexp -> told A) g : takes t (follows g) -> takes t (one_of [g]).
Proof. intros T s. etransitivity; [apply T|]. split; [intros F; exists g; split; [now left|exact F]|intros (h & [<-|[]] & F); exact F]. Qed.
Lemma layers_exact s m : t_layers s = TSays m <-> layers_says s m.
Proof. apply say_new. apply say_vec; [apply one_takes, name_tells|apply name_tells]. Qed.
Lemma layers_tells : tells t_layers (g_layers V) layers_says.
Proof. exact (tells_of _ _ _ _ _ ag_layers sn_layers wm_layers layers_exact). Qed.
(** Tables of names *)
Lemma not_known l w : (forall k, In k l -> w <> lit k) -> ~ known l w.
Proof. intros N (k & I & E). exact (N k I E). Qed.
Ltac unknown := apply not_known; let k := fresh in let I := fresh in intros k I; simpl in I; repeat destruct I as [<-|I]; try assumption; contradiction.
Ltac through w := repeat match goal with |- context [str_eqb w (lit ?k)] => destruct (str_eqb_spec w (lit k)) as [->|?] end.
Ltac known_in N := destruct N; match goal with |- known _ (lit ?k) => exists k; split; [simpl; tauto|reflexivity] end.
Lemma xy_type_says w m : xy_type_told w = TSays m <-> ~ known point_names w /\ m = lit "unknown XyType " ++ w.
Proof.
  unfold xy_type_told. through w; try (split; [discriminate|intros [N _]; exfalso; known_in N]).
  split; [|intros [_ ->]; reflexivity]. intros H. assert (E : lit "unknown XyType " ++ w = m) by now injection H. split; [unknown|now symmetry].
Qed.
Lemma tbind_says {A B} (r : res A) (f : A -> told B) m : tbind (tlift r) f = TSays m <-> exists a, r = Ok a /\ f a = TSays m.
Proof. destruct r as [a| |]; cbn [tlift tbind]; [split; [intros H; now exists a|intros (b & [= <-] & H); exact H]| |]; (split; [discriminate|intros (b & E & _); discriminate E]). Qed.
Lemma list_name_iff s k : sx_list_name s = Ok k <-> exists l, s = SList (SStr k :: l).
Proof. split; [apply name_inv|]. intros [l ->]. reflexivity. Qed.
Lemma point_exact s m : t_xy s = TSays m <-> point_says s m.
Proof.
  unfold t_xy, point_says, name_says. rewrite tbind_says. split.
  - intros (k & K & H). apply list_name_iff in K as [l ->]. exists k, l. split; [reflexivity|]. apply xy_type_says.
    destruct (xy_type_told k) as [t|n| |]; cbn [tbind] in H; try discriminate H; [|now injection H as ->]. exfalso. revert H. unfold t_new.
    destruct (str_eqb k k); [|discriminate]. intros H.
    assert (S : silent (see x := tp_of p_f in see y := tp_of p_f in tp_of (p_close (mk_xy x y t)))) by (do 2 (apply silent_bind; intros ?); apply silent_of).
    specialize (S l m). destruct ((see x := tp_of p_f in see y := tp_of p_f in tp_of (p_close (mk_xy x y t))) l); cbn [tbind] in H; try discriminate H. injection H as ->. now apply S.
  - intros (k & l & -> & N & ->). exists k. split; [reflexivity|]. rewrite (proj2 (xy_type_says k (lit "unknown XyType " ++ k)) (conj N eq_refl)). reflexivity.
Qed.
Lemma point_tells : tells t_xy w_point point_says.
Proof. exact (tells_of _ _ _ _ _ ag_xy sn_xy wm_point point_exact). Qed.
Lemma pts_exact s m : t_pts s = TSays m <-> pts_says s m.
Proof. apply say_new. apply say_vec; [apply one_takes, point_tells|apply point_tells]. Qed.
Lemma pts_tells : tells t_pts w_pts pts_says.
Proof. exact (tells_of _ _ _ _ _ ag_pts sn_pts wm_pts pts_exact). Qed.
Lemma slice_iff k s v : sx_slice1 (lit k) s = Ok v <-> s = SList [SStr (lit k); v].
Proof.
  unfold sx_slice1. split.
  - destruct s as [|l|]; try discriminate. cbn [sx_list bind]. destruct l as [|[n| |] [|w [|? ?]]]; try discriminate. destruct (str_eqb_spec n (lit k)) as [->|]; [|discriminate]. now intros [= ->].
  - intros ->. cbn [sx_list bind]. now rewrite str_eqb_refl.
Qed.
Lemma fld_tells {A} k (t : sexp -> told A) g c : tells t g c -> tells (fun s => ask v <- tlift (sx_slice1 (lit k) s); t v) (fld k g) (fld_says k c).
Proof.
  intros [T C]. split.
  - intros s. split.
    + intros [a H]. destruct (sx_slice1 (lit k) s) as [v| |] eqn:E; try discriminate H. apply slice_iff in E. subst s. cbn [tlift tbind] in H. constructor; [reflexivity|].
      apply fa_one; [apply T; now exists a|constructor].
    + intros F. inversion F as [|? ? k' l E G| |]; subst. inversion G as [|? ? x ? X Z| | | |]; subst. inversion Z; subst. apply T in X as [a X]. exists a.
      rewrite (proj2 (slice_iff k _ x) eq_refl). exact X.
  - intros s m. rewrite tbind_says. unfold fld_says. split; intros (v & E & H); exists v; (split; [now apply slice_iff|now apply C]).
Qed.

Section Show.
Context (sh : sexp -> str) (dbg : f64 -> str).
Lemma tmap_says {A B} (f : A -> B) t m : tmap f t = TSays m <-> t = TSays m.
Proof. unfold tmap. destruct t; cbn [tbind]; split; try discriminate; now intros [= <-]. Qed.
Lemma second_says {A} (f : sexp -> res A) k l m : t_second sh f (SList (SStr k :: l)) = TSays m <-> l = [] /\ m = lit "not enough elements in " ++ sh (SList [SStr k]).
Proof.
  unfold t_second. change (tbind (tlift (sx_list (SList (SStr k :: l)))) ?f) with (f (SStr k :: l)). cbv beta. destruct l as [|x l].
  - split; [|intros [_ ->]; reflexivity]. intros H. split; [reflexivity|]. symmetry. exact (f_equal (fun t => match t with TSays n => n | _ => [] end) H).
  - split; [intros H; destruct (lift_says _ _ H)|intros [E _]; discriminate E].
Qed.
Lemma part_exact s m : t_part sh s = TSays m <-> part_says sh s m.
Proof.
  unfold t_part. rewrite tbind_says. split.
  - intros (k & K & H). apply list_name_iff in K as [l ->]. unfold part_says, name_says.
    repeat match type of H with context [str_eqb k (lit ?j)] => destruct (str_eqb_spec k (lit j)) as [->|?];
      [apply tmap_says in H; first [apply second_says in H as [-> ->]; left; exists j; split; [cbn [In value_parts]; tauto|split; reflexivity]|destruct (lift_says _ _ H)]|] end.
    right. exists k, l. split; [reflexivity|]. split; [unknown|]. symmetry. exact (f_equal (fun t => match t with TSays n => n | _ => [] end) H).
  - intros [(j & I & -> & ->)|(k & l & -> & N & ->)].
    + exists (lit j). split; [reflexivity|]. cbn [In value_parts] in I. repeat destruct I as [<-|I]; try contradiction; reflexivity.
    + exists k. split; [reflexivity|]. through k; try (exfalso; known_in N). reflexivity.
Qed.
(** The parts of a pad: what is read, and what becomes of a thickness *)
Definition plain_part (y : part) : Prop := forall f, y <> PaThickness f.
Lemma second_ok {A} (f : sexp -> res A) g v k s : means f g v -> follows (start k g) s -> second f s = Ok (value v s).
Proof.
  intros M F. inversion F as [|? ? k' l E G| |]; subst. inversion G as [|? ? x r X Z| | | |]; subst. unfold second. cbn [sx_list bind]. now apply M.
Qed.
Lemma part_kind s y : de_part s = Ok y -> (one_of w_parts s /\ plain_part y) \/ (follows g_thickness s /\ y = PaThickness (value number s)).
Proof.
  unfold de_part. destruct (sx_list_name s) as [n| |] eqn:N; try discriminate. apply name_inv in N as [l ->]. cbn [bind]. intros H.
  destruct (str_eqb_spec n (lit "thickness")) as [->|].
  { apply rmap_inv in H as (a & H & ->). right. pose proof (sn_second "thickness" sx_f (num V) l a sn_num H) as F. split; [exact F|].
    pose proof (second_ok sx_f (num V) number "thickness" _ wm_num F) as E. rewrite H in E. f_equal. exact (f_equal (fun r => match r with Ok z => z | _ => a end) E). }
  left.
  repeat match goal with H : context [str_eqb n (lit ?k)] |- _ => destruct (str_eqb_spec n (lit k)) as [->|];
    [apply rmap_inv in H as (a & H & ->); split; [match type of H with
       | second ?f _ = _ => eexists; split; [|eapply sn_second; [|exact H]; first [apply sn_num|apply sn_int]]; cbn [In w_parts]; tauto
       | _ => eexists; split; [|eapply sn_fnet; exact H]; cbn [In w_parts]; tauto end|intros ?; discriminate]|] end.
  discriminate H.
Qed.
Lemma part_good s : one_of (g_thickness :: w_parts) s -> exists y, de_part s = Ok y.
Proof.
  intros (g & I & F). cbn [In w_parts] in I.
  destruct I as [<-|[<-|I]].
  - assert (E := second_ok sx_f (num V) number "thickness" s wm_num F). inversion F; subst. unfold de_part. cbn [sx_list_name sx_list sx_string bind]. rewrite str_eqb_refl.
    rewrite E. cbn [rmap bind]. eexists. reflexivity.
  - assert (E := wm_fnet s F). inversion F; subst. unfold de_part. cbn [sx_list_name sx_list sx_string bind].
    change (str_eqb (lit "net") (lit "thickness")) with false. rewrite str_eqb_refl. rewrite E. eexists. reflexivity.
  - repeat destruct I as [<-|I]; try contradiction;
      [assert (E := second_ok sx_i (int V) integer _ s wm_int F)|assert (E := second_ok sx_f (num V) number _ s wm_num F)..];
      inversion F; subst; unfold de_part; cbn [sx_list_name sx_list sx_string bind];
      repeat match goal with |- context [str_eqb (lit ?j) (lit ?k)] => first [change (str_eqb (lit j) (lit k)) with false|change (str_eqb (lit j) (lit k)) with true] end; cbv iota;
      rewrite E; eexists; reflexivity.
Qed.
Lemma part_takes : takes (t_part sh) (one_of (g_thickness :: w_parts)).
Proof.
  intros s. etransitivity; [apply agree_fine, ag_part|]. split; [|apply part_good]. intros [y H]. apply part_kind in H as [[(g & I & F) _]|[F _]].
  - exists g. split; [now right|exact F].
  - exists g_thickness. split; [now left|exact F].
Qed.
Lemma part_value s y : t_part sh s = TFine y -> (one_of w_parts s /\ plain_part y) \/ (follows g_thickness s /\ y = PaThickness (value number s)).
Proof. intros H. apply part_kind. pose proof (ag_part sh s) as G. rewrite H in G. destruct (de_part s); try contradiction G. cbn [agree] in G. now subst. Qed.
Lemma not_both s : one_of w_parts s -> follows g_thickness s -> False.
Proof.
  intros (g & I & F) T. inversion T as [|? ? k l E _| |]; subst. cbn [In w_parts] in I. repeat destruct I as [<-|I]; try contradiction; inversion F as [|? ? ? ? Q _| |]; discriminate Q.
Qed.
Lemma pad_part_ok p y : plain_part y -> exists q, pad_part_told dbg p y = TFine q.
Proof. intros Y. destruct y; try (destruct p; eexists; reflexivity). destruct (Y f eq_refl). Qed.
Lemma pad_parts_says ps m : forall p, pad_parts_told dbg p ps = TSays m <->
  exists a f r, ps = a ++ PaThickness f :: r /\ Forall plain_part a /\ m = lit "pad: unknown Thickness(" ++ dbg f ++ lit ")".
Proof.
  induction ps as [|y ps IH]; intros p.
  - split; [discriminate|]. intros (a & f & r & E & _). destruct a; discriminate E.
  - cbn [pad_parts_told]. split.
    + intros H. assert (D : plain_part y \/ exists f, y = PaThickness f) by (destruct y; try (left; intros ?; discriminate); right; now eexists). destruct D as [Y|[f ->]].
      * destruct (pad_part_ok p y Y) as [q Q]. rewrite Q in H. cbn [tbind] in H. apply IH in H as (a & g & r & -> & A & M). exists (y :: a), g, r.
        split; [reflexivity|]. split; [constructor; assumption|exact M].
      * exists [], f, ps. split; [reflexivity|]. split; [constructor|]. symmetry. exact (f_equal (fun t => match t with TSays n => n | _ => [] end) H).
    + intros (a & f & r & E & A & ->). destruct a as [|z a]; injection E as -> ->; [reflexivity|]. inversion A as [|? ? Z A']; subst. destruct (pad_part_ok p z Z) as [q ->]. cbn [tbind].
      apply IH. exists a, f, r. split; [reflexivity|]. split; [exact A'|reflexivity].
Qed.
Lemma tmapM_fine {A} (t : sexp -> told A) l : forall v, tmapM t l = TFine v -> Forall2 (fun s y => t s = TFine y) l v.
Proof.
  induction l as [|x l IH]; intros v H; cbn [tmapM] in H; [injection H as <-; constructor|]. destruct (t x) as [a| | |] eqn:E; try discriminate H. cbn [tbind] in H.
  destruct (tmapM t l) as [w| | |]; try discriminate H. injection H as <-. constructor; [exact E|now apply IH].
Qed.
Lemma tmapM_all {A} (t : sexp -> told A) l : Forall (fun s => exists y, t s = TFine y) l -> exists v, tmapM t l = TFine v.
Proof. intros F. induction F as [|x l [y Y] F [v V]]; [now exists []|]. cbn [tmapM]. rewrite Y, V. now eexists. Qed.
Lemma plain_parts a : forall v, Forall2 (fun s y => t_part sh s = TFine y) a v -> Forall plain_part v <-> Forall (one_of w_parts) a.
Proof.
  intros v F. induction F as [|s y a v Y F IH]; [split; constructor|]. apply part_value in Y. split; intros Z; inversion Z as [|? ? Z1 Z2]; subst; constructor; try (now apply IH).
  - destruct Y as [[Y _]|[_ ->]]; [exact Y|]. destruct (Z1 (value number s) eq_refl).
  - destruct Y as [[_ Y]|[Y _]]; [exact Y|]. destruct (not_both s Z1 Y).
Qed.
Lemma parts_exact p b : tellsP (see parts := tp_vec (t_part sh) in tplift (pad_parts_told dbg p parts)) (Rest (parts_say sh dbg) :: b).
Proof.
  intros l m. transitivity (parts_say sh dbg l m); [|split; [apply ss_rest|intros H; now inversion H]].
  pose proof (each_takes (t_part sh) _ (part_says sh) l m part_takes part_exact) as E. unfold tpbind, tp_vec, tplift, parts_say. destruct (tmapM (t_part sh) l) as [ps|n| |] eqn:M; cbn [tbind].
  - apply tmapM_fine in M. transitivity (pad_parts_told dbg p ps = TSays m); [destruct (pad_parts_told dbg p ps); split; try discriminate; now intros [= <-]|].
    etransitivity; [apply pad_parts_says|]. split.
    + intros (a & f & r & -> & A & ->). apply Forall2_app_inv_r in M as (a' & l' & F & G & ->). inversion G as [|s y r' ? Y G']; subst. right. split.
      * apply Forall_app. split; [|constructor].
        -- apply plain_parts in F. apply F in A. eapply Forall_impl; [|exact A]. intros z (g & I & Z). exists g. split; [now right|exact Z].
        -- apply part_takes. exists (PaThickness f). exact Y.
        -- clear -G' dbg. induction G' as [|z y l v Y G IH]; [constructor|]. constructor; [apply part_takes; now exists y|exact IH].
      * exists a', s, r'. split; [reflexivity|]. split; [now apply (plain_parts a' a F)|]. apply part_value in Y as [[_ Y]|[Y Q]]; [destruct (Y f eq_refl)|].
        split; [exact Y|]. rewrite <- (f_equal (fun y => match y with PaThickness z => z | _ => f end) Q). reflexivity.
    + intros [H|[F (a & s & r & -> & A & T & ->)]]; [exfalso; apply E in H; discriminate H|].
      apply Forall2_app_inv_l in M as (v & w & G & H & ->). inversion H as [|? y ? w' Y H']; subst. apply part_value in Y as [[Y _]|[_ ->]]; [destruct (not_both s Y T)|].
      exists v, (value number s), w'. split; [reflexivity|]. split; [now apply (plain_parts a v G)|reflexivity].
  - split.
    + intros H. left. apply E. exact (f_equal (fun t => match t with TSays k => TSays k | _ => TOther end) H).
    + intros [H|[F _]]; [apply E in H; now injection H as ->|]. exfalso. assert (T : exists v, tmapM (t_part sh) l = TFine v).
      { apply tmapM_all. eapply Forall_impl; [|exact F]. intros z. apply part_takes. }
      destruct T as [v T]. rewrite M in T. discriminate T.
  - split; [discriminate|]. intros [H|[F _]]; [apply E in H; discriminate H|]. exfalso. assert (T : exists v, tmapM (t_part sh) l = TFine v).
    { apply tmapM_all. eapply Forall_impl; [|exact F]. intros z. apply part_takes. }
    destruct T as [v T]. rewrite M in T. discriminate T.
  - split; [discriminate|]. intros [H|[F _]]; [apply E in H; discriminate H|]. exfalso. assert (T : exists v, tmapM (t_part sh) l = TFine v).
    { apply tmapM_all. eapply Forall_impl; [|exact F]. intros z. apply part_takes. }
    destruct T as [v T]. rewrite M in T. discriminate T.
Qed.
Lemma word_known l f : forall s m, word_says l f s m -> exists w, s = SStr w.
Proof. intros s m (w & -> & _). now exists w. Qed.
Lemma type_fine w : (exists a, pad_type_told w = TFine a) <-> exists k, In k pad_types /\ w = lit k.
Proof.
  unfold pad_type_told. split.
  - intros [a H]. revert H. through w; try (intros _; match goal with |- exists k, _ /\ lit ?j = lit k => exists j end; split; [simpl; tauto|reflexivity]). discriminate.
  - intros (k & I & ->). simpl in I. repeat destruct I as [<-|I]; try contradiction; eexists; reflexivity.
Qed.
Lemma type_bad w m : pad_type_told w = TSays m <-> word_says pad_types (fun w => lit "unknown PadType " ++ w) (SStr w) m.
Proof.
  unfold pad_type_told, word_says. split.
  - through w; try discriminate. intros H. exists w. split; [reflexivity|]. split; [unknown|]. now injection H.
  - intros (v & [= <-] & N & ->). through w; try (exfalso; known_in N). reflexivity.
Qed.
Lemma shape_fine w : (exists a, pad_shape_told w = TFine a) <-> exists k, In k pad_shapes /\ w = lit k.
Proof.
  unfold pad_shape_told. split.
  - intros [a H]. revert H. through w; try (intros _; match goal with |- exists k, _ /\ lit ?j = lit k => exists j end; split; [simpl; tauto|reflexivity]). discriminate.
  - intros (k & I & ->). simpl in I. repeat destruct I as [<-|I]; try contradiction; eexists; reflexivity.
Qed.
Lemma shape_bad w m : pad_shape_told w = TSays m <-> word_says pad_shapes (fun w => lit "unknown PadShape: " ++ w) (SStr w) m.
Proof.
  unfold pad_shape_told, word_says. split.
  - through w; try discriminate. intros H. exists w. split; [reflexivity|]. split; [unknown|]. now injection H.
  - intros (v & [= <-] & N & ->). through w; try (exfalso; known_in N). reflexivity.
Qed.
Lemma pad_exact s m : t_pad sh dbg s = TSays m <-> pad_says sh dbg s m.
Proof.
  apply say_new. apply (say_p _ _ txt); [apply sn_text|apply mn_text|intros ?]. apply say_word; [exact type_fine|exact type_bad|apply word_known|intros ?].
  apply say_word; [exact shape_fine|exact shape_bad|apply word_known|intros ?]. apply (say_maybe _ _ at_of); [apply sn_at|apply wm_at|apply np_at|intros ?].
  apply (say_maybe _ _ any_point_of); [apply sn_xy|apply wm_point|apply np_xy|intros ?]. cbv zeta.
  apply (say_maybe _ _ drill_of); [apply sn_drill|apply wm_drill|apply np_drill|intros ?].
  apply (say_maybe _ _ layers_of); [apply sn_layers|apply wm_layers|apply np_layers|intros ?]. apply parts_exact.
Qed.
Lemma lifted {A B} (f : A -> B) r m : tmap f (tlift r) = TSays m -> False.
Proof. intros H. apply tmap_says in H. exact (lift_says _ _ H). Qed.
Lemma pad_named s m : pad_says sh dbg s m -> exists l, s = SList (SStr (lit "pad") :: l).
Proof. intros (l & -> & _). now exists l. Qed.
Lemma layer_named s m : layer_says s m -> exists l, s = SList (SStr (lit "layer") :: l).
Proof. intros (l & -> & _). now exists l. Qed.
Lemma element_exact s m : t_element sh dbg s = TSays m <-> element_says sh dbg s m.
Proof.
  split.
  - destruct s as [w|l|]; [| |discriminate].
    + unfold t_element. through w; [discriminate|]. intros H. left. exists w. split; [reflexivity|]. split; [unknown|now injection H].
    + unfold t_element. intros H. apply tbind_says in H as (k & K & H). apply list_name_iff in K as [r K]. injection K as ->.
      destruct (str_eqb_spec k (lit "layer")) as [->|L].
      { right. right. left. apply layer_exact. exact (proj1 (tmap_says _ _ _) H). }
      destruct (str_eqb_spec k (lit "pad")) as [->|Q].
      { right. right. right. apply pad_exact. exact (proj1 (tmap_says _ _ _) H). }
      repeat match type of H with context [str_eqb k (lit ?j)] => destruct (str_eqb_spec k (lit j)) as [->|?]; [destruct (lifted _ _ _ H)|] end.
      right. left. exists k, r. split; [reflexivity|]. split; [unknown|now injection H].
  - intros [(w & -> & N & ->)|[(k & l & -> & N & ->)|[H|H]]].
    + unfold t_element. through w; [exfalso; known_in N|reflexivity].
    + unfold t_element. cbn [sx_list_name sx_list sx_string bind tlift tbind]. through k; try (exfalso; known_in N). reflexivity.
    + destruct (layer_named _ _ H) as [l ->]. apply layer_exact in H. unfold t_element. cbn [sx_list_name sx_list sx_string bind tlift tbind].
      change (tmap ELayer (t_layer (SList (SStr (lit "layer") :: l))) = TSays m). now apply tmap_says.
    + destruct (pad_named _ _ H) as [l ->]. apply pad_exact in H. unfold t_element. cbn [sx_list_name sx_list sx_string bind tlift tbind].
      change (tmap EPad (t_pad sh dbg (SList (SStr (lit "pad") :: l))) = TSays m). now apply tmap_says.
Qed.
Lemma element_takes : takes (t_element sh dbg) (one_of w_elements).
Proof. intros s. etransitivity; [apply agree_fine, ag_element|]. symmetry. apply element_ok. Qed.
Lemma module_exact s m : t_module sh dbg s = TSays m <-> module_says sh dbg s m.
Proof.
  apply say_new. apply (say_p _ _ txt); [apply sn_text|apply mn_text|intros ?]. apply say_vec_then; [exact element_takes|exact element_exact|]. intros es. apply silent_of.
Qed.
End Show.
