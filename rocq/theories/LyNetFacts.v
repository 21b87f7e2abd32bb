(** Lemmas about net names, lookups and setup values of layouts. *)
From Coq Require Import String Lia.
From Verif Require Import Base Str Num F64 F64Text Sexp StrFacts FpData FpOps FpOpsSpec LyData LyOps LySpec.
Open Scope string_scope. Open Scope list_scope.

(** ** Net names *)

(** What a loop over mutable items does. *)
Lemma for_each_app {A} (f : A -> A * option ekind) a b :
  for_each f (a ++ b) =
  let '(a', k) := for_each f a in
  match k with
  | Some _ => (a' ++ b, k)
  | None => let '(b', k') := for_each f b in (a' ++ b', k')
  end.
Proof.
  induction a as [|x a IH]; cbn [app for_each].
  - destruct (for_each f b) as [b' k']; reflexivity.
  - destruct (f x) as [x' [k|]]; [reflexivity|]. rewrite IH.
    destruct (for_each f a) as [a' [k|]]; [reflexivity|]. destruct (for_each f b); reflexivity.
Qed.

Lemma for_each_ok {A} (f : A -> A * option ekind) l l' :
  for_each f l = (l', None) -> Forall (fun x => snd (f x) = None) l /\ l' = map (fun x => fst (f x)) l.
Proof.
  revert l'. induction l as [|x l IH]; cbn [for_each]; intros l'.
  - intros [= <-]. auto.
  - destruct (f x) as [x' [k|]] eqn:E; [discriminate|].
    destruct (for_each f l) as [r k]. intros [= <- ->]. destruct (IH r eq_refl) as [F ->].
    split; [constructor; [now rewrite E|exact F]|]. cbn [map]. rewrite E. reflexivity.
Qed.
Lemma for_each_err {A} (f : A -> A * option ekind) l l' k :
  for_each f l = (l', Some k) ->
  exists a x b, l = a ++ x :: b /\ Forall (fun x => snd (f x) = None) a /\ snd (f x) = Some k
    /\ l' = map (fun x => fst (f x)) a ++ fst (f x) :: b.
Proof.
  revert l'. induction l as [|x l IH]; cbn [for_each]; intros l'; [discriminate|].
  destruct (f x) as [x' [k'|]] eqn:E.
  - intros [= <- ->]. exists [], x, l. rewrite E. repeat split; constructor.
  - destruct (for_each f l) as [r kk]. intros [= <- ->].
    destruct (IH r eq_refl) as (a & y & b & -> & F & K & ->).
    exists (x :: a), y, b. split; [reflexivity|]. split; [constructor; [now rewrite E|exact F]|].
    split; [exact K|]. cbn [map app]. rewrite E. reflexivity.
Qed.
Lemma for_each_total {A} (f : A -> A) l : for_each (fun x => (f x, None)) l = (map f l, None).
Proof. induction l as [|x l IH]; cbn [for_each map]; [reflexivity|]. now rewrite IH. Qed.

(** A loop over items each of which loops over its own names. *)
Lemma for_each_flat {A B} (F : A -> A * option ekind) (f : B -> B * option ekind)
  (names : A -> list B) (hide : A -> A) l :
  (forall x, (names (fst (F x)), snd (F x)) = for_each f (names x) /\ hide (fst (F x)) = hide x) ->
  (flat_map names (fst (for_each F l)), snd (for_each F l)) = for_each f (flat_map names l)
  /\ map hide (fst (for_each F l)) = map hide l.
Proof.
  intros H. induction l as [|x l [IH1 IH2]]; cbn [for_each flat_map map fst snd]; [auto|].
  destruct (H x) as [H1 H2]. rewrite for_each_app, <- H1, <- IH1.
  destruct (F x) as [x' [k|]]; cbn [fst snd] in *.
  - cbn [flat_map map]. now rewrite H2.
  - destruct (for_each F l) as [l' k']; cbn [fst snd flat_map map] in *. now rewrite H2, IH2.
Qed.

Lemma pad_update u e :
  (pad_net_names (fst (update_pad_net u e)), snd (update_pad_net u e)) = for_each u (pad_net_names e)
  /\ hide_pad (fst (update_pad_net u e)) = hide_pad e.
Proof.
  destruct e; try (split; reflexivity).
  destruct p as [n t sh sz rd a la net zc dr pm mm cl tg].
  cbn [update_pad_net pad_net_names pa_net]. destruct net as [[num nm]|]; cbn [fn_name fn_num for_each].
  - destruct (u nm) as [s [k|]]; split; reflexivity.
  - split; reflexivity.
Qed.

Lemma element_update u e :
  (net_names (fst (update_element_nets u e)), snd (update_element_nets u e)) = for_each u (net_names e)
  /\ hide_names (fst (update_element_nets u e)) = hide_names e.
Proof.
  destruct e as [m|n|n|t|l|a|c|d|s|v|z|s]; try (split; reflexivity).
  - cbn [update_element_nets net_names].
    destruct (for_each_flat (update_pad_net u) u pad_net_names hide_pad (m_elements m) (pad_update u)) as [H1 H2].
    destruct (for_each (update_pad_net u) (m_elements m)) as [l k]. cbn [fst snd net_names m_elements] in *.
    split; [exact H1|]. cbn [hide_names m_name m_elements]. now rewrite H2.
  - cbn [update_element_nets net_names for_each]. destruct (u (ne_name n)) as [s [k|]]; split; reflexivity.
  - destruct n as [nm de cl tw vd vr ud ur gap wid nets].
    cbn [update_element_nets net_names nc_nets].
    assert (L : map (fun _ : str => [] : str) (fst (for_each u nets)) = map (fun _ => []) nets).
    { clear. induction nets as [|x l IH]; [reflexivity|]. cbn [for_each].
      destruct (u x) as [x' [k|]]; [reflexivity|]. destruct (for_each u l) as [r k']; cbn [fst map] in *. f_equal. exact IH. }
    destruct (for_each u nets) as [l k]; cbn [fst snd] in *. split; [reflexivity|].
    unfold with_nc_nets. cbn [hide_names nc_name nc_desc nc_clearance nc_trace_width nc_via_dia nc_via_drill
      nc_uvia_dia nc_uvia_drill nc_dp_gap nc_dp_width].
    exact (f_equal (fun q => YNetClass (mk_nc nm de cl tw vd vr ud ur gap wid q)) L).
  - destruct z as [n nn l t h pr cp mt ko fi ps fs sg ot].
    cbn [update_element_nets net_names zo_net_name for_each]. destruct (u nn) as [s [k|]]; split; reflexivity.
Qed.

Lemma update_names_spec u l :
  (layout_names (fst (update_net_names u l)), snd (update_net_names u l)) = for_each u (layout_names l)
  /\ map hide_names (ly_elements (fst (update_net_names u l))) = map hide_names (ly_elements l)
  /\ ly_header (fst (update_net_names u l)) = ly_header l.
Proof.
  unfold update_net_names, layout_names.
  destruct (for_each_flat (update_element_nets u) u net_names hide_names (ly_elements l) (element_update u)) as [H1 H2].
  destruct (for_each (update_element_nets u) (ly_elements l)) as [es k]. cbn [fst snd with_elements ly_elements] in *.
  split; [exact H1|]. split; [exact H2|reflexivity].
Qed.

Lemma update_names_ok u l l' : update_net_names u l = (l', None) ->
  Forall (fun n => snd (u n) = None) (layout_names l)
  /\ layout_names l' = map (fun n => fst (u n)) (layout_names l)
  /\ map hide_names (ly_elements l') = map hide_names (ly_elements l)
  /\ ly_header l' = ly_header l.
Proof.
  intros E. destruct (update_names_spec u l) as (H1 & H2 & H3). rewrite E in *. cbn [fst snd] in *.
  symmetry in H1. apply for_each_ok in H1 as [F N]. auto.
Qed.
Lemma update_names_err u l l' k : update_net_names u l = (l', Some k) ->
  (exists a x b, layout_names l = a ++ x :: b /\ Forall (fun n => snd (u n) = None) a /\ snd (u x) = Some k
    /\ layout_names l' = map (fun n => fst (u n)) a ++ fst (u x) :: b)
  /\ map hide_names (ly_elements l') = map hide_names (ly_elements l)
  /\ ly_header l' = ly_header l.
Proof.
  intros E. destruct (update_names_spec u l) as (H1 & H2 & H3). rewrite E in *. cbn [fst snd] in *.
  symmetry in H1. apply for_each_err in H1. auto.
Qed.
Lemma update_names_outcome u l : snd (update_net_names u l) = None <->
  Forall (fun n => snd (u n) = None) (layout_names l).
Proof.
  destruct (update_net_names u l) as [l' [k|]] eqn:E; cbn [snd]; split; intros H; try discriminate; auto.
  - exfalso. apply update_names_err in E as [(a & x & b & E & _ & K & _) _].
    rewrite E in H. apply Forall_app in H as [_ H]. inversion H; congruence.
  - now apply update_names_ok in E.
Qed.

Lemma change_net_name_spec old new l : exists l',
  change_net_name old new l = Ok l'
  /\ layout_names l' = map (fun n => if str_eqb n old then new else n) (layout_names l)
  /\ map hide_names (ly_elements l') = map hide_names (ly_elements l)
  /\ ly_header l' = ly_header l.
Proof.
  unfold change_net_name.
  destruct (update_net_names (fun n => (rename old new n, None)) l) as [l' k] eqn:E.
  destruct k as [k|].
  - exfalso. apply update_names_err in E as [(a & x & b & _ & _ & K & _) _]. discriminate.
  - exists l'. apply update_names_ok in E as (_ & N & H & J). auto.
Qed.

Lemma change_net_name_gone old new l l' : old <> new -> change_net_name old new l = Ok l' ->
  ~ In old (layout_names l').
Proof.
  intros N E. destruct (change_net_name_spec old new l) as (l2 & E2 & L & _).
  rewrite E in E2. injection E2 as <-. rewrite L. intros H. apply in_map_iff in H as (x & Hx & _).
  destruct (str_eqb_spec x old); congruence.
Qed.
Lemma change_net_name_absent old new l l' : ~ In old (layout_names l) -> change_net_name old new l = Ok l' ->
  layout_names l' = layout_names l.
Proof.
  intros N E. destruct (change_net_name_spec old new l) as (l2 & E2 & L & _).
  rewrite E in E2. injection E2 as <-. rewrite L. rewrite <- (map_id (layout_names l)) at 2.
  apply map_ext_in. intros x Hx. destruct (str_eqb_spec x old) as [->|]; [contradiction|reflexivity].
Qed.

(** The two views determine the element. *)
Lemma hide_nets_det {A} (a : list A) : forall b : list A, map (fun _ => [] : str) a = map (fun _ => []) b -> length a = length b.
Proof. intros b H. apply (f_equal (@length _)) in H. now rewrite !map_length in H. Qed.

Lemma hide_pad_det e f : hide_pad e = hide_pad f -> pad_net_names e = pad_net_names f -> e = f.
Proof.
  destruct e as [x|x|x|x|x|x|p|x|x|x|x|x|x|x|x|x|x|], f as [y|y|y|y|y|y|q|y|y|y|y|y|y|y|y|y|y|];
    try (cbn [hide_pad]; intros E _; exact E); try (destruct p; discriminate); try (destruct q; discriminate).
  destruct p as [n t sh sz rd a la net zc dr pm mm cl tg], q as [n' t' sh' sz' rd' a' la' net' zc' dr' pm' mm' cl' tg'].
  cbn [hide_pad pad_net_names pa_net]. intros E P.
  injection E as -> -> -> -> -> -> -> E -> -> -> -> -> ->.
  assert (net = net') as ->; [|reflexivity].
  destruct net as [[u v]|], net' as [[u' v']|]; cbn [option_map fn_num fn_name] in *; congruence.
Qed.

Lemma hide_pad_len e f : hide_pad e = hide_pad f -> length (pad_net_names e) = length (pad_net_names f).
Proof.
  destruct e as [x|x|x|x|x|x|p|x|x|x|x|x|x|x|x|x|x|], f as [y|y|y|y|y|y|q|y|y|y|y|y|y|y|y|y|y|];
    try reflexivity; try (destruct p; discriminate); try (destruct q; discriminate).
  destruct p as [n t sh sz rd a la net zc dr pm mm cl tg], q as [n' t' sh' sz' rd' a' la' net' zc' dr' pm' mm' cl' tg'].
  cbn [hide_pad pad_net_names pa_net]. intros E. injection E as -> -> -> -> -> -> -> E -> -> -> -> -> ->.
  destruct net, net'; cbn in *; congruence.
Qed.
Lemma app_eq_length {A} (a b c d : list A) : length a = length c -> a ++ b = c ++ d -> a = c /\ b = d.
Proof.
  revert c; induction a as [|x a IH]; intros [|y c]; cbn; try discriminate; [auto|].
  intros [= L] [= -> E]. destruct (IH c L E) as [-> ->]. auto.
Qed.
Lemma hide_pads_det l : forall m, map hide_pad l = map hide_pad m ->
  flat_map pad_net_names l = flat_map pad_net_names m -> l = m.
Proof.
  induction l as [|e l IH]; intros [|f m]; cbn [map flat_map]; try discriminate; [reflexivity|].
  intros [= W1 W2] P. destruct (app_eq_length _ _ _ _ (hide_pad_len _ _ W1) P) as [P1 P2].
  f_equal; [now apply hide_pad_det|now apply IH].
Qed.
Definition ykind (e : ly_element) : nat :=
  match e with
  | YModule _ => 0 | YNet _ => 1 | YNetClass _ => 2 | YGrText _ => 3 | YGrLine _ => 4 | YGrArc _ => 5
  | YGrCircle _ => 6 | YDimension _ => 7 | YSegment _ => 8 | YVia _ => 9 | YZone _ => 10 | YOther _ => 11
  end%nat.
Lemma ykind_hide e : ykind (hide_names e) = ykind e.
Proof. destruct e as [m|n|n|t|l|a|c|d|s|v|z|s]; try reflexivity; [destruct n|destruct z]; reflexivity. Qed.

Lemma hide_det e f : hide_names e = hide_names f -> net_names e = net_names f -> e = f.
Proof.
  intros W. assert (K : ykind e = ykind f) by (rewrite <- (ykind_hide e), W; apply ykind_hide). revert W.
  destruct e as [m|n|n|t|l|a|c|d|s|v|z|s], f as [m'|n'|n'|t'|l'|a'|c'|d'|s'|v'|z'|s'];
    try discriminate K; clear K; try (cbn; intros E _; exact E).
  - destruct m as [n l], m' as [n' l']. cbn [hide_names net_names m_elements m_name].
    intros W P. injection W as -> W. do 2 f_equal. now apply hide_pads_det.
  - destruct n, n'; cbn. intros W P. injection W as ->. injection P as ->. reflexivity.
  - destruct n as [nm de cl tw vd vr ud ur gap wid nets], n' as [nm' de' cl' tw' vd' vr' ud' ur' gap' wid' nets'].
    cbn [hide_names net_names nc_nets]. intros W ->. injection W as -> -> -> -> -> -> -> -> -> ->. reflexivity.
  - destruct z as [n nn l t h pr cp mt ko fi ps fs sg ot], z' as [n' nn' l' t' h' pr' cp' mt' ko' fi' ps' fs' sg' ot'].
    cbn [hide_names net_names zo_net_name]. intros W P. injection P as ->.
    injection W as -> -> -> -> -> -> -> -> -> -> -> -> ->. reflexivity.
Qed.

(** ** Unnamed nets *)
Lemma split_on_inv p n w ws : split_on p n = w :: ws ->
  forallb (fun c => negb (p c)) w = true
  /\ ((ws = [] /\ n = w) \/ exists c r, n = w ++ c :: r /\ p c = true /\ split_on p r = ws).
Proof.
  revert w ws. induction n as [|c n IH]; cbn [split_on]; intros w ws.
  - intros [= <- <-]. auto.
  - destruct (p c) eqn:E.
    + intros [= <- <-]. split; [reflexivity|]. right. exists c, n. auto.
    + destruct (split_on p n) as [|v vs] eqn:S; [destruct (split_on_nonnil p n S)|].
      intros [= <- <-]. destruct (IH v vs eq_refl) as [H [[-> ->]|(d & r & -> & Hd & Hr)]].
      * cbn [forallb]. rewrite E, H. auto.
      * cbn [forallb]. rewrite E, H. split; [reflexivity|]. right. exists d, r. auto.
Qed.

Lemma starts_with_iff p s : starts_with p s = true <-> exists r, s = p ++ r.
Proof.
  revert s. induction p as [|x p IH]; intros s; cbn [starts_with].
  - split; [intros _; now exists s|auto].
  - destruct s as [|y s].
    + split; [discriminate|intros [r [=]]].
    + rewrite andb_true_iff, N.eqb_eq, IH. split.
      * intros [-> [r ->]]. now exists r.
      * intros [r [= -> ->]]. eauto.
Qed.

Lemma is_unnamed_iff n a b : is_unnamed_net n = Some (a, b) <->
  exists c d t, n = lit "Net-(" ++ a ++ c :: b ++ d :: t
    /\ is_net_sep c = true /\ is_net_sep d = true
    /\ plain_name a = true /\ plain_name b = true /\ plain_name t = true.
Proof.
  unfold is_unnamed_net. split.
  - destruct (starts_with (lit "Net-(") n) eqn:S; [|discriminate].
    apply starts_with_iff in S as [r ->].
    change (lit "Net-(") with (lit "Net" ++ [45%N] ++ [40%N]). rewrite <- !app_assoc. cbn [app].
    change (split_on is_net_sep (lit "Net" ++ 45%N :: 40%N :: r))
      with (lit "Net" :: [] :: split_on is_net_sep r).
    destruct (split_on is_net_sep r) as [|x [|y [|z [|]]]] eqn:E; try discriminate. intros [= -> ->].
    apply split_on_inv in E as [Ha [[? _]|(c & r2 & -> & Hc & E)]]; [discriminate|].
    apply split_on_inv in E as [Hb [[? _]|(d & r3 & -> & Hd & E)]]; [discriminate|].
    apply split_on_inv in E as [Ht [[_ ->]|(e & r4 & -> & He & E)]].
    + exists c, d, z. repeat split; auto.
    + destruct (split_on_nonnil _ _ E).
  - intros (c & d & t & -> & Hc & Hd & Ha & Hb & Ht).
    assert (S : starts_with (lit "Net-(") (lit "Net-(" ++ a ++ c :: b ++ d :: t) = true)
      by (apply starts_with_iff; eauto).
    rewrite S.
    change (split_on is_net_sep (lit "Net-(" ++ a ++ c :: b ++ d :: t))
      with (lit "Net" :: [] :: split_on is_net_sep (a ++ c :: b ++ d :: t)).
    rewrite (split_on_sep _ a), (split_on_sep _ b), (split_on_none _ t) by assumption. reflexivity.
Qed.

Lemma is_net_sep_iff c : is_net_sep c = true <-> (c = 45 \/ c = 40 \/ c = 41)%N.
Proof. unfold is_net_sep. rewrite !orb_true_iff, !N.eqb_eq. tauto. Qed.
Lemma is_unnamed_iff' n a b : is_unnamed_net n = Some (a, b) <->
  exists c d t, n = lit "Net-(" ++ a ++ c :: b ++ d :: t
    /\ (c = 45 \/ c = 40 \/ c = 41)%N /\ (d = 45 \/ d = 40 \/ d = 41)%N
    /\ plain_name a = true /\ plain_name b = true /\ plain_name t = true.
Proof.
  rewrite is_unnamed_iff. split; intros (c & d & t & H & Hc & Hd & R); exists c, d, t;
    [apply is_net_sep_iff in Hc, Hd; auto|]. split; [exact H|]. rewrite !is_net_sep_iff. auto.
Qed.

Lemma unnamed_recognised a b : plain_name a = true -> plain_name b = true ->
  is_unnamed_net (lit "Net-(" ++ a ++ lit "-" ++ b ++ lit ")") = Some (a, b).
Proof. intros Ha Hb. apply is_unnamed_iff. exists 45%N, 41%N, []. repeat split; assumption. Qed.

Lemma set_unnamed_spec new n a b : is_unnamed_net n = Some (a, b) -> plain_name new = true ->
  exists n', set_unnamed_net new n = (n', None) /\ is_unnamed_net n' = Some (new, b)
    /\ n' = lit "Net-(" ++ new ++ lit "-" ++ b ++ lit ")".
Proof.
  intros E P. unfold set_unnamed_net. rewrite E. eexists; split; [reflexivity|]. split; [|reflexivity].
  apply is_unnamed_iff in E as (c & d & t & _ & _ & _ & _ & Hb & _). now apply unnamed_recognised.
Qed.
Lemma set_unnamed_other new n : is_unnamed_net n = None -> exists k, set_unnamed_net new n = (n, Some k).
Proof. intros E. unfold set_unnamed_net. rewrite E. eauto. Qed.

(** ** Lookup by reference *)
Lemma carries_iff m r : is_reference_with_name m r = true <-> carries r m.
Proof.
  unfold is_reference_with_name, carries, ref_reads. rewrite existsb_exists. split.
  - intros (e & He & H). exists e. split; [exact He|]. destruct e; try discriminate.
    apply andb_prop in H as [H1 H2]. apply str_eqb_eq in H1, H2. eauto.
  - intros (e & He & t & -> & H1 & H2). exists (EFpText t). split; [exact He|].
    rewrite H1, H2, !str_eqb_refl. reflexivity.
Qed.

Lemma first_cons_other r e l l1 m l2 : (forall m', e = YModule m' -> ~ carries r m') ->
  first_carrier r l l1 m l2 -> first_carrier r (e :: l) (e :: l1) m l2.
Proof.
  intros H (-> & C & F). split; [reflexivity|]. split; [exact C|].
  intros m' [E|E]; [now apply H|now apply F].
Qed.

Lemma modify_first_spec r f l :
  (exists l1 m l2, first_carrier r l l1 m l2 /\ modify_first r f l = (l1 ++ YModule (f m) :: l2, None))
  \/ ((forall m, In (YModule m) l -> ~ carries r m) /\ exists k, modify_first r f l = (l, Some k)).
Proof.
  induction l as [|e l IH].
  - right. split; [intros m []|]. eexists; reflexivity.
  - assert (G : forall l', (forall m', e = YModule m' -> ~ carries r m') ->
       (exists k, modify_first r f (e :: l) = (e :: l', k) /\ modify_first r f l = (l', k)) ->
       (exists l1 m l2, first_carrier r (e :: l) l1 m l2 /\ modify_first r f (e :: l) = (l1 ++ YModule (f m) :: l2, None))
       \/ ((forall m, In (YModule m) (e :: l) -> ~ carries r m) /\ exists k, modify_first r f (e :: l) = (e :: l, Some k))).
    { intros l' H (k & E1 & E2). rewrite E1. destruct IH as [(l1 & m & l2 & F & E)|(F & k' & E)]; rewrite E in E2.
      - injection E2 as <- <-. left. exists (e :: l1), m, l2. split; [now apply first_cons_other|reflexivity].
      - injection E2 as <- <-. right. split; [|eauto]. intros m [E3|E3]; [now apply H|now apply F]. }
    destruct e as [m| | | | | | | | | | |];
      try (destruct (modify_first r f l) as [l' k] eqn:E; apply (G l'); [discriminate|];
           exists k; split; [cbn [modify_first]; rewrite E; reflexivity|reflexivity]).
    destruct (is_reference_with_name m r) eqn:C.
    + left. exists [], m, l. split.
      * split; [reflexivity|]. split; [now apply carries_iff|intros m' []].
      * cbn [modify_first]. rewrite C. reflexivity.
    + destruct (modify_first r f l) as [l' k] eqn:E. apply (G l').
      * intros m' [= <-] H. apply carries_iff in H. congruence.
      * exists k. split; [cbn [modify_first]; rewrite C, E; reflexivity|reflexivity].
Qed.

Lemma modify_module_spec l r f :
  (exists l1 m l2, first_carrier r (ly_elements l) l1 m l2
     /\ modify_module l r f = (with_elements l (l1 ++ YModule (f m) :: l2), None))
  \/ ((forall m, In (YModule m) (ly_elements l) -> ~ carries r m) /\ exists k, modify_module l r f = (l, Some k)).
Proof.
  unfold modify_module.
  destruct (modify_first_spec r f (ly_elements l)) as [(l1 & m & l2 & F & E)|(F & k & E)]; rewrite E.
  - left. exists l1, m, l2. auto.
  - right. split; [exact F|]. exists k. destruct l; reflexivity.
Qed.

Lemma get_module_spec l r :
  (exists l1 m l2, first_carrier r (ly_elements l) l1 m l2 /\ get_module l r = Some m)
  \/ ((forall m, In (YModule m) (ly_elements l) -> ~ carries r m) /\ get_module l r = None).
Proof.
  unfold get_module. induction (ly_elements l) as [|e es IH].
  - right. split; [intros m []|reflexivity].
  - assert (G : (forall m', e = YModule m' -> ~ carries r m') ->
       (exists l1 m l2, first_carrier r (e :: es) l1 m l2 /\
          find_map (fun e => match e with YModule m => if is_reference_with_name m r then Some m else None | _ => None end) es = Some m)
       \/ ((forall m, In (YModule m) (e :: es) -> ~ carries r m) /\
          find_map (fun e => match e with YModule m => if is_reference_with_name m r then Some m else None | _ => None end) es = None)).
    { intros H. destruct IH as [(l1 & m & l2 & F & E)|(F & E)].
      - left. exists (e :: l1), m, l2. split; [now apply first_cons_other|exact E].
      - right. split; [|exact E]. intros m [E3|E3]; [now apply H|now apply F]. }
    destruct e as [m| | | | | | | | | | |]; try (apply G; discriminate).
    cbn [find_map]. destruct (is_reference_with_name m r) eqn:C.
    + left. exists [], m, es. split; [|reflexivity].
      split; [reflexivity|]. split; [now apply carries_iff|intros m' []].
    + apply G. intros m' [= <-] H. apply carries_iff in H. congruence.
Qed.

(** ** Setup values *)
Lemma setup_get_update n v u : setup_get (setup_update n v u) n = Some v.
Proof.
  unfold setup_get, setup_update; cbn [su_elements]. induction (su_elements u) as [|e l IH]; cbn [update_first].
  - cbn. now rewrite str_eqb_refl.
  - destruct (str_eqb (se_name e) n) eqn:E; cbn [find_map se_name se_value1]; rewrite E; auto.
Qed.
Lemma setup_get_other n m v u : n <> m -> setup_get (setup_update n v u) m = setup_get u m.
Proof.
  intros N. unfold setup_get, setup_update; cbn [su_elements].
  induction (su_elements u) as [|e l IH]; cbn [update_first].
  - cbn [find_map se_name]. destruct (str_eqb_spec n m); [contradiction|reflexivity].
  - destruct (str_eqb_spec (se_name e) n) as [E|E]; cbn [find_map se_name se_value1].
    + destruct (str_eqb_spec (se_name e) m); [congruence|reflexivity].
    + now rewrite IH.
Qed.
Lemma setup_update_absent n v u : setup_get u n = None ->
  setup_update n v u = mk_setup (su_elements u ++ [mk_se n v None]) (su_plot u).
Proof.
  unfold setup_get, setup_update. intros H. f_equal.
  induction (su_elements u) as [|e l IH]; cbn [update_first find_map app] in *; [reflexivity|].
  destruct (str_eqb (se_name e) n); [discriminate|]. f_equal. now apply IH.
Qed.
Lemma setup_update_present n v u : setup_get u n <> None ->
  exists l1 e l2, su_elements u = l1 ++ e :: l2 /\ se_name e = n /\ (forall e', In e' l1 -> se_name e' <> n)
    /\ setup_update n v u = mk_setup (l1 ++ mk_se n v (se_value2 e) :: l2) (su_plot u).
Proof.
  unfold setup_get, setup_update. induction (su_elements u) as [|e l IH]; cbn [update_first find_map] in *; intros H.
  - contradiction.
  - destruct (str_eqb_spec (se_name e) n) as [E|E].
    + exists [], e, l. rewrite <- E. repeat split; auto.
    + destruct (IH H) as (l1 & x & l2 & -> & Hx & F & Hu). injection Hu as Hu.
      exists (e :: l1), x, l2. repeat split; auto.
      * intros e' [<-|He']; [exact E|now apply F].
      * cbn [app]. now rewrite Hu.
Qed.
Lemma setup_sequence us : forall u n,
  setup_get (fold_left (fun u p => setup_update (fst p) (snd p) u) us u) n
  = match last_written n us with Some v => Some v | None => setup_get u n end.
Proof.
  induction us as [|[m v] us IH]; intros u n; cbn [fold_left last_written fst snd]; [reflexivity|].
  rewrite IH. destruct (last_written n us); [reflexivity|].
  destruct (str_eqb_spec m n) as [->|N]; [apply setup_get_update|now apply setup_get_other].
Qed.

(** ** Views *)
Lemma modules_view l : map YModule (get_modules l) = filter is_module_el (ly_elements l).
Proof.
  unfold get_modules. induction (ly_elements l) as [|e es IH]; [reflexivity|].
  destruct e; cbn [flat_map app filter is_module_el map]; rewrite ?IH; auto.
Qed.
Lemma nets_view l : map YNet (nets l) = filter is_net_el (ly_elements l).
Proof.
  unfold nets. induction (ly_elements l) as [|e es IH]; [reflexivity|].
  destruct e; cbn [flat_map app filter is_net_el map]; rewrite ?IH; auto.
Qed.
Lemma netclasses_view l : map YNetClass (netclasses l) = filter is_netclass_el (ly_elements l).
Proof.
  unfold netclasses. induction (ly_elements l) as [|e es IH]; [reflexivity|].
  destruct e; cbn [flat_map app filter is_netclass_el map]; rewrite ?IH; auto.
Qed.
Lemma add_net_spec num name l :
  nets (add_net num name l) = nets l ++ [mk_net num name]
  /\ netclasses (add_net num name l) = netclasses l /\ get_modules (add_net num name l) = get_modules l.
Proof.
  unfold add_net, nets, netclasses, get_modules, with_elements. cbn [ly_elements].
  rewrite !flat_map_app. cbn. rewrite !app_nil_r. auto.
Qed.
Lemma add_netclass_spec n l :
  netclasses (add_netclass n l) = netclasses l ++ [n]
  /\ nets (add_netclass n l) = nets l /\ get_modules (add_netclass n l) = get_modules l.
Proof.
  unfold add_netclass, nets, netclasses, get_modules, with_elements. cbn [ly_elements].
  rewrite !flat_map_app. cbn. rewrite !app_nil_r. auto.
Qed.
Lemma has_net_iff n name : has_net n name = true <-> In name (nc_nets n).
Proof.
  unfold has_net. rewrite existsb_exists. split.
  - intros (x & Hx & E). apply str_eqb_eq in E. now subst.
  - intros H. exists name. split; [exact H|apply str_eqb_refl].
Qed.
