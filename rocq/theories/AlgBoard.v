(** Which edits of boards commute, absorb or undo each other (lemmas for C89). *)
From Coq Require Import String Lia.
From Verif Require Import Base Str StrFacts Num F64 F64Text Sexp FpData FpLayer FpOps LyData LyOps LySpec LyOpsFacts LyNetFacts DiffSpec DiffFacts.
Open Scope string_scope. Open Scope list_scope.

Lemma neq_false a b : a <> b -> str_eqb a b = false.
Proof. destruct (str_eqb_spec a b); congruence. Qed.

(** ** Views determine the board *)
Lemma hide_length e f : hide_names e = hide_names f -> length (net_names e) = length (net_names f).
Proof.
  assert (P : forall x, length (pad_net_names (hide_pad x)) = length (pad_net_names x)).
  { intros x. destruct x; try reflexivity. match goal with p : pad |- _ => destruct p as [? ? ? ? ? ? ? net ? ? ? ? ? ?]; destruct net; reflexivity end. }
  assert (E : forall x, length (net_names (hide_names x)) = length (net_names x)).
  { intros x. destruct x; try reflexivity.
    - cbn [hide_names net_names m_elements]. induction (m_elements m) as [|a l IH]; [reflexivity|]. cbn [map flat_map]. now rewrite !app_length, P, IH.
    - destruct n. cbn. apply map_length.
    - destruct z. reflexivity. }
  intros H. now rewrite <- E, H, E.
Qed.
Lemma lists_det a : forall b, map hide_names a = map hide_names b -> flat_map net_names a = flat_map net_names b -> a = b.
Proof.
  induction a as [|x a IH]; intros [|y b] H N; try discriminate; [reflexivity|]. cbn [map flat_map] in *.
  assert (Hx : hide_names x = hide_names y) by congruence. assert (Ha : map hide_names a = map hide_names b) by congruence. pose proof (hide_length _ _ Hx) as L.
  apply (f_equal (fun l => (firstn (length (net_names x)) l, skipn (length (net_names x)) l))) in N.
  rewrite firstn_app, skipn_app, firstn_all, skipn_all, Nat.sub_diag in N. rewrite L, firstn_app, skipn_app, firstn_all, skipn_all, Nat.sub_diag in N.
  cbn [firstn skipn app] in N. rewrite !app_nil_r in N. injection N as N1 N2. f_equal; [now apply hide_det|now apply IH].
Qed.
Lemma board_ext l l' : ly_header l = ly_header l' -> map hide_names (ly_elements l) = map hide_names (ly_elements l') -> layout_names l = layout_names l' -> l = l'.
Proof. intros H M N. destruct l, l'. cbn in *. injection H as -> -> -> -> -> ->. f_equal. now apply lists_det. Qed.

(** ** Renaming nets *)
Definition ren (o n s : str) : str := if str_eqb s o then n else s.
Definition renamed (o n : str) (l l' : layout) : Prop :=
  layout_names l' = map (ren o n) (layout_names l) /\ map hide_names (ly_elements l') = map hide_names (ly_elements l) /\ ly_header l' = ly_header l.
Lemma change_iff o n l l' : change_net_name o n l = Ok l' <-> renamed o n l l'.
Proof.
  destruct (change_net_name_spec o n l) as (k & E & N & H & D). split.
  - rewrite E. intros [= <-]. split; [exact N|]. auto.
  - intros (N' & H' & D'). rewrite E. f_equal. apply board_ext; [congruence|congruence|]. rewrite N'. exact N.
Qed.
Lemma renamed_same l l' : layout_names l' = layout_names l -> map hide_names (ly_elements l') = map hide_names (ly_elements l) -> ly_header l' = ly_header l -> l' = l.
Proof. intros. now apply board_ext. Qed.
Lemma map_same_iff {A B} (f g : A -> B) l : map f l = map g l <-> Forall (fun x => f x = g x) l.
Proof.
  induction l as [|x l IH]; [split; auto|]. cbn [map]. split.
  - intros H. injection H as H1 H2. constructor; [exact H1|now apply IH].
  - intros H. inversion_clear H. f_equal; [assumption|now apply IH].
Qed.
Lemma rename_undo o n l l' : change_net_name o n l = Ok l' ->
  (change_net_name n o l' = Ok l <-> o = n \/ ~ In n (layout_names l)).
Proof.
  intros E. apply change_iff in E as (N & H & D). rewrite change_iff. unfold renamed. rewrite N, map_map. split.
  - intros (M & _ & _). rewrite <- (map_id (layout_names l)) in M at 1. apply map_same_iff in M. rewrite Forall_forall in M.
    destruct (str_eqb_spec o n) as [->|X]; [left; reflexivity|right]. intros I. specialize (M n I). unfold ren in M.
    rewrite (neq_false n o) in M by congruence. rewrite str_eqb_refl in M. congruence.
  - intros C. split; [|split; congruence]. rewrite <- (map_id (layout_names l)) at 1. apply map_ext_in. intros s I. unfold ren.
    destruct (str_eqb_spec s o) as [->|X]; [now rewrite str_eqb_refl|]. destruct (str_eqb_spec s n) as [->|Y]; [|reflexivity].
    destruct C as [->|C]; [reflexivity|contradiction].
Qed.
Lemma rename_again o n l l' : change_net_name o n l = Ok l' -> change_net_name o n l' = Ok l'.
Proof.
  intros E. apply change_iff in E as (N & H & D). apply change_iff. split; [|auto]. rewrite N, map_map. apply map_ext. intros s. unfold ren.
  destruct (str_eqb_spec s o) as [->|X]; [destruct (str_eqb n o); reflexivity|]. now rewrite (neq_false s o).
Qed.
Lemma rename_chain a b c l l1 l2 : change_net_name a b l = Ok l1 -> change_net_name b c l1 = Ok l2 ->
  (change_net_name a c l = Ok l2 <-> a = b \/ b = c \/ ~ In b (layout_names l)).
Proof.
  intros E F. apply change_iff in E as (N & H & D). apply change_iff in F as (N' & H' & D'). rewrite change_iff. unfold renamed. rewrite N', N, map_map. split.
  - intros (M & _ & _). apply map_same_iff in M. rewrite Forall_forall in M.
    destruct (str_eqb_spec a b) as [->|X]; [left; reflexivity|right]. destruct (str_eqb_spec b c) as [->|Y]; [left; reflexivity|right].
    intros I. specialize (M b I). unfold ren in M. rewrite (neq_false b a) in M by congruence. rewrite str_eqb_refl in M. congruence.
  - intros C. split; [|split; congruence]. apply map_ext_in. intros s I. unfold ren.
    destruct (str_eqb_spec s a) as [->|X]; [now rewrite str_eqb_refl|]. destruct (str_eqb_spec s b) as [->|Y]; [|reflexivity].
    destruct C as [->|[->|C]]; [congruence|reflexivity|contradiction].
Qed.
Lemma rename_swap a b c d l l1 l2 k1 k2 : a <> c -> a <> d -> b <> c ->
  change_net_name a b l = Ok l1 -> change_net_name c d l1 = Ok l2 -> change_net_name c d l = Ok k1 -> change_net_name a b k1 = Ok k2 -> k2 = l2.
Proof.
  intros AC AD BC E F G K. apply change_iff in E as (N & H & D). apply change_iff in F as (N' & H' & D'). apply change_iff in G as (M & J & I). apply change_iff in K as (M' & J' & I').
  apply board_ext; [congruence|congruence|]. rewrite M', M, N', N, !map_map. apply map_ext. intros s. unfold ren.
  destruct (str_eqb_spec s c) as [->|X].
  - rewrite (neq_false c a), (neq_false d a), str_eqb_refl by congruence. reflexivity.
  - destruct (str_eqb_spec s a) as [->|Y]; [rewrite (neq_false b c) by congruence; reflexivity|]. now rewrite (neq_false s c) by congruence.
Qed.

(** ** Moving and renaming *)
Lemma for_each_map {A} (f : A -> A * option ekind) (g : A -> A) l : (forall x, f (g x) = (g (fst (f x)), snd (f x))) ->
  for_each f (map g l) = (map g (fst (for_each f l)), snd (for_each f l)).
Proof.
  intros H. induction l as [|x l IH]; [reflexivity|]. cbn [map for_each]. rewrite H, IH. destruct (f x) as [x' [k|]]; cbn [fst snd]; [reflexivity|].
  destruct (for_each f l) as [r e]. reflexivity.
Qed.

Lemma pad_move u x y e : let g e := match e with EAt a => EAt (adjust_at x y a) | _ => e end in update_pad_net u (g e) = (g (fst (update_pad_net u e)), snd (update_pad_net u e)).
Proof. destruct e as [| | | | | | | | | | | | | | | | | ]; try reflexivity. cbn. match goal with p : pad |- _ => destruct (pa_net p) as [n|] eqn:E; cbn [fst snd] end; [|reflexivity]. destruct (u (fn_name n)); reflexivity. Qed.
Lemma element_move u x y e : update_element_nets u (adjust_ly_element x y e) = (adjust_ly_element x y (fst (update_element_nets u e)), snd (update_element_nets u e)).
Proof.
  destruct e; try reflexivity.
  - cbn [adjust_ly_element update_element_nets]. unfold adjust_module. cbn [m_elements m_name]. rewrite for_each_map by (intros; apply pad_move).
    destruct (for_each (update_pad_net u) (m_elements m)) as [r k]. reflexivity.
  - cbn [adjust_ly_element update_element_nets]. destruct (u (ne_name n)); reflexivity.
  - cbn [adjust_ly_element update_element_nets]. destruct (for_each u (nc_nets n)); reflexivity.
  - cbn [adjust_ly_element update_element_nets]. change (zo_net_name (adjust_zone x y z)) with (zo_net_name z). destruct (u (zo_net_name z)); reflexivity.
Qed.
Lemma names_move u x y l : update_net_names u (adjust_layout x y l) = (adjust_layout x y (fst (update_net_names u l)), snd (update_net_names u l)).
Proof.
  unfold update_net_names, adjust_layout. cbn [ly_elements with_elements]. rewrite for_each_map by (intros; apply element_move).
  destruct (for_each (update_element_nets u) (ly_elements l)) as [r k]. reflexivity.
Qed.
Lemma rename_move o n x y l l' : change_net_name o n l = Ok l' -> change_net_name o n (adjust_layout x y l) = Ok (adjust_layout x y l').
Proof.
  unfold change_net_name. rewrite names_move. destruct (update_net_names (fun s => (rename o n s, None)) l) as [k [e|]]; [discriminate|]. cbn [fst snd]. now intros [= <-].
Qed.

(** ** Moving back *)
Lemma wiped_ext a : forall b, map wipe a = map wipe b -> map positions a = map positions b -> a = b.
Proof.
  induction a as [|x a IH]; intros [|y b] H N; try discriminate; [reflexivity|]. cbn [map] in *.
  assert (wipe x = wipe y) by congruence. assert (map wipe a = map wipe b) by congruence. assert (positions x = positions y) by congruence. assert (map positions a = map positions b) by congruence.
  f_equal; [now apply views_det|now apply IH].
Qed.
Lemma place_ext l l' : ly_header l = ly_header l' -> map wipe (ly_elements l) = map wipe (ly_elements l') -> map positions (ly_elements l) = map positions (ly_elements l') -> l = l'.
Proof. intros H M N. destruct l, l'. cbn in *. injection H as -> -> -> -> -> ->. f_equal. now apply wiped_ext. Qed.
Lemma moves_same (g : f64 * f64 -> f64 * f64) l l' : ly_header l' = ly_header l -> map wipe (ly_elements l') = map wipe (ly_elements l) ->
  map positions (ly_elements l') = map (fun e => map g (positions e)) (ly_elements l) ->
  (l' = l <-> Forall (fun p => g p = p) (flat_map positions (ly_elements l))).
Proof.
  intros H W P. rewrite Forall_flat_map. split.
  - intros ->. apply map_same_iff in P. rewrite Forall_forall in *. intros e I. specialize (P e I). apply (map_same_iff g (fun p => p)). now rewrite map_id.
  - intros F. apply place_ext; [exact H|exact W|]. rewrite P. apply map_same_iff. rewrite Forall_forall in *. intros e I. specialize (F e I).
    apply (map_same_iff g (fun p => p)) in F. now rewrite map_id in F.
Qed.
Lemma move_twice x y x' y' l : map positions (ly_elements (adjust_layout x' y' (adjust_layout x y l))) =
  map (fun e => map (fun p => (fadd (fadd (fst p) x) x', fadd (fadd (snd p) y) y')) (positions e)) (ly_elements l).
Proof.
  destruct (adjust_layout_spec x y l) as (_ & _ & P). destruct (adjust_layout_spec x' y' (adjust_layout x y l)) as (_ & _ & P').
  rewrite P'. rewrite <- (map_map positions (map (fun p => (fadd (fst p) x', fadd (snd p) y')))), P, map_map. apply map_ext. intros e. now rewrite map_map.
Qed.
Lemma move_back x y l : adjust_layout (fneg x) (fneg y) (adjust_layout x y l) = l <->
  Forall (fun p => fadd (fadd (fst p) x) (fneg x) = fst p /\ fadd (fadd (snd p) y) (fneg y) = snd p) (flat_map positions (ly_elements l)).
Proof.
  destruct (adjust_layout_spec x y l) as (H & W & _). destruct (adjust_layout_spec (fneg x) (fneg y) (adjust_layout x y l)) as (H' & W' & _).
  rewrite (moves_same (fun p => (fadd (fadd (fst p) x) (fneg x), fadd (fadd (snd p) y) (fneg y)))); [|congruence|congruence|apply move_twice].
  rewrite !Forall_forall. split; intros F p I; specialize (F p I); destruct p as [a b]; cbn [fst snd] in *; [split; congruence|destruct F as [-> ->]; reflexivity].
Qed.
Lemma zero_iff c : fadd c fzero = c <-> c <> fnegzero.
Proof. destruct c as [[|]| | |s m e B]; split; intros H; try congruence; try reflexivity; try discriminate. exfalso. now apply H. Qed.
Lemma move_zero_iff l : adjust_layout fzero fzero l = l <-> ~ In fnegzero (coords (flat_map positions (ly_elements l))).
Proof.
  destruct (adjust_layout_spec fzero fzero l) as (H & W & P). rewrite (moves_same _ l _ H W P). rewrite Forall_forall. split.
  - intros F I. unfold coords in I. apply in_flat_map in I as ([a b] & I & [J|[J|[]]]); specialize (F _ I); cbn [fst snd] in *; subst;
      [apply (f_equal fst) in F|apply (f_equal snd) in F]; cbn [fst snd] in F; now apply zero_iff in F.
  - intros N [a b] I. cbn [fst snd]. f_equal; apply zero_iff; intros ->; apply N; apply in_flat_map; eexists; (split; [exact I|]); cbn; auto.
Qed.

(** ** Setup values *)
Lemma setup_absorb n v w u : setup_update n w (setup_update n v u) = setup_update n w u.
Proof.
  unfold setup_update. cbn [su_elements su_plot]. f_equal. induction (su_elements u) as [|e l IH]; cbn [update_first se_name]; [now rewrite str_eqb_refl|].
  destruct (str_eqb (se_name e) n) eqn:E; cbn [update_first se_name]; rewrite E; [reflexivity|now rewrite IH].
Qed.
Lemma update_swap n m v w l : n <> m -> (existsb (fun e => str_eqb (se_name e) n) l || existsb (fun e => str_eqb (se_name e) m) l = true)%bool ->
  update_first n v (update_first m w l) = update_first m w (update_first n v l).
Proof.
  intros D. induction l as [|e l IH]; cbn [existsb orb]; [discriminate|]. intros H. cbn [update_first].
  destruct (str_eqb_spec (se_name e) m) as [M|M]; destruct (str_eqb_spec (se_name e) n) as [N|N]; cbn [update_first se_name].
  - congruence.
  - rewrite M, (neq_false m n), str_eqb_refl by congruence. reflexivity.
  - rewrite N, str_eqb_refl, (neq_false n m) by congruence. reflexivity.
  - rewrite (neq_false _ n), (neq_false _ m) by assumption. f_equal. apply IH. exact H.
Qed.
Lemma update_new n v l : existsb (fun e => str_eqb (se_name e) n) l = false -> update_first n v l = l ++ [mk_se n v None].
Proof. induction l as [|e l IH]; cbn [existsb update_first]; [reflexivity|]. destruct (str_eqb (se_name e) n); [discriminate|]. intros H. now rewrite IH. Qed.
Lemma get_exists u n : setup_get u n = None <-> existsb (fun e => str_eqb (se_name e) n) (su_elements u) = false.
Proof. unfold setup_get. induction (su_elements u) as [|e l IH]; [split; reflexivity|]. cbn [find_map existsb]. destruct (str_eqb (se_name e) n); [split; discriminate|exact IH]. Qed.
Lemma setup_swap n m v w u : n <> m -> (setup_update n v (setup_update m w u) = setup_update m w (setup_update n v u) <-> setup_get u n <> None \/ setup_get u m <> None).
Proof.
  intros D. destruct (existsb (fun e => str_eqb (se_name e) n) (su_elements u)) eqn:N; [|destruct (existsb (fun e => str_eqb (se_name e) m) (su_elements u)) eqn:M].
  - split; [intros _; left; rewrite get_exists, N; discriminate|]. intros _. unfold setup_update. cbn [su_elements su_plot]. f_equal. apply update_swap; [exact D|now rewrite N].
  - split; [intros _; right; rewrite get_exists, M; discriminate|]. intros _. unfold setup_update. cbn [su_elements su_plot]. f_equal. apply update_swap; [exact D|now rewrite M, orb_true_r].
  - split; [|intros [H|H]; exfalso; apply H; now apply get_exists]. intros H. exfalso. unfold setup_update in H. cbn [su_elements su_plot] in H. injection H as H.
    rewrite (update_new m w (su_elements u) M), (update_new n v (su_elements u) N) in H.
    rewrite (update_new n v (su_elements u ++ _)) in H by (rewrite existsb_app; cbn [existsb se_name]; rewrite N, (neq_false m n) by congruence; reflexivity).
    rewrite (update_new m w (su_elements u ++ _)) in H by (rewrite existsb_app; cbn [existsb se_name]; rewrite M, (neq_false n m) by congruence; reflexivity).
    rewrite <- !app_assoc in H. apply app_inv_head in H. cbn [app] in H. congruence.
Qed.

(** ** References of footprints *)
Definition ref1 (o n : str) (e : element) : element :=
  match e with
  | EFpText t => if str_eqb (tx_name t) (lit "reference") && str_eqb (tx_value t) o then EFpText (mk_text (tx_name t) n (tx_at t) (tx_layer t) (tx_effects t) (tx_hide t)) else e
  | _ => e
  end.
Lemma ref1_back o n e : ref1 n o (ref1 o n e) = e <-> o = n \/ (forall t, e = EFpText t -> tx_name t = lit "reference" -> tx_value t <> n).
Proof.
  destruct e as [| | | | |t| | | | | | | | | | | |]; try (split; [intros _; right; discriminate|reflexivity]). cbn [ref1].
  destruct (str_eqb_spec (tx_name t) (lit "reference")) as [R|R]; cbn [andb].
  - destruct (str_eqb_spec (tx_value t) o) as [V|V]; cbn [ref1 tx_name tx_value tx_at tx_layer tx_effects tx_hide].
    + rewrite R, !str_eqb_refl. cbn [andb]. split.
      * intros _. destruct (str_eqb_spec o n) as [->|D]; [now left|right]. intros t' [= <-] _. congruence.
      * intros _. destruct t as [tn tv ta tl te th]. cbn in *. subst. reflexivity.
    + rewrite R, str_eqb_refl. cbn [andb]. destruct (str_eqb_spec (tx_value t) n) as [W|W].
      * split; [|intros [->|H]; [contradiction|exfalso; exact (H t eq_refl R W)]]. intros H. injection H as H. apply (f_equal tx_value) in H. cbn in H. congruence.
      * split; [|reflexivity]. intros _. right. intros t' [= <-] _. exact W.
  - cbn [ref1]. rewrite (neq_false _ _ R). cbn [andb]. split; [|reflexivity]. intros _. right. intros t' [= <-] C. contradiction.
Qed.
Lemma reference_undo o n m : set_reference n o (set_reference o n m) = m <->
  o = n \/ (forall t, In (EFpText t) (m_elements m) -> tx_name t = lit "reference" -> tx_value t <> n).
Proof.
  change (set_reference n o (set_reference o n m)) with (mk_module (m_name m) (map (ref1 n o) (map (ref1 o n) (m_elements m)))). rewrite map_map.
  assert (E : mk_module (m_name m) (map (fun e => ref1 n o (ref1 o n e)) (m_elements m)) = m <-> Forall (fun e => ref1 n o (ref1 o n e) = e) (m_elements m)).
  { rewrite <- (map_same_iff _ (fun e => e)), map_id. destruct m as [a b]. cbn [m_name m_elements]. split; [intros H; now injection H|now intros ->]. }
  rewrite E, Forall_forall. clear E. split.
  - intros H. destruct (str_eqb_spec o n) as [->|D]; [now left|right]. intros t I. specialize (H _ I). apply ref1_back in H as [H|H]; [contradiction|]. now apply H.
  - intros [->|H] e I; apply ref1_back; [now left|right]. intros t ->. now apply H.
Qed.
Lemma ref1_commute o n (g : element -> element) l : (forall e, g (ref1 o n e) = ref1 o n (g e)) -> map g (map (ref1 o n) l) = map (ref1 o n) (map g l).
Proof. intros H. rewrite !map_map. apply map_ext. exact H. Qed.
Lemma flip_reference o n m : flip_module (set_reference o n m) = set_reference o n (flip_module m).
Proof.
  unfold flip_module, set_reference. cbn [m_name m_elements]. f_equal. apply (ref1_commute o n). intros e.
  destruct e as [| | | | |t| | | | | | | | | | | |]; try reflexivity. cbn [ref1 flip_element]. unfold flip_text. cbn [ref1 tx_name tx_value].
  destruct (str_eqb (tx_name t) (lit "reference") && str_eqb (tx_value t) o)%bool eqn:E; cbn [flip_element]; unfold flip_text; cbn [tx_name tx_value tx_at tx_layer tx_effects tx_hide]; reflexivity.
Qed.
Lemma rotate_reference d o n m : rotate_module d (set_reference o n m) = set_reference o n (rotate_module d m).
Proof.
  unfold rotate_module, set_reference. cbn [m_name m_elements]. f_equal. apply (ref1_commute o n). intros e.
  destruct e as [| | | | |t| | | | | | | | | | | |]; try reflexivity. cbn [ref1 rotate_element]. unfold rotate_text. cbn [ref1 tx_name tx_value].
  destruct (str_eqb (tx_name t) (lit "reference") && str_eqb (tx_value t) o)%bool eqn:E; cbn [rotate_element]; unfold rotate_text; cbn [tx_name tx_value tx_at tx_layer tx_effects tx_hide]; reflexivity.
Qed.
