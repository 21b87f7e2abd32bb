(** Facts about moving the lines of a component or a sheet (C110). *)
From Coq Require Import List NArith ZArith Bool String Lia.
From Verif Require Import Base Str StrFacts Num CutSpec CutFacts LibSpec SchData SchParse SchReadSpec SchReadFacts JoinSpec JoinFacts MovedSpec.
Import ListNotations.
Open Scope string_scope. Open Scope list_scope.

Lemma begins_fun s w w' : begins s w -> begins s w' -> w = w'.
Proof. intros [v V] [v' V']. apply ws_iff in V, V'. rewrite V in V'. now injection V' as ->. Qed.
Lemma begins_lit s k k' : begins_with s k -> begins_with s k' -> lit k = lit k'.
Proof. apply begins_fun. Qed.
Ltac clash A B := let E := fresh in pose proof (begins_fun _ _ _ A B) as E; discriminate E.

(** ** Components *)
Definition kind_of (p : comp_part) : string :=
  match p with KName _ _ => "L" | KUnit _ => "U" | KPos _ _ => "P" | KField _ => "F" | KAr _ => "AR" | KTurn _ => "1" | KNone => "other" end.
Lemma entry_parts k x b p : comp_entry k x -> comp_parts (x ++ b) p -> exists q r, p = q :: r /\ kind_of q = k /\ comp_parts x [q] /\ comp_parts b r.
Proof.
  intros E P. destruct E as [k s K B|s m B|s N]; cbn [app] in P.
  - assert (NT : ~ (begins_with s "1" \/ begins_with s "0")).
    { intros [T|T]; pose proof (begins_lit _ _ _ B T) as Z; repeat (destruct K as [<-|K]; [discriminate Z|]); destruct K. }
    inversion P as [|s' l x r S L R|s' m l a1 b1 c1 d1 r T F R]; subst; [|contradiction].
    exists x, r. split; [reflexivity|]. split; [|split; [apply cp_line; [exact S|exact L|constructor]|exact R]].
    inversion L as [s0 v n r0 B0|s0 B0|s0 v x0 y0 B0|s0 f B0|s0 B0|s0 N0]; subst; cbn [kind_of];
      try (pose proof (begins_lit _ _ _ B B0) as Z; repeat (destruct K as [<-|K]; [first [reflexivity|discriminate Z]|]); destruct K).
    exfalso. apply (N0 k); [|exact B]. repeat (destruct K as [<-|K]; [cbn; tauto|]). destruct K.
  - inversion P as [|s' l x r S L R|s' m' l a1 b1 c1 d1 r T F R]; subst.
    + exfalso. inversion L as [s0 v n r0 B0|s0 B0|s0 v x0 y0 B0|s0 f B0|s0 B0|s0 N0]; subst;
        try (destruct B as [B|B]; clash B B0). destruct B as [B|B]; revert B; apply N0; cbn; tauto.
    + exists (KTurn (mk_rotation a1 b1 c1 d1)), r. split; [reflexivity|]. split; [reflexivity|].
      split; [apply cp_turn; [exact T|exact F|constructor]|exact R].
  - inversion P as [|s' l x r S L R|s' m l a1 b1 c1 d1 r T F R]; subst.
    + exists x, r. split; [reflexivity|]. split; [|split; [apply cp_line; [exact S|exact L|constructor]|exact R]].
      inversion L as [s0 v n r0 B0|s0 B0|s0 v x0 y0 B0|s0 f B0|s0 B0|s0 N0]; subst; cbn [kind_of]; try reflexivity;
        exfalso; revert B0; apply N; cbn; tauto.
    + exfalso. destruct T as [T|T]; revert T; apply N; cbn; tauto.
Qed.
Lemma parts_join a p : comp_parts a p -> forall b q, comp_parts b q -> comp_parts (a ++ b) (p ++ q).
Proof.
  induction 1 as [|s l x r S L R IH|s m l a1 b1 c1 d1 r T F R IH]; intros b' q Q; cbn [app]; [exact Q| |].
  - apply cp_line; [exact S|exact L|exact (IH _ _ Q)].
  - apply cp_turn; [exact T|exact F|exact (IH _ _ Q)].
Qed.
Lemma entries_parts a b p : comp_entries a -> comp_parts (a ++ b) p -> exists u v, p = u ++ v /\ comp_parts a u /\ comp_parts b v.
Proof.
  intros E. revert b p. induction E as [|k x l X L IH]; intros b p P.
  - exists [], p. split; [reflexivity|]. split; [constructor|exact P].
  - rewrite <- app_assoc in P. destruct (entry_parts _ _ _ _ X P) as (q & r & -> & _ & Q & R). destruct (IH _ _ R) as (u & v & -> & U & V).
    exists (q :: u), v. split; [reflexivity|]. split; [exact (parts_join _ _ Q _ _ U)|exact V].
Qed.
(** The last of two is the same. *)
Lemma last_cons {A B} (f : A -> option B) d x l : last_of f d (x :: l) = last_of f (match f x with Some b => b | None => d end) l.
Proof. reflexivity. Qed.
Lemma last_swap {A B} (f : A -> option B) d a x y b : f x = None \/ f y = None -> last_of f d (a ++ x :: y :: b) = last_of f d (a ++ y :: x :: b).
Proof. intros H. rewrite !last_app, !last_cons. destruct H as [-> | ->]; [reflexivity|]. destruct (f x); reflexivity. Qed.
Lemma last_skip {A B} (f : A -> option B) d a x b : f x = None -> last_of f d (a ++ x :: b) = last_of f d (a ++ b).
Proof. intros H. rewrite !last_app, last_cons, H. reflexivity. Qed.
Lemma last_early {A B} (f : A -> option B) d a x m y b : f x = None \/ f y <> None -> last_of f d (a ++ x :: m ++ y :: b) = last_of f d (a ++ m ++ y :: b).
Proof.
  intros H. destruct H as [H|H]; [now apply last_skip|]. rewrite !last_app, last_cons, !last_app, !last_cons. destruct (f y); [reflexivity|congruence].
Qed.
Lemma flat_swap {A B} (f : A -> list B) a x y b : f x = [] \/ f y = [] -> flat_map f (a ++ x :: y :: b) = flat_map f (a ++ y :: x :: b).
Proof. intros H. rewrite !flat_map_app. cbn [flat_map]. destruct H as [-> | ->]; cbn [app]; reflexivity. Qed.
Lemma flat_skip {A B} (f : A -> list B) a x b : f x = [] -> flat_map f (a ++ x :: b) = flat_map f (a ++ b).
Proof. intros H. rewrite !flat_map_app. cbn [flat_map]. now rewrite H. Qed.

Lemma of_swap a x y b : kind_of x <> kind_of y -> comp_of (a ++ x :: y :: b) = comp_of (a ++ y :: x :: b).
Proof.
  intros K. unfold comp_of. f_equal; try (apply last_swap); try (apply flat_swap); destruct x, y; cbn in K; try congruence; tauto.
Qed.
Lemma of_skip a x b : kind_of x = "other" -> comp_of (a ++ x :: b) = comp_of (a ++ b).
Proof. intros K. destruct x; try discriminate K. unfold comp_of. f_equal; try (now apply last_skip); now apply flat_skip. Qed.
Lemma of_early a x m y b : kind_of x = kind_of y -> In (kind_of x) ["L"; "U"; "P"; "1"] -> comp_of (a ++ x :: m ++ y :: b) = comp_of (a ++ m ++ y :: b).
Proof.
  intros K I. unfold comp_of.
  assert (Y : match x, y with KName _ _, KName _ _ | KUnit _, KUnit _ | KPos _ _, KPos _ _ | KTurn _, KTurn _ => True | _, _ => False end).
  { destruct x, y; try discriminate K; try exact Logic.I; cbn in I; repeat (destruct I as [I|I]; [discriminate I|]); destruct I. }
  f_equal; try (apply last_early); try (apply flat_skip); destruct x, y; try contradiction; try reflexivity; first [now left|right; discriminate].
Qed.
Definition comp_reads (l : list str) (c : component) : Prop := exists p, comp_parts l p /\ comp_of p = c.
Lemma parts_one x q : comp_parts x [q] -> forall b r, comp_parts b r -> comp_parts (x ++ b) (q :: r).
Proof. intros X b r R. exact (parts_join _ _ X _ _ R). Qed.
Lemma other_reads x : comp_entry "other" x -> x <> [lit "$EndComp"] -> comp_parts x [KNone].
Proof.
  intros E N. inversion E as [k s K B| |s O]; subst.
  - exfalso. cbn in K. repeat (destruct K as [K|K]; [discriminate K|]). destruct K.
  - apply cp_line; [intros ->; now apply N|now apply cl_none|constructor].
Qed.
Lemma moved_reads l l' c : comp_moved l l' -> comp_reads l c -> comp_reads l' c.
Proof.
  intros M. induction M as [a x y b k k' A X Y K|a x b A X|a x b A X N|a x m y b k I A X EM Y|l m n M1 IH1 M2 IH2]; intros (p & P & <-).
  - destruct (entries_parts _ _ _ A P) as (u & v & -> & U & V). destruct (entry_parts _ _ _ _ X V) as (q & r & -> & KQ & Q & R).
    destruct (entry_parts _ _ _ _ Y R) as (q' & r' & -> & KQ' & Q' & R').
    exists (u ++ q' :: q :: r'). split; [|symmetry; apply of_swap; congruence].
    apply parts_join; [exact U|]. apply parts_one; [exact Q'|]. now apply parts_one.
  - destruct (entries_parts _ _ _ A P) as (u & v & -> & U & V). destruct (entry_parts _ _ _ _ X V) as (q & r & -> & KQ & Q & R).
    exists (u ++ r). split; [now apply parts_join|]. symmetry. now apply of_skip.
  - destruct (entries_parts _ _ _ A P) as (u & v & -> & U & V). exists (u ++ KNone :: v). split; [|now apply of_skip].
    apply parts_join; [exact U|]. apply parts_one; [|exact V]. now apply other_reads.
  - destruct (entries_parts _ _ _ A P) as (u & v & -> & U & V). destruct (entry_parts _ _ _ _ X V) as (q & r & -> & KQ & Q & R).
    destruct (entries_parts _ _ _ EM R) as (um & vm & -> & UM & VM). destruct (entry_parts _ _ _ _ Y VM) as (q' & r' & -> & KQ' & Q' & R').
    exists (u ++ um ++ q' :: r'). split; [|symmetry; apply of_early; [congruence|rewrite KQ; exact I]].
    apply parts_join; [exact U|]. apply parts_join; [exact UM|]. now apply parts_one.
  - apply IH2, IH1. exists p. now split.
Qed.

(** ** Sheets *)
Definition sheet_kind (p : sheet_part) : string :=
  match p with HBox _ _ _ _ => "S" | HUnique _ => "U" | HName _ _ => "F0" | HFile _ _ => "F1" | HLabel _ => "F" | HNone => "other" end.
Lemma sheet_kind_ok k s p : sheet_entry k s -> sheet_line_text s p -> sheet_kind p = k.
Proof.
  intros E L. destruct E as [s B|s B|s i B I|s i B I|s i z B I N0 N1|s N1 N2 N3];
    inversion L as [s0 v x y dx dy B0|s0 v u B0|s0 j v n z0 B0 J|s0 j v n z0 B0 J|s0 j z0 l B0 J M0 M1|s0 M1 M2 M3]; subst; cbn [sheet_kind]; try reflexivity;
    exfalso;
    first [solve [eapply M3; eassumption|eapply N3; eassumption|apply M1; assumption|apply M2; assumption|apply N1; assumption|apply N2; assumption]
          |solve [clash B B0]
          |pose proof (begins_fun _ _ _ B B0) as Z; injection Z as ->; rewrite I in J; injection J; congruence].
Qed.
Lemma hof_swap a x y b : sheet_kind x <> sheet_kind y -> sheet_of (a ++ x :: y :: b) = sheet_of (a ++ y :: x :: b).
Proof.
  intros K. unfold sheet_of. cbv zeta. f_equal; try (apply last_swap); try (apply flat_swap); destruct x, y; cbn in K; try congruence; tauto.
Qed.
Lemma hof_skip a x b : sheet_kind x = "other" -> sheet_of (a ++ x :: b) = sheet_of (a ++ b).
Proof. intros K. destruct x; try discriminate K. unfold sheet_of. cbv zeta. f_equal; try (now apply last_skip); now apply flat_skip. Qed.
Lemma hof_early a x m y b : sheet_kind x = sheet_kind y -> In (sheet_kind x) ["S"; "U"; "F0"; "F1"] -> sheet_of (a ++ x :: m ++ y :: b) = sheet_of (a ++ m ++ y :: b).
Proof.
  intros K I. unfold sheet_of. cbv zeta.
  assert (Y : match x, y with HBox _ _ _ _, HBox _ _ _ _ | HUnique _, HUnique _ | HName _ _, HName _ _ | HFile _ _, HFile _ _ => True | _, _ => False end).
  { destruct x, y; try discriminate K; try exact Logic.I; cbn in I; repeat (destruct I as [I|I]; [discriminate I|]); destruct I. }
  f_equal; try (apply last_early); try (apply flat_skip); destruct x, y; try contradiction; try reflexivity; first [now left|right; discriminate].
Qed.
Definition sheet_reads (l : list str) (c : sheet) : Prop := exists p, Forall2 sheet_line_text l p /\ sheet_of p = c.
Lemma sheet_moved_reads l l' c : sheet_moved l l' -> sheet_reads l c -> sheet_reads l' c.
Proof.
  intros M. induction M as [a x y b k k' X Y K|a x b X|a x b X N|a x m y b k I X Y|l m n M1 IH1 M2 IH2]; intros (p & P & <-).
  - apply Forall2_app_inv_l in P as (u & v & U & V & ->). inversion V as [|? q ? r Q R]; subst. inversion R as [|? q' ? r' Q' R']; subst.
    exists (u ++ q' :: q :: r'). split; [apply Forall2_app; [exact U|]; constructor; [exact Q'|]; constructor; [exact Q|exact R']|].
    symmetry. apply hof_swap. rewrite (sheet_kind_ok _ _ _ X Q), (sheet_kind_ok _ _ _ Y Q'). exact K.
  - apply Forall2_app_inv_l in P as (u & v & U & V & ->). inversion V as [|? q ? r Q R]; subst.
    exists (u ++ r). split; [now apply Forall2_app|]. symmetry. apply hof_skip. exact (sheet_kind_ok _ _ _ X Q).
  - apply Forall2_app_inv_l in P as (u & v & U & V & ->). exists (u ++ HNone :: v). split; [|now apply hof_skip].
    apply Forall2_app; [exact U|]. constructor; [|exact V]. inversion X; subst. now apply hl_none.
  - apply Forall2_app_inv_l in P as (u & v & U & V & ->). inversion V as [|? q ? r Q R]; subst. apply Forall2_app_inv_l in R as (um & vm & UM & VM & ->).
    inversion VM as [|? q' ? r' Q' R']; subst. pose proof (sheet_kind_ok _ _ _ X Q) as KX. pose proof (sheet_kind_ok _ _ _ Y Q') as KY.
    exists (u ++ um ++ q' :: r'). split; [apply Forall2_app; [exact U|]; apply Forall2_app; [exact UM|]; now constructor|].
    symmetry. apply hof_early; [congruence|now rewrite KX].
  - apply IH2, IH1. exists p. now split.
Qed.
Lemma sheet_moved_end l l' : sheet_moved l l' -> ~ In (lit "$EndSheet") l -> ~ In (lit "$EndSheet") l'.
Proof.
  intros M. induction M as [a x y b k k' X Y K|a x b X|a x b X N|a x m y b k I X Y|l m n M1 IH1 M2 IH2]; intros H G.
  - apply H. apply in_app_iff in G. apply in_app_iff. cbn [In] in *. tauto.
  - apply H. apply in_app_iff in G. apply in_app_iff. cbn [In] in *. tauto.
  - apply in_app_iff in G. cbn [In] in G. destruct G as [G|[G|G]]; [|now apply N|]; apply H, in_app_iff; tauto.
  - apply H. apply in_app_iff in G. apply in_app_iff. cbn [In] in *. tauto.
  - exact (IH2 (IH1 H) G).
Qed.

(** ** The whole text *)
Lemma split_first (E : str) l r : forall l' r', ~ In E l -> ~ In E l' -> l ++ E :: r = l' ++ E :: r' -> l = l' /\ r = r'.
Proof.
  induction l as [|x l IH]; intros [|y l'] r' N N' Q; cbn [app] in Q.
  - injection Q as ->. now split.
  - injection Q as <- _. exfalso. apply N'. now left.
  - injection Q as -> _. exfalso. apply N. now left.
  - injection Q as <- Q. destruct (IH l' r') as [-> ->]; [intros H; apply N; now right|intros H; apply N'; now right|exact Q|]. now split.
Qed.
Lemma parts_end l p : comp_parts l p -> ~ In (lit "$EndComp") l.
Proof.
  induction 1 as [|s l x r S L R IH|s m l a1 b1 c1 d1 r T F R IH]; intros H; [destruct H| |].
  - destruct H as [H|H]; [now apply S|now apply IH].
  - destruct H as [H|[H|H]]; [| |now apply IH].
    + subst s. destruct T as [[v V]|[v V]]; apply ws_iff in V; vm_compute in V; discriminate V.
    + subst m. destruct F as (v & V & L & _). apply ws_iff in V. subst v. vm_compute in L. discriminate L.
Qed.
Lemma not_single a l e k : single (a :: l) e -> begins_with a k -> In k ["$Comp"; "$Sheet"] -> False.
Proof.
  intros S [w W] K. apply ws_iff in W.
  assert (H : exists v z, ws_words a v /\ at_word v 0 (lit z) /\ In z ["Wire"; "Connection"; "NoConn"; "Text"]).
  { inversion S as [a0 k0 b0 c0 t0 x1 y1 x2 y2 V|s0 v x y V Z|s0 v x y V Z|a0 v t0 x y o z sh it th tx V Z]; subst.
    - exists [lit "Wire"; k0; b0], "Wire". split; [exact V|]. split; [reflexivity|cbn; tauto].
    - exists v, "Connection". split; [exact V|]. split; [exact Z|cbn; tauto].
    - exists v, "NoConn". split; [exact V|]. split; [exact Z|cbn; tauto].
    - exists v, "Text". split; [exact V|]. split; [exact Z|cbn; tauto]. }
  destruct H as (v & z & V & Z & I). apply ws_iff in V. rewrite W in V. subst v. unfold at_word in Z. cbn [nth_error] in Z. injection Z as Z.
  destruct K as [<-|[<-|[]]]; repeat (destruct I as [<-|I]; [discriminate Z|]); destruct I.
Qed.
Lemma comp_section a l post secs : begins_with a "$Comp" -> ~ In (lit "$EndComp") l -> sections (a :: l ++ lit "$EndComp" :: post) secs ->
  exists p r, comp_parts l p /\ sections post r /\ secs = SecElement (SComponent (comp_of p)) :: r.
Proof.
  intros A N S. inversion S as [|x b s r X R Q]; subst.
  inversion X as [l0 d D|a0 l0 p B P|a0 l0 p B P M|a0 B|l0 e I|a0 w B O]; subst.
  - exfalso. inversion D; subst. cbn [app] in Q. injection Q as -> _. match goal with H : begins_with a "$Descr" |- _ => clash A H end.
  - cbn [app] in Q. injection Q as -> Q. rewrite <- app_assoc in Q. cbn [app] in Q. apply split_first in Q as [-> ->]; [|exact (parts_end _ _ P)|exact N].
    exists p, r. split; [exact P|]. split; [exact R|reflexivity].
  - exfalso. cbn [app] in Q. injection Q as -> _. clash A B.
  - exfalso. cbn [app] in Q. injection Q as -> _. clash A B.
  - exfalso. destruct x as [|a0 x]; [inversion I|]. cbn [app] in Q. injection Q as -> _. apply (not_single _ _ _ "$Comp" I A). now left.
  - exfalso. cbn [app] in Q. injection Q as -> _. apply (O "$Comp"); [cbn; tauto|]. exact (begins_fun _ _ _ B A).
Qed.
Lemma sheet_section a l post secs : begins_with a "$Sheet" -> ~ In (lit "$EndSheet") l -> sections (a :: l ++ lit "$EndSheet" :: post) secs ->
  exists p r, Forall2 sheet_line_text l p /\ sections post r /\ secs = SecSheet (sheet_of p) :: r.
Proof.
  intros A N S. inversion S as [|x b s r X R Q]; subst.
  inversion X as [l0 d D|a0 l0 p B P|a0 l0 p B P M|a0 B|l0 e I|a0 w B O]; subst.
  - exfalso. inversion D; subst. cbn [app] in Q. injection Q as -> _. match goal with H : begins_with a "$Descr" |- _ => clash A H end.
  - exfalso. cbn [app] in Q. injection Q as -> _. clash A B.
  - cbn [app] in Q. injection Q as -> Q. rewrite <- app_assoc in Q. cbn [app] in Q. apply split_first in Q as [-> ->]; [|exact M|exact N].
    exists p, r. split; [exact P|]. split; [exact R|reflexivity].
  - exfalso. cbn [app] in Q. injection Q as -> _. clash A B.
  - exfalso. destruct x as [|a0 x]; [inversion I|]. cbn [app] in Q. injection Q as -> _. apply (not_single _ _ _ "$Sheet" I A). right. now left.
  - exfalso. cbn [app] in Q. injection Q as -> _. apply (O "$Sheet"); [cbn; tauto|]. exact (begins_fun _ _ _ B A).
Qed.
Lemma same_rest fn first last t t' l l' s (D : differ first last t t' l l') :
  (forall post secs a, ~ In (lit last) l -> begins_with a first -> sections (a :: l ++ lit last :: post) secs -> sections (a :: l' ++ lit last :: post) secs) ->
  parse_schematic fn t = Ok s -> parse_schematic fn t' = Ok s.
Proof.
  destruct D as [libs e pre sp a post T T' EE SP A N]. intros H. unfold parse_schematic. apply lines_iff in T, T'. rewrite T, T'.
  intros P. apply (heading_iff fn libs e _ s EE) in P as (secs & S & ->). apply (heading_iff fn libs e _ _ EE).
  apply (sections_join pre sp SP) in S as (r & R & ->). exists (sp ++ r). split; [|reflexivity]. apply (sections_join pre sp SP). exists r. split; [|reflexivity]. exact (H post r a N A R).
Qed.
Theorem component_moved fn t t' l l' s : differ "$Comp" "$EndComp" t t' l l' -> comp_moved l l' -> parse_schematic fn t = Ok s -> parse_schematic fn t' = Ok s.
Proof.
  intros D M. apply (same_rest fn _ _ t t' l l' s D). intros post secs a N A S. destruct (comp_section a l post secs A N S) as (p & r & P & R & ->).
  destruct (moved_reads l l' (comp_of p) M (ex_intro _ p (conj P eq_refl))) as (p' & P' & E). rewrite <- E.
  replace (a :: l' ++ lit "$EndComp" :: post) with ((a :: l' ++ [lit "$EndComp"]) ++ post) by (cbn [app]; rewrite <- app_assoc; reflexivity).
  apply ss_cons; [|exact R]. now apply st_comp.
Qed.
Theorem sheet_lines_moved fn t t' l l' s : differ "$Sheet" "$EndSheet" t t' l l' -> sheet_moved l l' -> parse_schematic fn t = Ok s -> parse_schematic fn t' = Ok s.
Proof.
  intros D M. apply (same_rest fn _ _ t t' l l' s D). intros post secs a N A S. destruct (sheet_section a l post secs A N S) as (p & r & P & R & ->).
  destruct (sheet_moved_reads l l' (sheet_of p) M (ex_intro _ p (conj P eq_refl))) as (p' & P' & E). rewrite <- E.
  replace (a :: l' ++ lit "$EndSheet" :: post) with ((a :: l' ++ [lit "$EndSheet"]) ++ post) by (cbn [app]; rewrite <- app_assoc; reflexivity).
  apply ss_cons; [|exact R]. apply st_sheet; [exact A|exact P'|]. exact (sheet_moved_end l l' M N).
Qed.

(** ** Whole sections *)
Lemma put_swap a x y b c : section_kind x <> section_kind y -> fold_left sec_put (a ++ x :: y :: b) c = fold_left sec_put (a ++ y :: x :: b) c.
Proof. intros K. rewrite !sec_fold. f_equal; try (apply last_swap); try (f_equal; apply flat_swap); destruct x, y; cbn in K; try congruence; tauto. Qed.
Lemma put_skip a b c : fold_left sec_put (a ++ SecNone :: b) c = fold_left sec_put (a ++ b) c.
Proof. rewrite !sec_fold. f_equal; try (now apply last_skip); f_equal; now apply flat_skip. Qed.
Lemma put_early a d m d' b c : fold_left sec_put (a ++ SecDescr d :: m ++ SecDescr d' :: b) c = fold_left sec_put (a ++ m ++ SecDescr d' :: b) c.
Proof. rewrite !sec_fold. f_equal; try (apply last_early; right; discriminate); f_equal; now apply flat_skip. Qed.
Lemma sec_one x s b r : section_text x s -> sections (x ++ b) r -> exists r', sections b r' /\ r = s :: r'.
Proof.
  intros X S. assert (X1 : sections x [s]). { rewrite <- (app_nil_r x). constructor; [exact X|constructor]. }
  apply (sections_join x [s] X1) in S as (q & Q & ->). exists q. now split.
Qed.
Definition reads_as (c0 : schematic) (l : list str) (c : schematic) : Prop := exists r, sections l r /\ c = fold_left sec_put r c0.
Lemma sections_moved_reads c0 l l' c : sections_moved l l' -> reads_as c0 l c -> reads_as c0 l' c.
Proof.
  intros M. induction M as [a sa x sx y sy b A X Y K|a sa x b A X|a sa x b A X|a sa x d m sm y d' b A X M Y|l m n M1 IH1 M2 IH2]; intros (r & R & ->).
  - apply (sections_join a sa A) in R as (q & Q & ->). apply (sec_one x sx _ _ X) in Q as (q1 & Q1 & ->). apply (sec_one y sy _ _ Y) in Q1 as (q2 & Q2 & ->).
    exists (sa ++ sy :: sx :: q2). split; [|now apply put_swap]. apply (sections_join a sa A). exists (sy :: sx :: q2). split; [|reflexivity].
    constructor; [exact Y|]. now constructor.
  - apply (sections_join a sa A) in R as (q & Q & ->). apply (sec_one [x] SecNone b _ (st_end x X)) in Q as (q1 & Q1 & ->).
    exists (sa ++ q1). split; [|now apply put_skip]. apply (sections_join a sa A). exists q1. now split.
  - apply (sections_join a sa A) in R as (q & Q & ->). exists (sa ++ SecNone :: q). split; [|symmetry; now apply put_skip]. apply (sections_join a sa A).
    exists (SecNone :: q). split; [|reflexivity]. apply (ss_cons [x] b); [now apply st_end|exact Q].
  - apply (sections_join a sa A) in R as (q & Q & ->). apply (sec_one x _ _ _ (st_descr x d X)) in Q as (q1 & Q1 & ->).
    apply (sections_join m sm M) in Q1 as (q2 & Q2 & ->). pose proof Q2 as Q2'. apply (sec_one y _ _ _ (st_descr y d' Y)) in Q2' as (q3 & Q3 & ->).
    exists (sa ++ sm ++ SecDescr d' :: q3). split; [|now apply put_early]. apply (sections_join a sa A). exists (sm ++ SecDescr d' :: q3). split; [|reflexivity].
    apply (sections_join m sm M). exists (SecDescr d' :: q3). split; [exact Q2|reflexivity].
  - apply IH2, IH1. exists r. now split.
Qed.
Theorem sections_moved_same fn t t' libs e l l' s : starts_with (lit "EELAYER ") e = true ->
  text_lines t (sch_heading libs e ++ l) -> text_lines t' (sch_heading libs e ++ l') -> sections_moved l l' ->
  parse_schematic fn t = Ok s -> parse_schematic fn t' = Ok s.
Proof.
  intros EE T T' M. unfold parse_schematic. apply lines_iff in T, T'. rewrite T, T'. intros P. apply (heading_iff fn libs e _ s EE) in P.
  apply (heading_iff fn libs e _ _ EE). exact (sections_moved_reads _ _ _ _ M P).
Qed.
