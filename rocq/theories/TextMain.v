(** The formatter lays texts out as specified: whole documents (lemmas for C66). *)
From Coq Require Import String Lia.
From Verif Require Import Base Str StrFacts Sexp Formatter FormatterSpec FormatterFacts TextSpec TextFacts.
Open Scope string_scope. Open Scope list_scope.

Section Lay.
Context (nq : str -> bool).
Definition one_kid (h : str) (anc : list str) (d : Z) (before : list str) (y : sexp) : str :=
  match name_of y with
  | None => 32%N :: lay nq (h :: anc) d [] y
  | Some c =>
      match break_of (h :: anc) c (points before) with
      | None => 32%N :: gaps h before c d ++ lay nq (h :: anc) d [] y
      | Some b =>
          gaps h before c d ++ new_lines (b_lines b) (d + 1)
          ++ lay nq (h :: anc) (d + 1) (if b_close b then new_lines 1 (d + 1) else []) y
          ++ (if b_after b then [10%N] else [])
      end
  end.
Definition next_before (before : list str) (y : sexp) : list str := match name_of y with Some c => c :: before | None => before end.
Fixpoint kids (h : str) (anc : list str) (d : Z) (before : list str) (l : list sexp) : str :=
  match l with [] => [] | y :: r => one_kid h anc d before y ++ kids h anc d (next_before before y) r end.
Lemma lay_list anc d close h l : lay nq anc d close (SList (SStr h :: l)) = 40%N :: atom nq h ++ kids h anc d [] l ++ close ++ [41%N].
Proof.
  cbn [lay]. f_equal. f_equal. f_equal. generalize (@nil str) as before. induction l as [|y l IH]; intros before; [reflexivity|].
  cbn [kids]. unfold one_kid, next_before. destruct (name_of y) as [c|]; [|cbn [app]; now rewrite IH].
  rewrite IH. destruct (break_of (h :: anc) c (points before)); reflexivity.
Qed.

Definition pre (f : fstate) (p : str) (anc : list str) (before : list str) : Prop :=
  names f (p :: anc) /\ (seqb p "pts" = true -> fs_pts f = Z.of_nat (points before))
  /\ (seqb p "kicad_pcb" = true -> fs_seen_module f = (match before with b :: _ => seqb b "module" | [] => false end)
                                   /\ fs_seen_segment f = existsb (fun b => seqb b "segment") before).
Definition module_after (f : fstate) (p : str) (s : sexp) : bool := match name_of s with Some c => seen_after f p c | None => fs_seen_module f end.
Definition segment_after (f : fstate) (s : sexp) : bool := match name_of s with Some c => fs_seen_segment f || seqb c "segment" | None => fs_seen_segment f end.
Definition is_xy (s : sexp) : bool := match name_of s with Some c => seqb c "xy" | None => false end.
Definition post (f : fstate) (p : str) (anc : list str) (before : list str) (s : sexp) : Prop :=
  exists q t, fm_ser nq s f = (mk_fs (fs_indent f) (fs_stack f) q (module_after f p s) (segment_after f s), t)
   /\ fm_element f s ++ t = one_kid p anc (fs_indent f) before s
   /\ (flat s = true -> q = if seqb p "pts" && is_xy s then (fs_pts f + 1)%Z else fs_pts f).

Lemma atom_kid f p anc before x : post f p anc before (SStr x).
Proof.
  exists (fs_pts f), (atom_text nq x). split; [destruct f; reflexivity|]. split; [|intros _; unfold is_xy; cbn [name_of]; now rewrite andb_false_r].
  rewrite element_str. reflexivity.
Qed.

(** ** Children *)
Lemma rest_quiet l : Forall (fun s => quiet s = true -> forall f p anc before, pre f p anc before -> post f p anc before s) l ->
  forall f h anc before, seqb h "kicad_pcb" = false -> pre f h anc before ->
  forallb quiet l = true -> (seqb h "pts" = true -> forallb flat l = true) ->
  exists q, fm_rest nq l f = (mk_fs (fs_indent f) (fs_stack f) q (fs_seen_module f) (fs_seen_segment f), kids h anc (fs_indent f) before l).
Proof.
  induction 1 as [|s l Hs _ IH]; intros f h anc before HK HP HQ HF.
  - exists (fs_pts f). destruct f; reflexivity.
  - cbn [forallb] in HQ. apply andb_prop in HQ as [Q1 Q2]. destruct (Hs Q1 f h anc before HP) as (q & t & E & T & C).
    assert (M : module_after f h s = fs_seen_module f /\ segment_after f s = fs_seen_segment f).
    { unfold module_after, segment_after, seen_after. destruct s as [x|[|[c| |] r]|]; try discriminate; [split; reflexivity|]. cbn [name_of].
      cbn [quiet] in Q1. apply andb_prop in Q1 as [Q1 _]. unfold plain_name in Q1. apply andb_prop in Q1 as [_ Q1]. apply negb_true_iff in Q1.
      unfold one_of in Q1. cbn [existsb] in Q1. apply orb_false_elim in Q1 as [A Q1]. apply orb_false_elim in Q1 as [B _].
      unfold seqb at 1 3. rewrite A, B, HK. split; [reflexivity|apply orb_false_r]. }
    destruct M as [M1 M2]. rewrite M1, M2 in E.
    set (f1 := mk_fs (fs_indent f) (fs_stack f) q (fs_seen_module f) (fs_seen_segment f)) in *.
    destruct (IH f1 h anc (next_before before s)) as (q2 & E2); [exact HK| |exact Q2|intros EP; specialize (HF EP); cbn [forallb] in HF; now apply andb_prop in HF as [_ HF]|].
    + destruct HP as (N & P & _). split; [exact N|]. split; [|intros K; congruence].
      intros EP. specialize (HF EP). cbn [forallb] in HF. apply andb_prop in HF as [HF _]. unfold f1. cbn [fs_pts]. rewrite (C HF), EP, (P EP). cbn [andb].
      unfold next_before, is_xy, points. destruct (name_of s) as [c|]; [|reflexivity]. cbn [filter]. rewrite one_of_1. destruct (seqb c "xy"); cbn [length]; lia.
    + exists q2. cbn [fm_rest kids]. rewrite E, E2. f_equal. rewrite app_assoc, T. reflexivity.
Qed.

(** ** One list *)
Lemma gaps_eq f p anc before c : pre f p anc before -> (seqb c "segment" = true -> seqb p "kicad_pcb" = true) ->
  open_gaps f p c = gaps p before c (fs_indent f).
Proof.
  intros (_ & _ & K) HS. unfold open_gaps, gaps. rewrite !one_of_1. destruct (seqb p "kicad_pcb") eqn:EK.
  - destruct (K eq_refl) as [K1 K2]. rewrite K1, K2. f_equal.
    + destruct before as [|b before]; [now rewrite andb_false_r|]. rewrite one_of_1. destruct (seqb b "module"), (seqb c "module"); reflexivity.
    + replace (existsb (one_of ["segment"]) before) with (existsb (fun b => seqb b "segment") before).
      * destruct (seqb c "segment"), (existsb (fun b => seqb b "segment") before); reflexivity.
      * clear. induction before as [|b before IH]; [reflexivity|]. cbn [existsb]. now rewrite one_of_1, IH.
  - rewrite andb_false_r. cbn [andb]. destruct (seqb c "segment") eqn:ES; [discriminate (HS eq_refl)|]. now rewrite andb_false_r.
Qed.
Lemma list_kid l c : is_empty c = false -> seqb c "kicad_pcb" = false ->
  Forall (fun s => quiet s = true -> forall f p anc before, pre f p anc before -> post f p anc before s) l ->
  forallb quiet l = true -> (seqb c "pts" = true -> forallb flat l = true) ->
  forall f p anc before, (seqb c "segment" = true -> seqb p "kicad_pcb" = true) -> pre f p anc before ->
  post f p anc before (SList (SStr c :: l)).
Proof.
  intros HE HK HL HQ HF f p anc before HS HP. pose proof HP as (N & P & _).
  pose proof (open_spec f p anc c (points before) N P HE) as EO. pose proof (gaps_eq f p anc before c HP HS) as EG.
  set (b := break_of (p :: anc) c (points before)) in *.
  match type of EO with _ = (?F, _) => set (f1 := F) in EO end.
  assert (N1 : names f1 (c :: p :: anc)).
  { destruct N as (st & E1 & E2). exists ((c, option_map to_indent b) :: st). unfold f1. cbn [fs_stack map fst]. now rewrite E1, E2. }
  destruct (rest_quiet l HL f1 c (p :: anc) []) as (q & ER); [exact HK| |exact HQ|exact HF|].
  { split; [exact N1|]. split; [|intros K; congruence]. intros EP. unfold f1. cbn [fs_pts]. rewrite EP.
    replace (seqb c "xy") with false by (apply seqb_eq in EP; subst c; reflexivity). rewrite andb_false_r. reflexivity. }
  unfold post. rewrite fm_ser_cons, EO. cbn [fm_ser]. rewrite ER.
  destruct N as (st & ES & EN).
  rewrite (close_spec _ c b (fs_stack f)); [|reflexivity|rewrite ES; destruct st; discriminate].
  cbn [fs_indent fs_stack fs_pts fs_seen_module fs_seen_segment].
  eexists q, _. split; [|split].
  - f_equal. unfold f1, module_after, segment_after, deeper. cbn [name_of fs_indent fs_stack fs_seen_module fs_seen_segment]. f_equal.
    destruct b; lia.
  - unfold one_kid. cbn [name_of]. fold b. unfold f1. cbn [fs_indent]. rewrite EG.
    unfold fm_element. replace (want f (SList (SStr c :: l))) with (option_map to_indent b)
      by (symmetry; cbn [want]; apply want_spec; [exists st; split; assumption|exact P]).
    destruct b as [b|]; rewrite ?lay_list; cbn [option_map deeper app]; unfold atom, atom_text;
    repeat (rewrite <- ?app_assoc; progress cbn [app]); rewrite <- ?app_assoc; reflexivity.
  - intros FL. unfold is_xy. cbn [name_of]. cbn [flat] in FL. apply andb_prop in FL as [FL FA]. apply andb_prop in FL as [_ FL].
    apply negb_true_iff in FL. rewrite one_of_1 in FL.
    assert (RA : forall g, fst (fm_rest nq l g) = g).
    { clear - FA. induction l as [|y l IH]; intros g; [reflexivity|]. cbn [forallb] in FA. apply andb_prop in FA as [A1 A2]. destruct y; try discriminate.
      cbn [fm_rest fm_ser]. specialize (IH A2 g). destruct (fm_rest nq l g) as [g2 t2]. exact IH. }
    specialize (RA f1). rewrite ER in RA. cbn [fst] in RA. apply (f_equal fs_pts) in RA. cbn [fs_pts] in RA. rewrite RA. unfold f1. cbn [fs_pts]. now rewrite FL.
Qed.
Lemma plain_facts c : plain_name c = true -> is_empty c = false /\ seqb c "module" = false /\ seqb c "segment" = false /\ seqb c "kicad_pcb" = false.
Proof.
  unfold plain_name, one_of. cbn [existsb]. intros H. apply andb_prop in H as [A B]. apply negb_true_iff in A, B. apply orb_false_elim in B as [B1 B].
  apply orb_false_elim in B as [B2 B]. apply orb_false_elim in B as [B3 _]. unfold seqb. auto.
Qed.
Lemma flat_quiet s : flat s = true -> quiet s = true.
Proof.
  destruct s as [x|[|[c| |] l]|]; try discriminate; [reflexivity|]. cbn [flat quiet]. intros H. apply andb_prop in H as [H HA]. apply andb_prop in H as [-> H].
  apply negb_true_iff in H. rewrite H. cbn [andb]. rewrite forallb_forall in *. intros x Hx. specialize (HA x Hx). now destruct x.
Qed.
Lemma quiet_kids c l : quiet (SList (SStr c :: l)) = true -> plain_name c = true /\ forallb quiet l = true /\ (seqb c "pts" = true -> forallb flat l = true).
Proof.
  cbn [quiet]. intros H. apply andb_prop in H as [H1 H2]. rewrite one_of_1 in H2. split; [exact H1|]. destruct (seqb c "pts").
  - split; [|auto]. rewrite forallb_forall in *. intros x Hx. apply flat_quiet. auto.
  - split; [exact H2|discriminate].
Qed.
Lemma quiet_kid s : quiet s = true -> forall f p anc before, pre f p anc before -> post f p anc before s.
Proof.
  induction s as [x| |l IH] using sexp_nest_ind; intros HQ f p anc before HP; [apply atom_kid|discriminate|].
  destruct l as [|[c| |] l]; try discriminate. apply quiet_kids in HQ as (H1 & H2 & H3). apply plain_facts in H1 as (A & B & C & D).
  inversion IH; subst. apply list_kid; try assumption. intros E. congruence.
Qed.
Lemma all_kids l : Forall (fun s => quiet s = true -> forall f p anc before, pre f p anc before -> post f p anc before s) l.
Proof. apply Forall_forall. intros s _. apply quiet_kid. Qed.

(** ** Boards *)
Lemma top_kid s f anc before : quiet s || top s = true -> pre f (lit "kicad_pcb") anc before -> post f (lit "kicad_pcb") anc before s.
Proof.
  intros H HP. destruct (quiet s) eqn:Q; [now apply quiet_kid|]. cbn [orb] in H. destruct s as [x|[|[c| |] l]|]; try discriminate.
  cbn [top] in H. apply andb_prop in H as [H1 H2].
  assert (E : c = lit "module" \/ c = lit "segment").
  { unfold one_of in H1. cbn [existsb] in H1. apply orb_prop in H1 as [H1|H1]; [left; now apply str_eqb_eq|]. apply orb_prop in H1 as [H1|H1]; [right; now apply str_eqb_eq|discriminate]. }
  apply list_kid; try assumption; [destruct E; subst; reflexivity|destruct E; subst; reflexivity|apply all_kids|destruct E; subst; discriminate|reflexivity].
Qed.
Lemma rest_board l : forall f anc before, pre f (lit "kicad_pcb") anc before -> forallb (fun s => quiet s || top s) l = true ->
  exists q m g, fm_rest nq l f = (mk_fs (fs_indent f) (fs_stack f) q m g, kids (lit "kicad_pcb") anc (fs_indent f) before l).
Proof.
  induction l as [|s l IH]; intros f anc before HP HQ.
  - exists (fs_pts f), (fs_seen_module f), (fs_seen_segment f). destruct f; reflexivity.
  - cbn [forallb] in HQ. apply andb_prop in HQ as [Q1 Q2]. destruct (top_kid s f anc before Q1 HP) as (q & t & E & T & _).
    match type of E with _ = (?F, _) => set (f1 := F) in E end.
    destruct (IH f1 anc (next_before before s)) as (q2 & m & g & E2); [|exact Q2|].
    + destruct HP as (N & _ & K). split; [exact N|]. split; [discriminate|]. intros EK. destruct (K EK) as [K1 K2].
      unfold f1, module_after, segment_after, next_before. cbn [fs_seen_module fs_seen_segment]. destruct (name_of s) as [c|]; [|auto].
      unfold seen_after. rewrite EK, K2. split; [now destruct (seqb c "module")|]. cbn [existsb]. apply orb_comm.
    + exists q2, m, g. cbn [fm_rest kids]. rewrite E, E2. f_equal. rewrite app_assoc, T. reflexivity.
Qed.

(** ** Documents *)
Lemma root_spec h n : is_empty h = false ->
  (exists f1, fm_open (fs_new n) (Some (SStr h)) = (f1, (if seqb h "segment" then new_lines 1 n else []) ++ [40%N])
    /\ fs_indent f1 = n /\ fs_stack f1 = [Some (h, None)] /\ fs_pts f1 = 0%Z /\ fs_seen_module f1 = seqb h "module" /\ fs_seen_segment f1 = seqb h "segment")
  /\ forall f, fs_stack f = [Some (h, None)] -> snd (fm_close f) = (if one_of ["module"; "kicad_pcb"; "fp_lib_table"] h then [10%N] else []) ++ [41%N].
Proof.
  intros HE. split.
  - unfold fm_open, fs_new. cbn [head_name fm_parent fs_stack]. rewrite andb_false_r. cbn [andb text_if fs_seen_segment fs_seen_module fs_indent fs_pts fs_stack negb].
    match goal with |- context [want_name ?F h] => assert (W : want_name F h = None) by reflexivity; rewrite W end.
    eexists. split; [|split; [|split; [|split; [|split]]]].
    + f_equal. unfold text_if. rewrite indent_1. reflexivity.
    + reflexivity.
    + cbn [fs_stack]. now rewrite HE.
    + cbn [fs_pts fm_parent fs_stack andb]. now destruct (seqb h "pts").
    + cbn [fs_seen_module]. now destruct (seqb h "module").
    + reflexivity.
  - intros f E. unfold fm_close. rewrite E. cbn [snd andb]. unfold text_if. reflexivity.
Qed.
Lemma written_list h l n : written nq n (SList (SStr h :: l)) =
  40%N :: atom nq h ++ kids h [] n [] l ++ (if one_of ["module"; "kicad_pcb"; "fp_lib_table"] h then [10%N] else []) ++ [41%N].
Proof. unfold written. cbn [name_of]. now rewrite lay_list. Qed.
Lemma pretty_root h l n : is_empty h = false -> seqb h "segment" = false ->
  (forall f, pre f h [] [] -> exists q m g, fm_rest nq l f = (mk_fs (fs_indent f) (fs_stack f) q m g, kids h [] (fs_indent f) [] l)) ->
  pretty nq n (SList (SStr h :: l)) = written nq n (SList (SStr h :: l)).
Proof.
  intros HE HS HR. destruct (root_spec h n HE) as ((f1 & EO & I & S & P & M & G) & EC). unfold pretty. rewrite fm_ser_cons, EO. cbn [fm_ser].
  destruct (HR f1) as (q & m & g & ER).
  { split; [exists [(h, None)]; split; [exact S|reflexivity]|]. split; [intros _; now rewrite P|]. intros EK. rewrite M, G. apply seqb_eq in EK. subst h. split; reflexivity. }
  rewrite ER. rewrite S, I. specialize (EC (mk_fs n [Some (h, None)] q m g) eq_refl).
  destruct (fm_close (mk_fs n [Some (h, None)] q m g)) as [f3 t3]. cbn [snd] in *. rewrite EC, written_list, HS. cbn [app]. unfold atom, atom_text.
  now rewrite <- !app_assoc.
Qed.
Lemma pretty_written n s : regular s = true -> pretty nq n s = written nq n s.
Proof.
  intros H. destruct s as [x|[|[h| |] l]|]; try discriminate. cbn [regular] in H. rewrite !one_of_1 in H.
  destruct (seqb h "kicad_pcb") eqn:EK.
  - apply seqb_eq in EK. subst h. apply pretty_root; [reflexivity|reflexivity|]. intros f HP. now apply rest_board.
  - assert (R : is_empty h = false -> seqb h "segment" = false -> forallb quiet l = true -> (seqb h "pts" = true -> forallb flat l = true) ->
        pretty nq n (SList (SStr h :: l)) = written nq n (SList (SStr h :: l))).
    { intros HE HS HQ HF. apply pretty_root; [exact HE|exact HS|]. intros f HP.
      destruct (rest_quiet l (all_kids l) f h [] [] EK HP HQ HF) as (q & E). eauto. }
    destruct (seqb h "module") eqn:EM.
    + apply seqb_eq in EM. subst h. apply R; [reflexivity|reflexivity|exact H|discriminate].
    + apply quiet_kids in H as (H1 & H2 & H3). apply plain_facts in H1 as (A & B & C & D). now apply R.
Qed.
End Lay.
