(** Facts about moving the lines of a symbol (C111). *)
From Coq Require Import List NArith ZArith Bool String Permutation Lia.
From Verif Require Import Base Str StrFacts Num F64 F64Text CutSpec CutFacts LibSpec SchData SchParse SchReadSpec SchReadFacts SymData SymParse SymReadSpec SymReadFacts
  Said SchErr SymErr ErrErase ErrSpec ErrFacts ErrSym ErrWhole SymOrderSpec.
Import ListNotations.
Open Scope string_scope. Open Scope list_scope.

Lemma symbol_uniq l y r l' y' r' : symbol_text l y -> symbol_text l' y' -> l ++ r = l' ++ r' -> y = y' /\ r = r'.
Proof. intros A B E. pose proof (symbol_bw l y r A) as P. pose proof (symbol_bw l' y' r' B) as Q. rewrite E, Q in P. injection P as -> ->. now split. Qed.
Lemma symbol_ne l y : symbol_text l y -> exists x k, l = x :: k.
Proof. intros [a d v fl fp al dl z]. eexists. eexists. reflexivity. Qed.
Lemma whole_split ls ys : whole ls ys -> forall r zs, symbols_text (ls ++ r) zs -> exists q, zs = ys ++ q /\ symbols_text r q.
Proof.
  induction 1 as [|l y r0 ys Y E W IH]; intros r zs S.
  - exists zs. now split.
  - rewrite <- app_assoc in S. inversion S as [Q|r1 Q|l1 y1 r1 ys1 Y1 E1 S1 Q]; subst.
    + destruct (symbol_ne _ _ Y) as (x & k & ->). discriminate Q.
    + destruct (symbol_ne _ _ Y) as (x & k & ->). cbn [app] in Q. injection Q as <- _. now destruct E.
    + destruct (symbol_uniq _ _ _ _ _ _ Y1 Y Q) as [-> ->]. destruct (IH _ _ S1) as (q & -> & Z). exists q. now split.
Qed.
Lemma whole_join ls ys : whole ls ys -> forall r q, symbols_text r q -> symbols_text (ls ++ r) (ys ++ q).
Proof. induction 1 as [|l y r0 ys Y E W IH]; intros r q Q; [exact Q|]. rewrite <- app_assoc. cbn [app]. apply sy_more; [exact Y|exact E|]. now apply IH. Qed.
Lemma symbol_at a r zs : a <> lit "#End Library" -> symbols_text (a :: r) zs -> exists l y r' q, a :: r = l ++ r' /\ symbol_text l y /\ symbols_text r' q /\ zs = y :: q.
Proof.
  intros N S. inversion S as [Q|r1 Q|l1 y1 r1 ys1 Y1 E1 S1 Q]; subst; [now destruct N|]. exists l1, y1, r1, ys1. split; [now symmetry|]. split; [exact Y1|]. now split.
Qed.
Lemma fields_perm {A B} (R : A -> B -> Prop) l l' : Permutation l l' -> forall v, Forall2 R l v -> exists v', Forall2 R l' v' /\ Permutation v v'.
Proof.
  induction 1 as [|x a b P IH|x y a|a b c P IH Q IK]; intros v V.
  - inversion V. exists []. split; constructor.
  - inversion V as [|? z ? v' Z V']; subst. destruct (IH _ V') as (w & W & E). exists (z :: w). split; [now constructor|now constructor].
  - inversion V as [|? z ? v' Z V']; subst. inversion V' as [|? z' ? v'' Z' V'']; subst. exists (z' :: z :: v''). split; [constructor; [exact Z'|]; now constructor|constructor].
  - destruct (IH _ V) as (w & W & E). destruct (IK _ W) as (u & U & F). exists u. split; [exact U|]. now transitivity w.
Qed.
(** The same values of the definition with other parts *)
Lemma rebuilt l y a d r : symbol_text l y -> (exists q, l ++ q = a :: lit "#" :: d :: r) -> forall a' fl fs fp al als dl ds,
  Forall2 sfield_line fl fs -> fplist fp -> alias_lines al als -> Forall2 drawing dl ds -> ~ In (lit "ENDDRAW") dl ->
  symbol_text (symbol_lines a' d fl fp al dl)
    (mk_symbol (sy_name y) (sy_reference y) (sy_text_offset y) (sy_pinnumber y) (sy_pinname y) (sy_unit_count y) (sy_unit_locked y) (sy_is_power y) fs als ds).
Proof.
  intros Y (q & E) a' fl fs fp al als dl ds F P A D N. destruct Y as [a0 d0 v fl0 fp0 al0 dl0 y V L W0 W1 W2 W4 W5 W6 W7 W8 W9 F0 P0 A0 D0 N0].
  cbn [app] in E. injection E as _ -> _. now apply (sym_lines a' d v fl fp al dl).
Qed.
Theorem symbol_moved t t' pre a d a' fl fl' fp fp' al dl dl' lib :
  differ_symbol t t' pre (symbol_lines a d fl fp al dl) (symbol_lines a' d fl' fp' al dl') -> parts_read fl fp al dl ->
  a <> lit "#End Library" -> a' <> lit "#End Library" -> Permutation fl fl' -> fplist fp' -> Permutation dl dl' ->
  parse_symbol_lib t = Ok lib -> exists y y' post, lib = pre ++ y :: post /\ parse_symbol_lib t' = Ok (pre ++ y' :: post) /\ same_unordered y y' /\
    (fl = fl' -> dl = dl' -> y = y').
Proof.
  intros (ls & post & W & T & T') ((fs & F) & P & (als & A) & (ds & D) & N) NA NA' PF P' PD H. apply library_iff in H as (ls0 & T0 & r & E & S).
  assert (U : ls0 = map lit library_head ++ ls ++ symbol_lines a d fl fp al dl ++ post). { apply lines_iff in T0, T. congruence. }
  rewrite U in E. unfold library_head in E. cbn [map app] in E. injection E as <-. clear U T0 ls0.
  destruct (whole_split _ _ W _ _ S) as (q & -> & Q). destruct (symbol_at _ _ _ NA Q) as (l & y & r' & z & E & Y & Z & ->).
  pose proof (rebuilt l y a d _ Y (ex_intro _ r' (eq_sym E)) a fl fs fp al als dl ds F P A D N) as Y1.
  destruct (symbol_uniq l y r' _ _ post Y Y1) as [EY ->]; [rewrite <- E; reflexivity|].
  destruct (fields_perm _ _ _ PF _ F) as (fs' & F' & PF'). destruct (fields_perm _ _ _ PD _ D) as (ds' & D' & PD').
  assert (N' : ~ In (lit "ENDDRAW") dl') by (intros X; apply N; apply (Permutation_in _ (Permutation_sym PD)); exact X).
  pose proof (rebuilt l y a d _ Y (ex_intro _ post (eq_sym E)) a' fl' fs' fp' al als dl' ds' F' P' A D' N') as Y2.
  assert (OF : sy_fields y = fs) by (rewrite EY; reflexivity). assert (OA : sy_aliases y = als) by (rewrite EY; reflexivity). assert (OD : sy_draw y = ds) by (rewrite EY; reflexivity).
  match type of Y2 with symbol_text _ ?k => exists y, k, z end. split; [reflexivity|]. split.
  { apply library_iff. eexists. split; [exact T'|]. eexists. split; [unfold library_head; cbn [map app]; reflexivity|].
    apply (whole_join _ _ W). apply sy_more; [exact Y2| |exact Z]. unfold symbol_lines. cbn [hd_error]. intros X. now injection X as X. }
  split.
  { exists fs', ds'. rewrite OF, OD, OA. split; [exact PF'|]. split; [exact PD'|]. reflexivity. }
  intros <- <-. destruct (symbol_uniq (symbol_lines a' d fl fp' al dl) _ [] _ _ [] Y2 (rebuilt l y a d _ Y (ex_intro _ post (eq_sym E)) a' fl fs fp' al als dl ds F P' A D N) eq_refl) as [X _].
  rewrite X. exact EY.
Qed.
(** ** Aliases before the list of footprints *)
Lemma def_passes l y a d r : symbol_text l y -> (exists q, l ++ q = a :: lit "#" :: d :: r) -> passes def_checks d.
Proof.
  intros Y (q & E). pose proof (symbol_bw l y q Y) as B. rewrite E in B. rewrite <- plain_symbol in B. apply (checks_passes _ _ _ (def_checked d)).
  unfold symbol_said in B. cbn [next tl] in B. replace (line_said (lit "#" :: d :: r) "#") with (@Fine (list str) (d :: r)) in B by reflexivity. cbn [sbind here_said] in B.
  destruct (def_said d) as [z| | |]; [now exists z|discriminate B|discriminate B|discriminate B].
Qed.
Theorem alias_first t ls pre a d fl fs s fp rest y r : whole ls pre -> symbol_text (a :: lit "#" :: d :: r) y -> a <> lit "#End Library" -> Forall2 sfield_line fl fs ->
  starts_with (lit "ALIAS") s = true -> fplist fp -> fp <> [] -> text_lines t (map lit library_head ++ ls ++ a :: lit "#" :: d :: fl ++ s :: fp ++ rest) ->
  library_said t = Says (lit "expected 'DRAW', got '$FPLIST'").
Proof.
  intros W Y N F S P NE T. apply library_says. eexists. split; [exact T|]. apply (lr_symbol ls pre _ _ W); [|cbn [hd_error]; intros X; now injection X].
  destruct P as [|m M]; [now destruct NE|]. apply starts_iff in S as (k & ->).
  apply (yf_body a d fl fs); [|exact F|discriminate|reflexivity|discriminate|].
  - apply (def_passes _ y a d r Y). exists []. now rewrite app_nil_r.
  - apply bf_alias; [reflexivity|]. exact (wt_other "DRAW" [] (lit "$FPLIST") _ ltac:(discriminate)).
Qed.
