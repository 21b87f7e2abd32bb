(** Trees with marked atoms: the text of such a tree is made of fixed pieces with
    the marked atoms between them (lemmas for C86, C87). *)
From Coq Require Import String Lia.
From Verif Require Import Base Str StrFacts Sexp Formatter FormatterSpec FormatterFacts TextSpec DiffSpec.
Open Scope string_scope. Open Scope list_scope.

(** ** Pieces *)
Fixpoint glue (ps qs : list str) : list str :=
  match ps with
  | [] => qs
  | [p] => match qs with [] => [p] | q :: qs' => (p ++ q) :: qs' end
  | p :: ps' => p :: glue ps' qs
  end.
Lemma glue_cons p p' ps qs : glue (p :: p' :: ps) qs = p :: glue (p' :: ps) qs.
Proof. reflexivity. Qed.
Lemma glue_length ps qs n m : length ps = S n -> length qs = S m -> length (glue ps qs) = S (n + m).
Proof.
  revert n. induction ps as [|p ps IH]; intros n; [discriminate|]. destruct ps as [|p' ps].
  - cbn. intros [= <-]. destruct qs; cbn; [discriminate|]. auto.
  - intros [= H] Q. destruct n as [|n]; [discriminate|]. change (S (length (glue (p' :: ps) qs)) = S (S n + m)). f_equal. rewrite (IH n); [reflexivity|cbn; congruence|exact Q].
Qed.
Lemma weave_glue ps qs : forall xs ys, length ps = S (length xs) -> length qs = S (length ys) ->
  weave (glue ps qs) (xs ++ ys) = weave ps xs ++ weave qs ys.
Proof.
  induction ps as [|p ps IH]; intros xs ys; [discriminate|]. destruct ps as [|p' ps].
  - destruct xs as [|x xs]; [|discriminate]. intros _. destruct qs as [|q qs]; [discriminate|]. intros Q. cbn [glue app].
    destruct ys as [|y ys]; cbn [weave]; [reflexivity|]. now rewrite <- app_assoc.
  - destruct xs as [|x xs]; [discriminate|]. intros [= E] Q. specialize (IH xs ys ltac:(cbn [length]; congruence) Q). rewrite glue_cons.
    remember (glue (p' :: ps) qs) as G. remember (p' :: ps) as R. cbn [app weave]. rewrite IH. now rewrite <- !app_assoc.
Qed.

(** ** Trees with marked atoms *)
Inductive tmpl := TTree (s : sexp) | TMark (x : str) | TNode (h : str) (l : list tmpl).
Fixpoint plain (t : tmpl) : sexp :=
  match t with TTree s => s | TMark x => SStr x | TNode h l => SList (SStr h :: map plain l) end.
Fixpoint marks (t : tmpl) : list str :=
  match t with TTree _ => [] | TMark x => [x] | TNode _ l => flat_map marks l end.
Fixpoint blank (t : tmpl) : tmpl :=
  match t with TTree s => t | TMark _ => TMark [] | TNode h l => TNode h (map blank l) end.

Lemma tmpl_ind' (P : tmpl -> Prop) : (forall s, P (TTree s)) -> (forall x, P (TMark x)) ->
  (forall h l, Forall P l -> P (TNode h l)) -> forall t, P t.
Proof.
  intros A B C. fix IH 1. intros [s|x|h l]; [apply A|apply B|]. apply C. induction l as [|t l IHl]; constructor; auto.
Qed.
Lemma blank_marks t : length (marks (blank t)) = length (marks t).
Proof.
  induction t as [s|x|h l IH] using tmpl_ind'; [reflexivity|reflexivity|]. cbn [marks blank].
  induction IH as [|t l E _ IHl]; [reflexivity|]. cbn [map flat_map]. rewrite !app_length. congruence.
Qed.
Lemma same_length t u : blank t = blank u -> length (marks t) = length (marks u).
Proof. intros E. rewrite <- (blank_marks t), E. apply blank_marks. Qed.

Section Text.
Context (nq : str -> bool).
Definition words (t : tmpl) : list str := map (atom nq) (marks t).

(** The head of a child does not depend on the marks. *)
Lemma element_same t u g : blank t = blank u -> fm_element g (plain t) = fm_element g (plain u).
Proof.
  destruct t as [s|x|h l], u as [s'|x'|h' l']; cbn [blank]; try discriminate.
  - intros [= ->]. reflexivity.
  - intros _. cbn [plain]. unfold fm_element. destruct (want g (SStr x)), (want g (SStr x')); reflexivity.
  - intros [= -> _]. reflexivity.
Qed.

Lemma tmpl_ser t : forall f, exists g ps, length ps = S (length (marks t)) /\
  forall u, blank u = blank t -> fm_ser nq (plain u) f = (g, weave ps (words u)).
Proof.
  induction t as [s|x|h l IH] using tmpl_ind'; intros f.
  - exists (fst (fm_ser nq s f)), [snd (fm_ser nq s f)]. split; [reflexivity|]. intros u E. destruct u; try discriminate.
    injection E as ->. cbn [plain words marks map weave]. now destruct (fm_ser nq s f).
  - exists f, [[]; []]. split; [reflexivity|]. intros u E. destruct u as [|y|]; try discriminate. unfold words. cbn. now rewrite app_nil_r.
  - assert (R : forall g, exists g' ps, length ps = S (length (flat_map marks l)) /\
      forall us, map blank us = map blank l -> fm_rest nq (map plain us) g = (g', weave ps (map (atom nq) (flat_map marks us)))).
    { clear f. induction IH as [|t l H _ IHl]; intros g.
      - exists g, [[]]. split; [reflexivity|]. intros [|? ?]; [reflexivity|discriminate].
      - destruct (H g) as (g1 & ps1 & L1 & K1). destruct (IHl g1) as (g2 & ps2 & L2 & K2).
        exists g2, (glue [fm_element g (plain t)] (glue ps1 ps2)). split.
        { rewrite (glue_length _ _ 0 (length (marks t) + length (flat_map marks l))); [|reflexivity|apply glue_length; assumption].
          cbn [flat_map]. now rewrite app_length. }
        intros [|u us]; [discriminate|]. cbn [map]. intros E. injection E as E1 E2. cbn [fm_rest]. rewrite (K1 u E1), (K2 us E2). f_equal.
        assert (LL : length (flat_map marks us) = length (flat_map marks l)).
        { revert E2. clear. revert l. induction us as [|u us IH]; intros [|t l]; cbn; try discriminate; [reflexivity|].
          intros E. injection E as E1 E2. rewrite !app_length, (same_length _ _ E1). now rewrite (IH l E2). }
        cbn [flat_map]. rewrite map_app. unfold words. rewrite (element_same u t g E1).
        rewrite <- (app_nil_l (map (atom nq) (marks u) ++ _)), weave_glue; [|reflexivity|].
        + rewrite weave_glue; [reflexivity|rewrite map_length, (same_length _ _ E1); exact L1|rewrite map_length, LL; exact L2].
        + rewrite app_length, !map_length, LL, (same_length _ _ E1). now apply glue_length. }
    pose (o := fm_open f (Some (SStr h))). destruct (R (fst o)) as (g & ps & L & K). pose (c := fm_close g).
    exists (fst c), (glue [snd o ++ atom_text nq h] (glue ps [snd c])).
    assert (L2 : length (glue ps [snd c]) = S (length (flat_map marks l))).
    { rewrite (glue_length _ _ (length (flat_map marks l)) 0); [f_equal; lia|exact L|reflexivity]. }
    split; [cbn [marks]; now rewrite (glue_length _ _ 0 (length (flat_map marks l)))|].
    intros u E. destruct u as [| |h' us]; try discriminate. cbn [blank] in E. injection E as -> E2.
    cbn [plain]. rewrite fm_ser_cons. change (fm_open f (Some (SStr h))) with o. destruct o as [f1 t1] eqn:EO. cbn [fm_ser fst snd] in *.
    rewrite (K us E2). change (fm_close g) with c. destruct c as [f3 t3] eqn:EC. cbn [fst snd] in *.
    f_equal. unfold words. cbn [marks].
    assert (LU : length (flat_map marks us) = length (flat_map marks l)).
    { revert E2. clear. revert l. induction us as [|u us IH]; intros [|t l]; cbn; try discriminate; [reflexivity|].
      intros E. injection E as E1 E2. rewrite !app_length, (same_length _ _ E1). now rewrite (IH l E2). }
    rewrite <- (app_nil_l (map (atom nq) _)), weave_glue; [|reflexivity|rewrite map_length, LU; exact L2].
    cbn [app]. rewrite <- (app_nil_r (map (atom nq) _)), weave_glue; [|rewrite map_length, LU; exact L|reflexivity].
    cbn [weave]. rewrite app_nil_r. now rewrite <- !app_assoc.
Qed.
Lemma tmpl_pretty t n : exists ps, length ps = S (length (marks t)) /\
  forall u, blank u = blank t -> pretty nq n (plain u) = weave ps (words u).
Proof. destruct (tmpl_ser t (fs_new n)) as (g & ps & L & K). exists ps. split; [exact L|]. intros u E. unfold pretty. now rewrite (K u E). Qed.
End Text.
