(** What the readers say, exactly (C106). *)
From Coq Require Import String.
From Verif Require Import Base Str StrFacts Num F64 F64Text Sexp NoPanic SxTotal FpData FpLayer FpDe LyData LyDe GramSpec GramRead MeanSpec MeanFacts WideSpec WideSound WideMean WideBoard WideCrash.
From Verif Require Import TreeErr TreeErrSpec TreeErrAgree.
Open Scope string_scope. Open Scope list_scope.

(** A reader takes exactly the trees of a grammar and says exactly what is specified. *)
Definition takes {A} (t : sexp -> told A) (g : sexp -> Prop) : Prop := forall s, (exists a, t s = TFine a) <-> g s.
Definition tells {A} (t : sexp -> told A) (g : gram) (c : says) : Prop := takes t (follows g) /\ forall s m, t s = TSays m <-> c s m.
Definition tellsP {A} (p : TP A) (b : list slot) : Prop := forall l m, p l = TSays m <-> slots_say b l m.
Definition silent {A} (p : TP A) : Prop := forall l m, p l <> TSays m.

Lemma agree_fine {A} (t : told A) r : agree t r -> (exists a, t = TFine a) <-> exists a, r = Ok a.
Proof.
  intros T. destruct t, r; try contradiction T; split; intros [x X]; try discriminate X; eexists; reflexivity.
Qed.
Lemma reads_of {A} (f : sexp -> res A) g v : sound f g -> means f g v -> forall s, (exists a, f s = Ok a) <-> follows g s.
Proof. intros S M s. split; [intros [a H]; now apply (S s a)|]. intros F. exists (v s). now apply M. Qed.
Lemma tells_of {A} (t : sexp -> told A) f g v c : (forall s, agree (t s) (f s)) -> sound f g -> means f g v -> (forall s m, t s = TSays m <-> c s m) -> tells t g c.
Proof. intros T S M C. split; [|exact C]. intros s. etransitivity; [apply agree_fine, T|]. now apply (reads_of f g v). Qed.
Lemma lift_says {A} (r : res A) m : tlift r <> TSays m. Proof. now destruct r. Qed.
Lemma tells_lift {A} (f : sexp -> res A) g v : sound f g -> means f g v -> tells (fun s => tlift (f s)) g nothing.
Proof. intros S M. apply (tells_of _ f g v); [intros s; apply ag_lift|exact S|exact M|]. intros s m. split; [intros H; exact (lift_says _ _ H)|intros []]. Qed.

(** ** Steps *)
Lemma say_t {A B} (t : sexp -> told A) g c (k : A -> TP B) b : tells t g c -> (forall v, tellsP (k v) b) -> tellsP (tpbind (tp_t t) k) (Need g c :: b).
Proof.
  intros [T C] K l m. unfold tpbind, tp_t. destruct l as [|x l]; [split; [discriminate|intros H; inversion H]|]. destruct (t x) as [a|n| |] eqn:E; cbn [tbind].
  - split.
    + intros H. apply ss_next; [apply T; now exists a|now apply (K a)].
    + intros H. inversion H as [? ? ? ? ? ? Z|? ? ? ? ? ? F Z| | | |]; subst; [apply C in Z; rewrite E in Z; discriminate Z|now apply (K a)].
  - split.
    + intros [= <-]. apply ss_here. now apply C.
    + intros H. inversion H as [? ? ? ? ? ? Z|? ? ? ? ? ? F Z| | | |]; subst; [apply C in Z; rewrite E in Z; now injection Z as ->|].
      apply T in F as [a F]. rewrite E in F. discriminate F.
  - split; [discriminate|]. intros H. inversion H as [? ? ? ? ? ? Z|? ? ? ? ? ? F Z| | | |]; subst; [apply C in Z; rewrite E in Z; discriminate Z|].
    apply T in F as [a F]. rewrite E in F. discriminate F.
  - split; [discriminate|]. intros H. inversion H as [? ? ? ? ? ? Z|? ? ? ? ? ? F Z| | | |]; subst; [apply C in Z; rewrite E in Z; discriminate Z|].
    apply T in F as [a F]. rewrite E in F. discriminate F.
Qed.
Lemma says_ext {A} (p q : TP A) b : (forall l, p l = q l) -> tellsP q b -> tellsP p b.
Proof. intros E Q l m. rewrite E. apply Q. Qed.
Lemma say_p {A B} (f : sexp -> res A) g v (k : A -> TP B) b : sound f g -> means f g v -> (forall v, tellsP (k v) b) -> tellsP (tpbind (tp_of (p_t f)) k) (Need g nothing :: b).
Proof.
  intros S M K. apply says_ext with (tpbind (tp_t (fun s => tlift (f s))) k).
  - intros [|x l]; [reflexivity|]. unfold tpbind, tp_of, tp_t, p_t. now destruct (f x).
  - apply say_t; [now apply (tells_lift f g v)|exact K].
Qed.
Lemma say_maybe {A B} (f : sexp -> res A) g v (k : option A -> TP B) b : sound f g -> means f g v -> (forall s, f s <> Panic) -> (forall v, tellsP (k v) b) ->
  tellsP (tpbind (tp_of (p_maybe f)) k) (May g :: b).
Proof.
  intros S M N K l m. unfold tpbind, tp_of, p_maybe. destruct l as [|x l]; cbn [tlift].
  - etransitivity; [apply (K None)|]. split; [apply ss_none|intros H; now inversion H].
  - pose proof (reads_of f g v S M x) as R. destruct (f x) as [a|e|] eqn:E; cbn [tlift].
    + etransitivity; [apply (K (Some a))|]. assert (F : follows g x) by (apply R; now exists a). split; [now apply ss_take|].
      intros H. inversion H as [| |? ? ? ? ? G Z|? ? ? ? ? G Z| |]; subst; [exact Z|contradiction].
    + etransitivity; [apply (K None)|]. assert (F : ~ follows g x) by (intros F; apply R in F as [a F]; discriminate F). split; [now apply ss_skip|].
      intros H. inversion H as [| |? ? ? ? ? G Z|? ? ? ? ? G Z| |]; subst; [contradiction|exact Z].
    + destruct (N x E).
Qed.
Lemma tells_word {A} (h : str -> told A) (q : str -> Prop) (c : says) : (forall w, (exists a, h w = TFine a) <-> q w) -> (forall w m, h w = TSays m <-> c (SStr w) m) ->
  (forall s m, c s m -> exists w, s = SStr w) -> tells (fun s => ask n <- tlift (sx_string s); h n) (Word q) c.
Proof.
  intros Q C W. split.
  - intros s. destruct s as [w|l|]; cbn [sx_string tlift tbind].
    + split; [intros H; constructor; now apply Q|intros H; inversion H; subst; now apply Q].
    + split; [intros [a H]; discriminate H|intros H; inversion H].
    + split; [intros [a H]; discriminate H|intros H; inversion H].
  - intros s m. destruct s as [w|l|]; cbn [sx_string tlift tbind]; [apply C| |]; (split; [discriminate|intros H; destruct (W _ _ H); discriminate]).
Qed.
Lemma say_word {A B} (h : str -> told A) q c (k : A -> TP B) b : (forall w, (exists a, h w = TFine a) <-> q w) -> (forall w m, h w = TSays m <-> c (SStr w) m) ->
  (forall s m, c s m -> exists w, s = SStr w) -> (forall v, tellsP (k v) b) -> tellsP (see n := tp_of p_s in see x := tplift (h n) in k x) (Need (Word q) c :: b).
Proof.
  intros Q C W K. apply says_ext with (tpbind (tp_t (fun s => ask n <- tlift (sx_string s); h n)) k).
  - intros l. destruct l as [|[w|?|] l]; reflexivity.
  - apply say_t; [now apply tells_word|exact K].
Qed.
Lemma say_nil {A} (p : TP A) : silent p -> tellsP p [].
Proof. intros S l m. split; [intros H; destruct (S _ _ H)|intros H; inversion H]. Qed.
Lemma silent_of {A} (p : P A) : silent (tp_of p). Proof. intros l m. apply lift_says. Qed.
Lemma silent_bind {A B} (p : P A) (k : A -> TP B) : (forall v, silent (k v)) -> silent (tpbind (tp_of p) k).
Proof. intros K l m. unfold tpbind, tp_of. destruct (p l) as [[a r]| |]; cbn [tlift]; try discriminate. apply K. Qed.
Lemma tmapM_says {A} (t : sexp -> told A) l m : tmapM t l = TSays m <-> exists a s r, l = a ++ s :: r /\ Forall (fun x => exists v, t x = TFine v) a /\ t s = TSays m.
Proof.
  induction l as [|x l IH].
  - split; [discriminate|]. intros (a & s & r & E & _). destruct a; discriminate E.
  - cbn [tmapM]. split.
    + destruct (t x) as [v|n| |] eqn:E; cbn [tbind]; try discriminate.
      * intros H. assert (M : tmapM t l = TSays m) by (destruct (tmapM t l); try discriminate H; exact H). apply IH in M as (a & s & r & -> & F & S).
        exists (x :: a), s, r. split; [reflexivity|]. split; [|exact S]. constructor; [now exists v|exact F].
      * intros [= <-]. now exists [], x, l.
    + intros (a & s & r & E & F & S). destruct a as [|y a]; injection E as -> ->; [now rewrite S|]. inversion F as [|? ? [v V] F']; subst. rewrite V. cbn [tbind].
      assert (M : tmapM t (a ++ s :: r) = TSays m) by (apply IH; now exists a, s, r). now rewrite M.
Qed.
Lemma each_takes {A} (t : sexp -> told A) gs (c : says) l m : takes t (one_of gs) -> (forall s m, t s = TSays m <-> c s m) -> tmapM t l = TSays m <-> each gs c l m.
Proof.
  intros T C. etransitivity; [apply tmapM_says|]. unfold each. split; intros (a & s & r & E & F & S); exists a, s, r; (split; [exact E|]); (split; [|now apply C]).
  - eapply Forall_impl; [|exact F]. intros y. apply T.
  - eapply Forall_impl; [|exact F]. intros y. apply T.
Qed.
Lemma say_vec {A} (t : sexp -> told A) gs (c : says) b : takes t (one_of gs) -> (forall s m, t s = TSays m <-> c s m) -> tellsP (tp_vec t) (Rest (each gs c) :: b).
Proof.
  intros T C l m. unfold tp_vec. etransitivity; [|etransitivity; [apply (each_takes t gs c l m T C)|]].
  - destruct (tmapM t l); split; try discriminate; now intros [= <-].
  - split; [apply ss_rest|intros H; now inversion H].
Qed.
Lemma say_vec_then {A B} (t : sexp -> told A) gs (c : says) b (k : list A -> TP B) : takes t (one_of gs) -> (forall s m, t s = TSays m <-> c s m) -> (forall v, silent (k v)) ->
  tellsP (tpbind (tp_vec t) k) (Rest (each gs c) :: b).
Proof.
  intros T C K l m. etransitivity; [|apply (say_vec t gs c b T C)]. unfold tpbind. destruct (tp_vec t l) as [[v r]| | |]; split; try discriminate; try (now intros [= <-]).
  intros H. destruct (K v _ _ H).
Qed.
Lemma tfoldM_says {A} (t : A -> sexp -> told A) l m : forall q, tfoldM t q l = TSays m <-> exists a s r u, l = a ++ s :: r /\ tfoldM t q a = TFine u /\ t u s = TSays m.
Proof.
  induction l as [|x l IH]; intros q.
  - split; [discriminate|]. intros (a & s & r & u & E & _). destruct a; discriminate E.
  - cbn [tfoldM]. split.
    + destruct (t q x) as [v|n| |] eqn:E; cbn [tbind]; try discriminate.
      * intros M. apply IH in M as (a & s & r & u & -> & F & S). exists (x :: a), s, r, u. split; [reflexivity|]. split; [|exact S]. cbn [tfoldM]. now rewrite E.
      * intros [= <-]. now exists [], x, l, q.
    + intros (a & s & r & u & E & F & S). destruct a as [|y a]; injection E as -> ->; [injection F as ->; now rewrite S|]. cbn [tfoldM] in F.
      destruct (t q y) as [v| | |]; try discriminate F. cbn [tbind] in F |- *. apply IH. now exists a, s, r, u.
Qed.
Lemma tfoldM_takes {A} (t : A -> sexp -> told A) (g : sexp -> Prop) : (forall q, takes (t q) g) -> forall l q, (exists u, tfoldM t q l = TFine u) <-> Forall g l.
Proof.
  intros T. induction l as [|x l IH]; intros q; [split; [constructor|now exists q]|]. cbn [tfoldM]. split.
  - intros [u H]. destruct (t q x) as [v| | |] eqn:E; try discriminate H. constructor; [apply (T q); now exists v|apply (IH v); now exists u].
  - intros F. inversion F as [|? ? G F']; subst. apply (T q) in G as [v ->]. cbn [tbind]. now apply IH.
Qed.
Lemma say_fold {A} (t : A -> sexp -> told A) q gs (c : says) b : (forall q, takes (t q) (one_of gs)) -> (forall q s m, t q s = TSays m <-> c s m) ->
  tellsP (fun l => ask n <- tfoldM t q l; TFine (n, [])) (Rest (each gs c) :: b).
Proof.
  intros T C l m. transitivity (tfoldM t q l = TSays m); [destruct (tfoldM t q l); split; try discriminate; now intros [= <-]|].
  transitivity (each gs c l m); [|split; [apply ss_rest|intros H; now inversion H]]. etransitivity; [apply tfoldM_says|]. unfold each. split.
  - intros (a & s & r & u & E & F & S). exists a, s, r. split; [exact E|]. split; [apply (tfoldM_takes t _ T a q); now exists u|now apply (C u)].
  - intros (a & s & r & E & F & S). apply (tfoldM_takes t _ T a q) in F as [u F]. exists a, s, r, u. split; [exact E|]. split; [exact F|now apply C].
Qed.
Lemma say_new {A} k (p : TP A) b s m : tellsP p b -> t_new s (lit k) p = TSays m <-> form_says k b s m.
Proof.
  intros P. unfold t_new, form_says. destruct s as [|l|]; try (split; [discriminate|intros (? & E & _); discriminate E]).
  destruct l as [|[n| |] l]; try (split; [discriminate|intros (? & E & _); discriminate E]). destruct (str_eqb_spec n (lit k)) as [->|D].
  - transitivity (p l = TSays m); [destruct (p l); split; try discriminate; now intros [= <-]|]. rewrite (P l m). split; [intros H; now exists l|].
    intros (l' & [= <-] & H). exact H.
  - split; [discriminate|]. intros (l' & [= E _] & _). contradiction.
Qed.
Lemma say_nameless {A} (p : TP A) b s m : tellsP p b -> t_nameless s p = TSays m <-> bare_says b s m.
Proof.
  intros P. unfold t_nameless, bare_says. destruct s as [|l|]; try (split; [discriminate|intros (? & E & _); discriminate E]).
  transitivity (p l = TSays m); [destruct (p l); split; try discriminate; now intros [= <-]|]. rewrite (P l m). split; [intros H; now exists l|].
  intros (l' & [= <-] & H). exact H.
Qed.
