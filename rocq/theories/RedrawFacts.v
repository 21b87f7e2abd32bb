(** Lemmas for C124: symbols drawn elsewhere. *)
From Coq Require Import String Lia.
From Verif Require Import Base Str SymData SymPrint SymOps CheckFix CheckSpec SymCheck RedrawSpec.
Open Scope string_scope. Open Scope list_scope.

Lemma rem_grid g x : (0 < g)%Z -> (Z.rem x g =? 0)%Z = true <-> on_grid g x.
Proof.
  intros G. rewrite Z.eqb_eq. unfold on_grid. rewrite Z.rem_divide by lia. unfold Z.divide. split; intros [k K]; exists k; lia.
Qed.
Lemma grid_bool g x y : (0 < g)%Z -> same_grid g x y <-> (Z.rem x g =? 0)%Z = (Z.rem y g =? 0)%Z.
Proof.
  intros G. unfold same_grid. rewrite <- !rem_grid by exact G. destruct (Z.rem x g =? 0)%Z, (Z.rem y g =? 0)%Z; split; intros H; try reflexivity; try tauto; try discriminate; destruct H as [H1 H2]; first [discriminate (H1 eq_refl)|discriminate (H2 eq_refl)].
Qed.
Lemma pin_same p q : same_pin p q -> pin_check q = pin_check p.
Proof.
  intros ((A & B & C & D & E & F & G) & X & Y). apply grid_bool in X, Y; try lia. unfold pin_check. rewrite A, B, C, D, E, F, G, <- X, <- Y. reflexivity.
Qed.
Lemma pin_exact p q : like_pin p q -> (pin_check q = pin_check p <-> same_pin p q).
Proof.
  intros L. split; [|apply pin_same]. intros H. split; [exact L|]. destruct L as (A & B & C & D & E & F & G). rewrite !grid_bool by lia.
  unfold pin_check in H. rewrite A, B, C, D, E, F, G in H. cbv zeta in H.
  match type of H with ?a ++ ?b ++ ?r = ?c ++ ?d ++ _ => set (rest := r) in * end. clearbody rest. revert H.
  destruct (Z.rem (pn_x p) 10 =? 0)%Z, (Z.rem (pn_y p) 10 =? 0)%Z, (Z.rem (pn_x q) 10 =? 0)%Z, (Z.rem (pn_y q) 10 =? 0)%Z; cbn [when negb app]; intros H; split; try reflexivity; exfalso.
  all: try (apply (f_equal (@length cf_data)) in H; cbn [length] in H; lia).
  all: apply (f_equal (fun l => match l with Item i :: _ => nth 4 (it_message i) 0%N | _ => 0%N end)) in H; cbn [cf_new it_message] in H; vm_compute in H; discriminate H.
Qed.
Lemma forget_when b d e : forget d = forget e -> map forget (when b d) = map forget (when b e).
Proof. intros H. destruct b; cbn [when map]; [now rewrite H|reflexivity]. Qed.
Lemma forget_more l m : map forget l = map forget m -> map forget (more l) = map forget (more m).
Proof.
  intros H. destruct l as [|a [|b l]], m as [|c [|d m]]; try discriminate; cbn [more is_empty flatter map forget] in *; try reflexivity.
  - exact H.
  - now rewrite H.
Qed.
Lemma forget_flat {A} (f g : A -> list cf_data) (R : A -> A -> Prop) l m : Forall2 R l m -> (forall a b, R a b -> map forget (f a) = map forget (g b)) ->
  map forget (flat_map f l) = map forget (flat_map g m).
Proof. intros H K. induction H as [|a b l m S _ IH]; [reflexivity|]. cbn [flat_map]. now rewrite !map_app, (K a b S), IH. Qed.
Lemma pins_length s t : Forall2 same_draw (sy_draw s) (sy_draw t) -> length (pins t) = length (pins s).
Proof.
  unfold pins. intros H. induction H as [|a b l m S _ IH]; [reflexivity|]. cbn [flat_map]. rewrite !app_length, IH. destruct a, b; cbn in S; try contradiction; reflexivity.
Qed.
Lemma power_redrawn s t : redrawn s t -> sym_is_power t = sym_is_power s /\ sym_is_graphics t = sym_is_graphics s.
Proof.
  intros (_ & R & _ & D). unfold sym_is_power, sym_is_graphics. rewrite R. pose proof (pins_length s t D) as L. rewrite L. split; [reflexivity|].
  destruct (pins t), (pins s); try discriminate; reflexivity.
Qed.
Lemma field_redrawn s t f g : redrawn s t -> same_sfield f g -> map forget (sfield_check s f) = map forget (sfield_check t g).
Proof.
  intros R (A & B & C). destruct (power_redrawn s t R) as [P G]. destruct R as (N & _). unfold sfield_check. rewrite A, B, C, P, G, N, !map_app. f_equal. now apply forget_when.
Qed.
Lemma draw_redrawn d e : same_draw d e -> map forget (draw_check d) = map forget (draw_check e).
Proof.
  destruct d as [p|r|x], e as [q|r'|x']; cbn [same_draw draw_check]; intros H; try contradiction.
  - now rewrite (pin_same p q H).
  - destruct H as [A B]. unfold rect_check. rewrite A, B, !map_app. f_equal; now apply forget_when.
  - reflexivity.
Qed.
Lemma check_redrawn s t : redrawn s t -> map forget (symbol_check t) = map forget (symbol_check s).
Proof.
  intros R. pose proof (power_redrawn s t R) as [P G]. pose proof R as (N & _ & F & D). symmetry. unfold symbol_check. rewrite N, P, G, !map_app. f_equal. f_equal.
  - apply (forget_flat _ _ same_sfield); [exact F|]. intros f g H. apply forget_more, field_redrawn; assumption.
  - destruct (sym_is_power s || sym_is_graphics s)%bool; [reflexivity|]. apply (forget_flat _ _ same_draw); [exact D|]. intros d e H. now apply forget_more, draw_redrawn.
Qed.
Lemma same_pins_draw d e : same_pins d e -> same_draw d e /\ draw_check e = draw_check d.
Proof.
  destruct d as [p|r|x]; cbn [same_pins]; [intros (q & -> & H)|intros ->..]; cbn [same_draw draw_check].
  - split; [exact H|now apply pin_same].
  - auto.
  - auto.
Qed.
Lemma Forall2_same {A} (R : A -> A -> Prop) l : (forall a, R a a) -> Forall2 R l l.
Proof. intros H. induction l; constructor; auto. Qed.
Lemma repinned_redrawn s t : repinned s t -> redrawn s t.
Proof.
  intros (N & R & F & D). unfold redrawn. rewrite F. split; [exact N|]. split; [exact R|]. split.
  - apply Forall2_same. intros f. unfold same_sfield. auto.
  - induction D as [|d e l m H _ IH]; constructor; auto. now apply same_pins_draw.
Qed.
Lemma check_repinned s t : repinned s t -> symbol_check t = symbol_check s.
Proof.
  intros Q. pose proof (power_redrawn s t (repinned_redrawn s t Q)) as [P G]. destruct Q as (N & _ & F & D). unfold symbol_check. rewrite N, F, P, G. f_equal. f_equal.
  - apply flat_map_ext. intros f. unfold sfield_check. now rewrite N, P, G.
  - destruct (sym_is_power s || sym_is_graphics s)%bool; [reflexivity|]. induction D as [|d e l m H _ IH]; [reflexivity|]. cbn [flat_map]. rewrite IH. now rewrite (proj2 (same_pins_draw d e H)).
Qed.
Lemma place_repinned f s : (forall x y, same_grid 10 x (fst (f (x, y))) /\ same_grid 10 y (snd (f (x, y)))) -> repinned s (place_pins f s).
Proof.
  intros H. unfold repinned, place_pins. cbn [sy_name sy_reference sy_fields sy_draw]. split; [reflexivity|]. split; [reflexivity|]. split; [reflexivity|].
  induction (sy_draw s) as [|d l IH]; cbn [map]; constructor; [|exact IH]. destruct d as [p|r|x]; cbn [same_pins]; try reflexivity.
  exists (place_pin f p). split; [reflexivity|]. unfold same_pin, like_pin, place_pin. specialize (H (pn_x p) (pn_y p)). destruct (f (pn_x p, pn_y p)) as [x y]. cbn in *. tauto.
Qed.
Lemma shift_grid g a x : on_grid g a -> same_grid g x (x + a).
Proof. intros [k ->]. unfold same_grid, on_grid. split; intros [j J]; [exists (j + k)%Z|exists (j - k)%Z]; lia. Qed.
Lemma mirror_grid g a x : on_grid g a -> same_grid g x (a - x).
Proof. intros [k ->]. unfold same_grid, on_grid. split; intros [j J]; exists (k - j)%Z; lia. Qed.
Lemma check_shift s a b : on_grid 10 a -> on_grid 10 b -> symbol_check (place_pins (fun '(x, y) => (x + a, y + b)%Z) s) = symbol_check s.
Proof. intros A B. apply check_repinned, place_repinned. intros x y. split; now apply shift_grid. Qed.
Lemma check_mirror s a : on_grid 10 a -> symbol_check (place_pins (fun '(x, y) => (a - x, y)%Z) s) = symbol_check s
  /\ symbol_check (place_pins (fun '(x, y) => (x, a - y)%Z) s) = symbol_check s.
Proof.
  intros A. split; apply check_repinned, place_repinned; intros x y; (split; [|]); cbn [fst snd]; try (now apply mirror_grid); apply iff_refl.
Qed.
