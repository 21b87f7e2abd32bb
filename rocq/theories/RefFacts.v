(** The exact sort key of a reference (C42). *)
From Coq Require Import String Lia.
From Verif Require Import Base Str Num F64 LibFns DecSpec DecFacts.
Open Scope string_scope. Open Scope list_scope.

Definition digitb (c : N) : bool := ((48 <=? c) && (c <=? 57))%N.
Lemma ref_digits_is a b : ~ In 44%N a -> (b = [] \/ exists t, b = 44%N :: t) -> ref_digits (a ++ b) = filter digitb a.
Proof.
  intros N B. induction a as [|c a IH]; cbn [app filter].
  - destruct B as [->|(t & ->)]; reflexivity.
  - cbn [ref_digits]. destruct (N.eqb_spec c 44) as [E|E]; [exfalso; apply N; now left|]. rewrite IH by (intros I; apply N; now right). change (digitb c) with ((48 <=? c) && (c <=? 57))%N.
    now destruct ((48 <=? c) && (c <=? 57))%N.
Qed.
Lemma filter_digits a : Forall is_digit (filter digitb a).
Proof. apply Forall_forall. intros c I. apply filter_In in I as [_ I]. unfold digitb, is_digit in *. lia. Qed.
Lemma dec_nonneg s : Forall is_digit s -> (0 <= dec s)%Z.
Proof. intros F. rewrite <- (val_dec s F). lia. Qed.
Lemma digits_number s : Forall is_digit s ->
  match i64_of_str s with Some n => n | None => 0%Z end = if (dec s <? 2 ^ 63)%Z then dec s else 0%Z.
Proof.
  intros F. pose proof (dec_nonneg s F) as P. destruct s as [|c s]; [reflexivity|].
  assert (U : forall z, i64_of_str (c :: s) = Some z -> z = dec (c :: s) /\ (z < 2 ^ 63)%Z).
  { intros z E. apply int_iff in E as (sg & neg & ds & E & S & D & Nn & V & B). apply Forall_inv in F. unfold is_digit in F.
    destruct S; cbn [app] in E; [|injection E as E _; subst c; exfalso; lia|injection E as E _; subst c; exfalso; lia]. subst ds. split; [exact V|lia]. }
  destruct (Z.ltb_spec (dec (c :: s)) (2 ^ 63)) as [L|L].
  - assert (E : i64_of_str (c :: s) = Some (dec (c :: s))).
    { apply int_iff. exists [], false, (c :: s). split; [reflexivity|]. split; [constructor|]. split; [exact F|]. split; [discriminate|]. split; [reflexivity|lia]. }
    now rewrite E.
  - destruct (i64_of_str (c :: s)) as [z|]; [|reflexivity]. destruct (U z eq_refl) as [-> Q]. lia.
Qed.
Lemma reference_ord_exact c s a b : c :: s = a ++ b -> ~ In 44%N a -> (b = [] \/ exists t, b = 44%N :: t) ->
  let n := dec (filter digitb a) in reference_ord (c :: s) = Ok (c, if (n <? 2 ^ 63)%Z then n else 0%Z).
Proof. intros E N B n. unfold reference_ord. rewrite E, (ref_digits_is a b N B), digits_number by apply filter_digits. reflexivity. Qed.
