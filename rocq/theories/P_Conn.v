(** Property theorems: what a change of net names does to the connections of a board
    (C103). *)
From Coq Require Import String.
From Verif Require Import Base Str StrFacts FpData LyData LyOps FpExamples LySpec LyNetFacts LyExamples ConnSpec ConnFacts.
Open Scope string_scope. Open Scope list_scope.

(** ** C103 *)
(** Renaming a net keeps all numbers, and a board whose numbers stand for one name each,
    or all of whose nets are declared, stays so. *)
Theorem C103_consistent : forall l l' old new, change_net_name old new l = Ok l' ->
  map fst (board_places l') = map fst (board_places l) /\ (one_name l -> one_name l') /\ (all_declared l -> all_declared l').
Proof. exact (fun l l' old new E => conj (rename_numbers l l' old new E) (conj (rename_one_name l l' old new E) (rename_declared l l' old new E))). Qed.
Print Assumptions C103_consistent.
(** Names still stand for one number each, exactly if no two numbers are brought together. *)
Theorem C103_one_number : forall l l' old new, change_net_name old new l = Ok l' -> one_number l ->
  (one_number l' <-> forall j k, In (Some j, old) (board_places l) -> In (Some k, new) (board_places l) -> j = k).
Proof. exact rename_one_number. Qed.
Print Assumptions C103_one_number.
(** What is joined afterwards: what was, and the two nets with each other *)
Theorem C103_joined : forall l l' old new, change_net_name old new l = Ok l' -> forall i j,
  joined l' i j <-> joined l i j \/ (named_at l i old /\ named_at l j new) \/ (named_at l i new /\ named_at l j old).
Proof. exact rename_joined. Qed.
Print Assumptions C103_joined.
(** The connections stay the same exactly if one of the two names is not in use. *)
Theorem C103_fresh : forall l l' old new, change_net_name old new l = Ok l' ->
  (old = new \/ ~ in_use l old \/ ~ in_use l new) <-> forall i j, joined l' i j <-> joined l i j.
Proof. exact rename_fresh. Qed.
Print Assumptions C103_fresh.
(** Any change of all names that succeeds *)
Theorem C103_update : forall l l' u, update_net_names u l = (l', None) ->
  (map fst (board_places l') = map fst (board_places l) /\ (one_name l -> one_name l') /\ (all_declared l -> all_declared l')) /\
  ((forall i j, joined l' i j <-> joined l i j) <-> forall a b, in_use l a -> in_use l b -> fst (u a) = fst (u b) -> a = b).
Proof. exact (fun l l' u E => conj (update_keeps l l' u E) (update_joined l l' u E)). Qed.
Print Assumptions C103_update.
(** A change that fails in between can leave one number with two names and undeclared
    nets, where all was well before. *)
Definition net_pad (k : Z) (n : str) : element :=
  EPad (mk_pad (lit "1") Smd Rect (mkxy "1" "1" XSize) None (mkat "1" "0" "0") [f_cu] (Some (mk_fnet k n)) None None None None None None).
Definition torn_board : layout := with_elements layout_default
  [YNet (mk_net 1 (lit "Net-(R1-Pad1)")); YNet (mk_net 2 (lit "GND")); YModule (mk_module (lit "M") [net_pad 1 (lit "Net-(R1-Pad1)")])].
Lemma torn_places : board_places torn_board = [(Some 1%Z, lit "Net-(R1-Pad1)"); (Some 2%Z, lit "GND"); (Some 1%Z, lit "Net-(R1-Pad1)")].
Proof. reflexivity. Qed.
Lemma torn_after : board_places (fst (update_net_names w_update torn_board)) = [(Some 1%Z, lit "Net-(R7-Pad1)"); (Some 2%Z, lit "GND"); (Some 1%Z, lit "Net-(R1-Pad1)")].
Proof. reflexivity. Qed.
Lemma torn_ends : snd (update_net_names w_update torn_board) = Some EOther.
Proof. reflexivity. Qed.
Lemma torn_declared k n : declares (fst (update_net_names w_update torn_board)) k n ->
  existsb (fun e => match e with YNet x => Z.eqb (ne_num x) k && str_eqb (ne_name x) n | _ => false end) (ly_elements (fst (update_net_names w_update torn_board))) = true.
Proof. intros (x & I & <- & <-). apply existsb_exists. exists (YNet x). split; [exact I|]. now rewrite Z.eqb_refl, str_eqb_refl. Qed.
Theorem C103_failed_refuted : exists u l l' k, update_net_names u l = (l', Some k) /\
  one_name l /\ one_number l /\ all_declared l /\ ~ one_name l' /\ ~ all_declared l'.
Proof.
  exists w_update, torn_board, (fst (update_net_names w_update torn_board)), EOther.
  split; [rewrite <- torn_ends; apply surjective_pairing|].
  split; [intros k a b; rewrite torn_places; cbn [In]; intros [A|[A|[A|[]]]] [B|[B|[B|[]]]]; first [congruence|exfalso; injection A as <- <-; vm_compute in B; discriminate B]|].
  split; [intros n j k; rewrite torn_places; cbn [In]; intros [A|[A|[A|[]]]] [B|[B|[B|[]]]]; first [congruence|exfalso; injection A as <- <-; vm_compute in B; discriminate B]|].
  split; [split; intros k; rewrite torn_places; cbn [In]; [intros n [A|[A|[A|[]]]]|intros [A|[A|[A|[]]]]]; try discriminate A; injection A as <- <-|].
  - exists (mk_net 1 (lit "Net-(R1-Pad1)")). split; [now left|now split].
  - exists (mk_net 2 (lit "GND")). split; [right; now left|now split].
  - exists (mk_net 1 (lit "Net-(R1-Pad1)")). split; [now left|now split].
  - split.
    + intros O. specialize (O 1%Z (lit "Net-(R7-Pad1)") (lit "Net-(R1-Pad1)")). rewrite torn_after in O.
      specialize (O (or_introl eq_refl) (or_intror (or_intror (or_introl eq_refl)))). vm_compute in O. discriminate O.
    + intros [O _]. specialize (O 1%Z (lit "Net-(R1-Pad1)")). rewrite torn_after in O.
      specialize (O (or_intror (or_intror (or_introl eq_refl)))). apply torn_declared in O. vm_compute in O. discriminate O.
Qed.
Print Assumptions C103_failed_refuted.

Lemma rename_total old new l : exists l', change_net_name old new l = Ok l'.
Proof. destruct (change_net_name_spec old new l) as (l' & E & _). now exists l'. Qed.
(** Two nets of a board become one. *)
Example C103_ex : map snd (board_places ex_layout) = [[]; lit "GND"; lit "Net-(R1-Pad1)"; lit "GND"; lit "Net-(R1-Pad1)"; lit "Net-(R1-Pad1)"; lit "GND"] /\
  (exists l', change_net_name (lit "GND") (lit "Net-(R1-Pad1)") ex_layout = Ok l' /\ joined l' 1 2 /\ ~ joined ex_layout 1 2).
Proof.
  assert (P : map snd (board_places ex_layout) = [[]; lit "GND"; lit "Net-(R1-Pad1)"; lit "GND"; lit "Net-(R1-Pad1)"; lit "Net-(R1-Pad1)"; lit "GND"]) by reflexivity.
  split; [exact P|]. destruct (rename_total (lit "GND") (lit "Net-(R1-Pad1)") ex_layout) as [l' E]. exists l'. split; [exact E|].
  assert (N : forall i n, named_at ex_layout i n <-> nth_error (map snd (board_places ex_layout)) i = Some n).
  { intros i n. rewrite nth_error_map. unfold named_at. destruct (nth_error (board_places ex_layout) i) as [[k m]|]; cbn; split.
    - intros [j J]. congruence.
    - intros J. exists k. congruence.
    - intros [j J]. discriminate.
    - discriminate. }
  rewrite P in N. split.
  - apply (C103_joined ex_layout l' _ _ E). right. left. split; apply N; reflexivity.
  - intros (n & A & B). apply N in A, B. cbn in A, B. congruence.
Qed.
