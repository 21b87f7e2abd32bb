(** Property theorems C89 and C90: which edits commute, absorb or undo each other. *)
From Coq Require Import String.
From Verif Require Import Base Str Num F64 F64Text F64Facts Sexp FpData FpLayer FpOps LyData LyOps LySpec SchData SchOps SymData SymOps FpExamples LyExamples DiffSpec AlgSpec AlgBoard AlgMove AlgSch P_SchOps P_Symbol.
Open Scope string_scope. Open Scope list_scope.

(** ** C89: boards and footprints *)
(** Renaming a net back restores the board exactly if the new name was not in use. *)
Theorem C89_rename_undo (o n : str) (l l' : layout) : change_net_name o n l = Ok l' ->
  (change_net_name n o l' = Ok l <-> o = n \/ ~ In n (layout_names l)).
Proof. exact (rename_undo o n l l'). Qed.
Print Assumptions C89_rename_undo.
Theorem C89_rename_again (o n : str) (l l' : layout) : change_net_name o n l = Ok l' -> change_net_name o n l' = Ok l'.
Proof. exact (rename_again o n l l'). Qed.
Print Assumptions C89_rename_again.
(** Two renamings are one exactly if the middle name was not in use. *)
Theorem C89_rename_chain (a b c : str) (l l1 l2 : layout) : change_net_name a b l = Ok l1 -> change_net_name b c l1 = Ok l2 ->
  (change_net_name a c l = Ok l2 <-> a = b \/ b = c \/ ~ In b (layout_names l)).
Proof. exact (rename_chain a b c l l1 l2). Qed.
Print Assumptions C89_rename_chain.
Theorem C89_rename_swap (a b c d : str) (l l1 l2 k1 k2 : layout) : a <> c -> a <> d -> b <> c ->
  change_net_name a b l = Ok l1 -> change_net_name c d l1 = Ok l2 -> change_net_name c d l = Ok k1 -> change_net_name a b k1 = Ok k2 -> k2 = l2.
Proof. exact (rename_swap a b c d l l1 l2 k1 k2). Qed.
Print Assumptions C89_rename_swap.
Theorem C89_rename_move (o n : str) (x y : f64) (l l' : layout) : change_net_name o n l = Ok l' -> change_net_name o n (adjust_layout x y l) = Ok (adjust_layout x y l').
Proof. exact (rename_move o n x y l l'). Qed.
Print Assumptions C89_rename_move.
(** Moving by zero changes nothing unless a coordinate is negative zero. *)
Theorem C89_move_zero (l : layout) : adjust_layout fzero fzero l = l <-> ~ In fnegzero (coords (flat_map positions (ly_elements l))).
Proof. exact (move_zero_iff l). Qed.
Print Assumptions C89_move_zero.
(** Moving there and back restores a board whose coordinates lie, with the offset, on
    a grid of 2^-k ... *)
Theorem C89_move_back (k : Z) (x y : f64) (l : layout) : (-900 <= k <= 1000)%Z -> on_grid k x -> on_grid k y ->
  Forall (fun c => on_grid k c /\ c <> fnegzero) (coords (flat_map positions (ly_elements l))) -> adjust_layout (fneg x) (fneg y) (adjust_layout x y l) = l.
Proof. exact (board_exact k x y l). Qed.
Print Assumptions C89_move_back.
(** ... but not every board ... *)
Definition off_grid : layout := LyOps.with_elements ex_layout [YModule (mk_module (lit "M") [EAt (mkat "0.1" "0" "0")])].
Theorem C89_move_back_refuted : exists x y l, adjust_layout (fneg x) (fneg y) (adjust_layout x y l) <> l.
Proof.
  exists (fl "100"), (fl "0"), off_grid. intros H. apply move_back in H. inversion H as [|p ps [E _] _]. cbn [fst] in E. apply fsame_eq in E. revert E. vm_compute. discriminate.
Qed.
Print Assumptions C89_move_back_refuted.
(** ... of which no coordinate moves by more than 2^-40 if all are below 4096. *)
Theorem C89_move_near (x y : f64) (l : layout) : on_table x -> on_table y -> Forall on_table (coords (flat_map positions (ly_elements l))) ->
  let l' := adjust_layout (fneg x) (fneg y) (adjust_layout x y l) in
  ly_header l' = ly_header l /\ map wipe (ly_elements l') = map wipe (ly_elements l) /\
  Forall2 (Forall2 (fun p q => almost (fst p) (fst q) /\ almost (snd p) (snd q))) (map positions (ly_elements l)) (map positions (ly_elements l')).
Proof. exact (board_near x y l). Qed.
Print Assumptions C89_move_near.
(** Setup values: the last one counts, and different ones may be swapped unless both
    are new. *)
Theorem C89_setup_absorb (n v w : str) (u : setup) : setup_update n w (setup_update n v u) = setup_update n w u.
Proof. exact (setup_absorb n v w u). Qed.
Print Assumptions C89_setup_absorb.
Theorem C89_setup_swap (n m v w : str) (u : setup) : n <> m ->
  (setup_update n v (setup_update m w u) = setup_update m w (setup_update n v u) <-> setup_get u n <> None \/ setup_get u m <> None).
Proof. exact (setup_swap n m v w u). Qed.
Print Assumptions C89_setup_swap.
(** References of footprints *)
Theorem C89_reference_undo (o n : str) (m : module) : set_reference n o (set_reference o n m) = m <->
  o = n \/ (forall t, In (EFpText t) (m_elements m) -> tx_name t = lit "reference" -> tx_value t <> n).
Proof. exact (reference_undo o n m). Qed.
Print Assumptions C89_reference_undo.
Theorem C89_flip_reference (o n : str) (m : module) : flip_module (set_reference o n m) = set_reference o n (flip_module m).
Proof. exact (flip_reference o n m). Qed.
Print Assumptions C89_flip_reference.
Theorem C89_rotate_reference (d : f64) (o n : str) (m : module) : rotate_module d (set_reference o n m) = set_reference o n (rotate_module d m).
Proof. exact (rotate_reference d o n m). Qed.
Print Assumptions C89_rotate_reference.
Example C89_ex_names : layout_names ex_layout = [[]; lit "GND"; lit "Net-(R1-Pad1)"; lit "GND"; lit "Net-(R1-Pad1)"; lit "Net-(R1-Pad1)"; lit "GND"].
Proof. vm_compute. reflexivity. Qed.
Example C89_ex_rename : exists l', change_net_name (lit "GND") (lit "0V") ex_layout = Ok l'.
Proof. destruct ex_renamed as (l' & H & _). exists l'. exact H. Qed.
Example C89_ex_grid : on_grid 3 (fl "100.125") /\ on_grid 3 (fl "-50") /\
  Forall (fun c => on_grid 3 c /\ c <> fnegzero) (coords (flat_map positions (ly_elements ex_layout))).
Proof.
  split; [apply on_gridb_ok; vm_compute; reflexivity|]. split; [apply on_gridb_ok; vm_compute; reflexivity|].
  assert (H : forallb (fun c => on_gridb 3 c && negb (fsame c fnegzero)) (coords (flat_map positions (ly_elements ex_layout))) = true) by (vm_compute; reflexivity).
  rewrite forallb_forall in H. apply Forall_forall. intros c I. specialize (H c I). apply andb_prop in H as [A B]. split; [now apply on_gridb_ok|].
  intros ->. rewrite fsame_refl in B. discriminate.
Qed.
Example C89_ex_table : on_table (fl "0.1") /\ on_table (fl "-4095.9") /\ Forall on_table (coords (flat_map positions (ly_elements off_grid))).
Proof.
  split; [apply on_tableb_ok; vm_compute; reflexivity|]. split; [apply on_tableb_ok; vm_compute; reflexivity|].
  assert (H : forallb on_tableb (coords (flat_map positions (ly_elements off_grid))) = true) by (vm_compute; reflexivity).
  rewrite forallb_forall in H. apply Forall_forall. intros c I. now apply on_tableb_ok, H.
Qed.
Example C89_ex_setup : setup_get (ly_setup ex_layout) (lit "pad_size") = Some (lit "1.5") /\ setup_get (ly_setup ex_layout) (lit "a") = None /\ setup_get (ly_setup ex_layout) (lit "b") = None.
Proof. split; [reflexivity|]. split; reflexivity. Qed.

(** ** C90: schematics and symbols *)
Theorem C90_reference_absorb (c : component) (a b : str) : update_reference (update_reference c a) b = update_reference c b.
Proof. exact (ref_absorb c a b). Qed.
Print Assumptions C90_reference_absorb.
Theorem C90_name_absorb (c : component) (a b : str) : update_name (update_name c a) b = update_name c b.
Proof. exact (name_absorb c a b). Qed.
Print Assumptions C90_name_absorb.
Theorem C90_reference_name (c : component) (a b : str) : update_name (update_reference c a) b = update_reference (update_name c b) a.
Proof. exact (ref_name c a b). Qed.
Print Assumptions C90_reference_name.
Theorem C90_field_absorb (c : component) (n v w : str) : update_field (update_field c n v) n w = update_field c n w.
Proof. exact (field_absorb c n v w). Qed.
Print Assumptions C90_field_absorb.
Theorem C90_field_swap (c : component) (n m v w : str) : n <> m -> update_field (update_field c n v) m w = update_field (update_field c m w) n v.
Proof. exact (field_swap c n m v w). Qed.
Print Assumptions C90_field_swap.
(** Writing back the old value restores the component exactly if the fields of that
    name had that value and no field numbered above 1 was visible. *)
Theorem C90_field_undo (c : component) (n v w : str) : update_field (update_field c n v) n w = c <->
  Forall (fun f => (cf_name f = n -> cf_value f = w) /\ ((1 < cf_i f)%Z -> cf_visible f = false)) (co_fields c).
Proof. exact (field_undo c n v w). Qed.
Print Assumptions C90_field_undo.
(** A field and the reference (or name) may be set in either order exactly if the field is
    not the one that holds the reference (or name). *)
Theorem C90_field_reference (c : component) (n v r : str) : update_field (update_reference c r) n v = update_reference (update_field c n v) r <->
  v = r \/ Forall (fun f => cf_i f = 0%Z -> cf_name f <> n) (co_fields c).
Proof. exact (field_ref c n v r). Qed.
Print Assumptions C90_field_reference.
Theorem C90_field_name (c : component) (n v r : str) : update_field (update_name c r) n v = update_name (update_field c n v) r <->
  v = r \/ Forall (fun f => cf_i f = 1%Z -> cf_name f <> n) (co_fields c).
Proof. exact (name_field c n v r). Qed.
Print Assumptions C90_field_name.
(** Components with different references may be modified in either order unless one
    becomes the other; two modifications of one component are one. *)
Theorem C90_component_swap (s : schematic) (r q : str) (f g : component -> component) : r <> q ->
  (forall c, co_reference c = r -> co_reference (f c) <> q) -> (forall c, co_reference c = q -> co_reference (g c) <> r) ->
  modify_component (modify_component s q g) r f = modify_component (modify_component s r f) q g.
Proof. exact (comp_swap s r q f g). Qed.
Print Assumptions C90_component_swap.
Theorem C90_component_fuse (s : schematic) (r : str) (f g : component -> component) : (forall c, co_reference c = r -> co_reference (f c) = r) ->
  modify_component (modify_component s r f) r g = modify_component s r (fun c => g (f c)).
Proof. exact (comp_fuse s r f g). Qed.
Print Assumptions C90_component_fuse.
Theorem C90_components_fuse (s : schematic) (f g : component -> component) : modify_components (modify_components s f) g = modify_components s (fun c => g (f c)).
Proof. exact (comps_fuse s f g). Qed.
Print Assumptions C90_components_fuse.
(** Naming a symbol twice: the last name counts, unless the first one began with a
    tilde and the symbol's did not. *)
Theorem C90_set_name_again (a b : str) (y y1 y2 : symbol) : set_name a y = Ok y1 -> set_name b y1 = Ok y2 ->
  (set_name b y = Ok y2 <-> starts_with (lit "~") (sy_name y) = true \/ starts_with (lit "~") a = false).
Proof. exact (name_again a b y y1 y2). Qed.
Print Assumptions C90_set_name_again.
Theorem C90_set_name_absorb_refuted : exists a b y y1 y2, set_name a y = Ok y1 /\ set_name b y1 = Ok y2 /\ set_name b y <> Ok y2.
Proof.
  exists (lit "~A"), (lit "B"), ex_power. do 2 eexists. split; [reflexivity|]. split; [reflexivity|]. intros H. injection H as H. discriminate.
Qed.
Print Assumptions C90_set_name_absorb_refuted.
Example C90_ex_undo : Forall (fun f => (cf_name f = lit "MPN" -> cf_value f = lit "xx") /\ ((1 < cf_i f)%Z -> cf_visible f = false)) (co_fields (update_field ex_c (lit "MPN") (lit "xx"))).
Proof. rewrite <- (C90_field_undo _ (lit "MPN") (lit "yy") (lit "xx")). reflexivity. Qed.
Example C90_ex_reference : ~ Forall (fun f => cf_i f = 0%Z -> cf_name f <> lit "Reference") (co_fields ex_c) /\ Forall (fun f => cf_i f = 0%Z -> cf_name f <> lit "MPN") (co_fields ex_c).
Proof.
  split.
  - intros H. inversion H as [|? ? A _]. now apply A.
  - repeat constructor; cbn; intros; discriminate.
Qed.
Example C90_ex_swap : lit "R1" <> lit "R2" /\ (forall c, co_reference c = lit "R1" -> co_reference (update_field c (lit "MPN") (lit "x")) <> lit "R2") /\
  (forall c, co_reference c = lit "R1" -> co_reference (update_field c (lit "MPN") (lit "x")) = lit "R1").
Proof. split; [discriminate|]. split; intros c H; change (co_reference c <> lit "R2") || change (co_reference c = lit "R1"); [rewrite H; discriminate|exact H]. Qed.
Example C90_ex_name : exists y1 y2, set_name (lit "A") ex_power = Ok y1 /\ set_name (lit "B") y1 = Ok y2 /\ starts_with (lit "~") (lit "A") = false.
Proof. do 2 eexists. split; [reflexivity|]. split; reflexivity. Qed.
