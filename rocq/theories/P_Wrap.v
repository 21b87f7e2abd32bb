(** Property theorems: what a build without overflow checks does where one with the
    checks stops (C115). *)
From Coq Require Import String Lia.
From Verif Require Import Base Str Num F64 Bound BoundSpec SchData SchPrint SchParse SchOps SchSpec SchWrap WrapSpec WrapFacts P_SchOps.
Open Scope Z_scope. Open Scope string_scope. Open Scope list_scope.

(** Where the checked build finishes, the unchecked one gives the same. *)
Theorem C115_same_edits : forall l c d, apply_edits c l = Ok d -> w_edits c l = d.
Proof. exact edits_agree. Qed.
Print Assumptions C115_same_edits.
Theorem C115_same_outcome : forall c t n v r, add_or_update_field c t n v = Ok r -> w_add_or_update_field c t n v = r.
Proof. exact add_or_update_agree. Qed.
Print Assumptions C115_same_outcome.
Theorem C115_same_count : forall s t, increment_sheet_count s = Ok t -> w_increment_sheet_count s = t.
Proof. exact count_agree. Qed.
Print Assumptions C115_same_count.
Theorem C115_same_box : forall s b, sch_bound s = Ok b -> w_sch_bound s = b.
Proof. exact sch_agree. Qed.
Print Assumptions C115_same_box.
Example C115_same_ex : exists d, apply_edits ex_c [AddNew (ex_field 0 "" "") (lit "A") (lit "1")] = Ok d /\ numbers d = [0; 1; 5; 6].
Proof. eexists. split; reflexivity. Qed.

(** The number of a new field is what the machine makes of the largest number plus one. *)
Theorem C115_number : forall c, exists t, top t c /\ machine (w_field_num c) (t + 1).
Proof. exact num_top. Qed.
Print Assumptions C115_number.
(** It is taken exactly if both the largest and the smallest 64 bit number are. *)
Theorem C115_taken : forall c, Forall fits64 (numbers c) ->
  (In (w_field_num c) (numbers c) <-> In (2 ^ 63 - 1) (numbers c) /\ In (- 2 ^ 63) (numbers c)).
Proof. exact num_fresh. Qed.
Print Assumptions C115_taken.
Definition ex_full : component := ex_comp [ex_field 0 "R3" "Reference"; ex_field (2 ^ 63 - 1) "x" "MPN"].
Example C115_number_ex : w_field_num ex_c = 6 /\ w_field_num ex_full = - 2 ^ 63 /\
  w_field_num (w_add_new_field ex_full (ex_field 0 "" "") (lit "A") (lit "1")) = - 2 ^ 63 /\
  Forall fits64 (numbers ex_full).
Proof. split; [reflexivity|]. split; [reflexivity|]. split; [reflexivity|]. repeat constructor; cbn; lia. Qed.

(** Over any history of edits the numbers stay within 64 bits, ... *)
Theorem C115_range : forall l c, Forall fits64 (numbers c) -> Forall fits64 (numbers (w_edits c l)).
Proof. exact edits_range. Qed.
Print Assumptions C115_range.
(** ... and distinct as long as there is room above the largest for all of the edits. *)
Theorem C115_distinct : forall l c, NoDup (numbers c) -> Forall fits64 (numbers c) ->
  Forall (fun z => z + Z.of_nat (length l) < 2 ^ 63) (numbers c) -> Z.of_nat (length l) < 2 ^ 63 -> NoDup (numbers (w_edits c l)).
Proof. exact edits_distinct. Qed.
Print Assumptions C115_distinct.
Example C115_distinct_ex : NoDup (numbers ex_c) /\ Forall (fun z => z + 2 < 2 ^ 63) (numbers ex_c) /\
  numbers (w_edits ex_c [AddNew (ex_field 0 "" "") (lit "A") (lit "1"); AddOrUpdate (ex_field 0 "" "") (lit "B") (lit "2")]) = [0; 1; 5; 6; 7].
Proof. split; [repeat constructor; cbn; intuition discriminate|]. split; [repeat constructor; lia|reflexivity]. Qed.
(** Without that room they do not: two new fields get the same number. *)
Theorem C115_distinct_refuted : exists c l, NoDup (numbers c) /\ Forall fits64 (numbers c) /\ ~ NoDup (numbers (w_edits c l)).
Proof.
  exists ex_full, [AddOrUpdate (ex_field 0 "" "") (lit "A") (lit "1"); AddOrUpdate (ex_field 0 "" "") (lit "B") (lit "2")].
  split; [repeat constructor; cbn; intuition discriminate|]. split; [repeat constructor; cbn; lia|].
  assert (E : numbers (w_edits ex_full [AddOrUpdate (ex_field 0 "" "") (lit "A") (lit "1"); AddOrUpdate (ex_field 0 "" "") (lit "B") (lit "2")])
    = [0; 2 ^ 63 - 1; - 2 ^ 63; - 2 ^ 63]) by reflexivity.
  rewrite E. intros N. apply NoDup_cons_iff in N as [_ N]. apply NoDup_cons_iff in N as [_ N]. apply NoDup_cons_iff in N as [N _]. apply N. now left.
Qed.
Print Assumptions C115_distinct_refuted.

(** Looking up by name is right whatever the numbers are. *)
Theorem C115_lookup : forall c t n v, let r := w_add_or_update_field c t n v in
  get_field_value (fst r) n = Some v /\ (forall m, m <> n -> get_field_value (fst r) m = get_field_value c m) /\
  sans_fields (fst r) = sans_fields c /\
  (snd r = UNew <-> get_field_value c n = None) /\ (forall old, snd r = UUpdate old <-> get_field_value c n = Some old /\ old <> v) /\
  (snd r = USame <-> get_field_value c n = Some v).
Proof. exact w_lookup. Qed.
Print Assumptions C115_lookup.
Example C115_lookup_ex : snd (w_add_or_update_field ex_full (ex_field 0 "" "") (lit "A") (lit "1")) = UNew /\
  add_or_update_field ex_full (ex_field 0 "" "") (lit "A") (lit "1") = Panic.
Proof. split; reflexivity. Qed.

(** The name of a new field reaches the file unless its number is too small for one, as it
    is after wrapping around (and, in either build, with no number above 2 in use). *)
Theorem C115_name_lost : forall c, Forall fits64 (numbers c) ->
  ((forall t n m v, print_component (w_add_new_field c t n v) = print_component (w_add_new_field c t m v)) <->
   In (2 ^ 63 - 1) (numbers c) \/ Forall (fun z => z <= 2) (numbers c)).
Proof. exact name_lost. Qed.
Print Assumptions C115_name_lost.
Example C115_name_lost_ex : In (2 ^ 63 - 1) (numbers ex_full) /\ ~ In (2 ^ 63 - 1) (numbers ex_c) /\ ~ Forall (fun z => z <= 2) (numbers ex_c) /\
  last (map print_field (co_fields (w_add_new_field ex_full (ex_field 0 "" "") (lit "A") (lit "1")))) []
  = lit "F -9223372036854775808 " ++ quoted (lit "1") ++ lit " H 0   0   60  0001 C CNN".
Proof.
  split; [right; left; reflexivity|]. split; [cbn; intuition discriminate|]. split; [|vm_compute; reflexivity].
  intros F. rewrite Forall_forall in F. specialize (F 5 (or_intror (or_intror (or_introl eq_refl)))). lia.
Qed.

(** The sheet count; nothing else of the description changes. *)
Theorem C115_count : forall s, machine (ds_count (sc_description (w_increment_sheet_count s))) (ds_count (sc_description s) + 1) /\
  (sc_filename (w_increment_sheet_count s), sc_libraries (w_increment_sheet_count s), sc_elements (w_increment_sheet_count s),
   sc_sheets (w_increment_sheet_count s), sc_eelayer (w_increment_sheet_count s))
  = (sc_filename s, sc_libraries s, sc_elements s, sc_sheets s, sc_eelayer s) /\
  (forall A (f : description -> A), (forall a b c d e g h i j k l m n n', f (mk_descr a b c d e g h i j k l m n) = f (mk_descr a b c d e g h i j k l m n')) ->
     f (sc_description (w_increment_sheet_count s)) = f (sc_description s)).
Proof. exact count_machine. Qed.
Print Assumptions C115_count.
Example C115_count_ex : let s := mk_sch None [] (mk_descr [] 0 0 [] [] [] [] [] [] [] [] 1 (2 ^ 63 - 1)) [] [] [] in
  increment_sheet_count s = Panic /\ ds_count (sc_description (w_increment_sheet_count s)) = - 2 ^ 63.
Proof. split; reflexivity. Qed.

(** The box of a sheet: each edge is what the machine makes of the true one. *)
Theorem C115_sheet : forall h, exists y1 x2 y2, machine y1 (sh_y h - 100) /\ machine x2 (sh_x h + sh_dimx h) /\
  machine y2 (sh_y h + sh_dimy h + 100) /\ w_sheet_bound h = bound_new_i64 (sh_x h) y1 x2 y2.
Proof. exact sheet_machine. Qed.
Print Assumptions C115_sheet.
(** So it is the true box if that fits, also where the checked build stops half way. *)
Theorem C115_sheet_true : forall h, fits64 (sh_y h - 100) -> fits64 (sh_x h + sh_dimx h) -> fits64 (sh_y h + sh_dimy h + 100) ->
  w_sheet_bound h = bound_new_i64 (sh_x h) (sh_y h - 100) (sh_x h + sh_dimx h) (sh_y h + sh_dimy h + 100).
Proof. exact sheet_true. Qed.
Print Assumptions C115_sheet_true.
Definition ex_sheet_at (y h : Z) : sheet := mk_sheet 0 y 10 h [] (lit "s") 60 (lit "s.sch") 60 [].
Example C115_sheet_ex : let h := ex_sheet_at (100 - 2 ^ 63) (-150) in
  sheet_bound h = Panic /\ fits64 (sh_y h - 100) /\ fits64 (sh_x h + sh_dimx h) /\ fits64 (sh_y h + sh_dimy h + 100).
Proof. cbv zeta. unfold fits64. cbn [sh_y sh_x sh_dimx sh_dimy ex_sheet_at]. split; [reflexivity|]. lia. Qed.
(** Otherwise it need not contain the corner of the sheet itself. *)
Theorem C115_sheet_refuted : exists h, fits64 (sh_x h) /\ fits64 (sh_y h) /\ 0 <= sh_dimx h < 2 ^ 63 /\ 0 <= sh_dimy h < 2 ^ 63 /\
  inside (f64_of_Z (sh_x h)) (f64_of_Z (sh_y h)) (w_sheet_bound h) = false.
Proof.
  exists (ex_sheet_at (2 ^ 63 - 1) 10). unfold fits64. cbn [sh_y sh_x sh_dimx sh_dimy ex_sheet_at].
  split; [lia|]. split; [lia|]. split; [lia|]. split; [lia|]. vm_compute. reflexivity.
Qed.
Print Assumptions C115_sheet_refuted.
