(** Property theorems: component fields (C27-C30), modifying components (C31),
    sheet hierarchies (C32, C33), bounding boxes (C17). *)
From Coq Require Import String Lia.
From Verif Require Import Base Str StrFacts Num F64 Bound BoundSpec SchData SchPrint SchParse SchWf SchEnds SchOps SchSpec SchOpsFacts SchTotal SchBoundFacts SymSpec BoxFacts SchTight.
Open Scope string_scope. Open Scope list_scope.

Definition ex_field (i : Z) (v n : string) : cfield :=
  mk_cfield i (lit v) Horizontal fzero fzero 50 true SJLeft SJCenter false true (lit n).
Definition ex_comp (l : list cfield) : component := mk_comp (lit "R") (lit "R3") [] 0 0 [] l (mk_rotation 1 0 0 (-1)).
Definition ex_c : component := ex_comp [ex_field 0 "R3" "Reference"; ex_field 1 "4k7" "Value"; ex_field 5 "xx" "MPN"].

(** ** C27 *)
(** The lookup gives the value of the first field with the name. *)
Theorem C27_lookup : forall c n v,
  (get_field_value c n = Some v <-> first_has n v (co_fields c)) /\
  (get_field_value c n = None <-> absent n (co_fields c)) /\
  get_field_value c n = option_map cf_value (get_field c n).
Proof.
  intros c n v. split; [apply field_value_some|]. split; [apply field_value_none|apply find_field_value].
Qed.
Print Assumptions C27_lookup.
Example C27_lookup_ex : get_field_value ex_c (lit "MPN") = Some (lit "xx") /\ get_field_value ex_c (lit "Z") = None.
Proof. split; reflexivity. Qed.
Theorem C27_add_or_update : forall c t n v c' o, add_or_update_field c t n v = Ok (c', o) ->
  get_field_value c' n = Some v /\
  (forall m, m <> n -> get_field_value c' m = get_field_value c m) /\
  sans_fields c' = sans_fields c.
Proof. exact add_or_update_lookup. Qed.
Print Assumptions C27_add_or_update.
Theorem C27_outcome : forall c t n v c' o, add_or_update_field c t n v = Ok (c', o) ->
  (o = UNew <-> get_field_value c n = None) /\
  (forall old, o = UUpdate old <-> get_field_value c n = Some old /\ old <> v) /\
  (o = USame <-> get_field_value c n = Some v) /\
  (field_changed o = false <-> c' = c).
Proof. exact add_or_update_outcome. Qed.
Print Assumptions C27_outcome.
Theorem C27_defined : forall c t n v, Forall (fun f => cf_i f < 2 ^ 63 - 1)%Z (co_fields c) ->
  exists r, add_or_update_field c t n v = Ok r.
Proof. exact add_or_update_total. Qed.
Print Assumptions C27_defined.
Example C27_ex : Forall (fun f => cf_i f < 2 ^ 63 - 1)%Z (co_fields ex_c) /\
  (exists c, add_or_update_field ex_c (ex_field 0 "" "") (lit "MPN") (lit "yy") = Ok (c, UUpdate (lit "xx")) /\ get_field_value c (lit "MPN") = Some (lit "yy")) /\
  (exists c, add_or_update_field ex_c (ex_field 0 "" "") (lit "Z") (lit "yy") = Ok (c, UNew) /\ numbers c = [0; 1; 5; 6]%Z).
Proof.
  split; [repeat constructor; reflexivity|]. split; eexists; (split; [reflexivity|]); reflexivity.
Qed.

(** The map returned by [fields_hash] holds the last field of each name, so it
    disagrees with the lookup when a name occurs twice, even right after
    [add_or_update_field]. *)
Theorem C27_hash : forall c n v, fields_hash c n = Some v <->
  exists a f b, co_fields c = a ++ f :: b /\ cf_name f = n /\ cf_value f = v /\ absent n b.
Proof. exact hash_last. Qed.
Print Assumptions C27_hash.
Theorem C27_hash_distinct : forall c n, NoDup (map cf_name (co_fields c)) -> fields_hash c n = get_field_value c n.
Proof. exact hash_distinct. Qed.
Print Assumptions C27_hash_distinct.
Theorem C27_hash_refuted : exists c t n v c' o, add_or_update_field c t n v = Ok (c', o) /\ fields_hash c' n <> Some v.
Proof.
  exists (ex_comp [ex_field 4 "a" "N"; ex_field 5 "b" "N"]), (ex_field 0 "" ""), (lit "N"), (lit "a").
  eexists. eexists. split; [reflexivity|discriminate].
Qed.
Print Assumptions C27_hash_refuted.

(** A new field of a component with fewer than four fields gets one of the
    numbers 1 to 3, whose names are not written: after saving and loading the
    field is found under another name. *)
Definition saved (c : component) : option component :=
  match parse_component (print_component c) with Ok (c', _) => Some c' | _ => None end.
Theorem C27_saved_refuted : exists c t n v c' c2,
  saved c <> None /\ add_or_update_field c t n v = Ok (c', UNew) /\ get_field_value c' n = Some v /\
  saved c' = Some c2 /\ get_field_value c2 n = None /\ get_field_value c2 (lit "Value") = Some v.
Proof.
  exists (ex_comp []), (ex_field 0 "" ""), (lit "MPN"), (lit "x"). eexists. eexists.
  split; [vm_compute; discriminate|]. split; [reflexivity|]. split; [reflexivity|].
  split; [vm_compute; reflexivity|]. split; reflexivity.
Qed.
Print Assumptions C27_saved_refuted.

(** ** C28 *)
Theorem C28_fresh : forall c k, get_available_field_num c = Ok k ->
  (1 <= k)%Z /\ (forall f, In f (co_fields c) -> cf_i f < k)%Z /\
  (k = 1%Z \/ exists f, In f (co_fields c) /\ cf_i f = (k - 1)%Z).
Proof. exact free_num. Qed.
Print Assumptions C28_fresh.
Theorem C28_defined : forall c, Forall (fun f => cf_i f < 2 ^ 63 - 1)%Z (co_fields c) ->
  exists k, get_available_field_num c = Ok k.
Proof. exact free_num_defined. Qed.
Print Assumptions C28_defined.
Theorem C28_new_field : forall c t n v c', add_new_field c t n v = Ok c' ->
  exists k, co_fields c' = co_fields c ++ [mk_cfield k v Horizontal (cf_x t) (cf_y t) 60 false SJCenter SJCenter false false n] /\
    ~ In k (numbers c) /\ sans_fields c' = sans_fields c.
Proof. exact add_new_exact. Qed.
Print Assumptions C28_new_field.
Example C28_ex : get_available_field_num ex_c = Ok 6%Z /\ get_available_field_num (ex_comp []) = Ok 1%Z /\
  exists c, add_new_field ex_c (ex_field 0 "" "") (lit "n") (lit "v") = Ok c.
Proof. split; [reflexivity|]. split; [reflexivity|]. eexists. reflexivity. Qed.
(** "First free number" (the comment at schematic.rs:494) is not what it gives. *)
Theorem C28_first_free_refuted : exists c k j, get_available_field_num c = Ok k /\ (1 <= j < k)%Z /\ ~ In j (numbers c).
Proof. exists ex_c, 6%Z, 2%Z. split; [reflexivity|]. split; [lia|]. cbn. intuition discriminate. Qed.
Print Assumptions C28_first_free_refuted.
(** With the largest number in use the addition overflows. *)
Theorem C28_overflow_refuted : exists c, get_available_field_num c = Panic.
Proof. exists (ex_comp [ex_field (2 ^ 63 - 1) "" ""]). reflexivity. Qed.
Print Assumptions C28_overflow_refuted.

(** ** C29 *)
Theorem C29_history : forall l c c', apply_edits c l = Ok c' ->
  (NoDup (numbers c) -> NoDup (numbers c')) /\
  exists m, map ident (co_fields c') = map ident (co_fields c) ++ m.
Proof. exact edit_history. Qed.
Print Assumptions C29_history.
Theorem C29_last_write : forall l c c' t n v, apply_edits c (l ++ [AddOrUpdate t n v]) = Ok c' ->
  get_field_value c' n = Some v.
Proof. exact edit_history_last. Qed.
Print Assumptions C29_last_write.
Example C29_ex : NoDup (numbers ex_c) /\ exists c,
  apply_edits ex_c [AddOrUpdate (ex_field 0 "" "") (lit "A") (lit "1"); SetReference (lit "R9"); Update (lit "MPN") (lit "q");
    AddNew (ex_field 0 "" "") (lit "A") (lit "2"); AddOrUpdate (ex_field 0 "" "") (lit "A") (lit "3")] = Ok c /\
  map (fun f => (ident f, cf_value f)) (co_fields c)
  = [((0, lit "Reference"), lit "R9"); ((1, lit "Value"), lit "4k7"); ((5, lit "MPN"), lit "q"); ((6, lit "A"), lit "3"); ((7, lit "A"), lit "3")]%Z.
Proof.
  split; [repeat constructor; cbn; intuition discriminate|]. eexists. split; [reflexivity|reflexivity].
Qed.

(** ** C30 *)
(** Exact effect: the value of every field of that name is set, every field with
    a number above 1 becomes invisible, nothing else changes. *)
Theorem C30_exact : forall c n v, sans_fields (update_field c n v) = sans_fields c /\
  Forall2 (fun f g => sans_value g = sans_value f /\
     cf_value g = (if str_eqb (cf_name f) n then v else cf_value f) /\
     cf_visible g = (if (1 <? cf_i f)%Z then false else cf_visible f)) (co_fields c) (co_fields (update_field c n v)).
Proof. exact update_exact. Qed.
Print Assumptions C30_exact.
(** The two views of a field and of a component show everything. *)
Theorem C30_views_complete :
  (forall f g, sans_value f = sans_value g -> cf_value f = cf_value g -> cf_visible f = cf_visible g -> f = g) /\
  (forall c d, sans_fields c = sans_fields d -> co_fields c = co_fields d -> c = d).
Proof. split; [exact sans_value_complete|exact sans_fields_complete]. Qed.
Print Assumptions C30_views_complete.
(** The claim is false: another field is changed; and of two fields with the
    same name both are changed. *)
Theorem C30_other_hidden_refuted : exists c n v f, In f (co_fields c) /\ cf_name f <> n /\ ~ In f (co_fields (update_field c n v)).
Proof.
  exists ex_c, (lit "Value"), (lit "1k"), (ex_field 5 "xx" "MPN"). split; [right; right; left; reflexivity|]. split; [discriminate|].
  intros [H|[H|[H|[]]]]; (apply (f_equal cf_i) in H as I || idtac); try discriminate I.
  apply (f_equal cf_visible) in H. discriminate.
Qed.
Print Assumptions C30_other_hidden_refuted.
Theorem C30_all_same_named_refuted : exists c n v a f b, co_fields c = a ++ f :: b /\ ~ absent n a /\ cf_value f <> v /\
  map cf_value (co_fields (update_field c n v)) = map (fun _ => v) (co_fields c).
Proof.
  exists (ex_comp [ex_field 4 "a" "N"; ex_field 5 "b" "N"]), (lit "N"), (lit "z"), [ex_field 4 "a" "N"], (ex_field 5 "b" "N"), [].
  split; [reflexivity|]. split; [|split; [discriminate|reflexivity]].
  intros H. inversion H as [|? ? X]. apply X. reflexivity.
Qed.
Print Assumptions C30_all_same_named_refuted.
(** What does hold of the claim: with distinct names and fields above 1
    already invisible, only the value of the named field changes. *)
Theorem C30_only_named : forall c n v, NoDup (map cf_name (co_fields c)) ->
  Forall (fun f => (1 < cf_i f)%Z -> cf_visible f = false) (co_fields c) ->
  update_field c n v = c \/
  exists a f b, co_fields c = a ++ f :: b /\ cf_name f = n /\ update_field c n v = set_fields c (a ++ with_value f v :: b).
Proof. exact update_only_named. Qed.
Print Assumptions C30_only_named.
Example C30_ex : let c := ex_comp [ex_field 0 "a" "R"; ex_field 1 "b" "V"] in
  NoDup (map cf_name (co_fields c)) /\ Forall (fun f => (1 < cf_i f)%Z -> cf_visible f = false) (co_fields c).
Proof. split; [repeat constructor; cbn; intuition discriminate|repeat constructor; cbn; lia]. Qed.
(** Renaming sets the reference (or name) and field 0 (or 1), nothing else. *)
Theorem C30_rename : forall c r,
  update_reference c r = mk_comp (co_name c) r (co_u c) (co_x c) (co_y c) (co_ar c) (co_fields (update_reference c r)) (co_rotation c) /\
  Forall2 (fun f g => g = if Z.eqb (cf_i f) 0 then with_value f r else f) (co_fields c) (co_fields (update_reference c r)) /\
  update_name c r = mk_comp r (co_reference c) (co_u c) (co_x c) (co_y c) (co_ar c) (co_fields (update_name c r)) (co_rotation c) /\
  Forall2 (fun f g => g = if Z.eqb (cf_i f) 1 then with_value f r else f) (co_fields c) (co_fields (update_name c r)).
Proof.
  intros c r. split; [reflexivity|]. split; [|split; [reflexivity|]]; cbn; induction (co_fields c); constructor; auto.
Qed.
Print Assumptions C30_rename.

(** ** C31 *)
Theorem C31_modify_component : forall s r f,
  with_elements (modify_component s r f) [] = with_elements s [] /\
  ((Forall (fun e => has_ref r e = false) (sc_elements s) /\ modify_component s r f = s) \/
   exists a c b, sc_elements s = a ++ SComponent c :: b /\ Forall (fun e => has_ref r e = false) a /\ co_reference c = r /\
     sc_elements (modify_component s r f) = a ++ SComponent (f c) :: b).
Proof. exact modify_component_spec. Qed.
Print Assumptions C31_modify_component.
Theorem C31_modify_components : forall s f,
  with_elements (modify_components s f) [] = with_elements s [] /\
  Forall2 (fun e g => match e with SComponent c => g = SComponent (f c) | _ => g = e end) (sc_elements s) (sc_elements (modify_components s f)).
Proof. exact modify_components_spec. Qed.
Print Assumptions C31_modify_components.
Theorem C31_components : forall s v, components s = own (sc_elements s) /\ collect_components s v = v ++ own (sc_elements s).
Proof. intros s v. unfold components, collect_components. now rewrite comps_own. Qed.
Print Assumptions C31_components.
(** Counting one sheet more changes nothing but the count (every view of the description
    that does not look at the count is as before), and aborts at the largest i64. *)
Theorem C31_sheet_count : forall s, (- 2 ^ 63 <= ds_count (sc_description s))%Z ->
  (ds_count (sc_description s) < 2 ^ 63 - 1 -> exists s', increment_sheet_count s = Ok s' /\
     ds_count (sc_description s') = ds_count (sc_description s) + 1 /\
     (sc_filename s', sc_libraries s', sc_elements s', sc_sheets s', sc_eelayer s') = (sc_filename s, sc_libraries s, sc_elements s, sc_sheets s, sc_eelayer s) /\
     (forall A (f : description -> A), (forall a b c d e g h i j k l m n n', f (mk_descr a b c d e g h i j k l m n) = f (mk_descr a b c d e g h i j k l m n')) ->
        f (sc_description s') = f (sc_description s)))%Z /\
  (2 ^ 63 - 1 <= ds_count (sc_description s) -> increment_sheet_count s = Panic)%Z.
Proof. exact count_frame. Qed.
Print Assumptions C31_sheet_count.
Example C31_count_ex : match increment_sheet_count (mk_sch None [] descr_default [SComponent ex_c] [] []) with Ok s => ds_count (sc_description s) | _ => 0%Z end = 2%Z.
Proof. vm_compute. reflexivity. Qed.
Example C31_ex :
  let c r := mk_comp (lit "R") (lit r) [] 0 0 [] [] (mk_rotation 1 0 0 (-1)) in
  let s := mk_sch None [] descr_default [SOther (lit "x"); SComponent (c "R1"); SComponent (c "R2"); SComponent (c "R2")] [] [] in
  sc_elements (modify_component s (lit "R2") (fun _ => c "R7"))
  = [SOther (lit "x"); SComponent (c "R1"); SComponent (c "R7"); SComponent (c "R2")].
Proof. reflexivity. Qed.

(** ** C45 (components) *)
Theorem C45_components : forall s,
  picks (fun e c => e = SComponent c) (fun e => forall c, e <> SComponent c) (sc_elements s) (components s).
Proof. exact components_picks. Qed.
Print Assumptions C45_components.
Example C45_components_ex :
  let c := mk_comp (lit "R") (lit "R1") [] 0 0 [] [] (mk_rotation 1 0 0 (-1)) in
  components (mk_sch None [] descr_default [SOther (lit "x"); SComponent c; SNoConnect (mk_spoint 0 0); SComponent c] [] []) = [c; c].
Proof. reflexivity. Qed.

(** ** C32 *)
(** The call returns exactly the components of the sheet tree (own ones, then
    those of each sheet in order), when all files can be read. *)
Theorem C32_all_components : forall fs s l,
  comps_of fs s l <-> exists n, forall m, (n <= m)%nat -> all_components fs m s = Ok l.
Proof.
  intros fs s l. split; [apply all_complete|]. intros (n & H). apply (all_sound fs n). apply H. lia.
Qed.
Print Assumptions C32_all_components.
(** More steps never change a result. *)
Theorem C32_steps : forall fs n s m, all_components fs n s <> Err EFuel -> (n <= m)%nat -> all_components fs m s = all_components fs n s.
Proof. exact all_mono. Qed.
Print Assumptions C32_steps.
(** The call ends when the files contain no cycle (some rank falls from a
    schematic to its sheets). *)
Theorem C32_terminates : forall fs (rank : schematic -> nat), (forall p, fs_read fs p <> Err EFuel) ->
  (forall s h s2, In h (sc_sheets s) -> parse_file_for_sheet fs s h = Ok s2 -> (rank s2 < rank s)%nat) ->
  forall s, exists r, r <> Err EFuel /\ forall n, (rank s < n)%nat -> all_components fs n s = r.
Proof. exact all_ends. Qed.
Print Assumptions C32_terminates.

Definition tdescr : description := mk_descr (lit "A4") 10 20 [] [] [] [] [] [] [] [] 1 1.
Definition tsheet (f : string) : sheet := mk_sheet 0 0 10 10 (lit "5A") (lit "n") 60 (lit f) 60 [].
Definition tcomp (r : string) : component := mk_comp (lit "R") (lit r) [] 5 4 [] [] (mk_rotation 1 0 0 (-1)).
Definition tsch (f : string) (c : list string) (h : list string) : schematic :=
  mk_sch (Some (lit f)) [] tdescr (map (fun r => SComponent (tcomp r)) c) (map tsheet h) (lit "EELAYER 25 0").
(** Files by name; unknown names cannot be read. *)
Definition tfs (l : list (string * schematic)) : fsys :=
  mk_fs (fun _ f => Some f)
    (fun p => match find (fun x => str_eqb (lit (fst x)) p) l with Some x => Ok (print_schematic (snd x)) | None => Err EIo end).
Lemma tfs_load l s f x : find (fun x => str_eqb (lit (fst x)) (lit f)) l = Some x -> sc_filename (snd x) = Some (lit f) ->
  sch_ok (snd x) = true -> sc_filename s <> None -> parse_file_for_sheet (tfs l) s (tsheet f) = Ok (snd x).
Proof.
  intros F N O S. unfold parse_file_for_sheet, filename_for_sheet. destruct (sc_filename s); [|contradiction]. cbn [of_option bind].
  unfold tfs, parse_file. cbn [fs_join fs_read sh_filename tsheet of_option bind]. rewrite F. cbn [bind]. rewrite <- N. now apply rt_schematic.
Qed.
Example C32_ex : let l := [("b.sch", tsch "b.sch" ["R2"; "R3"]%string ["c.sch"]%string); ("c.sch", tsch "c.sch" ["R4"]%string [])]%string in
  comps_of (tfs l) (tsch "a.sch" ["R1"]%string ["b.sch"; "c.sch"]%string) (map tcomp ["R1"; "R2"; "R3"; "R4"; "R4"]%string).
Proof.
  cbv zeta. set (b := tsch "b.sch" ["R2"; "R3"]%string ["c.sch"]%string). set (c := tsch "c.sch" ["R4"]%string []). set (l := [_; _]).
  assert (C : comps_of (tfs l) c ([tcomp "R4"] ++ [])) by (apply (comps_node (tfs l) c); constructor).
  assert (B : comps_of (tfs l) b ([tcomp "R2"; tcomp "R3"] ++ ([tcomp "R4"] ++ []) ++ [])).
  { apply (comps_node (tfs l) b). apply comps_cons with (s2 := c); [|exact C|constructor].
    apply (tfs_load l b "c.sch" ("c.sch"%string, c)); [reflexivity|reflexivity|vm_compute; reflexivity|discriminate]. }
  set (a := tsch "a.sch" ["R1"]%string ["b.sch"; "c.sch"]%string).
  apply (comps_node (tfs l) a ([tcomp "R2"; tcomp "R3"; tcomp "R4"; tcomp "R4"])).
  apply (comps_cons (tfs l) a (tsheet "b.sch") [tsheet "c.sch"] b [tcomp "R2"; tcomp "R3"; tcomp "R4"] [tcomp "R4"]).
  - apply (tfs_load l a "b.sch" ("b.sch"%string, b)); [reflexivity|reflexivity|vm_compute; reflexivity|discriminate].
  - exact B.
  - apply (comps_cons (tfs l) a (tsheet "c.sch") [] c [tcomp "R4"] []); [|exact C|constructor].
    apply (tfs_load l a "c.sch" ("c.sch"%string, c)); [reflexivity|reflexivity|vm_compute; reflexivity|discriminate].
Qed.
(** The claim is false for cycles: a schematic that is its own sheet never gives
    an answer, whatever the number of steps. *)
Theorem C32_cycle_refuted : exists fs s, forall n, all_components fs n s = Err EFuel.
Proof.
  exists (tfs [("a.sch", tsch "a.sch" ["R1"] ["a.sch"])]%string), (tsch "a.sch" ["R1"]%string ["a.sch"]%string).
  apply (all_self _ _ (tsheet "a.sch") []); [reflexivity|].
  apply (tfs_load _ _ "a.sch" ("a.sch"%string, tsch "a.sch" ["R1"]%string ["a.sch"]%string)); [reflexivity|reflexivity|vm_compute; reflexivity|discriminate].
Qed.
Print Assumptions C32_cycle_refuted.
(** In general a schematic among its own sheets never gives a list. *)
Theorem C32_cycle : forall fs s h, In h (sc_sheets s) -> parse_file_for_sheet fs s h = Ok s ->
  forall n l, all_components fs n s <> Ok l.
Proof. exact all_cyclic. Qed.
Print Assumptions C32_cycle.
(** One unreadable sheet makes the whole call fail; the components that can be
    read are not returned. *)
Theorem C32_missing : forall fs s a h b n, sc_sheets s = a ++ h :: b -> is_ok (parse_file_for_sheet fs s h) = false ->
  is_ok (all_components fs n s) = false.
Proof. exact all_missing. Qed.
Print Assumptions C32_missing.
Example C32_missing_ex :
  all_components (tfs []) 5 (tsch "a.sch" ["R1"]%string ["gone.sch"]%string) = Err EIo.
Proof. reflexivity. Qed.

(** ** C33 *)
(** When the whole tree can be read: the first component in that order having
    the reference, an error if there is none. *)
Theorem C33_by_reference : forall fs r s l, comps_of fs s l -> exists n, forall m, (n <= m)%nat ->
  component_by_reference fs m r s
  = match find (fun c => str_eqb (co_reference c) r) l with Some c => Ok c | None => Err EOther end.
Proof. exact by_complete. Qed.
Print Assumptions C33_by_reference.
(** A result is always a component with that reference of a reachable schematic. *)
Theorem C33_sound : forall fs r n s c, component_by_reference fs n r s = Ok c ->
  co_reference c = r /\ exists t, reachable fs s t /\ In (SComponent c) (sc_elements t).
Proof. exact by_sound. Qed.
Print Assumptions C33_sound.
(** Own components are found without reading any file. *)
Theorem C33_own : forall fs n r s c, find (fun c => str_eqb (co_reference c) r) (own (sc_elements s)) = Some c ->
  component_by_reference fs (S n) r s = Ok c.
Proof. exact own_first. Qed.
Print Assumptions C33_own.
(** The claim is false: an unreadable sheet hides the components of the later
    ones, and a cyclic sheet keeps the call from ending. *)
Theorem C33_missing_refuted : exists fs r s t c, reachable fs s t /\ In (SComponent c) (sc_elements t) /\ co_reference c = r /\
  forall n, component_by_reference fs (S n) r s = Err EIo.
Proof.
  set (b := tsch "b.sch" ["R2"]%string []). set (fs := tfs [("b.sch"%string, b)]).
  exists fs, (lit "R2"), (tsch "a.sch" ["R1"]%string ["gone.sch"; "b.sch"]%string), b, (tcomp "R2").
  split; [|split; [left; reflexivity|split; reflexivity]].
  eapply reach_sheet; [right; left; reflexivity| |apply reach_here].
  apply (tfs_load _ _ "b.sch" ("b.sch"%string, b)); [reflexivity|reflexivity|vm_compute; reflexivity|discriminate].
Qed.
Print Assumptions C33_missing_refuted.
Theorem C33_cycle_refuted : exists fs r s t c, reachable fs s t /\ In (SComponent c) (sc_elements t) /\ co_reference c = r /\
  forall n, component_by_reference fs n r s = Err EFuel.
Proof.
  set (b := tsch "b.sch" ["R2"]%string []). set (a := tsch "a.sch" ["R1"]%string ["a.sch"; "b.sch"]%string).
  set (fs := tfs [("b.sch"%string, b); ("a.sch"%string, a)]).
  exists fs, (lit "R2"), a, b, (tcomp "R2").
  split; [|split; [left; reflexivity|split; [reflexivity|]]].
  - eapply reach_sheet; [right; left; reflexivity| |apply reach_here].
    apply (tfs_load _ _ "b.sch" ("b.sch"%string, b)); [reflexivity|reflexivity|vm_compute; reflexivity|discriminate].
  - apply (by_self _ _ (tsheet "a.sch") [tsheet "b.sch"]); [reflexivity| |reflexivity].
    apply (tfs_load _ _ "a.sch" ("a.sch"%string, a)); [reflexivity|reflexivity|vm_compute; reflexivity|discriminate].
Qed.
Print Assumptions C33_cycle_refuted.

(** ** C17 *)
(** The box of a component is built from (y, y, x, y): it contains the position
    exactly when y <= x (as f64 values). *)
Theorem C17_component_box : forall c,
  inside (f64_of_Z (co_x c)) (f64_of_Z (co_y c)) (component_bound c) = fleb (f64_of_Z (co_y c)) (f64_of_Z (co_x c)).
Proof. exact component_inside. Qed.
Print Assumptions C17_component_box.
Theorem C17_component_box_exact : forall c, (Z.abs (co_x c) <= 2 ^ 53)%Z -> (Z.abs (co_y c) <= 2 ^ 53)%Z ->
  inside (f64_of_Z (co_x c)) (f64_of_Z (co_y c)) (component_bound c) = Z.leb (co_y c) (co_x c).
Proof. intros c A B. rewrite component_inside. now apply f64_of_Z_leb. Qed.
Print Assumptions C17_component_box_exact.
Theorem C17_component_box_refuted : exists c,
  inside (f64_of_Z (co_x c)) (f64_of_Z (co_y c)) (component_bound c) = false /\
  inside (f64_of_Z (co_x c)) (f64_of_Z (co_y c)) (bound_swap (component_bound c)) = true.
Proof.
  exists (mk_comp [] [] [] 1 2 [] [] (mk_rotation 1 0 0 (-1))). split; vm_compute; reflexivity.
Qed.
Print Assumptions C17_component_box_refuted.
(** The box of a schematic then does not contain its components: with components
    at (0, 10) and (1, 20) it starts at x = 1. *)
Theorem C17_schematic_box_refuted : exists s b c, sch_bound s = Ok b /\ In (SComponent c) (sc_elements s) /\
  inside (f64_of_Z (co_x c)) (f64_of_Z (co_y c)) b = false.
Proof.
  set (c x y := mk_comp [] [] [] x y [] [] (mk_rotation 1 0 0 (-1))).
  exists (mk_sch None [] descr_default [SComponent (c 0 10); SComponent (c 1 20)] [] [])%Z. eexists. exists (c 0 10)%Z.
  split; [reflexivity|]. split; [left; reflexivity|]. vm_compute. reflexivity.
Qed.
Print Assumptions C17_schematic_box_refuted.
(** What does hold: all components with y <= x and sheets of non-negative size
    lie in the schematic's box. *)
Theorem C17_schematic_box_upright : forall s b, sch_bound s = Ok b -> upright s ->
  (forall c, In (SComponent c) (sc_elements s) -> inside (f64_of_Z (co_x c)) (f64_of_Z (co_y c)) b = true) /\
  (forall h, In h (sc_sheets s) -> exists bh, sheet_bound h = Ok bh /\ covers b bh = true) /\
  ordered b = true.
Proof. exact sch_bound_covers. Qed.
Print Assumptions C17_schematic_box_upright.
Theorem C17_sheet_box : forall h b x y, sheet_bound h = Ok b ->
  (sh_x h <= x <= sh_x h + sh_dimx h)%Z -> (sh_y h - 100 <= y <= sh_y h + sh_dimy h + 100)%Z ->
  inside (f64_of_Z x) (f64_of_Z y) b = true.
Proof. exact sheet_inside. Qed.
Print Assumptions C17_sheet_box.
(** For numbers up to 2^53 the boxes of a sheet and of a component hold exactly these points. *)
Theorem C17_sheet_box_exact : forall h b x y, sheet_bound h = Ok b ->
  small53 (sh_x h) -> small53 (sh_y h - 100) -> small53 (sh_x h + sh_dimx h) -> small53 (sh_y h + sh_dimy h + 100) -> small53 x -> small53 y ->
  (inside (f64_of_Z x) (f64_of_Z y) b = true <->
   (sh_x h <= x <= sh_x h + sh_dimx h)%Z /\ (sh_y h - 100 <= y <= sh_y h + sh_dimy h + 100)%Z).
Proof. exact sheet_exact. Qed.
Print Assumptions C17_sheet_box_exact.
Theorem C17_component_box_points : forall c x y, small53 (co_x c) -> small53 (co_y c) -> small53 x -> small53 y ->
  (inside (f64_of_Z x) (f64_of_Z y) (component_bound c) = true <-> (co_y c <= x <= co_x c)%Z /\ y = co_y c).
Proof. exact component_exact. Qed.
Print Assumptions C17_component_box_points.
(** Computing the box of a sheet aborts exactly if one of the sums leaves the range of i64. *)
Theorem C17_sheet_box_defined : forall h, (sheet_bound h = Panic \/ exists b, sheet_bound h = Ok b) /\
  ((exists b, sheet_bound h = Ok b) <->
   Forall (fun z => (- 2 ^ 63 <= z < 2 ^ 63)%Z) [sh_y h - 100; sh_x h + sh_dimx h; sh_y h + sh_dimy h; sh_y h + sh_dimy h + 100]%Z).
Proof. exact sheet_defined. Qed.
Print Assumptions C17_sheet_box_defined.
(** A schematic has a box exactly if it has a component or a sheet, and any box that covers
    the boxes of its components and sheets covers the schematic's box. *)
Theorem C17_schematic_box_some : forall s b, sch_bound s = Ok b -> (bounded b = true <-> own (sc_elements s) <> [] \/ sc_sheets s <> []).
Proof. exact sch_some. Qed.
Print Assumptions C17_schematic_box_some.
Theorem C17_schematic_box_least : forall s b c, sch_bound s = Ok b -> upright s -> bounded b = true ->
  (forall k, In (SComponent k) (sc_elements s) -> covers c (component_bound k) = true) ->
  (forall h bh, In h (sc_sheets s) -> sheet_bound h = Ok bh -> covers c bh = true) -> covers c b = true.
Proof. exact sch_least. Qed.
Print Assumptions C17_schematic_box_least.
Example C17_ex : upright (tsch "a.sch" ["R1"]%string ["b.sch"]%string) /\
  (exists b, sch_bound (tsch "a.sch" ["R1"]%string ["b.sch"]%string) = Ok b) /\ exists b, sheet_bound (tsheet "b.sch") = Ok b.
Proof.
  split; [split; repeat constructor; cbn; discriminate|]. split; eexists; reflexivity.
Qed.
