(** Property theorems: layout operations (C18, C22-C26, C45). *)
From Coq Require Import String.
From Flocq Require Import IEEE754.BinarySingleNaN.
From Verif Require Import Base Str Num F64 F64Text F64Order Sexp FpData FpOps FpOpsSpec FpOpsFacts LyData LyOps LySpec LyOpsFacts
  LyNetFacts LyExamples FpExamples.
Open Scope string_scope. Open Scope list_scope.

(** C18: moving adds the offset to every position and changes nothing else. *)
Theorem C18_layout_adjust (x y : f64) (l : layout) :
  let l' := adjust_layout x y l in
  ly_header l' = ly_header l
  /\ map wipe (ly_elements l') = map wipe (ly_elements l)
  /\ map positions (ly_elements l')
     = map (fun e => map (fun p => (fadd (fst p) x, fadd (snd p) y)) (positions e)) (ly_elements l).
Proof. exact (adjust_layout_spec x y l). Qed.
Print Assumptions C18_layout_adjust.
(** The two views used above determine an element completely. *)
Theorem C18_views_complete (e f : ly_element) : wipe e = wipe f -> positions e = positions f -> e = f.
Proof. exact (views_det e f). Qed.
Print Assumptions C18_views_complete.
(** Adding zero leaves a coordinate equal in the sense of the float equality
    (-0.0 becomes 0.0). *)
Theorem C18_adjust_zero (x : f64) : is_nan x = false -> feqb (fadd x fzero) x = true.
Proof. exact (fadd_zero x). Qed.
Print Assumptions C18_adjust_zero.
Example C18_ex_layout : length (flat_map positions (ly_elements ex_layout)) = 33%nat.
Proof. reflexivity. Qed.

(** C22: renaming never fails, replaces exactly the occurrences of the old name
    and changes nothing else. *)
Theorem C22_rename (old new : str) (l : layout) : exists l',
  change_net_name old new l = Ok l'
  /\ layout_names l' = map (fun n => if str_eqb n old then new else n) (layout_names l)
  /\ map hide_names (ly_elements l') = map hide_names (ly_elements l)
  /\ ly_header l' = ly_header l.
Proof. exact (change_net_name_spec old new l). Qed.
Print Assumptions C22_rename.
Theorem C22_old_gone (old new : str) (l l' : layout) :
  old <> new -> change_net_name old new l = Ok l' -> ~ In old (layout_names l').
Proof. exact (change_net_name_gone old new l l'). Qed.
Print Assumptions C22_old_gone.
(** The two views used above determine an element completely. *)
Theorem C22_views_complete (e f : ly_element) : hide_names e = hide_names f -> net_names e = net_names f -> e = f.
Proof. exact (hide_det e f). Qed.
Print Assumptions C22_views_complete.
Example C22_ex : exists l', change_net_name (lit "GND") (lit "0V") ex_layout = Ok l'
  /\ layout_names l' = [[]; lit "0V"; lit "Net-(R1-Pad1)"; lit "0V"; lit "Net-(R1-Pad1)"; lit "Net-(R1-Pad1)"; lit "0V"].
Proof. exact ex_renamed. Qed.

(** C23 is false: a failing update leaves the names before it changed. *)
Theorem C23_all_or_nothing_refuted :
  exists u l l' k, update_net_names u l = (l', Some k) /\ layout_names l' <> layout_names l.
Proof. exact update_witness. Qed.
Print Assumptions C23_all_or_nothing_refuted.
(** What holds: success exactly when no name fails, and then every name is
    updated and nothing else changed; on an error everything before the first
    failing name is updated, the rest and all other data unchanged. *)
Theorem C23_outcome (u : name_update) (l : layout) :
  snd (update_net_names u l) = None <-> Forall (fun n => snd (u n) = None) (layout_names l).
Proof. exact (update_names_outcome u l). Qed.
Print Assumptions C23_outcome.
Theorem C23_success (u : name_update) (l l' : layout) : update_net_names u l = (l', None) ->
  Forall (fun n => snd (u n) = None) (layout_names l)
  /\ layout_names l' = map (fun n => fst (u n)) (layout_names l)
  /\ map hide_names (ly_elements l') = map hide_names (ly_elements l)
  /\ ly_header l' = ly_header l.
Proof. exact (update_names_ok u l l'). Qed.
Print Assumptions C23_success.
Theorem C23_failure (u : name_update) (l l' : layout) (k : ekind) : update_net_names u l = (l', Some k) ->
  (exists a x b, layout_names l = a ++ x :: b /\ Forall (fun n => snd (u n) = None) a /\ snd (u x) = Some k
    /\ layout_names l' = map (fun n => fst (u n)) a ++ fst (u x) :: b)
  /\ map hide_names (ly_elements l') = map hide_names (ly_elements l)
  /\ ly_header l' = ly_header l.
Proof. exact (update_names_err u l l' k). Qed.
Print Assumptions C23_failure.
Example C23_ex : snd (update_net_names w_update w_nets) = Some EOther
  /\ layout_names (fst (update_net_names w_update w_nets)) = [lit "Net-(R7-Pad1)"; lit "GND"].
Proof. split; reflexivity. Qed.

(** C24: lookup returns the first footprint carrying the reference. *)
Theorem C24_get_module (l : layout) (r : str) :
  (exists l1 m l2, first_carrier r (ly_elements l) l1 m l2 /\ get_module l r = Some m)
  \/ ((forall m, In (YModule m) (ly_elements l) -> ~ carries r m) /\ get_module l r = None).
Proof. exact (get_module_spec l r). Qed.
Print Assumptions C24_get_module.
(** Modification changes that footprint only; without one it fails and changes
    nothing. *)
Theorem C24_modify_module (l : layout) (r : str) (f : module -> module) :
  (exists l1 m l2, first_carrier r (ly_elements l) l1 m l2
     /\ modify_module l r f
        = (mk_layout (ly_version l) (ly_host l) (ly_general l) (ly_page l) (ly_setup l) (ly_layers l)
             (l1 ++ YModule (f m) :: l2), None))
  \/ ((forall m, In (YModule m) (ly_elements l) -> ~ carries r m) /\ exists k, modify_module l r f = (l, Some k)).
Proof. exact (modify_module_spec l r f). Qed.
Print Assumptions C24_modify_module.
Example C24_ex : carries (lit "U1") ex_module /\ carries (lit "U1") ex_module2.
Proof. exact ex_carries. Qed.

(** C25: names of the form Net-(REF-PAD) are recognised. *)
Theorem C25_recognised (a b : str) : plain_name a = true -> plain_name b = true ->
  is_unnamed_net (lit "Net-(" ++ a ++ lit "-" ++ b ++ lit ")") = Some (a, b).
Proof. exact (unnamed_recognised a b). Qed.
Print Assumptions C25_recognised.
(** Exactly what is recognised: any two of the characters - ( ) may separate. *)
Theorem C25_exact (n a b : str) : is_unnamed_net n = Some (a, b) <->
  exists c d t, n = lit "Net-(" ++ a ++ c :: b ++ d :: t
    /\ (c = 45 \/ c = 40 \/ c = 41)%N /\ (d = 45 \/ d = 40 \/ d = 41)%N
    /\ plain_name a = true /\ plain_name b = true /\ plain_name t = true.
Proof. exact (is_unnamed_iff' n a b). Qed.
Print Assumptions C25_exact.
Theorem C25_set (new n a b : str) : is_unnamed_net n = Some (a, b) -> plain_name new = true ->
  exists n', set_unnamed_net new n = (n', None) /\ is_unnamed_net n' = Some (new, b)
    /\ n' = lit "Net-(" ++ new ++ lit "-" ++ b ++ lit ")".
Proof. exact (set_unnamed_spec new n a b). Qed.
Print Assumptions C25_set.
Theorem C25_set_other (new n : str) : is_unnamed_net n = None -> exists k, set_unnamed_net new n = (n, Some k).
Proof. exact (set_unnamed_other new n). Qed.
Print Assumptions C25_set_other.
Example C25_ex : plain_name (lit "R1") = true /\ plain_name (lit "Pad1") = true.
Proof. split; reflexivity. Qed.
(** In general false: names of another form are recognised too, and a new
    reference containing a dash makes the net unrecognisable. *)
Theorem C25_form_refuted :
  (exists n a b, is_unnamed_net n = Some (a, b) /\ n <> lit "Net-(" ++ a ++ lit "-" ++ b ++ lit ")")
  /\ (exists new n n' a b, is_unnamed_net n = Some (a, b) /\ set_unnamed_net new n = (n', None)
        /\ is_unnamed_net n' = None).
Proof. exact unnamed_witnesses. Qed.
Print Assumptions C25_form_refuted.

(** C26 *)
Theorem C26_get_update (n v : str) (u : setup) : setup_get (setup_update n v u) n = Some v.
Proof. exact (setup_get_update n v u). Qed.
Print Assumptions C26_get_update.
Theorem C26_get_other (n m v : str) (u : setup) : n <> m -> setup_get (setup_update n v u) m = setup_get u m.
Proof. exact (setup_get_other n m v u). Qed.
Print Assumptions C26_get_other.
(** An absent name is appended; of a present name the first entry gets the
    value; all else is unchanged. *)
Theorem C26_absent (n v : str) (u : setup) : setup_get u n = None ->
  setup_update n v u = mk_setup (su_elements u ++ [mk_se n v None]) (su_plot u).
Proof. exact (setup_update_absent n v u). Qed.
Print Assumptions C26_absent.
Theorem C26_present (n v : str) (u : setup) : setup_get u n <> None ->
  exists l1 e l2, su_elements u = l1 ++ e :: l2 /\ se_name e = n /\ (forall e', In e' l1 -> se_name e' <> n)
    /\ setup_update n v u = mk_setup (l1 ++ mk_se n v (se_value2 e) :: l2) (su_plot u).
Proof. exact (setup_update_present n v u). Qed.
Print Assumptions C26_present.
(** After any sequence of updates the value read is the one last written. *)
Theorem C26_sequence (us : list (str * str)) (u : setup) (n : str) :
  setup_get (fold_left (fun u p => setup_update (fst p) (snd p) u) us u) n
  = match last_written n us with Some v => Some v | None => setup_get u n end.
Proof. exact (setup_sequence us u n). Qed.
Print Assumptions C26_sequence.
Example C26_ex : last_written (lit "a") [(lit "a", lit "1"); (lit "b", lit "2"); (lit "a", lit "3")] = Some (lit "3")
  /\ setup_get (ly_setup ex_layout) (lit "pad_size") = Some (lit "1.5").
Proof. split; reflexivity. Qed.

(** C45 (layout): the views are the elements of that kind, in order. *)
Theorem C45_layout_views (l : layout) :
  map YModule (get_modules l) = filter is_module_el (ly_elements l)
  /\ map YNet (nets l) = filter is_net_el (ly_elements l)
  /\ map YNetClass (netclasses l) = filter is_netclass_el (ly_elements l).
Proof. exact (conj (modules_view l) (conj (nets_view l) (netclasses_view l))). Qed.
Print Assumptions C45_layout_views.
Example C45_ex_layout : length (nets ex_layout) = 3%nat /\ length (get_modules ex_layout) = 2%nat.
Proof. split; reflexivity. Qed.
(** Adding a net or a class appends it to its view and leaves the others. *)
Theorem C45_add (num : Z) (name : str) (n : net_class) (l : layout) :
  (nets (add_net num name l) = nets l ++ [mk_net num name]
   /\ netclasses (add_net num name l) = netclasses l /\ get_modules (add_net num name l) = get_modules l)
  /\ (netclasses (add_netclass n l) = netclasses l ++ [n]
   /\ nets (add_netclass n l) = nets l /\ get_modules (add_netclass n l) = get_modules l).
Proof. exact (conj (add_net_spec num name l) (add_netclass_spec n l)). Qed.
Print Assumptions C45_add.
Theorem C45_has_net (n : net_class) (name : str) : has_net n name = true <-> In name (nc_nets n).
Proof. exact (has_net_iff n name). Qed.
Print Assumptions C45_has_net.
