(** Property theorem C88: what an edit changes in the saved text of a schematic
    or of a symbol library.

    [comp_text] and [symbol_form_text] are the forms C73 and C74 give to saved
    components and symbols; [weave] interleaves fixed pieces with words. *)
From Coq Require Import String.
From Verif Require Import Base Str Num F64 F64Text SchData SchPrint SchOps SchSpec SymData SymPrint SymOps SavedSpec DiffSpec LineSpec LineFacts P_SchOps P_Schematic P_Symbol.
Open Scope string_scope. Open Scope list_scope.

(** C88: modifying the component with a given reference replaces the text of the
    first such component; without one nothing changes. *)
Theorem C88_component (s : schematic) (r : str) (f : component -> component) :
  (Forall (fun e => has_ref r e = false) (sc_elements s) /\ modify_component s r f = s) \/
  exists a c b A B X Y, sc_elements s = a ++ SComponent c :: b /\ Forall (fun e => has_ref r e = false) a /\ co_reference c = r /\
    comp_text c X /\ comp_text (f c) Y /\ print_schematic s = A ++ X ++ B /\ print_schematic (modify_component s r f) = A ++ Y ++ B.
Proof. exact (one_text s r f). Qed.
Print Assumptions C88_component.
(** Modifying all components replaces their texts and nothing else. *)
Theorem C88_components (s : schematic) (f : component -> component) : exists ps xs ys, length ps = S (length (own (sc_elements s))) /\
  Forall2 (fun c t => comp_text c t) (own (sc_elements s)) xs /\ Forall2 (fun c t => comp_text (f c) t) (own (sc_elements s)) ys /\
  print_schematic s = weave ps xs /\ print_schematic (modify_components s f) = weave ps ys.
Proof. exact (all_text s f). Qed.
Print Assumptions C88_components.
(** A new reference is written in the second line and as the value of field 0; a
    new name likewise and as the value of field 1. *)
Theorem C88_reference (c : component) (r t : str) : comp_text c t -> exists ps, length ps = S (length (places_of 0 (co_reference c) c)) /\
  t = weave ps (places_of 0 (co_reference c) c) /\
  comp_text (update_reference c r) (weave ps (map (fun _ => r) (places_of 0 (co_reference c) c))).
Proof. exact (reference_text c r t). Qed.
Print Assumptions C88_reference.
Theorem C88_name (c : component) (n t : str) : comp_text c t -> exists ps, length ps = S (length (places_of 1 (co_name c) c)) /\
  t = weave ps (places_of 1 (co_name c) c) /\
  comp_text (update_name c n) (weave ps (map (fun _ => n) (places_of 1 (co_name c) c))).
Proof. exact (name_text c n t). Qed.
Print Assumptions C88_name.
(** Updating a field by name writes its value, and hides the fields numbered
    above one. *)
Theorem C88_field (c : component) (n v t : str) : comp_text c t -> exists ps, length ps = S (2 * length (co_fields c)) /\
  t = weave ps (flat_map value_words (co_fields c)) /\
  comp_text (update_field c n v) (weave ps (flat_map (fun f =>
    [if str_eqb (cf_name f) n then v else cf_value f; if (1 <? cf_i f)%Z then lit "0001" else shown_as (cf_visible f)]) (co_fields c))).
Proof. exact (field_words_text c n v t). Qed.
Print Assumptions C88_field.
(** A new field is one new line, with a number not yet used. *)
Theorem C88_new_field (c : component) (t : cfield) (n v : str) (c' : component) (x : str) : add_new_field c t n v = Ok c' -> comp_text c x ->
  exists A B w k, ~ In k (numbers c) /\ field_form (mk_cfield k v Horizontal (cf_x t) (cf_y t) 60 false SJCenter SJCenter false false n) w /\
    x = A ++ B /\ comp_text c' (A ++ w ++ [10%N] ++ B).
Proof. exact (new_field_text c t n v c' x). Qed.
Print Assumptions C88_new_field.
(** Counting one more sheet changes one numeral. *)
Theorem C88_count (s s' : schematic) : increment_sheet_count s = Ok s' -> exists A B v w,
  numeral (ds_count (sc_description s)) v /\ numeral (ds_count (sc_description s) + 1)%Z w /\
  print_schematic s = A ++ v ++ B /\ print_schematic s' = A ++ w ++ B.
Proof. exact (count_text s s'). Qed.
Print Assumptions C88_count.
(** Renaming a symbol changes three words: the comment line, the name (which
    keeps the tilde that hides it) and the value of its second field. *)
Theorem C88_set_name (name : str) (y y' : symbol) (t : str) : set_name name y = Ok y' -> symbol_form_text y t -> exists p0 p1 p2 p3 f0 f1 r,
  sy_fields y = f0 :: f1 :: r /\ t = weave [p0; p1; p2; p3] [sf_value f1; sy_name y; sf_value f1] /\
  symbol_form_text y' (weave [p0; p1; p2; p3] [name; (if starts_with (lit "~") (sy_name y) then lit "~" else []) ++ name; name]).
Proof. exact (set_name_text name y y' t). Qed.
Print Assumptions C88_set_name.
(** Exchanging a symbol of a library exchanges its text. *)
Theorem C88_library (a : list symbol) (y : symbol) (b : list symbol) (t : str) : print_symbol_lib (a ++ y :: b) = Ok t -> exists A B,
  (exists X, symbol_form_text y X /\ t = A ++ X ++ B) /\
  forall y' X', symbol_form_text y' X' -> print_symbol_lib (a ++ y' :: b) = Ok (A ++ X' ++ B).
Proof. exact (library_hole a y b t). Qed.
Print Assumptions C88_library.
Example C88_ex_places : places_of 0 (co_reference ex_c) ex_c = [lit "R3"; lit "R3"] /\ places_of 1 (co_name ex_c) ex_c = [lit "R"; lit "4k7"].
Proof. split; reflexivity. Qed.
Example C88_ex_reference : has_ref (lit "R3") (SComponent P_Schematic.ex_comp) = true /\ In (SComponent P_Schematic.ex_comp) (sc_elements ex_sch).
Proof. split; [reflexivity|]. right. left. reflexivity. Qed.
Example C88_ex_new : exists c', add_new_field ex_c (P_SchOps.ex_field 1 "4k7" "Value") (lit "Tol") (lit "1%") = Ok c'.
Proof. eexists. reflexivity. Qed.
Example C88_ex_count : ds_count (sc_description ex_sch) = 2%Z /\ exists s', increment_sheet_count ex_sch = Ok s'.
Proof. split; [reflexivity|]. eexists. reflexivity. Qed.
Example C88_ex_name : (exists y', set_name (lit "LM324") ex_symbol = Ok y') /\ starts_with (lit "~") (sy_name ex_symbol) = true /\ (exists y', set_name (lit "VSS") ex_power = Ok y') /\ starts_with (lit "~") (sy_name ex_power) = false.
Proof. split; [eexists; reflexivity|]. split; [reflexivity|]. split; [eexists; reflexivity|reflexivity]. Qed.
Example C88_ex_library : exists t, print_symbol_lib ([ex_symbol] ++ ex_power :: []) = Ok t.
Proof. destruct C10_ex_lines as (t & H & _). exists t. exact H. Qed.
