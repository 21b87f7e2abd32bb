(** Property theorems C86 and C87: what an edit changes in the saved text.

    The text before and after is given by the same fixed pieces; only the words
    between them differ. *)
From Coq Require Import String.
From Verif Require Import Base Str Num F64 F64Text Sexp FpData FpLayer FpSer FpOps LyData LySer LyOps LySpec LyExamples FpExamples Formatter DocSpec DocText TextSpec TextDocs DiffSpec DiffMain.
Open Scope string_scope. Open Scope list_scope.

(** C86: boards that agree up to net names have texts that agree up to the net
    names, written in place. *)
Theorem C86_names (nq : str -> bool) (n : Z) (l : layout) : exists ps, length ps = S (length (layout_names l)) /\
  forall l', ly_header l' = ly_header l -> map hide_names (ly_elements l') = map hide_names (ly_elements l) ->
    layout_to_string nq l' n = weave ps (map (atom nq) (layout_names l')) ++ [10%N].
Proof. exact (names_pieces nq n l). Qed.
Print Assumptions C86_names.
(** Renaming a net. *)
Theorem C86_rename (nq : str -> bool) (n : Z) (old new : str) (l l' : layout) : change_net_name old new l = Ok l' -> exists ps,
  length ps = S (length (layout_names l))
  /\ layout_to_string nq l n = weave ps (map (atom nq) (layout_names l)) ++ [10%N]
  /\ layout_to_string nq l' n = weave ps (map (fun s => atom nq (if str_eqb s old then new else s)) (layout_names l)) ++ [10%N].
Proof. exact (rename_text nq n old new l l'). Qed.
Print Assumptions C86_rename.
(** Updating the net names, when it succeeds and when it stops half-way. *)
Theorem C86_update (nq : str -> bool) (n : Z) (u : name_update) (l l' : layout) : update_net_names u l = (l', None) -> exists ps,
  length ps = S (length (layout_names l))
  /\ layout_to_string nq l n = weave ps (map (atom nq) (layout_names l)) ++ [10%N]
  /\ layout_to_string nq l' n = weave ps (map (fun s => atom nq (fst (u s))) (layout_names l)) ++ [10%N].
Proof. exact (update_text nq n u l l'). Qed.
Print Assumptions C86_update.
Theorem C86_update_fails (nq : str -> bool) (n : Z) (u : name_update) (l l' : layout) (k : ekind) : update_net_names u l = (l', Some k) -> exists ps a x b,
  layout_names l = a ++ x :: b /\ Forall (fun s => snd (u s) = None) a /\ snd (u x) = Some k
  /\ length ps = S (length (layout_names l))
  /\ layout_to_string nq l n = weave ps (map (atom nq) (a ++ x :: b)) ++ [10%N]
  /\ layout_to_string nq l' n = weave ps (map (fun s => atom nq (fst (u s))) (a ++ [x]) ++ map (atom nq) b) ++ [10%N].
Proof. exact (update_fails_text nq n u l l' k). Qed.
Print Assumptions C86_update_fails.
(** The same for one footprint: its pads, and its reference texts. *)
Theorem C86_rename_pads (nq : str -> bool) (n : Z) (old new : str) (m : module) : exists ps,
  length ps = S (length (flat_map pad_net_names (m_elements m)))
  /\ module_to_string nq m n = weave ps (map (atom nq) (flat_map pad_net_names (m_elements m)))
  /\ module_to_string nq (module_rename_net old new m) n
     = weave ps (map (fun s => atom nq (if str_eqb s old then new else s)) (flat_map pad_net_names (m_elements m))).
Proof. exact (rename_net_text nq n old new m). Qed.
Print Assumptions C86_rename_pads.
Theorem C86_set_reference (nq : str -> bool) (n : Z) (old new : str) (m : module) : exists ps,
  length ps = S (length (flat_map ref_value (m_elements m)))
  /\ module_to_string nq m n = weave ps (map (atom nq) (flat_map ref_value (m_elements m)))
  /\ module_to_string nq (set_reference old new m) n
     = weave ps (map (fun s => atom nq (if str_eqb s old then new else s)) (flat_map ref_value (m_elements m))).
Proof. exact (set_reference_text nq n old new m). Qed.
Print Assumptions C86_set_reference.
Example C86_ex_names : layout_names ex_layout = [[]; lit "GND"; lit "Net-(R1-Pad1)"; lit "GND"; lit "Net-(R1-Pad1)"; lit "Net-(R1-Pad1)"; lit "GND"].
Proof. reflexivity. Qed.
Example C86_ex_module : flat_map pad_net_names (m_elements ex_module) <> [] /\ flat_map ref_value (m_elements ex_module) = [lit "U1"].
Proof. split; [discriminate|reflexivity]. Qed.
Example C86_ex_weave : weave [lit "(net 1 "; lit ")(net 2 "; lit ")"] [lit "GND"; lit "VCC"] = lit "(net 1 GND)(net 2 VCC)".
Proof. reflexivity. Qed.

(** C87: moving a board changes in its text exactly the numbers of the moved
    points, each of which becomes the text of its sum with the offset. *)
Theorem C87_positions (nq : str -> bool) (n : Z) (l : layout) : exists ps, length ps = S (2 * length (flat_map positions (ly_elements l))) /\
  forall l', ly_header l' = ly_header l -> map wipe (ly_elements l') = map wipe (ly_elements l) ->
    layout_to_string nq l' n
    = weave ps (map (fun x => atom nq (f64_to_str x)) (coords (flat_map positions (ly_elements l')))) ++ [10%N].
Proof. exact (moved_pieces nq n l). Qed.
Print Assumptions C87_positions.
Theorem C87_adjust (nq : str -> bool) (n : Z) (x y : f64) (l : layout) : exists ps, length ps = S (2 * length (flat_map positions (ly_elements l)))
  /\ layout_to_string nq l n = weave ps (map (fun c => atom nq (f64_to_str c)) (coords (flat_map positions (ly_elements l)))) ++ [10%N]
  /\ layout_to_string nq (adjust_layout x y l) n
     = weave ps (map (fun c => atom nq (f64_to_str c)) (coords (map (fun p => (fadd (fst p) x, fadd (snd p) y)) (flat_map positions (ly_elements l))))) ++ [10%N].
Proof. exact (adjust_text nq n x y l). Qed.
Print Assumptions C87_adjust.
(** Modifying a footprint of a board replaces its text, which up to its last line
    is that of the footprint saved alone, one level deeper; without such a
    footprint nothing changes. *)
Theorem C87_modify_module (nq : str -> bool) (n : Z) (l : layout) (r : str) (f : module -> module) : usual_layout l = true ->
  (exists l1 m l2 l', first_carrier r (ly_elements l) l1 m l2 /\ modify_module l r f = (l', None)
    /\ exists A B X X', module_to_string nq m (n + 1) = X ++ [10%N; 41%N] /\ module_to_string nq (f m) (n + 1) = X' ++ [10%N; 41%N]
       /\ layout_to_string nq l n = A ++ X ++ new_lines 1 (n + 1) ++ [41%N] ++ B
       /\ layout_to_string nq l' n = A ++ X' ++ new_lines 1 (n + 1) ++ [41%N] ++ B)
  \/ ((forall m, In (YModule m) (ly_elements l) -> ~ carries r m) /\ exists k, modify_module l r f = (l, Some k)).
Proof. exact (modify_text nq n l r f). Qed.
Print Assumptions C87_modify_module.
(** Adding a net or a net class puts its text before the end. *)
Theorem C87_add_net (nq : str -> bool) (n : Z) (l : layout) (num : Z) (name : str) : usual_layout l = true ->
  exists A, layout_to_string nq l n = A ++ [10%N; 41%N; 10%N]
    /\ layout_to_string nq (add_net num name l) n =
       A ++ (if ends_in_module (ly_elements l) then new_lines 1 n else []) ++ new_lines 1 (n + 1)
         ++ [40%N] ++ atom nq (lit "net") ++ [32%N] ++ atom nq (show_Z num) ++ [32%N] ++ atom nq name ++ [41%N] ++ [10%N; 41%N; 10%N].
Proof. exact (add_net_text nq n l num name). Qed.
Print Assumptions C87_add_net.
Theorem C87_add_netclass (nq : str -> bool) (n : Z) (l : layout) (c : net_class) : usual_layout l = true ->
  exists A, layout_to_string nq l n = A ++ [10%N; 41%N; 10%N]
    /\ layout_to_string nq (add_netclass c l) n =
       A ++ (if ends_in_module (ly_elements l) then new_lines 1 n else []) ++ new_lines 2 (n + 1)
         ++ lay nq [lit "kicad_pcb"] (n + 1) (new_lines 1 (n + 1)) (ser_net_class c) ++ [10%N; 41%N; 10%N].
Proof. exact (add_class_text nq n l c). Qed.
Print Assumptions C87_add_netclass.
(** Updating a setup value changes the first one of that name in place, or adds
    one line. *)
Theorem C87_setup (nq : str -> bool) (n : Z) (l : layout) (name v : str) :
  let l' := with_setup l (setup_update name v (ly_setup l)) in
  (exists a w b ps, map se_value1 (su_elements (ly_setup l)) = a ++ w :: b
     /\ nth_error (map se_name (su_elements (ly_setup l))) (length a) = Some name
     /\ ~ In name (firstn (length a) (map se_name (su_elements (ly_setup l))))
     /\ length ps = S (length (a ++ w :: b))
     /\ layout_to_string nq l n = weave ps (map (atom nq) (a ++ w :: b)) ++ [10%N]
     /\ layout_to_string nq l' n = weave ps (map (atom nq) (a ++ v :: b)) ++ [10%N])
  \/ (~ In name (map se_name (su_elements (ly_setup l)))
      /\ (usual_layout l = true -> TextSpec.plain_name name = true ->
          exists A B, layout_to_string nq l n = A ++ B
            /\ layout_to_string nq l' n = A ++ new_lines 1 (n + 2) ++ [40%N] ++ atom nq name ++ [32%N] ++ atom nq v ++ [41%N] ++ B)).
Proof. exact (setup_text nq n l name v). Qed.
Print Assumptions C87_setup.
Example C87_ex_usual : usual_layout ex_layout = true.
Proof. reflexivity. Qed.
Example C87_ex_points : length (flat_map positions (ly_elements ex_layout)) = 33%nat.
Proof. reflexivity. Qed.
Example C87_ex_carrier : exists m, In (YModule m) (ly_elements ex_layout) /\ carries (lit "U1") m.
Proof. exists ex_module. split; [|exact (proj1 ex_carries)]. exact (in_cons _ _ _ (in_cons _ _ _ (in_cons _ _ _ (in_cons _ _ _ (in_eq _ _))))). Qed.
Example C87_ex_setup : map se_name (su_elements (ly_setup ex_layout)) = [lit "last_trace_width"; lit "pad_size"].
Proof. reflexivity. Qed.
Example C87_ex_end : ends_in_module [YModule ex_module; YOther SEmpty] = true /\ ends_in_module [YModule ex_module; YNet (mk_net 0 [])] = false.
Proof. split; reflexivity. Qed.
