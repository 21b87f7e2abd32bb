(** Property theorems: files put together from parts (C104). *)
From Coq Require Import String Permutation.
From Verif Require Import Base Str StrFacts Sexp Formatter FpData FpDe LyData LyDe FpLibTable SchData SchParse SymData SymParse CutSpec CutFacts SchReadSpec LySpec P_Err JoinSpec JoinFacts.
Open Scope string_scope. Open Scope list_scope.

(** ** C104 *)
(** Footprints: the elements of two parts one after the other, and only if both parts read;
    moving elements moves what is read. *)
Theorem C104_module : forall n a b m, de_module (footprint_tree n (a ++ b)) = Ok m <->
  exists m1 m2, de_module (footprint_tree n a) = Ok m1 /\ de_module (footprint_tree n b) = Ok m2 /\ m = mk_module n (m_elements m1 ++ m_elements m2).
Proof. exact module_join. Qed.
Print Assumptions C104_module.
Theorem C104_module_moved : forall n a b m, Permutation a b -> de_module (footprint_tree n a) = Ok m ->
  exists m', de_module (footprint_tree n b) = Ok m' /\ m_name m' = m_name m /\ Permutation (m_elements m) (m_elements m').
Proof. exact module_perm. Qed.
Print Assumptions C104_module_moved.
(** Footprint library tables *)
Theorem C104_table : forall a b t, de_fp_lib_table (table_tree (a ++ b)) = Ok t <->
  exists t1 t2, de_fp_lib_table (table_tree a) = Ok t1 /\ de_fp_lib_table (table_tree b) = Ok t2 /\ t = t1 ++ t2.
Proof. exact table_join. Qed.
Print Assumptions C104_table.
Theorem C104_table_moved : forall a b t, Permutation a b -> de_fp_lib_table (table_tree a) = Ok t ->
  exists t', de_fp_lib_table (table_tree b) = Ok t' /\ Permutation t t'.
Proof. exact table_perm. Qed.
Print Assumptions C104_table_moved.
(** Boards: of the entries that exist once, the last counts. *)
Theorem C104_board : forall a b l, de_layout (board_tree (a ++ b)) = Ok l <->
  exists l1 l2, de_layout (board_tree a) = Ok l1 /\ de_layout (board_tree b) = Ok l2 /\ l = board_joined b l1 l2.
Proof. exact board_join. Qed.
Print Assumptions C104_board.
Theorem C104_board_moved : forall a b l, Permutation a b -> heads_once a -> de_layout (board_tree a) = Ok l ->
  exists l', de_layout (board_tree b) = Ok l' /\ ly_header l' = ly_header l /\ Permutation (ly_elements l) (ly_elements l').
Proof. exact board_perm. Qed.
Print Assumptions C104_board_moved.
(** Schematics and symbol libraries: if the text with the first part reads, then the whole
    reads exactly if the text with the second part does. *)
Theorem C104_schematic : forall fn libs e a b t t1 t2 s1, starts_with (lit "EELAYER ") e = true ->
  text_lines t (sch_heading libs e ++ a ++ b) -> text_lines t1 (sch_heading libs e ++ a) -> text_lines t2 (sch_heading libs e ++ b) ->
  parse_schematic fn t1 = Ok s1 -> forall s, parse_schematic fn t = Ok s <-> exists s2, parse_schematic fn t2 = Ok s2 /\ sch_joined b s1 s2 s.
Proof. exact schematic_join. Qed.
Print Assumptions C104_schematic.
Theorem C104_library : forall a b t t1 t2 xs,
  text_lines t (lib_heading ++ a ++ b) -> text_lines t1 (lib_heading ++ a) -> text_lines t2 (lib_heading ++ b) ->
  ~ In (lit "#End Library") a -> parse_symbol_lib t1 = Ok xs ->
  forall zs, parse_symbol_lib t = Ok zs <-> exists ys, parse_symbol_lib t2 = Ok ys /\ zs = xs ++ ys.
Proof. exact library_join. Qed.
Print Assumptions C104_library.
(** A symbol, a library of it alone, and texts of lines *)
Definition ex_sym : list string := ["# R"; "#"; "DEF R R 0 40 Y N 1 F N"; "F0 ""R"" 1 2 3 H V C CNN"; "DRAW"; "ENDDRAW"; "ENDDEF"; "#"].
Lemma by_lines ls : lines (text_of ls) = map lit ls -> text_lines (text_of ls) (map lit ls).
Proof. intros H. now apply lines_iff. Qed.
Lemma names_of (r : res (list symbol)) (l : list str) : match r with Ok v => Some (map sy_name v) | _ => None end = Some l -> exists v, r = Ok v /\ map sy_name v = l.
Proof. destruct r as [v|e|]; try discriminate. intros [= H]. now exists v. Qed.
Definition closed_a : list string := ex_sym ++ ["#End Library"].
Lemma closed_witness : exists a b t t1 t2 xs ys, text_lines t (lib_heading ++ a ++ b) /\ text_lines t1 (lib_heading ++ a) /\ text_lines t2 (lib_heading ++ b) /\
  parse_symbol_lib t1 = Ok xs /\ parse_symbol_lib t2 = Ok ys /\ parse_symbol_lib t <> Ok (xs ++ ys).
Proof.
  destruct (names_of (parse_symbol_lib (text_of (lib_top ++ closed_a))) [lit "R"]) as (xs & X & NX); [vm_compute; reflexivity|].
  destruct (names_of (parse_symbol_lib (text_of (lib_top ++ ex_sym))) [lit "R"]) as (ys & Y & NY); [vm_compute; reflexivity|].
  destruct (names_of (parse_symbol_lib (text_of (lib_top ++ closed_a ++ ex_sym))) [lit "R"]) as (zs & Z & NZ); [vm_compute; reflexivity|].
  exists (map lit closed_a), (map lit ex_sym), (text_of (lib_top ++ closed_a ++ ex_sym)), (text_of (lib_top ++ closed_a)), (text_of (lib_top ++ ex_sym)), xs, ys.
  split; [apply lines_iff; vm_compute; reflexivity|]. split; [apply lines_iff; vm_compute; reflexivity|]. split; [apply lines_iff; vm_compute; reflexivity|].
  split; [exact X|]. split; [exact Y|]. rewrite Z. intros [= E]. apply (f_equal (map sy_name)) in E. rewrite map_app, NX, NY, NZ in E. discriminate E.
Qed.
Definition version_tree (n : string) : sexp := SList [SStr (lit "version"); SStr (lit n)].
Lemma twice_witness : exists a b l l', Permutation a b /\ de_layout (board_tree a) = Ok l /\ de_layout (board_tree b) = Ok l' /\ ly_header l <> ly_header l'.
Proof.
  exists [version_tree "1"; version_tree "2"], [version_tree "2"; version_tree "1"], (mk_layout 2 host_default general_default (lit "A4") setup_default [] []),
    (mk_layout 1 host_default general_default (lit "A4") setup_default [] []).
  split; [constructor|]. split; [reflexivity|]. split; [reflexivity|]. cbn [ly_header]. intros E. apply (f_equal (fun h => fst (fst (fst (fst (fst h)))))) in E. discriminate E.
Qed.
(** With the closing line in the first part the second is not looked at; with an entry
    twice the order matters. *)
Theorem C104_closed_refuted : exists a b t t1 t2 xs ys, text_lines t (lib_heading ++ a ++ b) /\ text_lines t1 (lib_heading ++ a) /\ text_lines t2 (lib_heading ++ b) /\
  parse_symbol_lib t1 = Ok xs /\ parse_symbol_lib t2 = Ok ys /\ parse_symbol_lib t <> Ok (xs ++ ys).
Proof. exact closed_witness. Qed.
Print Assumptions C104_closed_refuted.
Theorem C104_twice_refuted : exists a b l l', Permutation a b /\ de_layout (board_tree a) = Ok l /\ de_layout (board_tree b) = Ok l' /\ ly_header l <> ly_header l'.
Proof. exact twice_witness. Qed.
Print Assumptions C104_twice_refuted.

Definition ex_part : list string := ["$Comp"; "L R R1"; "U 1 1 5"; "P 1 2"; "$EndComp"].
Definition ex_rest : list string := ["Wire Wire Line"; "1 2 3 4"; "$EndSCHEMATC"].
Example C104_ex :
  text_lines (text_of (sch_head ++ ex_part ++ ex_rest)) (sch_heading [lit "power"] (lit "EELAYER 25 0") ++ map lit ex_part ++ map lit ex_rest) /\
  text_lines (text_of (sch_head ++ ex_part)) (sch_heading [lit "power"] (lit "EELAYER 25 0") ++ map lit ex_part) /\
  text_lines (text_of (sch_head ++ ex_rest)) (sch_heading [lit "power"] (lit "EELAYER 25 0") ++ map lit ex_rest) /\
  is_ok (parse_schematic None (text_of (sch_head ++ ex_part))) = true /\ is_ok (parse_schematic None (text_of (sch_head ++ ex_rest))) = true.
Proof.
  split; [apply lines_iff; vm_compute; reflexivity|]. split; [apply lines_iff; vm_compute; reflexivity|]. split; [apply lines_iff; vm_compute; reflexivity|].
  split; vm_compute; reflexivity.
Qed.
Example C104_ex_library :
  text_lines (text_of (lib_top ++ ex_sym ++ ex_sym ++ ["#End Library"])) (lib_heading ++ map lit ex_sym ++ map lit (ex_sym ++ ["#End Library"])) /\
  text_lines (text_of (lib_top ++ ex_sym)) (lib_heading ++ map lit ex_sym) /\ existsb (str_eqb (lit "#End Library")) (map lit ex_sym) = false /\
  is_ok (parse_symbol_lib (text_of (lib_top ++ ex_sym))) = true.
Proof. split; [apply lines_iff; vm_compute; reflexivity|]. split; [apply lines_iff; vm_compute; reflexivity|]. split; vm_compute; reflexivity. Qed.
Example C104_ex_board :
  let a := [version_tree "3"; SList [SStr (lit "net"); SStr (lit "1"); SStr (lit "GND")]] in
  let b := [SList [SStr (lit "net"); SStr (lit "2"); SStr (lit "VCC")]; SList [SStr (lit "page"); SStr (lit "A3")]] in
  de_layout (board_tree (a ++ b)) = Ok (mk_layout 3 host_default general_default (lit "A3") setup_default [] [YNet (mk_net 1 (lit "GND")); YNet (mk_net 2 (lit "VCC"))])
  /\ heads_once (a ++ b).
Proof.
  split; [reflexivity|]. intros k K. cbn [heads In] in K. decompose [or] K; try contradiction; subst k; vm_compute; repeat constructor.
Qed.
