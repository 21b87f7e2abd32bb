(** Property theorems: how saved texts are laid out (C66). *)
From Coq Require Import String.
From Verif Require Import Base Str Num F64 F64Text Sexp FpData FpLayer FpSer LyData LySer FpLibTable Formatter DocSpec DocText FpExamples LyExamples P_Formatter
  TextSpec TextFacts TextMain TextDocs KicadFile WriteFacts PlainSpec PlainFacts.
Open Scope string_scope. Open Scope list_scope.

(** ** C66 *)
(** [written] (TextSpec.v) is a function of the tree alone, given by a table of line
    breaks; the formatter, which keeps a stack, counters and flags, writes the same. *)
Theorem C66_tree : forall nq n s, regular s = true -> pretty nq n s = written nq n s.
Proof. exact pretty_written. Qed.
Print Assumptions C66_tree.
Theorem C66_module : forall nq m n, module_to_string nq m n = written nq n (ser_module m).
Proof. exact module_written. Qed.
Print Assumptions C66_module.
Theorem C66_layout : forall nq l n, usual_layout l = true -> layout_to_string nq l n = written nq n (ser_layout l) ++ [10%N].
Proof. exact layout_written. Qed.
Print Assumptions C66_layout.
(** The writing functions leave this text, unindented, in the file and touch no other. *)
Theorem C66_write_module : forall nq fs m n, write_module nq fs m n n = Some (written nq 0 (ser_module m)) /\ forall k, k <> n -> write_module nq fs m n k = fs k.
Proof. exact write_module_text. Qed.
Print Assumptions C66_write_module.
Theorem C66_write_layout : forall nq fs l n, usual_layout l = true ->
  write_layout nq fs l n n = Some (written nq 0 (ser_layout l) ++ [10%N]) /\ forall k, k <> n -> write_layout nq fs l n k = fs k.
Proof. exact write_layout_text. Qed.
Print Assumptions C66_write_layout.
(** Library tables: one line per library. *)
Theorem C66_table : forall nq t n, unquoted nq ["fp_lib_table"; "lib"; "name"; "type"; "uri"; "options"; "descr"] ->
  table_to_string nq t n = lit "(fp_lib_table" ++ flat_map (table_line nq n) t ++ [10%N] ++ lit ")".
Proof. exact table_text. Qed.
Print Assumptions C66_table.

Example C66_ex : usual_layout ex_layout = true /\ regular (ser_layout ex_layout) = true.
Proof. split; vm_compute; reflexivity. Qed.
Example C66_table_ex : unquoted quote_special ["fp_lib_table"; "lib"; "name"; "type"; "uri"; "options"; "descr"]
  /\ lines (table_to_string quote_special [mk_flib (lit "A b") (lit "KiCad") (lit "u") [] (lit "d")] 0)
     = [lit "(fp_lib_table"; lit "  (lib(name " ++ [34%N] ++ lit "A b" ++ [34%N] ++ lit ")(type KiCad)(uri u)(options " ++ [34; 34]%N ++ lit ")(descr d))"; lit ")"].
Proof. split; [repeat constructor|vm_compute; reflexivity]. Qed.
(** A board: an empty line after the footprint and before the first track; outlines
    broken after the fifth point. *)
Definition tx_xy (n : string) : sexp := node "xy" [a_lit n; a_lit "0"].
Definition tx_board : sexp := node "kicad_pcb" [node "net" [a_lit "0"; a_lit "a"];
  node "module" [a_lit "R"; node "layer" [a_lit "F.Cu"]; node "fp_text" [a_lit "value"; node "effects" [a_lit "x"]]; node "pad" [a_lit "1"; node "net" [a_lit "0"]]];
  node "segment" [node "width" [a_lit "1"]]; node "segment" [node "width" [a_lit "1"]]; node "via" [];
  node "zone" [node "net" [a_lit "0"]; node "polygon" [node "pts" [tx_xy "1"; tx_xy "2"; tx_xy "3"; tx_xy "4"; tx_xy "5"; tx_xy "6"]]]].
Example C66_board_ex : regular tx_board = true /\ lines (written quote_special 0 tx_board) =
  map lit ["(kicad_pcb"; "  (net 0 a)"; ""; "  (module R (layer F.Cu)"; "    (fp_text value"; "      (effects x)"; "    )"; "    (pad 1"; "      (net 0))"; "  )"; ""; "";
    "  (segment (width 1))"; "  (segment (width 1))"; "  (via)"; "  (zone (net 0)"; "    (polygon"; "      (pts"; "        (xy 1 0) (xy 2 0) (xy 3 0) (xy 4 0) (xy 5 0)";
    "        (xy 6 0)"; "      )"; "    )"; "  )"; ")"].
Proof. split; vm_compute; reflexivity. Qed.

(** Trees without any of the names that have rules are written on one line, whatever else
    is in them, also lists without a name. *)
Theorem C66_other : forall nq n s, ordinary s = true -> pretty nq n s = compact nq s.
Proof. exact pretty_plain. Qed.
Print Assumptions C66_other.
Example C66_other_ex : let s := SList [SList [SStr (lit "a"); SList []]; SStr (lit "b"); SList [SStr (lit "general"); SList [SStr (lit "xy")]]] in
  ordinary s = true /\ pretty (fun _ => false) 2 s = lit "((a ()) b (general (xy)))".
Proof. split; vm_compute; reflexivity. Qed.

(** Outside [regular] the layout also depends on what was written before: a board
    whose unknown elements are named like footprints inside is laid out otherwise. *)
Theorem C66_state_refuted : exists nq l n, layout_to_string nq l n <> written nq n (ser_layout l) ++ [10%N].
Proof. exact state_matters. Qed.
Print Assumptions C66_state_refuted.
