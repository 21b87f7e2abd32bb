(** Property theorems: the meaning of documents that follow the grammar (C69). *)
From Coq Require Import String.
From Verif Require Import Base Str Num F64 F64Text Sexp FpData FpLayer FpDe LyData LyDe FpLibTable GramSpec GramFacts MeanSpec MeanFacts MeanBoard GramWit MeanWit.
Open Scope string_scope. Open Scope list_scope.

(** ** C69 *)
(** A document that follows the grammar is read as what it means: every value is the one
    written under its name, parts that are missing get the stated default, and the last
    one counts where a part may be repeated. *)
Theorem C69_module (s : sexp) : follows (g_module readable) s -> de_module s = Ok (module_of s).
Proof. exact (mn_module s). Qed.
Print Assumptions C69_module.
Theorem C69_layout (s : sexp) : follows (g_board readable) s -> de_layout s = Ok (layout_of s).
Proof. exact (mn_layout s). Qed.
Print Assumptions C69_layout.
Theorem C69_table (s : sexp) : follows g_table s -> de_fp_lib_table s = Ok (table_of s).
Proof. exact (mn_table s). Qed.
Print Assumptions C69_table.
Example C69_module_ex : follows (g_module readable) read_ex /\
  match module_of read_ex with
  | mk_module _ [ELocked; ETEdit z; EAt a; EPad p] =>
      (z =? 1455)%Z && feqb (at_x a) (flit "1.5") && feqb (at_y a) (flit "-5") && feqb (at_rot (pa_at p)) (flit "90")
      && (match pa_drill p, pa_clearance p, pa_layers p with Some d, Some c, [_; _] => feqb (dr_height d) (flit "1") && feqb (dr_oy d) (flit "2") && feqb c (flit "1") | _, _, _ => false end)
  | _ => false
  end = true.
Proof. split; [exact follows_ex|vm_compute; reflexivity]. Qed.
(** A board without version, host, layers and so on, with a repeated value and an unknown
    part *)
Example C69_layout_ex : follows (g_board readable) bare_board /\
  match layout_of bare_board with
  | mk_layout 4 h g p _ [] [YNetClass n; YOther _] =>
      str_eqb p (lit "A3") && str_eqb (ho_tool h) (lit "pcbnew") && feqb (ge_thickness g) (flit "1.6") && feqb (nc_clearance n) (flit "2") && feqb (nc_trace_width n) (flit "0.2032")
  | _ => false
  end = true.
Proof. split; [exact bare_follows|vm_compute; reflexivity]. Qed.
Example C69_table_ex : let t := [mk_flib (lit "a") (lit "b") (lit "c") (lit "d") (lit "e")] in follows g_table (ser_fp_lib_table t) /\ table_of (ser_fp_lib_table t) = t.
Proof. split; [apply f_table|reflexivity]. Qed.
(** The order of the grammar matters: a line with its end before its start is accepted,
    but loses both points without notice. *)
Theorem C69_order_refuted : exists s m, de_module s = Ok m /\ m <> module_of s.
Proof. exact order_matters. Qed.
Print Assumptions C69_order_refuted.
