(** Property theorems: the grammar of saved documents (C67) and of documents that can be
    read (C68); hexadecimal texts (C57). *)
From Coq Require Import String Lia.
From Verif Require Import Base Str Num F64 F64Text Sexp DecSpec FpData FpLayer FpSer FpDe LyData LySer LyDe FpLibTable FpExamples LyExamples GramSpec GramFacts GramRead GramWit.
Open Scope string_scope. Open Scope list_scope.

(** ** C57 *)
(** Time stamps are read as hexadecimal numbers: optional sign, digits in either case,
    a value that fits 64 bits, and nothing else. *)
Theorem C57_hex (s : str) (z : Z) : parse_int 16 s = Some z <-> hex_text s z.
Proof. exact (hex_iff s z). Qed.
Print Assumptions C57_hex.
Example C57_hex_ex : hex_text (lit "5aF") 1455%Z.
Proof. apply C57_hex. vm_compute. reflexivity. Qed.

(** ** C67 *)
(** What is saved follows the grammar [g_module], [g_board], [g_table] of GramSpec.v with
    the words that are written: plain decimal numbers, decimal whole numbers, at most 16
    hexadecimal digits. *)
Theorem C67_module (m : module) : module_roles m = true -> follows (g_module (saved false)) (ser_module m).
Proof. exact (f_module false m). Qed.
Print Assumptions C67_module.
Theorem C67_layout (l : layout) : layout_roles l = true -> follows (g_board (saved (existsb is_other (ly_elements l)))) (ser_layout l).
Proof. exact (f_layout l). Qed.
Print Assumptions C67_layout.
Theorem C67_table (t : fp_lib_table) : follows g_table (ser_fp_lib_table t).
Proof. exact (f_table t). Qed.
Print Assumptions C67_table.
Example C67_ex : module_roles ex_module = true /\ layout_roles ex_layout = true.
Proof. split; vm_compute; reflexivity. Qed.
(** The roles of points are needed: a polygon may be read with points of another name,
    and these are saved, too. *)
Theorem C67_opened_refuted : exists t m, de_module t = Ok m /\ ~ follows (g_module (saved false)) (ser_module m).
Proof. exact odd_point. Qed.
Print Assumptions C67_opened_refuted.

(** ** C68 *)
(** Every tree that follows the same grammar, with the words that can be read, is
    accepted.  So the reader's way of trying optional parts never loses a document. *)
Theorem C68_module (s : sexp) : follows (g_module readable) s -> exists m, de_module s = Ok m.
Proof. exact (ac_module s). Qed.
Print Assumptions C68_module.
Theorem C68_layout (s : sexp) : follows (g_board readable) s -> exists l, de_layout s = Ok l.
Proof. exact (ac_layout s). Qed.
Print Assumptions C68_layout.
Theorem C68_table (s : sexp) : follows g_table s -> exists t, de_fp_lib_table s = Ok t.
Proof. exact (ac_table s). Qed.
Print Assumptions C68_table.
(** A footprint with some optional parts, a layer unknown to the program and numbers in
    unusual notation. *)
Example C68_ex : exists s, follows (g_module readable) s /\
  s = node "module" [a_lit "R"; a_lit "locked"; node "tedit" [a_lit "5aF"]; node "at" [a_lit "+1.50"; a_lit "-.5e1"];
        node "pad" [a_lit "1"; a_lit "smd"; a_lit "rect"; node "at" [a_lit "0"; a_lit "0"; a_lit "90"]; node "size" [a_lit "1"; a_lit "2"];
          node "drill" [a_lit "oval"; a_lit "1"; node "offset" [a_lit "1"; a_lit "2"]]; node "layers" [a_lit "F.Cu"; a_lit "mine"]; node "clearance" [a_lit "1"]]].
Proof. exact readable_example. Qed.
(** The two grammars are not the same: a pad saved with the size and the slant of a
    trapezoid cannot be read again. *)
Theorem C68_saved_refuted : exists m, module_roles m = true /\ follows (g_module (saved false)) (ser_module m) /\ exists e, de_module (ser_module m) = Err e.
Proof. exact slant. Qed.
Print Assumptions C68_saved_refuted.
