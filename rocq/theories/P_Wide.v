(** Property theorems: exactly which trees are footprints, boards and library tables, what
    they mean, which are refused and which stop the program (C76). *)
From Coq Require Import String.
From Verif Require Import Base Str Num F64 F64Text Sexp FpData FpLayer FpDe LyData LyDe FpLibTable GramSpec MeanSpec MeanFacts MeanBoard WideSpec WideSound WideMean WideBoard WideCrash.
Open Scope string_scope. Open Scope list_scope.

(** ** C76 *)
(** A tree is read exactly if it follows the wide grammar of WideSpec.v, and then it is
    read as what it means. *)
Theorem C76_module (s : sexp) (m : module) : de_module s = Ok m <-> follows w_module s /\ m = w_module_of s.
Proof. exact (exact_module s m). Qed.
Theorem C76_layout (s : sexp) (l : layout) : de_layout s = Ok l <-> follows w_board s /\ l = w_layout_of s.
Proof. exact (exact_layout s l). Qed.
Theorem C76_table (s : sexp) (t : fp_lib_table) : de_fp_lib_table s = Ok t <-> follows w_table s /\ t = table_of s.
Proof. exact (exact_table s t). Qed.
(** A layer is read exactly from its kind, from its side and kind, or from a kind followed
    by several further pieces. *)
Theorem C76_layer (s : str) (l : layer) : layer_of_str s = Some l <-> layer_text s l.
Proof. exact (layer_iff s l). Qed.
(** The program stops exactly at an empty element that is reached, *)
Theorem C76_module_crash (s : sexp) : de_module s = Panic <-> module_crash s.
Proof. exact (module_panic s). Qed.
Theorem C76_layout_crash (s : sexp) : de_layout s = Panic <-> board_crash s.
Proof. exact (layout_panic s). Qed.
(** and refuses with an error whatever neither follows the grammar nor stops it. *)
Theorem C76_module_error (s : sexp) : (exists e, de_module s = Err e) <-> ~ follows w_module s /\ ~ module_crash s.
Proof. exact (module_refused s). Qed.
Theorem C76_layout_error (s : sexp) : (exists e, de_layout s = Err e) <-> ~ follows w_board s /\ ~ board_crash s.
Proof. exact (layout_refused s). Qed.
(** What follows the usual grammar follows this one and means the same. *)
Theorem C76_usual_module (s : sexp) : follows (g_module readable) s -> follows w_module s /\ w_module_of s = module_of s.
Proof. exact (fun F => let '(conj A B) := proj1 (exact_module s (module_of s)) (mn_module s F) in conj A (eq_sym B)). Qed.
Theorem C76_usual_layout (s : sexp) : follows (g_board readable) s -> follows w_board s /\ w_layout_of s = layout_of s.
Proof. exact (fun F => let '(conj A B) := proj1 (exact_layout s (layout_of s)) (mn_layout s F) in conj A (eq_sym B)). Qed.

(** A footprint that follows the wide grammar only: a line with its points in the wrong
    order, a number that is none, a layer of three pieces, ignored parts *)
Definition odd_module : sexp :=
  node "module" [a_lit "R"; node "tags" [a_lit "a"; a_lit "b"]; node "clearance" [a_lit "-inf"; SEmpty];
    node "fp_line" [node "end" [a_lit "1"; a_lit "2"]; node "start" [a_lit "3"; a_lit "4"]; node "layer" [a_lit "Cu.b.c"]]].
Lemma odd_read : match de_module odd_module with Ok _ => true | _ => false end = true.
Proof. vm_compute. reflexivity. Qed.
Lemma ok_follows s : match de_module s with Ok _ => true | _ => false end = true -> follows w_module s.
Proof. destruct (de_module s) as [m| |] eqn:E; try discriminate. intros _. now apply C76_module in E. Qed.
Example C76_module_ex : follows w_module odd_module /\
  match w_module_of odd_module with
  | mk_module _ [ETags t; EClearance _; EFpLine l] => str_eqb t (lit "a") && feqb (xy_x (li_start l)) fzero && feqb (xy_x (li_end l)) fzero && (match li_layer l with mk_layer SNone LCu => true | _ => false end)
  | _ => false
  end = true.
Proof. split; [apply ok_follows; exact odd_read|vm_compute; reflexivity]. Qed.
Example C76_layer_ex : layer_text (lit "Cu.b.c") (mk_layer SNone LCu) /\ ~ exists l, layer_text (lit "X.Cu") l.
Proof. split; [apply C76_layer; reflexivity|]. intros [l L]. apply C76_layer in L. discriminate L. Qed.
Definition hole_module : sexp := node "module" [a_lit "R"; a_lit "locked"; SEmpty; node "nothing" []].
Definition odd_board : sexp := node "kicad_pcb" [node "page" [a_lit "A3"]; node "gr_line" [node "xy" [a_lit "1"; a_lit "2"]; node "size" [a_lit "3"; a_lit "4"]; node "layer" [a_lit "Edge.Cuts"]]].
Definition hole_board : sexp := node "kicad_pcb" [node "page" [a_lit "A3"]; hole_module].
Example C76_crash_ex : module_crash hole_module /\ board_crash hole_board.
Proof. split; [apply C76_module_crash|apply C76_layout_crash]; vm_compute; reflexivity. Qed.
Lemma board_follows s : match de_layout s with Ok _ => true | _ => false end = true -> follows w_board s.
Proof. destruct (de_layout s) as [m| |] eqn:E; try discriminate. intros _. now apply C76_layout in E. Qed.
Example C76_layout_ex : follows w_board odd_board /\
  match w_layout_of odd_board with
  | mk_layout 4 _ _ p _ [] [YGrLine l] => str_eqb p (lit "A3") && feqb (xy_y (gl_end l)) (flit "4") && (match xy_t (gl_end l) with XSize => true | _ => false end)
  | _ => false
  end = true.
Proof. split; [apply board_follows; vm_compute; reflexivity|vm_compute; reflexivity]. Qed.
(** An unknown element of a footprint is refused, one of a board is not. *)
Example C76_error_ex : (~ follows w_module (node "module" [a_lit "R"; node "nothing" []]) /\ ~ module_crash (node "module" [a_lit "R"; node "nothing" []])) /\
  follows w_board (node "kicad_pcb" [node "nothing" []]).
Proof. split; [apply C76_module_error; eexists; reflexivity|apply board_follows; vm_compute; reflexivity]. Qed.
Example C76_table_ex : follows w_table (node "fp_lib_table" [node "lib" [kv "name" (a_lit "a"); kv "type" (a_lit "b"); kv "uri" (a_lit "c"); kv "options" (a_lit "d"); kv "descr" (a_lit "e"); SEmpty]]).
Proof. eapply C76_table. reflexivity. Qed.
Print Assumptions C76_module.
Print Assumptions C76_layout.
Print Assumptions C76_table.
Print Assumptions C76_layer.
Print Assumptions C76_module_crash.
Print Assumptions C76_layout_crash.
Print Assumptions C76_module_error.
Print Assumptions C76_layout_error.
Print Assumptions C76_usual_module.
Print Assumptions C76_usual_layout.
