(** Property theorems: exactly which documents survive saving (C62); saving settles
    after one time (C63). *)
From Coq Require Import String.
From Verif Require Import Base Str StrFacts Num F64 Sexp FpData FpSer FpDe FpWf FpFacts FpExamples LyData LySer LyDe LyWf LyExamples FpLibTable
  FormatterSpec DocSpec DocText KeepSpec ExactFacts ExactLy SettleFacts SxText DocTextFacts P_Formatter.
Open Scope string_scope. Open Scope list_scope.

(** ** C62 *)
(** The conditions [module_ok] (FpWf.v) and [layout_ok] (LyWf.v) of the round trip
    theorems are not only sufficient: a document that breaks one is lost or changed. *)
Theorem C62_module_tree : forall m, de_module (ser_module m) = Ok m <-> module_ok m = true.
Proof. exact module_iff. Qed.
Print Assumptions C62_module_tree.
Theorem C62_layout_tree : forall l, de_layout (ser_layout l) = Ok l <-> layout_ok l = true.
Proof. exact layout_iff. Qed.
Print Assumptions C62_layout_tree.
(** The same for texts; [module_saves] and [layout_saves] (KeepSpec.v) add that no
    string holds a quote character. *)
Theorem C62_module : forall nq m n, quote_contract nq -> (parse_module (module_to_string nq m n) = Ok m <-> module_saves m = true).
Proof. exact module_text_iff. Qed.
Print Assumptions C62_module.
Theorem C62_layout : forall nq l n, quote_contract nq -> (parse_layout (layout_to_string nq l n) = Ok l <-> layout_saves l = true).
Proof. exact layout_text_iff. Qed.
Print Assumptions C62_layout.
Theorem C62_table : forall nq t n, quote_contract nq ->
  (parse_table (table_to_string nq t n) = Ok t <-> forallb no_quote (flat_map flib_strs t) = true).
Proof. exact table_text_iff. Qed.
Print Assumptions C62_table.
Example C62_ex : module_saves ex_module = true /\ layout_saves ex_layout = true.
Proof. split; vm_compute; reflexivity. Qed.
(** Each condition fails for some document: rotation -0, rect_delta, negative time
    stamp, a drill of width 0, a font of negative size, a quote in a name. *)
Definition mod_of (e : element) : module := mk_module (lit "m") [ELocked; e].
Definition pad_with (rd : option xy) (d : option drill) : pad :=
  mk_pad (lit "1") Smd Rect (mk_xy (fl "1") (fl "1") XSize) rd (mk_at (fl "0") (fl "0") (fl "0")) [] None None d None None None None.
Example C62_ex_bad : forallb (fun m => negb (module_saves m))
  [mod_of (EAt (mk_at (fl "1") (fl "2") (fl "-0"))); mod_of (EPad (pad_with (Some (mk_xy (fl "1") (fl "1") XRectDelta)) None)); mod_of (ETEdit (-1));
   mod_of (EPad (pad_with None (Some (mk_drill None (fl "0") (fl "0") (fl "0") (fl "0")))));
   mk_module (lit "a" ++ [34%N]) []] = true
  /\ module_saves (mod_of (EPad (pad_with None (Some (mk_drill None (fl "0.8") (fl "0.8") (fl "0") (fl "0")))))) = true.
Proof. split; vm_compute; reflexivity. Qed.

(** ** C63 *)
(** Open a file and save it.  If the saved file opens, then saving it again writes the
    same text, and from then on nothing changes any more. *)
Theorem C63_module : forall nq s m n m', quote_contract nq -> parse_module s = Ok m -> parse_module (module_to_string nq m n) = Ok m' ->
  (forall k, module_to_string nq m' k = module_to_string nq m k) /\ (forall k, parse_module (module_to_string nq m' k) = Ok m').
Proof. exact settled_module. Qed.
Print Assumptions C63_module.
Theorem C63_layout : forall nq s l n l', quote_contract nq -> parse_layout s = Ok l -> parse_layout (layout_to_string nq l n) = Ok l' ->
  (forall k, layout_to_string nq l' k = layout_to_string nq l k) /\ (forall k, parse_layout (layout_to_string nq l' k) = Ok l').
Proof. exact settled_layout. Qed.
Print Assumptions C63_layout.
(** A footprint that the first save changes, without making it unreadable: rotation
    -0, drill with a height next to its width, font of negative size. *)
Definition text_odd : str := lit "(module a (layer F.Cu) (fp_text reference a (at 0 1 -0) (layer F.SilkS) (effects (font (size -1 0) (thickness 0.1)))) (pad 1 thru_hole rect (at 0 0 -0) (size 1 1) (drill oval 0 0.5 (offset 0 -0)) (layers F.Cu)))".
Definition once (s : str) : option (module * module) :=
  match parse_module s with
  | Ok m => match parse_module (module_to_string quote_special m 0) with Ok m' => Some (m, m') | _ => None end
  | _ => None
  end.
Definition at_neg (e : element) : bool :=
  match e with EFpText t => is_negzero (at_rot (tx_at t)) | EPad p => is_negzero (at_rot (pa_at p)) | _ => false end.
Example C63_ex : match once text_odd with
  | Some (m, m') => existsb at_neg (m_elements m) && negb (existsb at_neg (m_elements m')) && negb (module_saves m) && module_saves m'
  | None => false
  end = true.
Proof. vm_compute. reflexivity. Qed.
Definition text_odd_ly : str := lit "(kicad_pcb (version 4) (via (at 1 2 -0) (size 1) (drill -0) (layers F.Cu B.Cu) (net 1)) " ++ text_odd ++ lit ")".
Example C63_ex_layout : match parse_layout text_odd_ly with
  | Ok l => match parse_layout (layout_to_string quote_special l 0) with Ok l' => negb (layout_saves l) && layout_saves l' | _ => false end
  | _ => false
  end = true.
Proof. vm_compute. reflexivity. Qed.
