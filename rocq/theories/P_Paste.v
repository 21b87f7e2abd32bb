(** Property theorems: footprint files pasted into board files (C112). *)
From Coq Require Import String.
From Verif Require Import Base Str StrFacts Sexp FpData FpDe FpOps LyData LyDe LyOps FpLibTable Formatter FormatterSpec DocText MeanSpec SpellSpec SpellFacts JoinSpec PasteSpec PasteFacts P_Formatter P_Err.
Open Scope string_scope. Open Scope list_scope.

(** ** C112 *)
(** The text of a footprint file, pasted between the entries of a board file: read as the
    board with the footprint at that place, and only if both are read alone. *)
Theorem C112_board : forall p q a b k f l', gap p q (SStr (lit "kicad_pcb") :: a) b -> document (SList (SStr (lit "module") :: k)) f ->
  (parse_layout (p ++ f ++ q) = Ok l' <-> exists l m, parse_layout (p ++ q) = Ok l /\ parse_module f = Ok m /\
     (elements_in a <= length (ly_elements l))%nat /\ l' = inserted (elements_in a) (YModule m) l).
Proof. exact paste_module. Qed.
Print Assumptions C112_board.
(** Before the last parenthesis: at the end of the board *)
Theorem C112_end : forall p w f l m, parse_layout (p ++ [41%N] ++ w) = Ok l -> blank_text w -> parse_module f = Ok m ->
  parse_layout (p ++ f ++ [41%N] ++ w) = Ok (inserted (length (ly_elements l)) (YModule m) l).
Proof. exact paste_end. Qed.
Print Assumptions C112_end.
(** A file of a kind boards have no entries of is kept as it is, without being read. *)
Theorem C112_other : forall p q a b n k f l', gap p q (SStr (lit "kicad_pcb") :: a) b -> document (SList (SStr n :: k)) f ->
  ~ In n (map lit ["version"; "host"; "general"; "page"; "layers"; "module"; "net"; "net_class"; "gr_text"; "gr_line"; "gr_arc"; "gr_circle"; "dimension"; "zone"; "segment"; "via"; "setup"]) ->
  (parse_layout (p ++ f ++ q) = Ok l' <-> exists l, parse_layout (p ++ q) = Ok l /\ (elements_in a <= length (ly_elements l))%nat /\ l' = inserted (elements_in a) (YOther (SList (SStr n :: k))) l).
Proof. exact paste_other. Qed.
Print Assumptions C112_other.
(** The text of one element in a footprint file, and of one row in a library table *)
Theorem C112_footprint : forall p q n a b k f m', gap p q (SStr (lit "module") :: SStr n :: a) b -> document (SList k) f ->
  (parse_module (p ++ f ++ q) = Ok m' <-> exists m e, parse_module (p ++ q) = Ok m /\ de_element (SList k) = Ok e /\
     m' = mk_module n (firstn (length a) (m_elements m) ++ e :: skipn (length a) (m_elements m))).
Proof. exact paste_element. Qed.
Print Assumptions C112_footprint.
Theorem C112_table : forall p q a b k f t', gap p q (SStr (lit "fp_lib_table") :: a) b -> document (SList k) f ->
  (parse_table (p ++ f ++ q) = Ok t' <-> exists t r, parse_table (p ++ q) = Ok t /\ de_flib (SList k) = Ok r /\ t' = firstn (length a) t ++ r :: skipn (length a) t).
Proof. exact paste_row. Qed.
Print Assumptions C112_table.
(** A footprint put into a board that survives saving: the board still survives it exactly
    if the footprint alone does, and the footprint is found there by its reference. *)
Theorem C112_saved : forall nq n m l k j, quote_contract nq -> parse_layout (layout_to_string nq l k) = Ok l ->
  (parse_layout (layout_to_string nq (inserted n (YModule m) l) k) = Ok (inserted n (YModule m) l) <-> parse_module (module_to_string nq m j) = Ok m).
Proof. exact carried_saves. Qed.
Print Assumptions C112_saved.
Theorem C112_found : forall n m l r, (forall m', In (YModule m') (ly_elements l) -> is_reference_with_name m' r = false) -> is_reference_with_name m r = true ->
  get_module (inserted n (YModule m) l) r = Some m.
Proof. exact carried_found. Qed.
Print Assumptions C112_found.

(** A board of one net and a page, a footprint with a reference; pasted before and behind
    the net, read from the text. *)
Definition ex_front : str := lit "(kicad_pcb (page A3) ".
Definition ex_back : str := lit "(net 1 GND)".
Definition ex_foot : str := lit " (module R (layer F.Cu) (fp_text reference R1 (at 0 0) (layer F.SilkS)))
".
Definition names (l : layout) : list str := map (fun e => match e with YModule m => m_name m | YNet n => ne_name n | YOther _ => lit "other" | _ => [] end) (ly_elements l).
Definition seen (t : str) : option (str * list str) := match parse_layout t with Ok l => Some (ly_page l, names l) | _ => None end.
Example C112_ex : seen (ex_front ++ ex_back ++ [41%N]) = Some (lit "A3", [lit "GND"]) /\
  seen (ex_front ++ ex_foot ++ ex_back ++ [41%N]) = Some (lit "A3", [lit "R"; lit "GND"]) /\
  seen (ex_front ++ ex_back ++ ex_foot ++ [41%N]) = Some (lit "A3", [lit "GND"; lit "R"]) /\
  seen (ex_front ++ ex_back ++ lit "(kicad_pcb (page A5))" ++ [41%N]) = Some (lit "A3", [lit "GND"; lit "other"]) /\
  match parse_module ex_foot with Ok m => is_reference_with_name m (lit "R1") | _ => false end = true.
Proof. repeat (apply conj; [vm_compute; reflexivity|]). vm_compute. reflexivity. Qed.
(** The hypotheses hold of it. *)
Lemma blank_nil : blank_text []. Proof. intros c []. Qed.
Example C112_ex_gap : gap ex_front (ex_back ++ [41%N]) [SStr (lit "kicad_pcb"); SList [SStr (lit "page"); SStr (lit "A3")]] [SList [SStr (lit "net"); SStr (lit "1"); SStr (lit "GND")]] /\
  (exists k, document (SList (SStr (lit "module") :: k)) ex_foot) /\ elements_in [SList [SStr (lit "page"); SStr (lit "A3")]] = 0%nat.
Proof.
  apply conj; [|apply conj].
  - exists [], (lit "kicad_pcb (page A3) "), ex_back, []. apply conj; [reflexivity|]. apply conj; [reflexivity|]. apply conj; [exact blank_nil|]. apply conj; [exact blank_nil|].
    apply conj.
    + assert (D : document (SList [SStr (lit "kicad_pcb"); SList [SStr (lit "page"); SStr (lit "A3")]]) (lit "(kicad_pcb (page A3) )")) by (apply read_iff; vm_compute; reflexivity).
      apply TornFacts.document_inv in D as (w & t & u & E & W & S & U). inversion S as [| |l t' L]; subst.
      destruct w as [|c w]; [|cbn [app lit] in E; injection E as E _; subst c; specialize (W _ (or_introl eq_refl)); discriminate W].
      change (lit "(kicad_pcb (page A3) )") with (([40%N] ++ lit "kicad_pcb (page A3) ") ++ 41%N :: []) in E.
      assert (E' : ([40%N] ++ lit "kicad_pcb (page A3) ") ++ 41%N :: [] = ([40%N] ++ t') ++ 41%N :: u) by (rewrite E; cbn [app]; now rewrite <- !app_assoc).
      apply last_black in E' as [E' _]; [|exact blank_nil|exact U|reflexivity|reflexivity]. injection E' as E'. rewrite <- E' in L. exact L.
    + apply conj; [apply read_iff; vm_compute; reflexivity|]. intros (t1 & c & d & u1 & _ & E & _ & D). injection E as E _. subst d. destruct D as (_ & D & _). now apply D.
  - eexists. apply read_iff. vm_compute. reflexivity.
  - reflexivity.
Qed.
