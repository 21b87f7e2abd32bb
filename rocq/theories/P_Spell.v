(** Property theorems: which texts are trees, footprints, boards, library tables, and what
    a file of any kind is read as (C77). *)
From Coq Require Import String.
From Verif Require Import Base Str Sexp FpData LyData FpLibTable Formatter DocText LibSpec CutSpec CutFacts SchData SchPrint SymData GramSpec MeanSpec WideSpec WideBoard KicadFile SpellSpec SpellFacts SpellKind P_Wide P_Crash.
Open Scope string_scope. Open Scope list_scope.

(** ** C77 *)
(** A text is read as a tree exactly if it spells the tree. *)
Theorem C77_tree : forall t s, read_sexp t = Ok s <-> document s t.
Proof. exact read_iff. Qed.
Print Assumptions C77_tree.
(** No text spells two trees. *)
Theorem C77_one_tree : forall t s s', document s t -> document s' t -> s = s'.
Proof. exact document_one. Qed.
Print Assumptions C77_one_tree.
(** By hand: words that need no blank between them, blanks that do not matter *)
Example C77_tree_ex : document (node "a" [SStr (lit "b c"); SStr []; SList []]) (lit " (a""b c"" """"(  ))").
Proof.
  assert (B : forall k, blank_text (repeat 32%N k)) by (intros k c I; apply repeat_spec in I as ->; reflexivity).
  assert (NQ : forall t u, ~ run_together (t ++ [34%N]) u).
  { intros t u (t1 & c & d & u1 & A & _ & C & _). apply app_inj_tail in A as [_ <-]. destruct C as (_ & _ & _ & C). now apply C. }
  assert (NP : forall t u, ~ run_together (t ++ [41%N]) u).
  { intros t u (t1 & c & d & u1 & A & _ & C & _). apply app_inj_tail in A as [_ <-]. destruct C as (_ & _ & C & _). now apply C. }
  assert (E : lit " (a""b c"" """"(  ))" = repeat 32%N 1 ++ ([40%N] ++ (repeat 32%N 0 ++ lit "a" ++ (repeat 32%N 0 ++ ([34%N] ++ lit "b c" ++ [34%N]) ++
    (repeat 32%N 1 ++ ([34%N] ++ [] ++ [34%N]) ++ (repeat 32%N 0 ++ ([40%N] ++ repeat 32%N 2 ++ [41%N]) ++ repeat 32%N 0)))) ++ [41%N]) ++ repeat 32%N 0) by reflexivity.
  rewrite E. apply sa_cons; [apply B| |apply sa_nil, B|apply (NP (lit "(a""b c"" """"(  )"))]. apply sp_list.
  apply sa_cons; [apply B|apply sp_word; [discriminate|]| |].
  { intros c [<-|[]]. repeat split; discriminate. }
  2: { intros (t1 & c & d & u1 & _ & A & _ & D). cbn in A. injection A as <- _. destruct D as (_ & _ & _ & D). now apply D. }
  apply sa_cons; [apply B|apply sp_quoted|  |apply (NQ (lit """b c"))].
  { intros [H|[H|[H|[]]]]; discriminate H. }
  apply sa_cons; [apply B|apply sp_quoted; intros []| |apply (NQ (lit """"))].
  apply sa_cons; [apply B|apply sp_list, sa_nil, B|apply sa_nil, B|apply (NP (lit "(  "))].
Qed.
(** One word, not two; a word that is left open; two trees *)
Example C77_no_tree_ex : (forall s, document s (lit "(ab)") -> s = SList [SStr (lit "ab")]) /\
  (forall s, ~ document s (lit "(a ""b)")) /\ (forall s, ~ document s (lit "(a) (b)")) /\ (forall s, ~ document s (lit "(a))")).
Proof.
  split; [|split; [|split]]; intros s H.
  - apply C77_tree in H. now injection H.
  - apply C77_tree in H. discriminate H.
  - apply C77_tree in H. discriminate H.
  - apply C77_tree in H. discriminate H.
Qed.

(** A text is read as a footprint, board or library table exactly if it spells a tree that
    follows the grammar, and then as what that tree means; else it is refused. *)
Theorem C77_module : forall t m, parse_module t = Ok m <-> exists s, document s t /\ follows w_module s /\ m = w_module_of s.
Proof. exact module_text. Qed.
Print Assumptions C77_module.
Theorem C77_layout : forall t l, parse_layout t = Ok l <-> exists s, document s t /\ follows w_board s /\ l = w_layout_of s.
Proof. exact layout_text. Qed.
Print Assumptions C77_layout.
Theorem C77_table : forall t l, parse_table t = Ok l <-> exists s, document s t /\ follows w_table s /\ l = table_of s.
Proof. exact table_text. Qed.
Print Assumptions C77_table.
Theorem C77_module_error : forall t, (exists e, parse_module t = Err e) <-> ~ exists s, document s t /\ follows w_module s.
Proof. exact module_text_err. Qed.
Print Assumptions C77_module_error.
Theorem C77_layout_error : forall t, (exists e, parse_layout t = Err e) <-> ~ exists s, document s t /\ follows w_board s.
Proof. exact layout_text_err. Qed.
Print Assumptions C77_layout_error.
Theorem C77_table_error : forall t, (exists e, parse_table t = Err e) <-> ~ exists s, document s t /\ follows w_table s.
Proof. exact table_text_err. Qed.
Print Assumptions C77_table_error.

(** Opening a file of any kind: what it is read as, *)
Theorem C77_file : forall fs n x f, (forall u, f <> KUnknown u) ->
  read_kicad_file fs n x = Ok f <-> exists t, fs n = Some t /\ file_is n t f /\ within f x.
Proof. exact file_known_iff. Qed.
Print Assumptions C77_file.
(** when it is unknown, *)
Theorem C77_file_unknown : forall fs n x u, read_kicad_file fs n x = Ok (KUnknown u) <->
  exists t, fs n = Some t /\ u = n /\ x = XAny /\ ~ file_crash t XAny /\ forall f, ~ file_is n t f.
Proof. exact file_unknown_iff. Qed.
Print Assumptions C77_file_unknown.
(** when the program stops, *)
Theorem C77_file_crash : forall fs n x, read_kicad_file fs n x = Panic <-> exists t, fs n = Some t /\ file_crash t x.
Proof. exact file_panic_iff. Qed.
Print Assumptions C77_file_crash.
(** and when it is refused. *)
Theorem C77_file_error : forall fs n x, (exists e, read_kicad_file fs n x = Err e) <->
  fs n = None \/ exists t, fs n = Some t /\ x <> XAny /\ ~ file_crash t x /\ forall f, file_is n t f -> ~ within f x.
Proof. exact file_err_iff. Qed.
Print Assumptions C77_file_error.
Theorem C77_file_one : forall n t f g, file_is n t f -> file_is n t g -> f = g.
Proof. exact file_one. Qed.
Print Assumptions C77_file_one.

Definition odd_text : str := lit "(module R(tags ""a b"")  locked (layer ""F.Cu"")" ++ [10%N] ++ lit ")".
Lemma odd_text_read : match parse_module odd_text with Ok _ => true | _ => false end = true.
Proof. vm_compute. reflexivity. Qed.
Example C77_module_ex : exists s, document s odd_text /\ follows w_module s.
Proof. pose proof odd_text_read as H. destruct (parse_module odd_text) as [m| |] eqn:E; try discriminate. apply C77_module in E as (s & D & F & _). now exists s. Qed.
Example C77_table_ex : file_is [] (lit "(fp_lib_table(lib(name a)(type b)(uri c)(options """")(descr d)))") (KFpLibTable [mk_flib (lit "a") (lit "b") (lit "c") [] (lit "d")]).
Proof. apply C77_table. vm_compute. reflexivity. Qed.
Definition some_files : files := fun n => if str_eqb n (lit "a") then Some odd_text else if str_eqb n (lit "b") then Some (lit "update=1") else None.
(** A footprint is found whatever is asked for; a project not where a board is asked for. *)
Example C77_file_ex : (exists m, read_kicad_file some_files (lit "a") XSymbolLib = Ok (KModule m)) /\
  (exists e, read_kicad_file some_files (lit "b") XLayout = Err e) /\ read_kicad_file some_files (lit "b") XAny = Ok (KProject (lit "update=1")) /\
  (exists e, read_kicad_file some_files (lit "c") XAny = Err e).
Proof.
  split; [|split; [|split]].
  - pose proof odd_text_read as H. destruct (parse_module odd_text) as [m| |] eqn:E; try discriminate. exists m.
    apply C77_file; [discriminate|]. exists odd_text. split; [reflexivity|]. split; [now apply C77_module|]. exists XModule. split; [exact I|apply Nat.le_0_l].
  - eexists. vm_compute. reflexivity.
  - vm_compute. reflexivity.
  - apply C77_file_error. now left.
Qed.
Example C77_crash_ex : file_crash (unlines (P_Crash.start ++ some_comp ++ [lit "$Comp"; lit "L R R2"])) XAny.
Proof. apply (SpellKind.data_panic []). vm_compute. reflexivity. Qed.
