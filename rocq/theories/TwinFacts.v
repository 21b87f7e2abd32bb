(** Lemmas for P_Twins.v: documents that share a file. *)
From Coq Require Import String.
From Verif Require Import Base Str StrFacts Num F64 Sexp FpData FpSer FpDe LyData LySer LyDe FpLibTable FormatterSpec DocSpec DocText KeepSpec
  ExactFacts ExactLy SettleFacts SxText DocTextFacts SchData SchPrint SchParse SchWf SymData SymPrint SymParse SymWf SchExact SymExact P_Exact P_Survive.
Open Scope string_scope. Open Scope list_scope.

(** Reading gives one document; one that survives is the one read. *)
Lemma one_reading {A T} (txt : A -> T -> Prop) (rd : T -> res A) (ok : A -> Prop)
  (E : forall x t, txt x t -> (rd t = Ok x <-> ok x)) x y t :
  ok x -> txt x t -> txt y t -> (y = x <-> ok y).
Proof.
  intros O X Y. split; [intros ->; exact O|]. intros O'.
  pose proof (proj2 (E _ _ X) O) as R. pose proof (proj2 (E _ _ Y) O') as R'. rewrite R in R'.
  assert (J : forall a b : A, Ok a = Ok b -> a = b) by (intros a b K; now injection K).
  symmetry. now apply J.
Qed.

Lemma twin_module nq m m' n n' : quote_contract nq -> module_saves m = true ->
  module_to_string nq m' n' = module_to_string nq m n -> (m' = m <-> module_saves m' = true).
Proof.
  intros Q S E.
  apply (one_reading (fun m t => exists n, module_to_string nq m n = t) parse_module (fun m => module_saves m = true)) with (t := module_to_string nq m n);
    [|exact S|now exists n|exists n'; exact E].
  intros x t (k & <-). now apply C62_module.
Qed.
Lemma twin_layout nq m m' n n' : quote_contract nq -> layout_saves m = true ->
  layout_to_string nq m' n' = layout_to_string nq m n -> (m' = m <-> layout_saves m' = true).
Proof.
  intros Q S E.
  apply (one_reading (fun m t => exists n, layout_to_string nq m n = t) parse_layout (fun m => layout_saves m = true)) with (t := layout_to_string nq m n);
    [|exact S|now exists n|exists n'; exact E].
  intros x t (k & <-). now apply C62_layout.
Qed.
Lemma twin_table nq m m' n n' : quote_contract nq -> forallb no_quote (flat_map flib_strs m) = true ->
  table_to_string nq m' n' = table_to_string nq m n -> (m' = m <-> forallb no_quote (flat_map flib_strs m') = true).
Proof.
  intros Q S E.
  apply (one_reading (fun m t => exists n, table_to_string nq m n = t) parse_table (fun m => forallb no_quote (flat_map flib_strs m) = true))
    with (t := table_to_string nq m n); [|exact S|now exists n|exists n'; exact E].
  intros x t (k & <-). now apply C62_table.
Qed.
Lemma twin_schematic s s' : (Z.of_nat (length (print_schematic s)) < 2 ^ 31)%Z -> sc_filename s' = sc_filename s -> sch_ok s = true ->
  print_schematic s' = print_schematic s -> (s' = s <-> sch_ok s' = true).
Proof.
  intros L F S E.
  apply (one_reading (fun x t => sc_filename x = sc_filename s /\ print_schematic x = t /\ t = print_schematic s) (parse_schematic (sc_filename s))
    (fun x => sch_ok x = true)) with (t := print_schematic s); [|exact S|auto|auto].
  intros x t (N & <- & T). rewrite <- N. apply C82_schematic. rewrite T. exact L.
Qed.
Lemma twin_library l l' t : symbol_lib_ok l = true -> print_symbol_lib l = Ok t -> print_symbol_lib l' = Ok t -> (l' = l <-> symbol_lib_ok l' = true).
Proof.
  intros S E E'.
  apply (one_reading (fun x t => print_symbol_lib x = Ok t) parse_symbol_lib (fun x => symbol_lib_ok x = true)) with (t := t); [|exact S|exact E|exact E'].
  intros x u P. rewrite <- C82_library. split; [intros R; now exists u|].
  intros (v & P' & R). rewrite P in P'. injection P' as <-. exact R.
Qed.
