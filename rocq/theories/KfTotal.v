(** Reading a file: crashes, and written files read back. *)
From Coq Require Import String Lia.
From Verif Require Import Base Str StrFacts Sexp FpData FpWf FpSer LyData LyWf LySer FpLibTable Formatter FormatterSpec DocSpec DocText DocTextFacts LibFns
  SchData SchPrint SchParse SchWf SchEnds SymData SymPrint SymParse SymWf SymFacts KicadFile KfSpec KfFacts SxTotal.

Lemma no_crash_two n s : parse_schematic (Some n) s <> Panic -> parse_symbol_lib s <> Panic -> no_crash n s.
Proof. intros H1 H2. unfold no_crash. auto using parse_module_np, parse_layout_np, parse_table_np. Qed.
Lemma unknown_two n s x : parse_schematic (Some n) s <> Panic -> parse_symbol_lib s <> Panic -> (forall f, ~ accepted n s f) ->
  (x = XAny -> read_data n s x = Ok (KUnknown n)) /\ (x <> XAny -> exists e, read_data n s x = Err e).
Proof. intros H1 H2. apply unknown. now apply no_crash_two. Qed.
Lemma attempt_np {A} (r : res A) mk stop rest : r <> Panic -> (stop = false -> rest <> Panic) -> attempt r mk stop rest <> Panic.
Proof. intros H1 H2. unfold attempt. destruct r; [discriminate| |congruence]. destruct stop; [discriminate|auto]. Qed.
Lemma read_np n s x : (rank x >= 1 -> parse_schematic (Some n) s <> Panic)%nat -> (rank x >= 3 -> parse_symbol_lib s <> Panic)%nat ->
  read_data n s x <> Panic.
Proof.
  intros H1 H2. unfold read_data.
  apply attempt_np; [apply parse_module_np|intros E1].
  apply attempt_np; [apply H1; destruct x; cbn; try discriminate; auto with arith|intros E2].
  apply attempt_np; [apply parse_layout_np|intros E3].
  apply attempt_np; [apply H2; destruct x; cbn; try discriminate; auto with arith|intros E4].
  apply attempt_np; [unfold parse_project; now destruct (negb _)|intros E5].
  apply attempt_np; [apply parse_table_np|discriminate].
Qed.
Lemma read_panic n s x : read_data n s x = Panic <->
  (parse_schematic (Some n) s = Panic /\ 1 <= rank x \/ parse_symbol_lib s = Panic /\ 3 <= rank x)%nat.
Proof.
  split.
  - intros H.
    destruct (is_panic (parse_schematic (Some n) s) && Nat.leb 1 (rank x)) eqn:A.
    { left. apply andb_true_iff in A as [A1 A2]. apply Nat.leb_le in A2. split; [|exact A2].
      destruct (parse_schematic (Some n) s); try discriminate. reflexivity. }
    destruct (is_panic (parse_symbol_lib s) && Nat.leb 3 (rank x)) eqn:B.
    { right. apply andb_true_iff in B as [B1 B2]. apply Nat.leb_le in B2. split; [|exact B2].
      destruct (parse_symbol_lib s); try discriminate. reflexivity. }
    exfalso. revert H. apply read_np; intros R E.
    + rewrite E in A. apply Nat.leb_le in R. cbn [is_panic andb] in A. congruence.
    + rewrite E in B. apply Nat.leb_le in R. cbn [is_panic andb] in B. congruence.
  - intros [[E R]|[E R]].
    + destruct (sch_headed (Some n) s) as [[e H]|C]; [congruence|].
      destruct (others n s XSchematic C) as (O1 & _). destruct (O1 ltac:(discriminate)) as [e H].
      unfold read_data, attempt. rewrite H, E. destruct x; try reflexivity. exfalso. cbn in R. inversion R.
    + destruct (lib_headed s) as [[e H]|C]; [congruence|].
      destruct (others n s XSymbolLib C) as (O1 & O2 & O3 & _). destruct (O1 ltac:(discriminate)) as [e1 H1].
      destruct (O2 ltac:(discriminate)) as [e2 H2]. destruct (O3 ltac:(discriminate)) as [e3 H3].
      unfold read_data, attempt. rewrite H1, H2, H3, E. destruct x; try reflexivity; exfalso; cbn in R; clear -R; lia.
Qed.

(** ** Saved files *)
Section Saved.
Variable (nq : str -> bool) (fs : files) (n : str) (x : expected).
Lemma saved_module m : quote_contract nq -> module_ok m = true -> forallb no_quote (module_strs m) = true ->
  read_kicad_file (write_module nq fs m n) n x = Ok (KModule m).
Proof. intros Q W S. apply (read_written fs n _ (KModule m)); [now apply rt_module_text|cbn; lia]. Qed.
Lemma saved_layout l : quote_contract nq -> layout_ok l = true -> forallb no_quote (layout_strs l) = true ->
  forallb doc_ok (layout_other l) = true -> (2 <= rank x)%nat -> read_kicad_file (write_layout nq fs l n) n x = Ok (KLayout l).
Proof. intros Q W S O R. apply (read_written fs n _ (KLayout l)); [now apply rt_layout_text|exact R]. Qed.
Lemma saved_table t i : quote_contract nq -> forallb no_quote (flat_map flib_strs t) = true -> (5 <= rank x)%nat ->
  read_kicad_file (write_file fs n (table_to_string nq t i)) n x = Ok (KFpLibTable t).
Proof. intros Q S R. apply (read_written fs n _ (KFpLibTable t)); [now apply rt_table_text|exact R]. Qed.
Lemma saved_schematic s : sch_ok s = true -> sc_filename s = Some n -> (1 <= rank x)%nat ->
  read_kicad_file (write_file fs n (print_schematic s)) n x = Ok (KSchematic s).
Proof.
  intros W F R. apply (read_written fs n _ (KSchematic s)); [|exact R]. cbn [accepted]. rewrite <- F. now apply rt_schematic.
Qed.
Lemma saved_symbol_lib l : symbol_lib_ok l = true -> (3 <= rank x)%nat ->
  exists t, print_symbol_lib l = Ok t /\ read_kicad_file (write_file fs n t) n x = Ok (KSymbolLib l).
Proof.
  intros W R. destruct (rt_library l W) as (t & P & H). exists t. split; [exact P|].
  apply (read_written fs n _ (KSymbolLib l)); [exact H|exact R].
Qed.
Lemma saved_project d d' : parse_project d = Ok d' -> (4 <= rank x)%nat -> read_kicad_file (write_file fs n d') n x = Ok (KProject d').
Proof.
  intros H R. apply (read_written fs n _ (KProject d')); [|exact R]. cbn [accepted].
  unfold parse_project in *. destruct (negb _) eqn:E; [discriminate|]. injection H as <-. now rewrite E.
Qed.
Lemma other_files d m : m <> n -> read_kicad_file (write_file fs n d) m x = read_kicad_file fs m x.
Proof.
  intros H. unfold read_kicad_file, read_file, write_file. destruct (str_eqb m n) eqn:E; [|reflexivity].
  apply str_eqb_eq in E. contradiction.
Qed.
End Saved.
