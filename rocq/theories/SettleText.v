(** Repeated saving of line-based documents: lines that end in several carriage
    returns lose one per round. *)
From Coq Require Import String Lia.
From Verif Require Import Base Str StrFacts Num F64 SchData SchPrint SchParse SchEnds SymData SymPrint SymParse.
Open Scope string_scope. Open Scope list_scope.

(** Reading and saving [n] times in a row. *)
Fixpoint rounds (save : str -> res str) (n : nat) (t : str) : res str :=
  match n with O => Ok t | S k => do u <- save t; rounds save k u end.
Definition save_sch (t : str) : res str := do s <- parse_schematic None t; Ok (print_schematic s).
Definition save_lib (t : str) : res str := do l <- parse_symbol_lib t; print_symbol_lib l.

Definition crs (n : nat) : str := repeat 13%N n.

Lemma lines_strip ls : forallb no_nl ls = true -> lines (concat (map ln ls)) = map strip_cr ls.
Proof. intros H. unfold lines. now rewrite split_on_lines, drop_last_empty_app. Qed.

Lemma strip_cr_last s : strip_cr (s ++ [13%N]) = s.
Proof. induction s as [|c s IH]; [reflexivity|]. cbn [app]. destruct (s ++ [13%N]) eqn:E; [now destruct s|].
  change (strip_cr (c :: n :: l)) with (c :: strip_cr (n :: l)). now rewrite IH. Qed.
Lemma strip_crs x n : (last x 0 =? 13)%N = false -> strip_cr (x ++ crs (S n)) = x ++ crs n.
Proof.
  intros _. unfold crs. replace (S n) with (n + 1)%nat by lia. rewrite repeat_app, app_assoc. apply strip_cr_last.
Qed.
Lemma crs_no_nl n : no_nl (crs n) = true.
Proof. induction n as [|n IH]; [reflexivity|exact IH]. Qed.
Lemma no_nl_app a b : no_nl a = true -> no_nl b = true -> no_nl (a ++ b) = true.
Proof. unfold no_nl. rewrite forallb_app. intros -> ->. reflexivity. Qed.

(** ** Schematics *)
Definition cr_descr : description := mk_descr (lit "A4") 100 200 [] [] [] [] [] [] [] [] 1 1.
Definition cr_sch (x : str) : schematic :=
  mk_sch None [] cr_descr [SText (mk_stext TNote 1 2 0 60 None false 0 x)] [] (lit "EELAYER 25 0").
Lemma cr_sch_lines x : parse_lines None (sch_lines (cr_sch x)) = Ok (cr_sch x).
Proof. vm_compute. reflexivity. Qed.
Definition cr_pre : list str := Eval vm_compute in removelast (removelast (sch_lines (cr_sch []))).
Lemma cr_shape x : sch_lines (cr_sch x) = cr_pre ++ [x; lit "$EndSCHEMATC"].
Proof. vm_compute. reflexivity. Qed.
Lemma cr_sch_save n : save_sch (print_schematic (cr_sch (lit "x" ++ crs (S n)))) = Ok (print_schematic (cr_sch (lit "x" ++ crs n))).
Proof.
  unfold save_sch, parse_schematic. unfold print_schematic at 1. rewrite unlines_concat, lines_strip.
  - replace (map strip_cr (sch_lines (cr_sch (lit "x" ++ crs (S n))))) with (sch_lines (cr_sch (lit "x" ++ crs n))).
    + rewrite cr_sch_lines. reflexivity.
    + rewrite !cr_shape, map_app. cbn [map]. rewrite strip_crs by reflexivity. reflexivity.
  - rewrite cr_shape, forallb_app. cbn [forallb]. rewrite no_nl_app; [reflexivity|reflexivity|apply crs_no_nl].
Qed.
Lemma rounds_sch m n : rounds save_sch m (print_schematic (cr_sch (lit "x" ++ crs (m + n)))) = Ok (print_schematic (cr_sch (lit "x" ++ crs n))).
Proof.
  induction m as [|m IH]; [reflexivity|]. change (S m + n)%nat with (S (m + n)). cbn [rounds]. rewrite cr_sch_save. cbn [bind]. exact IH.
Qed.
Lemma rounds_S save n t u : rounds save n t = Ok u -> rounds save (S n) t = save u.
Proof.
  revert t. induction n as [|n IH]; intros t H.
  - cbn in H. injection H as <-. cbn. now destruct (save t).
  - cbn [rounds] in H. change (rounds save (S (S n)) t) with (do v <- save t; rounds save (S n) v). destruct (save t) as [v| |]; try discriminate.
    cbn [bind] in *. now apply IH.
Qed.
Lemma cr_sch_length n : length (print_schematic (cr_sch (lit "x" ++ crs n))) = (length (print_schematic (cr_sch (lit "x"))) + n)%nat.
Proof.
  unfold print_schematic, unlines. rewrite !cr_shape, !flat_map_app, !app_length. cbn [flat_map]. unfold ln. rewrite !app_length.
  unfold crs. rewrite repeat_length. lia.
Qed.
Lemma sch_unbounded n : exists t u v, rounds save_sch n t = Ok u /\ rounds save_sch (S n) t = Ok v /\ v <> u.
Proof.
  exists (print_schematic (cr_sch (lit "x" ++ crs (n + 1)))). do 2 eexists. pose proof (rounds_sch n 1) as H.
  split; [exact H|]. split; [rewrite (rounds_S _ _ _ _ H); apply (cr_sch_save 0)|].
  intros E. apply (f_equal (@length N)) in E. rewrite !cr_sch_length in E. lia.
Qed.

(** ** Symbol libraries *)
Definition cr_field (i : Z) (n : string) : sfield := mk_sfield i (lit "v") fzero fzero 50 Horizontal true SJLeft SJLeft false false (lit n).
Definition cr_lib (x : str) : list symbol :=
  [mk_symbol (lit "A") (lit "U") fzero true true 1 false false [cr_field 0 "Reference"; cr_field 1 "Value"] [] [DOther (lit "T " ++ x)]].
Definition lib_pre : list str := Eval vm_compute in
  match print_symbol_lib (cr_lib []) with Ok t => removelast (removelast (removelast (removelast (removelast (lines t))))) | _ => [] end.
Definition lib_text (x : str) : str :=
  unlines (lib_pre ++ [lit "T " ++ x; lit "ENDDRAW"; lit "ENDDEF"; lit "#"; lit "#End Library"]).
Lemma cr_lib_print x : print_symbol_lib (cr_lib x) = Ok (lib_text x).
Proof. vm_compute. reflexivity. Qed.
Lemma cr_lib_lines x :
  (do l <- parse_symbol_lines (lib_pre ++ [lit "T " ++ x; lit "ENDDRAW"; lit "ENDDEF"; lit "#"; lit "#End Library"]); print_symbol_lib l) = Ok (lib_text x).
Proof. vm_compute. reflexivity. Qed.
Lemma cr_lib_save n : save_lib (lib_text (crs (S n))) = Ok (lib_text (crs n)).
Proof.
  unfold save_lib, parse_symbol_lib. unfold lib_text at 1. rewrite unlines_concat, lines_strip.
  - replace (map strip_cr _) with (lib_pre ++ [lit "T " ++ crs n; lit "ENDDRAW"; lit "ENDDEF"; lit "#"; lit "#End Library"]).
    + apply cr_lib_lines.
    + rewrite map_app. cbn [map]. rewrite strip_crs by reflexivity. reflexivity.
  - rewrite forallb_app. cbn [forallb]. rewrite no_nl_app; [reflexivity|reflexivity|apply crs_no_nl].
Qed.
Lemma rounds_lib m n : rounds save_lib m (lib_text (crs (m + n))) = Ok (lib_text (crs n)).
Proof.
  induction m as [|m IH]; [reflexivity|]. change (S m + n)%nat with (S (m + n)). cbn [rounds]. rewrite cr_lib_save. cbn [bind]. exact IH.
Qed.
Lemma cr_lib_length n : length (lib_text (crs n)) = (length (lib_text []) + n)%nat.
Proof.
  unfold lib_text, unlines. rewrite !flat_map_app, !app_length. cbn [flat_map]. unfold ln. rewrite !app_length.
  unfold crs. rewrite repeat_length. cbn [length]. lia.
Qed.
Lemma lib_unbounded n : exists t u v, rounds save_lib n t = Ok u /\ rounds save_lib (S n) t = Ok v /\ v <> u.
Proof.
  exists (lib_text (crs (n + 1))). do 2 eexists. pose proof (rounds_lib n 1) as H.
  split; [exact H|]. split; [rewrite (rounds_S _ _ _ _ H); apply (cr_lib_save 0)|].
  intros E. apply (f_equal (@length N)) in E. rewrite !cr_lib_length in E. lia.
Qed.
