(** Property theorems: what the errors of operations say (C100). *)
From Coq Require Import String.
From Verif Require Import Base Str StrFacts FpData FpOps FpExamples LyData LyOps LySpec LyExamples SchData SchParse SchOps SchSpec CutSpec SchReadSpec ErrSpec Said FileErr FileErrFacts
  WalkSpec WalkErr WalkErrSpec WalkErrFacts P_SchOps P_Walk P_Err.
Open Scope string_scope. Open Scope list_scope.

(** ** C100 *)
(** Texts apart, these are the operations of C24, C25, C84 and C85. *)
Theorem C100_same : (forall fs n s, untold (all_told fs n s) = all_components fs n s) /\
  (forall fs n r s, untold (component_told fs n r s) = component_by_reference fs n r s) /\
  (forall l r f, (fst (modify_told l r f), told_kind (snd (modify_told l r f))) = modify_module l r f) /\
  (forall new n, (fst (unnamed_told new n), told_kind (snd (unnamed_told new n))) = set_unnamed_net new n).
Proof. exact (conj untold_all (conj (fun fs n r => untold_component fs n r) (conj modify_kind unnamed_kind))). Qed.
Print Assumptions C100_same.
(** A sheet that cannot be opened: which of the texts it is. *)
Theorem C100_sheet : forall fs s h m, sheet_told fs s h = TSays m <-> sheet_says fs s h m.
Proof. exact sheet_iff. Qed.
Print Assumptions C100_sheet.
(** Collecting all components *)
Theorem C100_all : forall fs s m, walk_says fs s m <-> exists n, forall k, (n <= k)%nat -> all_told fs k s = TSays m.
Proof. exact walk_iff. Qed.
Print Assumptions C100_all.
(** Looking for a reference *)
Theorem C100_component : forall fs, (forall p, fs_read fs p <> Err EFuel) -> forall r s m,
  search_says fs r s m <-> exists n, forall k, (n <= k)%nat -> component_told fs k r s = TSays m.
Proof. exact search_iff. Qed.
Print Assumptions C100_component.
(** Changing a footprint: the text names the reference, and nothing was changed. *)
Theorem C100_module : forall l r f m, snd (modify_told l r f) = TSays m <->
  m = lit "did not find module with reference " ++ r /\ forall x, In (YModule x) (ly_elements l) -> ~ carries r x.
Proof. exact modify_lacks. Qed.
Print Assumptions C100_module.
Theorem C100_module_same : forall l r f m, snd (modify_told l r f) = TSays m -> fst (modify_told l r f) = l.
Proof. exact modify_unchanged. Qed.
Print Assumptions C100_module_same.
(** Renaming a net that has no name of its own *)
Theorem C100_net : forall new n m, snd (unnamed_told new n) = TSays m <->
  m = lit "net is not an unnamed net: " ++ n /\ forall a b, ~ unnamed_form n a b.
Proof. exact unnamed_says. Qed.
Print Assumptions C100_net.
(** The kinds of errors can be told apart by what is shown. *)
Theorem C100_shown : forall a b, show_error a = show_error b -> a = b.
Proof. exact show_one. Qed.
Print Assumptions C100_shown.

Definition no_dir : fsys := mk_fs (fun _ _ => None) (fun _ => Err EIo).
Definition broken : fsys := mk_fs (fun _ f => Some f) (fun p => if str_eqb p (lit "c.sch") then Ok (text_of ["hello"]) else if str_eqb p (lit "b.sch") then Ok (text_of (sch_head ++ ["$EndSCHEMATC"])) else Err EIo).
Definition heard_c (fs : fsys) (n : nat) (r : string) (s : schematic) : told unit := tbind (component_told fs n (lit r) s) (fun _ => TFine tt).
Definition heard_a (fs : fsys) (n : nat) (s : schematic) : told unit := tbind (all_told fs n s) (fun _ => TFine tt).
Definition nameless : schematic := mk_sch None [] tdescr [SComponent (tcomp "R1")] [tsheet "b.sch"] (lit "EELAYER 25 0").
Example C100_ex :
  heard_c broken 3 "R2" (tsch "a.sch" ["R1"] ["b.sch"]) = TSays (lit "could not find component R2 in schematic") /\
  heard_c broken 3 "R1" (tsch "a.sch" ["R1"] ["c.sch"]) = TFine tt /\
  heard_c broken 3 "R2" (tsch "a.sch" ["R1"] ["b.sch"; "c.sch"]) = TSays (lit "expected 'EESchema Schematic File Version 2', got 'hello'") /\
  heard_c broken 3 "R2" (tsch "a.sch" ["R1"] ["d.sch"]) = TElse EIo /\
  heard_c no_dir 3 "R2" (tsch "a.sch" ["R1"] ["b.sch"]) = TSays (lit "can't load sheet when I don't know the dir of the schematic") /\
  heard_a no_dir 3 nameless = TSays (lit "can't load sheet when there is no filename for the schematic") /\
  heard_a broken 3 (tsch "a.sch" ["R1"] ["b.sch"]) = TFine tt /\
  snd (modify_told ex_layout (lit "nobody") (fun m => m)) = TSays (lit "did not find module with reference nobody") /\
  unnamed_told (lit "R9") (lit "Net-(R1-Pad1)") = (lit "Net-(R9-Pad1)", TFine tt) /\
  unnamed_told (lit "R9") (lit "GND") = (lit "GND", TSays (lit "net is not an unnamed net: GND")) /\
  show_error (ErrOther (lit "x")) = lit "Kicad Other Error: x".
Proof. repeat (apply conj; [vm_compute; reflexivity|]). vm_compute. reflexivity. Qed.
(** The relations hold of such a walk. *)
Example C100_all_ex : walk_says broken (tsch "a.sch" ["R1"] ["b.sch"; "c.sch"]) (lit "expected 'EESchema Schematic File Version 2', got 'hello'").
Proof. apply (run_walk _ 3). vm_compute. reflexivity. Qed.
(** What is wrong further down is not said: the file is broken, and the text is that the
    component was not found. *)
Definition deep : fsys := mk_fs (fun _ f => Some f) (fun p => if str_eqb p (lit "b.sch") then Ok (text_of (sch_head ++ ["$Sheet"; "S 1 2 3 4"; "U 5A"; "F0 ""n"" 60"; "F1 ""c.sch"" 60"; "$EndSheet"; "$EndSCHEMATC"])) else Ok (text_of ["hello"])).
Definition below (t : schematic) : list (told unit) := map (fun h => tbind (sheet_told deep t h) (fun _ => TFine tt)) (sc_sheets t).
Theorem C100_deeper_refuted : exists fs r s h t h2 m, In h (sc_sheets s) /\ opens fs s h t /\ In h2 (sc_sheets t) /\ sheet_says fs t h2 m /\
  search_says fs r s (lit "could not find component " ++ r ++ lit " in schematic").
Proof.
  assert (T : match parse_file_for_sheet deep (tsch "a.sch" ["R1"] ["b.sch"]) (tsheet "b.sch") with Ok t => below t | _ => [] end = [TSays (lit "expected 'EESchema Schematic File Version 2', got 'hello'")])
    by (vm_compute; reflexivity).
  destruct (parse_file_for_sheet deep (tsch "a.sch" ["R1"] ["b.sch"]) (tsheet "b.sch")) as [t| |] eqn:E; [|discriminate T|discriminate T].
  unfold below in T. destruct (sc_sheets t) as [|h2 [|]] eqn:H; [discriminate T| |discriminate T]. cbn [map] in T.
  assert (S : sheet_told deep t h2 = TSays (lit "expected 'EESchema Schematic File Version 2', got 'hello'")) by (destruct (sheet_told deep t h2); try discriminate T; cbn [tbind] in T; now injection T as ->).
  exists deep, (lit "R2"), (tsch "a.sch" ["R1"] ["b.sch"]), (tsheet "b.sch"), t, h2, (lit "expected 'EESchema Schematic File Version 2', got 'hello'").
  split; [now left|]. split; [exact E|]. split; [rewrite H; now left|]. split; [now apply sheet_iff|].
  apply (run_search deep (lit "R2") 3). vm_compute. reflexivity.
Qed.
Print Assumptions C100_deeper_refuted.
