(** Property theorems: the files of sheets (C72). *)
From Coq Require Import String.
From Verif Require Import Base Str StrFacts SchData SchParse SchOps Paths PathSpec PathFacts.
Open Scope string_scope. Open Scope list_scope.

(** ** C72 *)
(** The file of a sheet is looked for in the directory of the schematic, unless its name
    is absolute. *)
Theorem C72_place : forall r s h p g b l b' l', sc_filename s = Some p -> filename_for_sheet (unix_fs r) s h = Ok g ->
  leads p b l -> leads (sh_filename h) b' l' -> leads g (b || b') (if b' then l' else removelast l ++ l').
Proof. exact sheet_file. Qed.
Print Assumptions C72_place.
(** There is none exactly when the schematic has no name, or an empty one, or its name is
    the root. *)
Theorem C72_none : forall r s h, (forall g, filename_for_sheet (unix_fs r) s h <> Ok g) <->
  (sc_filename s = None \/ exists p b, sc_filename s = Some p /\ leads p b [] /\ (p = [] \/ b = true)).
Proof. exact sheet_none. Qed.
Print Assumptions C72_none.
(** As texts *)
Theorem C72_beside : forall r s h d n, sc_filename s = Some (d ++ 47%N :: n) -> ends_in_step d \/ d = lit "." -> ~ In 47%N n -> step n = true ->
  starts_with (lit "/") (sh_filename h) = false -> filename_for_sheet (unix_fs r) s h = Ok (d ++ 47%N :: sh_filename h).
Proof. exact sheet_beside. Qed.
Print Assumptions C72_beside.
Theorem C72_alone : forall r s h n, sc_filename s = Some n -> ~ In 47%N n -> step n = true -> filename_for_sheet (unix_fs r) s h = Ok (sh_filename h).
Proof. exact sheet_alone. Qed.
Print Assumptions C72_alone.
(** A loaded sheet knows its own file, so its sheets are looked for beside it. *)
Theorem C72_nested : forall r s h c, parse_file_for_sheet (unix_fs r) s h = Ok c ->
  exists g, filename_for_sheet (unix_fs r) s h = Ok g /\ sc_filename c = Some g.
Proof. exact sheet_loaded. Qed.
Print Assumptions C72_nested.
Definition at_path (p : string) : schematic := mk_sch (Some (lit p)) [] descr_default [] [] [].
Definition sheet_in (f : string) : sheet := mk_sheet 0 0 0 0 [] [] 60 (lit f) 60 [].
Example C72_ex : let go p f := filename_for_sheet (unix_fs (fun _ => Err EIo)) (at_path p) (sheet_in f) in
  go "/home/x/main.sch" "sub/b.sch" = Ok (lit "/home/x/sub/b.sch") /\ go "../main.sch" "b.sch" = Ok (lit "../b.sch") /\ go "a//./main.sch/" "b.sch" = Ok (lit "a/b.sch") /\
  go "main.sch" "/abs/b.sch" = Ok (lit "/abs/b.sch") /\ go "/" "b.sch" = Err EOther.
Proof. vm_compute. repeat split. Qed.
Example C72_place_ex : leads (lit "/home/./x//main.sch") true [lit "home"; lit "x"; lit "main.sch"] /\ ends_in_step (lit "/home/x").
Proof.
  split; [apply leads_iff; vm_compute; split; reflexivity|]. exists (lit "x"). split; [reflexivity|split; [vm_compute; intuition discriminate|right; exists (lit "/home"); reflexivity]].
Qed.
