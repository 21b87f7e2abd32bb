(** Property theorems: what the URI of a footprint library stands for (C93). *)
From Coq Require Import String.
From Verif Require Import Base Str StrFacts FpLibTable Expand ExpandSpec ExpandFacts.
Open Scope string_scope. Open Scope list_scope. Open Scope N_scope.

(** Every URI reads in one way as letters and variables. *)
Theorem C93_one_reading uni s : exists ps, spelled uni s ps /\ forall qs, spelled uni s qs -> qs = ps.
Proof. exact (spelled_one uni s). Qed.
Print Assumptions C93_one_reading.
(** The result, and the variable an error names, for every library, environment and home
    directory *)
Theorem C93_expanded uni env home l t : get_expanded_uri uni env home l = XDone t <->
  exists ps x, spelled uni (fb_uri l) ps /\ filled env ps x /\ located home (fb_uri l) x t.
Proof. exact (full_done uni env home (fb_uri l) t). Qed.
Print Assumptions C93_expanded.
Theorem C93_missing uni env home l v : get_expanded_uri uni env home l = XMissing v <-> exists ps, spelled uni (fb_uri l) ps /\ lacks env ps v.
Proof. exact (full_missing uni env home (fb_uri l) v). Qed.
Print Assumptions C93_missing.
Theorem C93_ends uni env home l : get_expanded_uri uni env home l <> XFuel.
Proof. exact (full_ends uni env home (fb_uri l)). Qed.
Print Assumptions C93_ends.
(** It succeeds exactly if all variables in it are set, and depends on no others. *)
Theorem C93_succeeds uni env home l ps : spelled uni (fb_uri l) ps ->
  ((exists t, get_expanded_uri uni env home l = XDone t) <-> forall v, In (Var v) ps -> env v <> None).
Proof. exact (full_all uni env home (fb_uri l) ps). Qed.
Print Assumptions C93_succeeds.
Theorem C93_depends uni env env' home l ps : spelled uni (fb_uri l) ps -> (forall v, In (Var v) ps -> env v = env' v) ->
  get_expanded_uri uni env home l = get_expanded_uri uni env' home l.
Proof. exact (full_ext uni env env' home (fb_uri l) ps). Qed.
Print Assumptions C93_depends.
(** The usual forms: a plain path, a path under a variable, a path under the home
    directory.  What a variable holds is not looked into again. *)
Theorem C93_plain uni env home l : ~ In 36 (fb_uri l) -> (forall r, ~ homeward (fb_uri l) (fb_uri l) r) -> get_expanded_uri uni env home l = XDone (fb_uri l).
Proof. exact (full_plain uni env home (fb_uri l)). Qed.
Print Assumptions C93_plain.
Theorem C93_variable uni env home l v x r : fb_uri l = lit "${" ++ v ++ lit "}" ++ r -> ~ In 125 v -> env v = Some x -> ~ In 36 r ->
  get_expanded_uri uni env home l = XDone (x ++ r).
Proof. exact (fun E V X N => eq_trans (f_equal (full uni env home) E) (full_prefix uni env home v x r V X N)). Qed.
Print Assumptions C93_variable.
Theorem C93_home uni env h l r : fb_uri l = lit "~" ++ r -> ~ In 36 r -> ends_before (fun c => c <> 47) r ->
  get_expanded_uri uni env (Some h) l = XDone (h ++ r).
Proof. exact (fun E N H => eq_trans (f_equal (full uni env (Some h)) E) (full_home uni env h r N H)). Qed.
Print Assumptions C93_home.

Definition ex_env (v : str) : option str :=
  if str_eqb v (lit "KISYSMOD") then Some (lit "/usr/share/kicad/modules") else if str_eqb v (lit "D") then Some (lit "$$") else if str_eqb v (lit "T") then Some (lit "~/t") else None.
Definition uri (s : string) : flib := mk_flib (lit "Resistors") (lit "KiCad") (lit s) [] [].
Definition ex_uni (c : N) : bool := (c =? 233)%N.
Definition exp (s : string) : expansion := get_expanded_uri ex_uni ex_env (Some (lit "/home/u")) (uri s).
Example C93_ex :
  exp "${KISYSMOD}/R.pretty" = XDone (lit "/usr/share/kicad/modules/R.pretty") /\ exp "$KISYSMOD/R.pretty" = XDone (lit "/usr/share/kicad/modules/R.pretty") /\
  exp "~/R.pretty" = XDone (lit "/home/u/R.pretty") /\ exp "~u/R" = XDone (lit "~u/R") /\ exp "a$$b${c$ d$" = XDone (lit "a$b${c$ d$") /\
  exp "$T/${NOPE}/$ALSO" = XMissing (lit "NOPE") /\ exp "$T" = XDone (lit "~/t") /\ exp "${D}" = XDone (lit "$$").
Proof. split; [|split; [|split; [|split; [|split; [|split; [|split]]]]]]; vm_compute; reflexivity. Qed.
(** So expanding a result again can give another text. *)
Theorem C93_again_refuted : exists env l t, get_expanded_uri (fun _ => false) env None l = XDone t /\
  get_expanded_uri (fun _ => false) env None (mk_flib (fb_name l) (fb_type l) t (fb_options l) (fb_descr l)) <> XDone t.
Proof. exists ex_env, (uri "$D"), (lit "$$"). split; [vm_compute; reflexivity|]. vm_compute. discriminate. Qed.
Print Assumptions C93_again_refuted.
