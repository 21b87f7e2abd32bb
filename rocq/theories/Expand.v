(** Footprint library URIs: /repo/src/fp_lib_table.rs:35-41.  The function is one call of
    [shellexpand::full].  That crate (version 1.0) is not part of the repository and not
    available here; its functions are modelled as its documentation and published source
    have them, and this is an assumption of C93.  Simplified: the crate cuts at byte
    positions; a letter of several bytes right after a dollar is taken here as any letter. *)
From Coq Require Import String.
From Verif Require Import Base Str FpLibTable.
Open Scope string_scope. Open Scope list_scope. Open Scope N_scope.

(** [Result<String, LookupError>]: the error names the variable.  [EFuel] does not occur. *)
Inductive expansion := XDone (s : str) | XMissing (v : str) | XFuel.
(** [result.push_str] before the rest of the loop *)
Definition push_str (p : str) (r : expansion) : expansion := match r with XDone s => XDone (p ++ s) | x => x end.

(** [char::is_alphanumeric] or an underscore; [uni] decides beyond ASCII *)
Definition name_char (uni : N -> bool) (c : N) : bool :=
  (c =? 95) || ((48 <=? c) && (c <=? 57)) || ((65 <=? c) && (c <=? 90)) || ((97 <=? c) && (c <=? 122)) || ((127 <? c) && uni c).
(** [&s[..i]] and [&s[i..]] for the first [i] where [p] fails, or the end *)
Fixpoint span (p : N -> bool) (s : str) : str * str :=
  match s with
  | [] => ([], [])
  | c :: r => if p c then let (a, b) := span p r in (c :: a, b) else ([], s)
  end.
(** [s.find(c)] with the parts before and after *)
Fixpoint cut_at (x : N) (s : str) : option (str * str) :=
  match s with
  | [] => None
  | c :: r => if c =? x then Some ([], r) else match cut_at x r with Some (a, b) => Some (c :: a, b) | None => None end
  end.
(** [context(var_name)] with [std::env::var] as context: a variable that is not set is an
    error *)
Definition look_up (env : str -> option str) (v : str) (r : expansion) : expansion :=
  match env v with Some x => push_str x r | None => XMissing v end.
(** shellexpand::env_with_context, the loop *)
Fixpoint env_loop (fuel : nat) (uni : N -> bool) (env : str -> option str) (s : str) : expansion :=
  match fuel with
  | O => XFuel
  | S f =>
      let (pre, r) := span (fun c => negb (c =? 36)) s in
      push_str pre
        match r with
        | [] => XDone []
        | _ :: [] => push_str [36] (env_loop f uni env [])
        | _ :: c :: u =>
            if c =? 123 then
              match cut_at 125 u with
              | Some (v, w) => look_up env v (env_loop f uni env w)
              | None => push_str [36; 123] (env_loop f uni env u)
              end
            else if name_char uni c then
              let (v, w) := span (name_char uni) u in look_up env (c :: v) (env_loop f uni env w)
            else push_str [36] (env_loop f uni env (if c =? 36 then u else c :: u))
        end
  end.
Definition env_expand (uni : N -> bool) (env : str -> option str) (s : str) : expansion := env_loop (S (length s)) uni env s.
(** shellexpand::tilde_with_context *)
Definition tilde (home : option str) (s : str) : str :=
  match s with
  | 126 :: r => if is_empty r || starts_with (lit "/") r then match home with Some h => h ++ r | None => s end else s
  | _ => s
  end.
(** shellexpand::full_with_context: a tilde that comes out of a variable stays *)
Definition full (uni : N -> bool) (env : str -> option str) (home : option str) (s : str) : expansion :=
  if existsb (fun c => c =? 36) s then
    match env_expand uni env s with
    | XDone t => XDone (if negb (starts_with (lit "~") s) && starts_with (lit "~") t then t else tilde home t)
    | x => x
    end
  else XDone (tilde home s).
(** fp_lib_table.rs:37-40 *)
Definition get_expanded_uri (uni : N -> bool) (env : str -> option str) (home : option str) (l : flib) : expansion := full uni env home (fb_uri l).
