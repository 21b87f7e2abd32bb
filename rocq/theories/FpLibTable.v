(** Footprint library table (/repo/src/fp_lib_table.rs). *)
From Coq Require Import String.
From Verif Require Import Base Str Sexp.
Open Scope string_scope. Open Scope list_scope.

(** fp_lib_table.rs:22-33, 15-18 *)
Record flib := mk_flib {
  fb_name : str; fb_type : str; fb_uri : str; fb_options : str; fb_descr : str }.
Definition fp_lib_table := list flib.

(** fp_lib_table.rs:53-63, 43-51 *)
Definition ser_flib (l : flib) : sexp :=
  node "lib"
    [kv "name" (SStr (fb_name l)); kv "type" (SStr (fb_type l)); kv "uri" (SStr (fb_uri l));
     kv "options" (SStr (fb_options l)); kv "descr" (SStr (fb_descr l))].
Definition ser_fp_lib_table (t : fp_lib_table) : sexp := node "fp_lib_table" (map ser_flib t).

(** fp_lib_table.rs:73-89 (no [close]: further elements are ignored), 65-71 *)
Definition de_flib (s : sexp) : res flib :=
  iter_new s (lit "lib")
    (let* n := p_s_in "name" in
     let* t := p_s_in "type" in
     let* u := p_s_in "uri" in
     let* o := p_s_in "options" in
     let* d := p_s_in "descr" in
     pret (mk_flib n t u o d)).
Definition de_fp_lib_table (s : sexp) : res fp_lib_table :=
  iter_new s (lit "fp_lib_table") (p_vec de_flib).
