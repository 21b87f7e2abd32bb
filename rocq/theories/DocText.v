(** Texts of footprints, layouts and library tables. [nq] is the quoting rule of
    the S-expression writer (see Formatter.v). *)
From Coq Require Import String.
From Verif Require Import Base Str Sexp FpData FpSer FpDe LyData LySer LyDe FpLibTable Formatter.

(** footprint/mod.rs:19-23, 57-61 *)
Definition module_to_string (nq : str -> bool) (m : module) (level : Z) : str := pretty nq level (ser_module m).
Definition parse_module (s : str) : res module := do t <- read_sexp s; de_module t.

(** layout/mod.rs:16-31 *)
Definition layout_to_string (nq : str -> bool) (l : layout) (level : Z) : str := pretty nq level (ser_layout l) ++ [10%N].
Definition parse_layout (s : str) : res layout := do t <- read_sexp s; de_layout t.

(** fp_lib_table.rs:92-103 *)
Definition table_to_string (nq : str -> bool) (t : fp_lib_table) (level : Z) : str := pretty nq level (ser_fp_lib_table t).
Definition parse_table (s : str) : res fp_lib_table := do t <- read_sexp s; de_fp_lib_table t.
