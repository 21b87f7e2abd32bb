(** The integer arithmetic of schematics in a build without overflow checks
    ([cargo build --release]; Cargo.toml sets no profile): sums wrap around instead
    of panicking.  Beside SchOps.v, which models the build with the checks.  Only the
    sums of values from a file are here (schematic.rs:201, 502, 831-834); the counters of lines, labels,
    pads and nesting (schematic.rs:233, 256, 866, symbol_lib.rs:593, 616,
    formatter.rs:98, 312, 324) are bounded by the size of the document. *)
From Coq Require Import String.
From Verif Require Import Base Str Num F64 Bound SchData SchParse SchOps.
Open Scope Z_scope. Open Scope list_scope.

(** i64 addition and subtraction without check *)
Definition wrap (z : Z) : Z := (z + 2 ^ 63) mod 2 ^ 64 - 2 ^ 63.

(** schematic.rs:495-503 *)
Definition w_field_num (c : component) : Z :=
  wrap (fold_left (fun i f => if i <? cf_i f then cf_i f else i) (co_fields c) 0 + 1).
(** 568-582 *)
Definition w_add_new_field (c : component) (t : cfield) (name value : str) : component :=
  set_fields c (co_fields c ++ [with_visible (field_new_from (w_field_num c) name value (cf_x t) (cf_y t)) false]).
(** 548-567 *)
Definition w_add_or_update_field (c : component) (t : cfield) (name value : str) : component * field_update :=
  match get_field_value c name with
  | Some old => if str_eqb old value then (c, USame) else (update_field c name value, UUpdate old)
  | None => (w_add_new_field c t name value, UNew)
  end.
(** 200-202 *)
Definition w_increment_sheet_count (s : schematic) : schematic :=
  let d := sc_description s in
  with_description s (mk_descr (ds_size d) (ds_dimx d) (ds_dimy d) (ds_title d) (ds_date d) (ds_rev d) (ds_comp d)
    (ds_comment1 d) (ds_comment2 d) (ds_comment3 d) (ds_comment4 d) (ds_sheet d) (wrap (ds_count d + 1))).
(** 828-837 *)
Definition w_sheet_bound (h : sheet) : bound :=
  bound_new_i64 (sh_x h) (wrap (sh_y h - 100)) (wrap (sh_x h + sh_dimx h)) (wrap (wrap (sh_y h + sh_dimy h) + 100)).
(** 35-47 *)
Definition w_sch_bound (s : schematic) : bound :=
  bound_swap (bound_all (bound_all bound_default (map selement_bound (sc_elements s))) (map w_sheet_bound (sc_sheets s))).
