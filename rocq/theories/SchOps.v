(** Operations on schematics and components (/repo/src/schematic.rs). *)
From Coq Require Import String.
From Verif Require Import Base Str Num F64 Bound SchData SchPrint SchParse.
Open Scope string_scope. Open Scope list_scope.

(** i64 arithmetic; overflow panics (debug builds; release builds wrap). *)
Definition chk (z : Z) : res Z := if i64_ok z then Ok z else Panic.

(** ** Components (schematic.rs:460-582) *)

(** 475-482 *)
Fixpoint field_value (name : str) (l : list cfield) : option str :=
  match l with
  | [] => None
  | f :: r => if str_eqb (cf_name f) name then Some (cf_value f) else field_value name r
  end.
Definition get_field_value (c : component) (name : str) : option str := field_value name (co_fields c).
(** 485-492 *)
Fixpoint find_field (name : str) (l : list cfield) : option cfield :=
  match l with
  | [] => None
  | f :: r => if str_eqb (cf_name f) name then Some f else find_field name r
  end.
Definition get_field (c : component) (name : str) : option cfield := find_field name (co_fields c).
(** 495-503 *)
Definition get_available_field_num (c : component) : res Z :=
  chk (fold_left (fun i f => if (i <? cf_i f)%Z then cf_i f else i) (co_fields c) 0%Z + 1)%Z.
(** 506-512: the map as a lookup function (the last insertion of a name counts) *)
Definition fields_hash (c : component) (name : str) : option str :=
  fold_left (fun h f => if str_eqb (cf_name f) name then Some (cf_value f) else h) (co_fields c) None.

Definition with_value (f : cfield) (v : str) : cfield :=
  mk_cfield (cf_i f) v (cf_orient f) (cf_x f) (cf_y f) (cf_size f) (cf_visible f) (cf_hjust f) (cf_vjust f) (cf_italic f) (cf_bold f) (cf_name f).
Definition with_visible (f : cfield) (b : bool) : cfield :=
  mk_cfield (cf_i f) (cf_value f) (cf_orient f) (cf_x f) (cf_y f) (cf_size f) b (cf_hjust f) (cf_vjust f) (cf_italic f) (cf_bold f) (cf_name f).

(** 515-522, 525-532 *)
Definition update_reference (c : component) (r : str) : component :=
  mk_comp (co_name c) r (co_u c) (co_x c) (co_y c) (co_ar c)
    (map (fun f => if Z.eqb (cf_i f) 0 then with_value f r else f) (co_fields c)) (co_rotation c).
Definition update_name (c : component) (n : str) : component :=
  mk_comp n (co_reference c) (co_u c) (co_x c) (co_y c) (co_ar c)
    (map (fun f => if Z.eqb (cf_i f) 1 then with_value f n else f) (co_fields c)) (co_rotation c).
(** 535-545 *)
Definition update_one (name value : str) (f : cfield) : cfield :=
  let f := if str_eqb (cf_name f) name then with_value f value else f in
  if (1 <? cf_i f)%Z then with_visible f false else f.
Definition update_field (c : component) (name value : str) : component :=
  set_fields c (map (update_one name value) (co_fields c)).
(** 764-780 *)
Definition field_new_from (i : Z) (name value : str) (x y : f64) : cfield :=
  mk_cfield i value Horizontal x y 60 false SJCenter SJCenter false false name.
(** 568-582 *)
Definition add_new_field (c : component) (t : cfield) (name value : str) : res component :=
  do i <- get_available_field_num c;
  Ok (set_fields c (co_fields c ++ [with_visible (field_new_from i name value (cf_x t) (cf_y t)) false])).
(** 440-458 *)
Inductive field_update := UNew | UUpdate (old : str) | USame.
Definition field_changed (u : field_update) : bool := match u with UNew | UUpdate _ => true | USame => false end.
(** 548-567 *)
Definition add_or_update_field (c : component) (t : cfield) (name value : str) : res (component * field_update) :=
  match get_field_value c name with
  | Some old => if str_eqb old value then Ok (c, USame) else Ok (update_field c name value, UUpdate old)
  | None => do c' <- add_new_field c t name value; Ok (c', UNew)
  end.

(** ** Schematics (schematic.rs:49-203) *)

Definition with_elements (s : schematic) (l : list selement) : schematic :=
  mk_sch (sc_filename s) (sc_libraries s) (sc_description s) l (sc_sheets s) (sc_eelayer s).
(** 87-103 *)
Fixpoint modify_first (r : str) (f : component -> component) (l : list selement) : list selement :=
  match l with
  | [] => []
  | SComponent c :: t => if str_eqb (co_reference c) r then SComponent (f c) :: t else SComponent c :: modify_first r f t
  | e :: t => e :: modify_first r f t
  end.
Definition modify_component (s : schematic) (r : str) (f : component -> component) : schematic :=
  with_elements s (modify_first r f (sc_elements s)).
(** 106-120 *)
Definition modify_components (s : schematic) (f : component -> component) : schematic :=
  with_elements s (map (fun e => match e with SComponent c => SComponent (f c) | _ => e end) (sc_elements s)).
(** 123-150; [collect_components] appends to its argument *)
Fixpoint comps (l : list selement) : list component :=
  match l with
  | [] => []
  | SComponent c :: t => c :: comps t
  | _ :: t => comps t
  end.
Definition components (s : schematic) : list component := comps (sc_elements s).
Definition collect_components (s : schematic) (v : list component) : list component := v ++ comps (sc_elements s).
(** 200-202 *)
Definition increment_sheet_count (s : schematic) : res schematic :=
  let d := sc_description s in
  do n <- chk (ds_count d + 1)%Z;
  Ok (with_description s (mk_descr (ds_size d) (ds_dimx d) (ds_dimy d) (ds_title d) (ds_date d) (ds_rev d) (ds_comp d)
        (ds_comment1 d) (ds_comment2 d) (ds_comment3 d) (ds_comment4 d) (ds_sheet d) n)).

(** *** Sub-sheets.  The file system at the time of the call: [fs_join p f] is
    [p.parent()?.join(f)] and [fs_read] is [read_file] (util.rs:11-19). *)
Record fsys := mk_fs { fs_join : str -> str -> option str; fs_read : str -> res str }.
(** 1570-1574, 1576-1587 *)
Definition parse_file (fs : fsys) (path : str) : res schematic :=
  do t <- fs_read fs path; parse_schematic (Some path) t.
Definition filename_for_sheet (fs : fsys) (s : schematic) (h : sheet) : res str :=
  do p <- of_option EOther (sc_filename s); of_option EOther (fs_join fs p (sh_filename h)).
(** 1590-1594 *)
Definition parse_file_for_sheet (fs : fsys) (s : schematic) (h : sheet) : res schematic :=
  do f <- filename_for_sheet fs s h; parse_file fs f.
(** 153-171; the recursion follows the files, so it is bounded by [n] *)
Fixpoint all_components (fs : fsys) (n : nat) (s : schematic) : res (list component) :=
  match n with
  | O => Err EFuel
  | S n =>
      (fix go (l : list sheet) (v : list component) : res (list component) :=
         match l with
         | [] => Ok v
         | h :: t => do s2 <- parse_file_for_sheet fs s h; do v2 <- all_components fs n s2; go t (v ++ v2)
         end) (sc_sheets s) (components s)
  end.
(** 174-197 *)
Fixpoint find_comp (r : str) (l : list selement) : option component :=
  match l with
  | [] => None
  | SComponent c :: t => if str_eqb (co_reference c) r then Some c else find_comp r t
  | _ :: t => find_comp r t
  end.
Fixpoint component_by_reference (fs : fsys) (n : nat) (r : str) (s : schematic) : res component :=
  match n with
  | O => Err EFuel
  | S n =>
      match find_comp r (sc_elements s) with
      | Some c => Ok c
      | None =>
          (fix go (l : list sheet) : res component :=
             match l with
             | [] => Err EOther
             | h :: t =>
                 do s2 <- parse_file_for_sheet fs s h;
                 match component_by_reference fs n r s2 with
                 | Ok c => Ok c
                 | Err EFuel => Err EFuel
                 | Err _ => go t
                 | Panic => Panic
                 end
             end) (sc_sheets s)
      end
  end.

(** ** Bounding boxes (schematic.rs:35-47, 361-375, 433-438, 828-837) *)
Definition component_bound (c : component) : bound := bound_new_i64 (co_y c) (co_y c) (co_x c) (co_y c).
Definition selement_bound (e : selement) : bound :=
  match e with SComponent c => component_bound c | _ => bound_default end.
Definition sheet_bound (h : sheet) : res bound :=
  do y1 <- chk (sh_y h - 100)%Z; do x2 <- chk (sh_x h + sh_dimx h)%Z;
  do y2 <- chk (sh_y h + sh_dimy h)%Z; do y3 <- chk (y2 + 100)%Z;
  Ok (bound_new_i64 (sh_x h) y1 x2 y3).
Definition sch_bound (s : schematic) : res bound :=
  let b := bound_all bound_default (map selement_bound (sc_elements s)) in
  do hs <- mapM sheet_bound (sc_sheets s);
  Ok (bound_swap (bound_all b hs)).
