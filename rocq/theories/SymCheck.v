(** Rule checks on symbols (/repo/src/symbol_lib.rs:855-1117). *)
From Coq Require Import String.
From Verif Require Import Base Str Num F64 F64Text LibFns SchData SchPrint SchParse SymData SymPrint SymOps CheckFix.
Open Scope string_scope. Open Scope list_scope.

Definition when (b : bool) (d : cf_data) : list cf_data := if b then [d] else [].

(** symbol_lib.rs:855-938 *)
Definition sfield_check (s : symbol) (f : sfield) : list cf_data :=
  when (negb (sf_dim f =? 50)%Z) (cf_new 4 8 (print_sfield f) (lit "field text is not 50mil"))
  ++ (if (sf_i f =? 0)%Z then
        if sym_is_graphics s then when (sf_visible f) (cf_new 4 9 (sy_name s) (lit "reference field should be invisible for graphics"))
        else when (negb (sf_visible f) && negb (sym_is_power s)) (cf_new 4 9 (sy_name s) (lit "reference field should be visible for normal symbols"))
      else if (sf_i f =? 1)%Z then
        if sym_is_graphics s then when (sf_visible f) (cf_new 4 9 (sy_name s) (lit "value field should be invisible for graphics"))
        else if sym_is_power s then when (sf_visible f) (cf_new 4 9 (sy_name s) (lit "value field should be invisible for power"))
        else when (negb (sf_visible f)) (cf_new 4 9 (sy_name s) (lit "value field should be visible for normal symbols"))
      else if (sf_i f =? 2)%Z then when (sf_visible f) (cf_new 4 9 (sy_name s) (lit "Footprint field should be invisible"))
      else if (sf_i f =? 3)%Z then when (sf_visible f) (cf_new 4 9 (sy_name s) (lit "Datasheet field should be invisible"))
      else []).

(** [name.to_lowercase().contains("nc")].  Simplification: N and C are taken to be
    the only characters besides n and c whose lower case contains n or c. *)
Fixpoint contains_nc (s : str) : bool :=
  match s with
  | a :: (b :: _) as r => ((N.eqb a 78 || N.eqb a 110) && (N.eqb b 67 || N.eqb b 99)) || contains_nc r
  | _ => false
  end.
Definition is_nc (t : pin_type) : bool := match t with PTNotConnected => true | _ => false end.
(** symbol_lib.rs:940-1039; [%] on i64 is [Z.rem] *)
Definition pin_check (p : pin) : list cf_data :=
  let name := pn_name p ++ lit ":" ++ pn_number p in
  when (negb (Z.rem (pn_x p) 10 =? 0)%Z) (cf_new 4 1 name (lit "pin x not on 100mil grid"))
  ++ when (negb (Z.rem (pn_y p) 10 =? 0)%Z) (cf_new 4 1 name (lit "pin y not on 100mil grid"))
  ++ when (negb (Z.rem (pn_len p) 5 =? 0)%Z) (cf_new 4 1 name (lit "pin length not on 50mil grid"))
  ++ when (pn_len p <? 100)%Z (cf_info 4 1 name (lit "pin length < 100mil"))
  ++ when (300 <? pn_len p)%Z (cf_info 4 1 name (lit "pin length > 300mil"))
  ++ when (contains_nc (pn_name p) && negb (is_nc (pn_type p))) (cf_new 4 7 name (lit "Pin should be of type Not Connected"))
  ++ (if is_nc (pn_type p) then when (pn_visible p) (cf_new 4 7 name (lit "Pin should be invisible"))
      else when (negb (pn_visible p)) (cf_new 4 7 name (lit "Pin should be visible")))
  ++ when (negb (pn_num_size p =? 50)%Z) (cf_new 4 8 name (lit "Pin Number should be 50mil"))
  ++ when (negb (pn_name_size p =? 50)%Z) (cf_new 4 8 name (lit "Pin Name should be 50mil")).
(** symbol_lib.rs:1040-1060 *)
Definition is_filled_bg (f : fill) : bool := match f with FillBg => true | _ => false end.
Definition rect_check (r : rectangle) : list cf_data :=
  when (negb (is_filled_bg (rc_fill r))) (cf_new 4 2 (print_rect r) (lit "Rectangle is not filled"))
  ++ when (negb (rc_thickness r =? 10)%Z) (cf_new 4 2 (print_rect r) (lit "Rectangle is not using a 10mil line")).
(** symbol_lib.rs:1062-1082 *)
Definition draw_check (d : draw) : list cf_data :=
  match d with DPin p => pin_check p | DRect r => rect_check r | DOther _ => [] end.
Definition more (l : list cf_data) : list cf_data := if is_empty l then [] else [flatter (More l)].
(** symbol_lib.rs:1084-1117 *)
Definition symbol_check (s : symbol) : list cf_data :=
  let name := match sy_name s with c :: r => if N.eqb c 126 then r else sy_name s | [] => [] end in
  more (allowed_1_7_items name)
  ++ flat_map (fun f => more (sfield_check s f)) (sy_fields s)
  ++ (if sym_is_power s || sym_is_graphics s then [] else flat_map (fun d => more (draw_check d)) (sy_draw s)).
