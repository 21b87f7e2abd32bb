(** Layer names: Display (/repo/src/footprint/mod.rs:25-54) and
    [Layer::from_string] (/repo/src/footprint/data.rs:934-970). *)
From Coq Require Import String.
From Verif Require Import Base Str FpData.

(** mod.rs:27-39 *)
Definition show_side (s : layer_side) : str :=
  lit match s with
      | SFront => "F." | SBack => "B." | SDwgs => "Dwgs." | SCmts => "Cmts."
      | SEco1 => "Eco1." | SEco2 => "Eco2." | SEdge => "Edge."
      | SIn1 => "In1." | SIn2 => "In2." | SBoth => "*." | SNone => ""
      end.

(** mod.rs:40-52 *)
Definition show_ltype (t : layer_type) : str :=
  match t with
  | LCu => lit "Cu" | LPaste => lit "Paste" | LMask => lit "Mask" | LSilkS => lit "SilkS"
  | LUser => lit "User" | LAdhes => lit "Adhes" | LCuts => lit "Cuts" | LCrtYd => lit "CrtYd"
  | LFab => lit "Fab" | LMargin => lit "Margin" | LOther x => x
  end.

Definition show_layer (l : layer) : str := show_side (la_side l) ++ show_ltype (la_t l).

(** data.rs:938-950 *)
Definition side_of_str (s : str) : option layer_side :=
  if str_eqb s (lit "F") then Some SFront
  else if str_eqb s (lit "B") then Some SBack
  else if str_eqb s (lit "Dwgs") then Some SDwgs
  else if str_eqb s (lit "Cmts") then Some SCmts
  else if str_eqb s (lit "Eco1") then Some SEco1
  else if str_eqb s (lit "Eco2") then Some SEco2
  else if str_eqb s (lit "Edge") then Some SEdge
  else if str_eqb s (lit "In1") then Some SIn1
  else if str_eqb s (lit "In2") then Some SIn2
  else if str_eqb s (lit "*") then Some SBoth
  else None.

(** data.rs:956-968 *)
Definition ltype_of_str (s : str) : layer_type :=
  if str_eqb s (lit "Cu") then LCu
  else if str_eqb s (lit "Paste") then LPaste
  else if str_eqb s (lit "Mask") then LMask
  else if str_eqb s (lit "SilkS") then LSilkS
  else if str_eqb s (lit "User") then LUser
  else if str_eqb s (lit "Adhes") then LAdhes
  else if str_eqb s (lit "Cuts") then LCuts
  else if str_eqb s (lit "CrtYd") then LCrtYd
  else if str_eqb s (lit "Fab") then LFab
  else if str_eqb s (lit "Margin") then LMargin
  else LOther s.

Definition is_dot (c : N) : bool := N.eqb c 46.

(** data.rs:934-970.  [sp[0]] exists because [split] yields at least one piece;
    the model's [None] for an empty split is unreachable. *)
Definition layer_of_str (s : str) : option layer :=
  match split_on is_dot s with
  | [a; b] => match side_of_str a with
              | Some sd => Some (mk_layer sd (ltype_of_str b))
              | None => None
              end
  | a :: _ => Some (mk_layer SNone (ltype_of_str a))
  | [] => None
  end.
