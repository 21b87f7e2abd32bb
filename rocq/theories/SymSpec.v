(** Specifications for symbol libraries (C10, C41, C45). *)
From Coq Require Import String.
From Verif Require Import Base Str F64 LibFns SchData SymData.
Open Scope string_scope. Open Scope list_scope.

(** ** Texts the reader can handle without crashing (C41) *)
(** Not empty; the letter groups of a field line are long enough. *)
Definition sym_line_calm (s : str) : bool :=
  match s with
  | [] => false
  | c :: _ =>
      if N.eqb c 70 then
        match split_quote_aware s with
        | Ok v => Nat.ltb (length v) 9 ||
                  (Nat.leb 1 (length (nth 5 v [])) && Nat.leb 1 (length (nth 7 v [])) && Nat.leb 3 (length (nth 8 v [])))
        | _ => true
        end
      else true
  end.
(** A footprint list has an end. *)
Fixpoint fplists_closed (l : list str) : bool :=
  match l with
  | [] => true
  | s :: r => (negb (str_eqb s (lit "$FPLIST")) || existsb (fun x => str_eqb x (lit "$ENDFPLIST")) r) && fplists_closed r
  end.
(** The last line closes the library. *)
Definition sym_calm (t : str) : bool :=
  let l := lines t in
  str_eqb (last l []) (lit "#End Library") && forallb sym_line_calm l && fplists_closed l.

(** ** The pins of a symbol in order (C45): [sub l m] when l is m without some of
    its elements *)
Inductive picks {A B} (P : A -> B -> Prop) (other : A -> Prop) : list A -> list B -> Prop :=
| picks_nil : picks P other [] []
| picks_take a b l m : P a b -> picks P other l m -> picks P other (a :: l) (b :: m)
| picks_skip a l m : other a -> picks P other l m -> picks P other (a :: l) m.

(** ** A renamed symbol (set_name): the name keeps its tilde, the second field
    holds the name with its other attributes, everything else is as it was. *)
Definition renamed (name : str) (s s' : symbol) : Prop :=
  (sy_name s' = name /\ hd_error (sy_name s) <> Some 126%N \/ sy_name s' = 126%N :: name /\ hd_error (sy_name s) = Some 126%N)
  /\ (exists f g, nth_error (sy_fields s) 1 = Some f /\ nth_error (sy_fields s') 1 = Some g /\ sf_value g = name
      /\ sf_i g = sf_i f /\ sf_x g = sf_x f /\ sf_y g = sf_y f /\ sf_dim g = sf_dim f /\ sf_orient g = sf_orient f /\ sf_visible g = sf_visible f
      /\ sf_hjust g = sf_hjust f /\ sf_vjust g = sf_vjust f /\ sf_italic g = sf_italic f /\ sf_bold g = sf_bold f /\ sf_name g = sf_name f)
  /\ length (sy_fields s') = length (sy_fields s)
  /\ (forall k, k <> 1%nat -> nth_error (sy_fields s') k = nth_error (sy_fields s) k)
  /\ sy_reference s' = sy_reference s /\ sy_text_offset s' = sy_text_offset s /\ sy_pinnumber s' = sy_pinnumber s
  /\ sy_pinname s' = sy_pinname s /\ sy_unit_count s' = sy_unit_count s /\ sy_unit_locked s' = sy_unit_locked s
  /\ sy_is_power s' = sy_is_power s /\ sy_aliases s' = sy_aliases s /\ sy_draw s' = sy_draw s.
