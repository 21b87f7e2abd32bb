(** Specification notions for schematics and components. *)
From Coq Require Import String.
From Verif Require Import Base Str Num F64 LibFns SchData SchParse SchOps.
Open Scope string_scope. Open Scope list_scope.

(** The first field with that name has that value. *)
Definition first_has (name value : str) (l : list cfield) : Prop :=
  exists a f b, l = a ++ f :: b /\ cf_name f = name /\ cf_value f = value /\ Forall (fun g => cf_name g <> name) a.
Definition absent (name : str) (l : list cfield) : Prop := Forall (fun g => cf_name g <> name) l.

(** What identifies a field: its number and name. *)
Definition ident (f : cfield) : Z * str := (cf_i f, cf_name f).
Definition numbers (c : component) : list Z := map cf_i (co_fields c).
(** The component without its fields *)
Definition sans_fields (c : component) : component := set_fields c [].
(** A field without value and visibility. *)
Definition sans_value (f : cfield) : cfield := with_visible (with_value f []) false.

(** Edit operations and histories *)
Inductive edit :=
| AddOrUpdate (t : cfield) (name value : str)
| AddNew (t : cfield) (name value : str)
| Update (name value : str)
| SetReference (r : str)
| SetName (n : str).
Definition apply_edit (c : component) (e : edit) : res component :=
  match e with
  | AddOrUpdate t n v => do r <- add_or_update_field c t n v; Ok (fst r)
  | AddNew t n v => add_new_field c t n v
  | Update n v => Ok (update_field c n v)
  | SetReference r => Ok (update_reference c r)
  | SetName n => Ok (update_name c n)
  end.
Fixpoint apply_edits (c : component) (l : list edit) : res component :=
  match l with [] => Ok c | e :: r => do c' <- apply_edit c e; apply_edits c' r end.

(** Elements that are components with that reference *)
Definition has_ref (r : str) (e : selement) : bool :=
  match e with SComponent c => str_eqb (co_reference c) r | _ => false end.

Definition own (l : list selement) : list component :=
  flat_map (fun e => match e with SComponent c => [c] | _ => [] end) l.
(** The components of a schematic and of its sheets, in order: own ones first,
    then those of each sheet.  Exists only if all sheets can be read and the
    nesting ends. *)
Inductive comps_of (fs : fsys) : schematic -> list component -> Prop :=
| comps_node s l : comps_sheets fs s (sc_sheets s) l -> comps_of fs s (own (sc_elements s) ++ l)
with comps_sheets (fs : fsys) : schematic -> list sheet -> list component -> Prop :=
| comps_nil s : comps_sheets fs s [] []
| comps_cons s h hs s2 l1 l2 : parse_file_for_sheet fs s h = Ok s2 -> comps_of fs s2 l1 -> comps_sheets fs s hs l2 ->
    comps_sheets fs s (h :: hs) (l1 ++ l2).

(** ** Texts the reader can handle without crashing (C41) *)
(** No blank line; the letter groups of component fields are long enough; global
    and hierarchical labels have more than eight words. *)
Definition line_calm (s : str) : bool :=
  match first_word s with
  | None => false
  | Some w =>
      if seq w "F" then
        match split_quote_aware s with
        | Ok v => Nat.ltb (length v) 10 ||
                  (Nat.leb 1 (length (nth 3 v [])) && Nat.leb 1 (length (nth 8 v [])) && Nat.leb 3 (length (nth 9 v [])))
        | _ => true
        end
      else if seq w "Text" then
        let k := nth 1 (split_ws s) [] in
        if seq k "GLabel" || seq k "HLabel" then negb (Nat.eqb (length (split_ws s)) 8) else true
      else true
  end.
(** What must follow a line. *)
Definition block_closed (s : str) (rest : list str) : bool :=
  match first_word s with
  | None => true
  | Some w =>
      if seq w "$Descr" then Nat.leb 11 (length rest)
      else if seq w "$Comp" then existsb (fun l => seq l "$EndComp") rest
      else if seq w "$Sheet" then existsb (fun l => seq l "$EndSheet") rest
      else if seq w "Wire" || seq w "Text" then negb (Nat.eqb (length rest) 0)
      else true
  end.
Fixpoint blocks_closed (l : list str) : bool :=
  match l with [] => true | s :: r => block_closed s r && blocks_closed r end.
Definition calm (t : str) : bool :=
  let l := lines t in
  existsb (fun s => negb (starts_with (lit "LIBS:") s)) (tl l) && forallb line_calm l && blocks_closed l.
