(** What a 64 bit machine makes of an integer, and histories of edits in a build
    without overflow checks. *)
From Coq Require Import String.
From Verif Require Import Base Str Num F64 Bound SchData SchParse SchOps SchSpec SchWrap.
Open Scope Z_scope. Open Scope list_scope.

Definition fits64 (z : Z) : Prop := - 2 ^ 63 <= z < 2 ^ 63.
(** [m] is what is left of [z] in 64 bits. *)
Definition machine (m z : Z) : Prop := fits64 m /\ exists k, z = m + k * 2 ^ 64.

(** The largest number in use, or 0. *)
Definition top (t : Z) (c : component) : Prop :=
  0 <= t /\ (forall f, In f (co_fields c) -> cf_i f <= t) /\ (t = 0 \/ In t (numbers c)).

(** The edits of SchSpec without the checks *)
Definition w_edit (c : component) (e : edit) : component :=
  match e with
  | AddOrUpdate t n v => fst (w_add_or_update_field c t n v)
  | AddNew t n v => w_add_new_field c t n v
  | Update n v => update_field c n v
  | SetReference r => update_reference c r
  | SetName n => update_name c n
  end.
Fixpoint w_edits (c : component) (l : list edit) : component :=
  match l with [] => c | e :: r => w_edits (w_edit c e) r end.
