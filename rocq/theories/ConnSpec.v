(** Specification: what is connected on a board (C103). *)
From Verif Require Import Base Str FpData LyData.

(** All places of an element that carry the name of a net, with the number of the net
    where they have one (a net class has none) *)
Definition pad_places (e : element) : list (option Z * str) :=
  match e with
  | EPad p => match pa_net p with Some n => [(Some (fn_num n), fn_name n)] | None => [] end
  | _ => []
  end.
Definition places (e : ly_element) : list (option Z * str) :=
  match e with
  | YNet n => [(Some (ne_num n), ne_name n)]
  | YNetClass c => map (fun n => (None, n)) (nc_nets c)
  | YModule m => flat_map pad_places (m_elements m)
  | YZone z => [(Some (zo_net z), zo_net_name z)]
  | _ => []
  end.
Definition board_places (l : layout) : list (option Z * str) := flat_map places (ly_elements l).
(** The declared nets *)
Definition declares (l : layout) (k : Z) (n : str) : Prop := exists x, In (YNet x) (ly_elements l) /\ ne_num x = k /\ ne_name x = n.

(** A number stands for one name; a name for one number; what is used is declared. *)
Definition one_name (l : layout) : Prop := forall k a b, In (Some k, a) (board_places l) -> In (Some k, b) (board_places l) -> a = b.
Definition one_number (l : layout) : Prop := forall n j k, In (Some j, n) (board_places l) -> In (Some k, n) (board_places l) -> j = k.
Definition all_declared (l : layout) : Prop :=
  (forall k n, In (Some k, n) (board_places l) -> declares l k n) /\ (forall n, In (None, n) (board_places l) -> exists k, declares l k n).
(** Two places are on a net of the same name. *)
Definition named_at (l : layout) (i : nat) (n : str) : Prop := exists k, nth_error (board_places l) i = Some (k, n).
Definition joined (l : layout) (i j : nat) : Prop := exists n, named_at l i n /\ named_at l j n.
Definition in_use (l : layout) (n : str) : Prop := exists k, In (k, n) (board_places l).
